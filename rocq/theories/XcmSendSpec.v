(** Vocabulary for what users rely on when they send assets and messages to other chains. *)
From Verif Require Import Base XcmTypes AssetLocationModel OriginTypes AccountsModel PaymentsSpec XcmConfigModel XcmConfigSpec XcmExecModel XcmExecSpec XcmSendModel.
From stdpp Require Import gmap.
Open Scope N_scope.

(** The path from the root of all consensus systems to this chain, a parachain of Kusama. *)
Definition our_place (para : N) : list junction := [GlobalConsensus Kusama; Parachain para].
(** The path to what a chain at [place] means by [l]. *)
Definition meant (place : list junction) (l : location) : list junction := take (length place - N.to_nat (loc_parents l)) place ++ loc_interior l.
(** [l] does not point above the root. *)
Definition proper (place : list junction) (l : location) : Prop := (N.to_nat (loc_parents l) <= length place)%nat.

(** What a chain at [place] means by a list of assets: the amount of the thing at [path]. *)
Definition amount_at (place : list junction) (l : list (location * N)) (path : list junction) : N :=
  foldr (fun a acc => (if bool_decide (meant place (fst a) = path) then snd a else 0) + acc) 0 l.
(** The amount of one of this chain's tokens in a list of assets. *)
Definition token_amount (l : list (location * N)) (t : option asset_id) : N :=
  foldr (fun a acc => match token_of (fst a) with Val (Some t') => if bool_decide (t' = t) then snd a else 0 | _ => 0 end + acc) 0 l.

(** Assets a message withdraws from the account of the chain it came from, and those it says were put into the receiver's account there. *)
Definition withdrawn (msg : list rinstr) : list (location * N) := concat (map (fun i => match i with RWithdraw l => l | _ => [] end) msg).
Definition declared (msg : list rinstr) : list (location * N) := concat (map (fun i => match i with RReserveDeposited l => l | _ => [] end) msg).
(** An instruction that does nothing with its sender's authority but take or declare assets and pay with them. *)
Definition only_assets (i : rinstr) : Prop :=
  match i with RWithdraw _ | RReserveDeposited _ | RBuy _ _ => True | _ => False end.

(** The calls that transfer, with destination and assets. *)
Definition transfers (c : xcall) : option (location * list (location * N)) :=
  match c with
  | CReserveTransfer dest _ assets _ _ | CTransfer dest _ assets _ _ | CTransferUsing dest assets _ _ _ _ _ => Some (dest, assets)
  | _ => None
  end.
(** Those that leave the way to the runtime. *)
Definition transfers_by_itself (c : xcall) : option (location * list (location * N)) :=
  match c with CReserveTransfer dest _ assets _ _ | CTransfer dest _ assets _ _ => Some (dest, assets) | _ => None end.

(** The account a caller acts for. *)
Definition acts_for (o : origin) (x : N) : Prop := o = OSigned x \/ exists id s, o = OCommunity id s /\ x = community_account id.
(** Callers as they occur: 32 byte accounts, 16 bit community ids. *)
Definition caller_wf (o : origin) : Prop := (forall who, o = OSigned who -> account_wf who) /\ (forall id s, o = OCommunity id s -> id <= u16_max).
(** No remainder of a balance is burnt as dust. *)
Definition dustless (e : xenv) : Prop := forall ch t a, xe_dust e ch t a = false.

(** The effect of a transfer of [assets] to [dest] from the account [x]: the caller's balances fall by what they named, those of the destination's
    account rise by what is kept for it, nothing else changes here. *)
Definition moved (ch ch' : chain) (x : N) (dest : location) (assets kept : list (location * N)) : Prop :=
  (forall t a, bal ch' t a + ind (bool_decide (a = x)) (token_amount assets t) =
    bal ch t a + ind (bool_decide (location_to_account dest = Some a)) (token_amount kept t)) /\
  ch_traps ch' = ch_traps ch /\ ch_calls ch' = ch_calls ch.

(** The chain that holds the reserve of an asset: its own, or the asset hub for assets of Polkadot. *)
Definition holds_reserve (asset chain : location) : Prop :=
  home_chain asset chain \/ (extends (Location 2 [GlobalConsensus Polkadot]) asset /\ chain = Location 1 [Parachain 1000]).
(** An asset of this chain. *)
Definition ours (asset : location) : Prop := loc_parents asset = 0.

(** Messages as they can be encoded: lists of assets have at most 20 entries. *)
Definition filter_encodable (f : xfilter) : Prop := match f with FDefinite l => (length l <= 20)%nat | _ => True end.
Fixpoint instr_encodable (i : xinstr) : Prop :=
  match i with
  | XWithdraw l | XReserveDeposited l | XReceiveTeleported l | XTransfer l _ | XTransferReserve l _ | XClaim l | XBurn l | XOther (ExpectAsset l) => (length l <= 20)%nat
  | XDeposit f _ | XDepositReserve f _ | XInitiateReserveWithdraw f | XInitiateTeleport f | XExchange f => filter_encodable f
  | XSetErrorHandler p | XSetAppendix p => (fix all (p : list xinstr) : Prop := match p with [] => True | j :: r => instr_encodable j /\ all r end) p
  | _ => True
  end.
Definition encodable (p : list xinstr) : Prop := Forall instr_encodable p.

(** What happens to the chain as time goes by: messages from anywhere and calls by anyone. *)
Inductive xcm_step (para : N) : net -> net -> Prop :=
| step_message e w origin p need ch' : encodable p -> receive e para (n_chain w) origin p need = XOk ch' -> xcm_step para w (Net ch' (n_out w))
| step_call e open w o c w' : xcall_run e open para w o c = XOk w' -> xcm_step para w w'.
Definition xcm_later (para : N) : net -> net -> Prop := rtc (xcm_step para).

(** The same with messages that come from other chains only. *)
Inductive outside_step (para : N) : net -> net -> Prop :=
| outside_message e w origin p need ch' : 0 < loc_parents origin -> receive e para (n_chain w) origin p need = XOk ch' -> outside_step para w (Net ch' (n_out w))
| outside_call e open w o c w' : xcall_run e open para w o c = XOk w' -> outside_step para w w'.
Definition outside_later (para : N) : net -> net -> Prop := rtc (outside_step para).
(** No assets lie trapped for places on this chain. *)
Definition none_here (w : net) : Prop := Forall (fun tr => 0 < loc_parents (fst tr)) (ch_traps (n_chain w)).

(** The message that recovers trapped assets, paid for with what the sender has here. *)
Definition claim_message (k : location) (n : N) (limit : option weight) (l : list (location * N)) (dest : location) : list xinstr :=
  [XWithdraw [(k, n)]; XBuy (k, n) limit; XClaim l; XDeposit (FAllCounted (S (length l))) dest].

(** The calls that name who receives, with destination and beneficiary. *)
Definition beneficiary_of (c : xcall) : option (location * location) :=
  match c with CReserveTransfer dest b _ _ _ | CTransfer dest b _ _ _ => Some (dest, b) | _ => None end.
(** Instructions that leave everything in the hands of what follows. *)
Definition keeps_going (i : rinstr) : Prop := only_assets i \/ i = RClearOrigin.
(** A message to [target] ends with the deposit of up to [n] assets, all there are, for [b] at [dest], there or passed on from there. *)
Definition delivers (para : N) (target : location) (msg : list rinstr) (n : nat) (dest b : location) : Prop :=
  (target = dest /\ exists pre, msg = pre ++ [RDeposit n b] /\ Forall keeps_going pre) \/
  (exists pre next fee limit, msg = pre ++ [RDepositReserve n next [RBuy fee limit; RDeposit n b]] /\ Forall keeps_going pre /\
     (proper (our_place para) dest -> meant (meant (our_place para) target) next = meant (our_place para) dest)).

(** Vocabulary for what users rely on when messages from other chains are executed. *)
From Verif Require Import Base XcmTypes AssetLocationModel OriginTypes AccountsModel PaymentsSpec XcmConfigModel XcmConfigSpec XcmCountable XcmExecModel.
From Verif Require Export XcmTraderSpec.
From stdpp Require Import gmap.
Open Scope N_scope.

(** An account that stands for [origin] or for something inside it. *)
Definition account_of_or_under (origin : location) (a : N) : Prop := exists o, extends origin o /\ location_to_account o = Some a.

(** All units of a token that accounts own, that lie trapped, that exist. [k] is the token's location. *)
Definition in_accounts (ch : chain) (t : option asset_id) : N := gsum (fun key v => ind (bool_decide (fst key = t)) v) (ch_bal ch).
Definition in_traps (l : list (location * gmap location N)) (k : location) : N := foldr (fun tr acc => default 0 (snd tr !! k) + acc) 0 l.
Definition in_existence (ch : chain) (t : option asset_id) (k : location) : N := in_accounts ch t + in_traps (ch_traps ch) k.

(** How often an entry occurs among the trapped assets. *)
Definition times_trapped (tr : location * gmap location N) (ch : chain) : nat := length (filter (fun x => x = tr) (ch_traps ch)).

(** Every asset a program names, in nested programs too. *)
Fixpoint instr_assets (i : xinstr) : list location :=
  match i with
  | XWithdraw l | XReserveDeposited l | XReceiveTeleported l | XTransfer l _ | XTransferReserve l _ | XClaim l | XBurn l => map fst l
  | XDeposit (FDefinite l) _ | XDepositReserve (FDefinite l) _ | XInitiateReserveWithdraw (FDefinite l) | XInitiateTeleport (FDefinite l)
  | XExchange (FDefinite l) => map fst l
  | XDeposit (FAllOf k _) _ | XDepositReserve (FAllOf k _) _ | XInitiateReserveWithdraw (FAllOf k _) | XInitiateTeleport (FAllOf k _)
  | XExchange (FAllOf k _) => [k]
  | XDeposit (FAllOfCounted k _ _) _ | XDepositReserve (FAllOfCounted k _ _) _ | XInitiateReserveWithdraw (FAllOfCounted k _ _)
  | XInitiateTeleport (FAllOfCounted k _ _) | XExchange (FAllOfCounted k _ _) => [k]
  | XBuy fee _ => [fst fee]
  | XSetErrorHandler p | XSetAppendix p => concat (map instr_assets p)
  | _ => []
  end.
Definition prog_assets (p : list xinstr) : list location := concat (map instr_assets p).

(** What weight [w] costs in the asset at [k]. *)
Definition costs (e : xenv) (w : weight) (k : location) (price : N) : Prop := price_in (xe_base e) (xe_asset e) w k price.
(** Nothing odd happens: accounts can send and receive. *)
Record calm (e : xenv) : Prop := Calm {
  cl_withdraw : forall ch t a n, xe_withdraw_ok e ch t a n = true;
  cl_dust : forall ch t a, xe_dust e ch t a = false;
  cl_deposit : forall ch t a n, xe_deposit_ok e ch t a n = true
}.
(** What the chain looks like when [n] units of [t] came for [x], [price] of which went to the treasury. *)
Definition arrived (ch : chain) (t : option asset_id) (x n price : N) : chain :=
  set_bal (set_bal ch t x (bal ch t x + (n - price))) t treasury_account (bal ch t treasury_account + price).

(** The messages other chains send to move assets here. *)
Definition reserve_message (k : location) (n : N) (limit : option weight) (dest : location) : list xinstr :=
  [XReserveDeposited [(k, n)]; XClearOrigin; XBuy (k, n) limit; XDeposit (FAllCounted 1) dest].
Definition withdraw_message (k : location) (n : N) (limit : option weight) (dest : location) : list xinstr :=
  [XWithdraw [(k, n)]; XClearOrigin; XBuy (k, n) limit; XDeposit (FAllCounted 1) dest].

(** An environment as above, in which assets have minimum balance [min] and calls need no weight. *)
Definition calm_env (min : N) : xenv :=
  XEnv (fun _ _ _ _ => true) (fun _ _ _ => false) (fun _ _ _ _ => true) 108157000 (fun _ => Some (true, min)) (fun _ => []) (fun _ => true) 0 (fun _ _ => false)
    (fun _ _ => true) (fun _ => (0, 0)) (fun _ _ => (0, 0)) (fun _ _ => true).
(** Assets execution can be paid with: the relay chain's token, assets of the asset hub, assets of Polkadot. *)
Definition accepted_for_fees (l : location) : Prop :=
  l = Location 1 [] \/ extends (Location 1 [Parachain 1000]) l \/ extends (Location 2 [GlobalConsensus Polkadot]) l.
Definition usdt : location := Location 1 [Parachain 1000; PalletInstance 50; GeneralIndex 1984].
Definition usdt_id : asset_id := Sibling (Para 1000 50 1984).

(** The number of instructions of a program, those of nested programs included. *)
Fixpoint instr_count (i : xinstr) : nat :=
  match i with
  | XSetErrorHandler p | XSetAppendix p => S (list_sum (map instr_count p))
  | _ => 1
  end%nat.
Definition instructions (p : list xinstr) : nat := list_sum (map instr_count p).

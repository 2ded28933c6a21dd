(** Vocabulary for what the weight of a message promises. *)
From Verif Require Import Base XcmTypes AssetLocationModel OriginTypes AccountsModel XcmConfigModel XcmCountable XcmExecModel XcmExecSpec XcmWeightsModel.
From stdpp Require Import gmap.
Open Scope N_scope.

(** An instruction and those in the programs it contains; all instructions of a program. *)
Fixpoint with_inner (i : xinstr) : list xinstr :=
  i :: match i with XSetErrorHandler p | XSetAppendix p => concat (map with_inner p) | _ => [] end.
Definition all_instrs (p : list xinstr) : list xinstr := concat (map with_inner p).

(** What [Transact] sets aside for the call. *)
Definition set_aside (i : xinstr) : weight := match i with XTransact _ most _ => most | _ => (0, 0) end.
Definition total_of (f : xinstr -> N) (p : list xinstr) : N := foldr (fun i acc => f i + acc) 0 (all_instrs p).
Definition total_time (p : list xinstr) : N := total_of (fun i => fst (instr_weight i) + fst (set_aside i)) p.
Definition total_proof (p : list xinstr) : N := total_of (fun i => snd (instr_weight i) + snd (set_aside i)) p.

(** The benchmarked cost of handling one asset, for the instructions that move assets between accounts, holding and other chains. *)
Definition cost_per_asset (i : xinstr) : option weight :=
  match i with
  | XWithdraw _ => Some w_withdraw_asset
  | XTransfer _ _ => Some w_transfer_asset
  | XTransferReserve _ _ => Some w_transfer_reserve_asset
  | XDeposit _ _ => Some w_deposit_asset
  | XDepositReserve _ _ => Some w_deposit_reserve_asset
  | XInitiateReserveWithdraw _ => Some w_initiate_reserve_withdraw
  | XInitiateTeleport _ => Some w_initiate_teleport
  | XBurn _ => Some w_burn_asset
  | _ => None
  end.
(** The assets such an instruction names or finds in holding [h]. *)
Definition assets_named (i : xinstr) : list (location * N) :=
  match i with
  | XWithdraw l | XTransfer l _ | XTransferReserve l _ | XBurn l => l
  | XDeposit (FDefinite l) _ | XDepositReserve (FDefinite l) _ | XInitiateReserveWithdraw (FDefinite l) | XInitiateTeleport (FDefinite l) => l
  | _ => []
  end.
Definition assets_handled (i : xinstr) (h : gmap location N) : nat :=
  match i with
  | XWithdraw l | XTransfer l _ | XTransferReserve l _ | XBurn l => length l
  | XDeposit f _ | XDepositReserve f _ | XInitiateReserveWithdraw f | XInitiateTeleport f => length (requested f h)
  | _ => 0
  end.
Definition deposits (i : xinstr) : bool := match i with XDeposit _ _ => true | _ => false end.
(** What is charged covers what handling the assets costs. *)
Definition covers (i : xinstr) (h : gmap location N) : Prop :=
  forall c, cost_per_asset i = Some c ->
  fst c * N.of_nat (assets_handled i h) <= fst (instr_weight i) /\ snd c * N.of_nat (assets_handled i h) <= snd (instr_weight i).

(** A message from [origin] is executed and comes to instruction [i] with machine [m]. *)
Definition comes_to (e : xenv) (para : N) (ch : chain) (origin : location) (p : list xinstr) (i : xinstr) (m : machine) : Prop :=
  exists need p' n rest, weigh p = Some need /\ let_through para origin p need (0, 0) = Some p' /\ xsteps e n (start ch origin p') = XOk m /\ m_prog m = i :: rest.

(** Instructions this chain does not offer. *)
Definition not_offered (i : xinstr) : bool :=
  match i with
  | XUniversalOrigin _ | XAliasOrigin _ | XExchange _ | XUnsupported _ => true
  | XOther HrmpNewChannelOpenRequest | XOther HrmpChannelAccepted | XOther HrmpChannelClosing => true
  | _ => false
  end.

(** Instructions that are about no asset at all, although they take some. *)
Definition no_filter (f : xfilter) : bool :=
  match f with FDefinite [] | FAllCounted O | FAllOfCounted _ _ O => true | _ => false end.
Definition about_nothing (i : xinstr) : bool :=
  match i with
  | XWithdraw [] | XReceiveTeleported [] | XTransfer [] _ | XTransferReserve [] _ | XBurn [] | XOther (ExpectAsset []) => true
  | XDeposit f _ | XDepositReserve f _ | XInitiateReserveWithdraw f | XInitiateTeleport f => no_filter f
  | _ => false
  end.

(** Instructions that send messages; those that dispatch calls. *)
Definition sends (i : xinstr) : bool :=
  match i with
  | XTransferReserve _ _ | XDepositReserve _ _ | XInitiateReserveWithdraw _ | XInitiateTeleport _ | XSend _ | XOther SubscribeVersion => true
  | _ => false
  end.
Definition transacts (i : xinstr) : bool := match i with XTransact _ _ _ => true | _ => false end.
Definition how_many (f : xinstr -> bool) (p : list xinstr) : nat := length (List.filter f (all_instrs p)).

(** The weight of calls dispatched, by what each declares. *)
Definition calls_time (e : xenv) (l : list (remote_origin * N)) : N := foldr (fun c acc => fst (xe_call_weight e (snd c)) + acc) 0 l.
Definition calls_proof (e : xenv) (l : list (remote_origin * N)) : N := foldr (fun c acc => snd (xe_call_weight e (snd c)) + acc) 0 l.

(** Assets of the asset hub by number. *)
Definition hub_assets (from n : nat) : list (location * N) :=
  map (fun i => (Location 1 [Parachain 1000; PalletInstance 50; GeneralIndex (N.of_nat i)], 1000)) (seq from n).

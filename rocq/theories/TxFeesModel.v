(** What a signed transaction pays: pallet_transaction_payment, pallet_asset_tx_payment and the gas tanks (dependencies, stable2409) as
    configured by runtime/kreivo/src/lib.rs:128-141, runtime/kreivo/src/configuration/monetary_stuff.rs:33-49,101-109,140-146 and
    runtime/common/src/impls.rs:41-57. *)
From stdpp Require Import gmap.
From Verif Require Import Base XcmTypes AssetLocationModel OriginTypes AccountsModel CommunitiesModel XcmConfigModel XcmInstrModel XcmWeightsModel RuntimeModel
  XcmTraderModel CostModel.
Open Scope N_scope.

(* ------------------------------------------------------------------ *)
(** * The fee *)

(** runtime/kreivo/src/configuration/monetary_stuff.rs:36-39 [TransactionByteFee] *)
Definition byte_fee : N := 10 * MILLICENTS.
(** runtime/kreivo/src/lib.rs:110-113 [MAXIMUM_BLOCK_WEIGHT]; MAX_POV_SIZE is 5 MiB (dependency). *)
Definition max_block : weight := (2000000000000, 5242880).
(** runtime/kreivo/src/weights/extrinsic_weights.rs:24-28 [ExtrinsicBaseWeight], the base of every class
    (runtime/kreivo/src/configuration/system_support.rs:23-25) *)
Definition base_extrinsic : weight := (125000000, 0).
(** runtime/kreivo/src/constants.rs:38,82: the weight fees are scaled by is frame_support's [ExtrinsicBaseWeight] (dependency). *)
Definition scale_weight : N := 108157000.

(** [Pallet::weight_to_fee], [length_to_fee] of pallet_transaction_payment (dependency) *)
Definition capped_fee (w : weight) : N := weight_to_fee scale_weight (weight_min w max_block).
Definition length_fee (len : N) : N := sat128 (len * byte_fee).

(** [compute_fee_raw] and [FeeDetails::final_fee] (dependency); [mult] is [NextFeeMultiplier], which changes only between blocks. *)
Definition tx_fee (mult len : N) (w : weight) (free : bool) (tip : N) : N :=
  let inclusion := if free then 0 else sat128 (sat128 (capped_fee base_extrinsic + length_fee len) + fixed_mul mult (capped_fee w)) in
  sat128 (inclusion + tip).

(* ------------------------------------------------------------------ *)
(** * Money *)

(** Free balances: [None] is the native token. *)
Definition fledger : Type := option asset_id -> N -> N.
Definition upd (l : fledger) (k : option asset_id) (who n : N) : fledger :=
  fun k' who' => if decide (k' = k /\ who' = who) then n else l k' who'.

(** What else is known when a transaction is applied: the fee multiplier; of each asset whether it is sufficient and its minimum balance, before
    and after the call; how much of a balance must stay (locks and freezes); native tokens on reserve or hold; whether an account's balance in an
    asset may be used and added to (frozen and blocked accounts); the author of the block; whether the call is feeless; whether the gas tanks of the
    payer's memberships hold enough for a weight. *)
Record fenv := FEnv {
  fe_mult : N;
  fe_info : asset_id -> option (bool * N);
  fe_info_after : asset_id -> option (bool * N);
  fe_stays : option asset_id -> N -> N;
  fe_reserved : N -> N;
  fe_usable : asset_id -> N -> bool;
  fe_takes : asset_id -> N -> bool;
  fe_author : option N;
  fe_feeless : bool;
  fe_gas : N -> weight -> bool
}.

(** A transaction: who pays (the signer, or the account a session key acts for), in what, the tip, its length, and what its call declares. *)
Record tx := Tx { tx_payer : N; tx_asset : option asset_id; tx_tip : N; tx_len : N; tx_info : call_info }.

(** [FungibleAdapter::withdraw_fee] (dependency): exactly the fee, leaving what must stay and the minimum balance. *)
Definition withdraw_native (e : fenv) (l : fledger) (who fee : N) : option fledger :=
  if fee + N.max (fe_stays e None who) EXISTENTIAL_DEPOSIT <=? l None who then Some (upd l None who (l None who - fee)) else None.
(** pallet_balances [increase_balance] (dependency), to best effort: a balance that would be below the minimum is not created. *)
Definition deposit_native (l : fledger) (who n : N) : fledger * N :=
  let new := sat128 (l None who + n) in
  if new <? EXISTENTIAL_DEPOSIT then (l, 0) else (upd l None who new, new - l None who).
(** [FungibleAdapter::correct_and_deposit_fee] (dependency): the refund goes to the payer if it has anything, the rest to the treasury; what the treasury
    cannot take is burnt ([ResolveTo]). *)
Definition settle_native (e : fenv) (l : fledger) (who paid due : N) : fledger :=
  let back := paid - due in
  let '(l1, given) :=
    if 0 <? l None who + fe_reserved e who then (if back =? 0 then (l, 0) else deposit_native l who back) else (l, 0) in
  let rest := paid - given in
  if rest =? 0 then l1
  else if (EXISTENTIAL_DEPOSIT <=? l1 None treasury_account + rest) && (l1 None treasury_account + rest <=? u128_max)
  then upd l1 None treasury_account (l1 None treasury_account + rest) else l1.

(** [FungiblesAdapter]: the fee in the asset, at least one unit unless there is none (dependency). *)
Definition fee_in_asset (info : asset_id -> option (bool * N)) (id : asset_id) (fee : N) : option N :=
  (fun c => N.max c (if fee =? 0 then 0 else 1)) <$> to_asset_balance info fee id.
(** [withdraw_fee] (dependency): only if the rest is what must stay and at least the minimum balance. *)
Definition withdraw_asset (e : fenv) (l : fledger) (who : N) (id : asset_id) (fee : N) : option (fledger * N) :=
  match fee_in_asset (fe_info e) id fee with
  | Some c =>
      if fe_usable e id who && (c + N.max (fe_stays e (Some id) who) (min_balance (fe_info e) id) <=? l (Some id) who)
      then Some (upd l (Some id) who (l (Some id) who - c), c) else None
  | None => None
  end.
(** [Balanced::resolve] of pallet_assets (dependency): all of it or nothing, in which case it is burnt. *)
Definition resolve_asset (e : fenv) (l : fledger) (id : asset_id) (who n : N) : fledger :=
  if n =? 0 then l
  else if fe_takes e id who && (min_balance (fe_info_after e) id <=? l (Some id) who + n) && (l (Some id) who + n <=? u128_max)
  then upd l (Some id) who (l (Some id) who + n) else l.
(** [correct_and_deposit_fee] (dependency) with runtime/common/src/impls.rs:41-57 [AssetsToBlockAuthor]: the final fee is at most what was paid. *)
Definition settle_asset (e : fenv) (l : fledger) (who : N) (id : asset_id) (paid due : N) : option fledger :=
  match fee_in_asset (fe_info_after e) id due with
  | Some c =>
      let final := N.min paid c in
      let l1 := resolve_asset e l id who (paid - final) in
      Some (match fe_author e with Some a => resolve_asset e l1 id a final | None => l1 end)
  | None => None
  end.

(* ------------------------------------------------------------------ *)
(** * Applying a transaction *)

(** The call: an error leaves the balances as they were (FRAME's transactional dispatch). *)
Definition run_call (call : fledger -> fledger * call_result) (l : fledger) : fledger * call_result :=
  match call l with
  | (l', RanOk p) => (l', RanOk p)
  | (_, RanErr p) => (l, RanErr p)
  end.

(** runtime/kreivo/src/lib.rs:128-141: [SkipCheckIfFeeless], [ChargeTxToPassAccount], [ChargeGasTxPayment], [ChargeAssetTxPayment] (dependencies), the
    checks of the other extensions taken as passed. Nothing is returned for a transaction that is not included. *)
Definition apply_tx (e : fenv) (l : fledger) (t : tx) (call : fledger -> fledger * call_result) : option (fledger * call_result) :=
  let i := tx_info t in
  if fe_feeless e || fe_gas e (tx_payer t) (ci_weight i) then Some (run_call call l)
  else
    let fee := tx_fee (fe_mult e) (tx_len t) (ci_weight i) (ci_free i) (tx_tip t) in
    let due r := tx_fee (fe_mult e) (tx_len t) (charged_weight i r) (charged_free i r) (tx_tip t) in
    if fee =? 0 then Some (run_call call l)
    else match tx_asset t with
    | None =>
        match withdraw_native e l (tx_payer t) fee with
        | Some l1 => let '(l2, r) := run_call call l1 in Some (settle_native e l2 (tx_payer t) fee (due r), r)
        | None => None
        end
    | Some id =>
        match withdraw_asset e l (tx_payer t) id fee with
        | Some (l1, paid) =>
            let '(l2, r) := run_call call l1 in
            match settle_asset e l2 (tx_payer t) id paid (due r) with Some l3 => Some (l3, r) | None => None end
        | None => None
        end
    end.

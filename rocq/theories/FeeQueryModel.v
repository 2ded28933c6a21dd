(** What wallets are told about fees: runtime/kreivo/src/apis.rs:140-182 [TransactionPaymentApi], [TransactionPaymentCallApi], which pass on what
    pallet_transaction_payment (dependency) says. *)
From Verif Require Import Base XcmTypes CommunitiesModel XcmConfigModel XcmInstrModel XcmWeightsModel RuntimeModel XcmTraderModel CostModel TxFeesModel.
Open Scope N_scope.

(** runtime/kreivo/src/apis.rs:141-146 [query_info] (dependency): the fee without a tip, none for what is not signed. [mult] is [NextFeeMultiplier] of the block
    at which it is asked. *)
Definition query_info (mult : N) (signed : bool) (len : N) (i : call_info) : weight * N :=
  (ci_weight i, if signed then tx_fee mult len (ci_weight i) (ci_free i) 0 else 0).
(** runtime/kreivo/src/apis.rs:164-169 [query_call_info] (dependency) *)
Definition query_call_info (mult len : N) (i : call_info) : weight * N := (ci_weight i, tx_fee mult len (ci_weight i) (ci_free i) 0).
(** runtime/kreivo/src/apis.rs:147-152 [query_fee_details] (dependency): base fee, length fee and adjusted fee for weight; none for free calls and what is not signed. *)
Definition query_fee_details (mult : N) (signed : bool) (len : N) (i : call_info) : option (N * N * N) :=
  if signed && negb (ci_free i) then Some (capped_fee base_extrinsic, length_fee len, fixed_mul mult (capped_fee (ci_weight i))) else None.
(** runtime/kreivo/src/apis.rs:170-175 [query_call_fee_details] (dependency) *)
Definition query_call_fee_details (mult len : N) (i : call_info) : option (N * N * N) := query_fee_details mult true len i.
(** runtime/kreivo/src/apis.rs:153-158,176-181 [query_weight_to_fee], [query_length_to_fee] (dependency): without the multiplier. *)
Definition query_weight_to_fee (w : weight) : N := capped_fee w.
Definition query_length_to_fee (len : N) : N := length_fee len.

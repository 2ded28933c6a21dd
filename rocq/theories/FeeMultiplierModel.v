(** How the fee multiplier moves from block to block. *)
From Coq Require Import NArith List Bool.
From Verif Require Import BlocksModel.
Import ListNotations.
Open Scope N_scope.

(** [FixedU128] (dependency sp_arithmetic): multiples of 10^-18 that saturate at the largest 128-bit number; products and quotients are rounded down. *)
Definition one : N := 10 ^ 18.
Definition max_fixed : N := 2 ^ 128 - 1.
Definition fx_sat (x : N) : N := N.min x max_fixed.
Definition fx_mul (a b : N) : N := fx_sat (a * b / one).
Definition fx_div (a b : N) : N := fx_sat (a * one / b).
Definition fx_rational (n d : N) : N := fx_sat (n * one / d).

(** [SlowAdjustingFeeUpdate] (dependency polkadot_runtime_common, chosen in runtime/kreivo/src/configuration/monetary_stuff.rs:43): adjustment variable
    75 millionths, multiplier at least a tenth and at most the largest there is. *)
Definition adjustment : N := fx_rational 75 1000000.
Definition min_multiplier : N := fx_rational 1 10.
Definition max_multiplier : N := max_fixed.

(** [TargetBlockFullness], a quarter. [Perquintill] rounds to the nearest; both dimensions of the limit of normal transactions are divisible by four. *)
Definition target_of (limit : N) : N := limit * 25 / 100.

(** [Perbill::from_rational] (dependency). *)
Definition perbill (a b : N) : N := N.min a (N.max b 1) * 10 ^ 9 / N.max b 1.

(** [TargetedFeeAdjustment::convert] (dependency pallet_transaction_payment), called at the end of each block with what the block [b] has consumed;
    the limits are those of runtime/kreivo/src/configuration/system_support.rs:21-38. *)
Definition next_multiplier (previous : N) (b : block) : N :=
  let previous := N.max previous min_multiplier in
  let limit := normal_share in
  let used := wmin (of_class b Normal) limit in
  let by_proof := perbill (w_time used) (w_time limit) <? perbill (w_proof used) (w_proof limit) in
  let used := if by_proof then w_proof used else w_time used in
  let limit := if by_proof then w_proof limit else w_time limit in
  let target := target_of limit in
  let positive := target <=? used in
  let difference := N.max used target - N.min used target in
  let diff := fx_rational difference (N.max limit 1) in
  let diff_squared := fx_mul diff diff in
  let v_squared_2 := fx_div (fx_mul adjustment adjustment) (2 * one) in
  let first_term := fx_mul adjustment diff in
  let second_term := fx_mul v_squared_2 diff_squared in
  if positive
  then N.min (N.max (fx_sat (previous + fx_mul (fx_sat (first_term + second_term)) previous)) min_multiplier) max_multiplier
  else N.min (N.max (previous - fx_mul (first_term - second_term) previous) min_multiplier) max_multiplier.

(** The multiplier after the blocks [l]. *)
Definition multiplier_after (m : N) (l : list block) : N := fold_left next_multiplier l m.

(** [NextFeeMultiplier] at genesis (dependency). *)
Definition genesis_multiplier : N := one.

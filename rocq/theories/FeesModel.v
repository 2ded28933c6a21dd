(** Model of the fee summary, pallets/payments/src/types.rs:102-148. *)
From Verif Require Import Base.

(** [Fee<T>]: (recipient account, amount, charged on disputes) *)
Record fee := Fee { fee_to : N; fee_amount : N; fee_mandatory : bool }.
Global Instance fee_eq_dec : EqDecision fee. Proof. solve_decision. Defined.

(** pallets/payments/src/types.rs:105-108 [struct Fees] *)
Record fees := Fees { sender_pays : list fee; beneficiary_pays : list fee }.
Global Instance fees_eq_dec : EqDecision fees. Proof. solve_decision. Defined.

(** pallets/payments/src/types.rs:160-164 [enum Role] *)
Inductive role := RSender | RBeneficiary.
Global Instance role_eq_dec : EqDecision role. Proof. solve_decision. Defined.

(** pallets/payments/src/types.rs:135-139: [entry(account).or_insert_with(..)] followed by
    [saturating_add], on a BTreeMap kept as a list sorted by account (its [into_values] order). *)
Fixpoint bt_add (m : list fee) (f : fee) : list fee :=
  match m with
  | [] => [Fee (fee_to f) (sat128 (0 + fee_amount f)) (fee_mandatory f)]
  | g :: m' =>
      if fee_to f =? fee_to g then Fee (fee_to g) (sat128 (fee_amount g + fee_amount f)) (fee_mandatory g) :: m'
      else if fee_to f <? fee_to g then Fee (fee_to f) (sat128 (0 + fee_amount f)) (fee_mandatory f) :: g :: m'
      else g :: bt_add m' f
  end.

(** pallets/payments/src/types.rs:119-147 [Fees::get_summary]: one loop iteration. *)
Definition summary_step (is_dispute : bool) (acc : list fee * N * N) (f : fee) : list fee * N * N :=
  let '(per_account, to_discount, to_return) := acc in
  let '(to_discount', to_return') :=
    if is_dispute then
      if fee_mandatory f then (sat128 (to_discount + fee_amount f), to_return)
      else (to_discount, sat128 (to_return + fee_amount f))
    else (sat128 (to_discount + fee_amount f), to_return) in
  (bt_add per_account f, to_discount', to_return').

(** pallets/payments/src/types.rs:119-147 [Fees::get_summary]: (fees per account, total to discount, total to return). *)
Definition get_summary (l : list fee) (is_dispute : bool) : list fee * N * N :=
  fold_left (summary_step is_dispute) l ([], 0, 0).

(** pallets/payments/src/types.rs:111-117 [Fees::summary_for] *)
Definition summary_for (f : fees) (r : role) (is_dispute : bool) : list fee * N * N :=
  get_summary (match r with RSender => sender_pays f | RBeneficiary => beneficiary_pays f end) is_dispute.

(** sp_arithmetic [Percent::mul_floor] on u128 (exact floor; [p] is at most 100). *)
Definition percent_mul_floor (p x : N) : N := x * p / 100.

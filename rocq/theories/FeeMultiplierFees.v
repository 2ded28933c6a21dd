(** What the floor of the multiplier means for the fee of a transaction. *)
From stdpp Require Import gmap.
From Verif Require Import Base CostModel XcmInstrModel RuntimeModel XcmTraderModel TxFeesModel.
Open Scope N_scope.

Lemma fee_floor m len w tip : 10 ^ 18 <= 10 * m ->
  N.min (capped_fee base_extrinsic + length_fee len + capped_fee w / 10) (2 ^ 128 - 1) <= tx_fee m len w false tip.
Proof.
  intros Hm. unfold tx_fee, fixed_mul, sat128. change (10 ^ 18) with 1000000000000000000 in *. change (2 ^ 128 - 1) with 340282366920938463463374607431768211455.
  assert (H : capped_fee w / 10 <= m * capped_fee w / 1000000000000000000).
  { apply N.div_le_lower_bound; [discriminate|]. pose proof (N.mul_div_le (capped_fee w) 10 ltac:(discriminate)) as D. revert D.
    generalize (capped_fee w / 10), (capped_fee w). intros q x D.
    assert (1000000000000000000 * x <= 10 * m * x) by (apply N.mul_le_mono_r; exact Hm). lia. }
  change u128_max with 340282366920938463463374607431768211455. revert H. generalize (capped_fee w / 10), (m * capped_fee w / 1000000000000000000), (capped_fee base_extrinsic), (length_fee len). intros a b c d H. lia.
Qed.

(** Proofs about what wallets are told about fees. *)
From Coq Require Import NArith List Bool Lia.
From Verif Require Import BlocksModel FeeMultiplierModel FeeMultiplierSpec FeeMultiplierProofs
  Base XcmTypes CommunitiesModel XcmConfigModel XcmInstrModel XcmWeightsModel RuntimeModel XcmTraderModel CostModel TxFeesModel TxFeesSpec TxFeesProofs FeeQueryModel.
Open Scope N_scope.

(** The fee told for a transaction as it is signed. *)
Definition told (mult : N) (t : tx) : N := snd (query_info mult true (tx_len t) (tx_info t)).

Lemma sat_sat a b : sat128 (sat128 (sat128 a + 0) + b) = sat128 (sat128 a + b).
Proof. unfold sat128. rewrite N.add_0_r. f_equal. lia. Qed.

(** With its tip it is what the transaction has to have, ... *)
Lemma told_announced e t : announced e t = N.min (told (fe_mult e) t + tx_tip t) (2 ^ 128 - 1).
Proof.
  unfold announced, told, query_info, tx_fee. cbn [snd]. change (2 ^ 128 - 1) with u128_max. destruct (ci_free _); cbn [negb]; unfold sat128; lia.
Qed.

Lemma told_scaled p q m m' len w free tip : 0 < p -> p <= q -> p * m' <= q * m ->
  p * tx_fee m' len w free tip <= q * (tx_fee m len w free 0 + tip + 1).
Proof.
  intros Hp Hq Hm. unfold tx_fee. destruct free.
  - unfold sat128. change (N.min (0 + 0) u128_max) with 0. rewrite N.add_0_l. assert (N.min tip u128_max <= tip) by lia. nia.
  - set (a := sat128 (capped_fee base_extrinsic + length_fee len)). set (x := capped_fee w). unfold fixed_mul.
    assert (H : p * (m' * x / 1000000000000000000) <= q * (m * x / 1000000000000000000 + 1)).
    { pose proof (div_spec (m' * x) 1000000000000000000 ltac:(discriminate)) as [D1 _]. pose proof (div_spec (m * x) 1000000000000000000 ltac:(discriminate)) as [_ D2].
      revert D1 D2. generalize (m' * x / 1000000000000000000), (m * x / 1000000000000000000). intros u v D1 D2.
      assert (p * m' * x <= q * m * x) by nia. nia. }
    revert H. generalize (m' * x / 1000000000000000000), (m * x / 1000000000000000000). intros u v H. unfold sat128. rewrite N.add_0_r.
    assert (Hu : u128_max = 340282366920938463463374607431768211455) by reflexivity. generalize dependent u128_max. intros U _.
    set (fm := N.min (N.min (a + N.min v U) U) U). 
    assert (C : v <= U /\ a + v <= U \/ fm = U) by (unfold fm; lia).
    destruct C as [[C1 C2]|C].
    + assert (fm = a + v) as -> by (unfold fm; lia). assert (N.min (N.min (a + N.min u U) U + tip) U <= a + u + tip) by lia. nia.
    + rewrite C. assert (N.min (N.min (a + N.min u U) U + tip) U <= U) by lia. nia.
Qed.

(** ... and in later blocks not much more. *)
Lemma told_later m l len i tip : 10 ^ 18 <= 10 * m -> m <= 2 ^ 128 - 1 ->
  1000000 ^ N.of_nat (length l) * tx_fee (multiplier_after m l) len (ci_weight i) (ci_free i) tip <=
  1000057 ^ N.of_nat (length l) * (snd (query_info m true len i) + tip + 1).
Proof.
  intros Hm Hx. apply told_scaled; [apply N.neq_0_lt_0, N.pow_nonzero; discriminate|apply N.pow_le_mono_l; lia|]. apply after_rise; [exact Hm|exact Hx].
Qed.

Lemma ten_minutes k : k <= 100 -> 1000 * 1000057 ^ k <= 1006 * 1000000 ^ k.
Proof.
  intros Hk. assert (E : 100 = k + (100 - k)) by lia. assert (P : 1000 * 1000057 ^ 100 <= 1006 * 1000000 ^ 100) by (apply N.leb_le; vm_compute; reflexivity).
  rewrite E in P. rewrite !N.pow_add_r in P. clear E.
  assert (Q : 1000000 ^ (100 - k) <= 1000057 ^ (100 - k)) by (apply N.pow_le_mono_l; lia).
  assert (Z : 0 < 1000000 ^ (100 - k)) by (apply N.neq_0_lt_0, N.pow_nonzero; discriminate).
  revert P Q Z. generalize (1000000 ^ k), (1000057 ^ k), (1000000 ^ (100 - k)), (1000057 ^ (100 - k)). intros p q r t P Q Z.
  apply (N.mul_le_mono_pos_r _ _ r Z). assert (1000 * q * r <= 1000 * q * t) by (apply N.mul_le_mono_l; exact Q). lia.
Qed.
Lemma told_soon e t m l : 10 ^ 18 <= 10 * m -> m <= 2 ^ 128 - 1 -> N.of_nat (length l) <= 100 -> fe_mult e = multiplier_after m l ->
  1000 * announced e t <= 1006 * (told m t + tx_tip t + 1).
Proof.
  intros Hm Hx Hl He. unfold announced. rewrite He. pose proof (told_later m l (tx_len t) (tx_info t) (tx_tip t) Hm Hx) as H. fold (told m t) in H.
  pose proof (ten_minutes _ Hl) as P. assert (Z : 0 < 1000000 ^ N.of_nat (length l)) by (apply N.neq_0_lt_0, N.pow_nonzero; discriminate).
  revert H P Z. generalize (1000000 ^ N.of_nat (length l)), (1000057 ^ N.of_nat (length l)), (told m t + tx_tip t + 1).
  generalize (tx_fee (multiplier_after m l) (tx_len t) (ci_weight (tx_info t)) (ci_free (tx_info t)) (tx_tip t)). intros f p q x H P Z.
  apply (N.mul_le_mono_pos_l _ _ p Z). assert (1000 * q * x <= 1006 * p * x) by (apply N.mul_le_mono_r; exact P). lia.
Qed.

(** The parts add up. *)
Lemma told_parts m signed len i :
  snd (query_info m signed len i) =
  match query_fee_details m signed len i with Some (b, l, w) => N.min (b + l + w) (2 ^ 128 - 1) | None => 0 end /\
  (query_fee_details m signed len i = None <-> signed = false \/ ci_free i = true) /\
  (forall b l w, query_fee_details m signed len i = Some (b, l, w) ->
    b = snd (query_info m true 0 (CallInfo (0, 0) false)) /\ l = query_length_to_fee len /\ w = N.min (m * query_weight_to_fee (ci_weight i) / 10 ^ 18) (2 ^ 128 - 1)) /\
  (signed = true -> query_call_info m len i = query_info m signed len i /\ query_call_fee_details m len i = query_fee_details m signed len i).
Proof.
  change (2 ^ 128 - 1) with u128_max. unfold query_info, query_fee_details, query_call_info, query_call_fee_details, tx_fee. cbn [snd]. split_and!.
  - destruct signed; [|reflexivity]. destruct (ci_free i); cbn [andb negb]; [reflexivity|]. unfold sat128. lia.
  - destruct signed, (ci_free i); cbn [andb negb]; split; try tauto; try (intros [?|?]; discriminate); intros; discriminate.
  - intros b l w. destruct (signed && _); [|intros E; discriminate E]. intros [= <- <- <-]. unfold query_length_to_fee, query_weight_to_fee. cbn [ci_weight ci_free].
    change (length_fee 0) with 0. change (capped_fee (0, 0)) with 0. unfold fixed_mul at 1. rewrite N.mul_0_r. change (0 / 1000000000000000000) with 0.
    split_and!; [vm_compute; reflexivity|reflexivity|]. unfold fixed_mul, sat128. change (10 ^ 18) with 1000000000000000000. reflexivity.
  - intros ->. split; reflexivity.
Qed.

(** Weights told apart from a transaction leave out the multiplier. *)
Lemma told_weight m len i : ci_free i = false -> m <= 2 ^ 128 - 1 -> snd (query_info m true len i) <= 2 ^ 128 - 2 ->
  snd (query_info m true len i) = snd (query_info 0 true 0 i) + query_length_to_fee len + m * query_weight_to_fee (ci_weight i) / 10 ^ 18.
Proof.
  intros Hf Hm. unfold query_info, query_length_to_fee, query_weight_to_fee, tx_fee, fixed_mul. cbn [snd]. rewrite Hf. change (2 ^ 128 - 2) with (u128_max - 1). change (2 ^ 128 - 1) with u128_max in Hm.
  change (10 ^ 18) with 1000000000000000000. rewrite N.mul_0_l. change (0 / 1000000000000000000) with 0. change (length_fee 0) with 0.
  generalize (m * capped_fee (ci_weight i) / 1000000000000000000), (capped_fee base_extrinsic), (length_fee len). intros a b c. unfold sat128.
  assert (Hu : 2 < u128_max) by reflexivity. lia.
Qed.

(** Whoever has the fee told and the tip, besides what must stay, gets the transaction included, and it costs no more. *)
Lemma told_enough e l t call : has_to_pay e t -> tx_asset t = None ->
  told (fe_mult e) t + tx_tip t + N.max (fe_stays e None (tx_payer t)) EXISTENTIAL_DEPOSIT <= l None (tx_payer t) ->
  apply_tx e l t call <> None /\ forall r, due e t r <= told (fe_mult e) t + tx_tip t.
Proof.
  intros Hp Ha Hl. pose proof (told_announced e t) as T. split.
  - apply native_included; [exact Hp|exact Ha|]. lia.
  - intros r. destruct (due_at_most e t r) as [D _]. lia.
Qed.

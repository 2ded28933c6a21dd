(** Proofs about the fee multiplier. *)
From Coq Require Import NArith List Bool Lia.
From Verif Require Import BlocksModel FeeMultiplierModel FeeMultiplierSpec.
Import ListNotations.
Open Scope N_scope.

Lemma div_spec a b : b <> 0 -> b * (a / b) <= a < b * (a / b) + b.
Proof. intros H. pose proof (N.div_mod a b H) as D. pose proof (N.mod_lt a b H) as M. revert D M. generalize (a mod b), (a / b). intros; nia. Qed.

(** The step as a function of the limiting dimension alone. *)
Definition step (previous used limit : N) : N :=
  let previous := N.max previous min_multiplier in
  let target := target_of limit in
  let diff := fx_rational (N.max used target - N.min used target) (N.max limit 1) in
  let first_term := fx_mul adjustment diff in
  let second_term := fx_mul 2812500000 (fx_mul diff diff) in
  if target <=? used
  then N.min (N.max (fx_sat (previous + fx_mul (fx_sat (first_term + second_term)) previous)) min_multiplier) max_multiplier
  else N.min (N.max (previous - fx_mul (first_term - second_term) previous) min_multiplier) max_multiplier.

Definition by_proof (b : block) : bool :=
  perbill (w_time (wmin (b_normal b) normal_share)) (w_time normal_share) <? perbill (w_proof (wmin (b_normal b) normal_share)) (w_proof normal_share).

Lemma next_step m b : next_multiplier m b =
  step m (if by_proof b then N.min (w_proof (b_normal b)) 3932160 else N.min (w_time (b_normal b)) 1500000000000) (if by_proof b then 3932160 else 1500000000000).
Proof.
  unfold next_multiplier, step. cbn zeta. change (fx_div (fx_mul adjustment adjustment) (2 * one)) with 2812500000.
  change (of_class b Normal) with (b_normal b). fold (by_proof b). destruct (by_proof b); reflexivity.
Qed.

Lemma fx_mul_le a b c : a * b <= c * 1000000000000000000 -> fx_mul a b <= c.
Proof.
  intros H. unfold fx_mul, fx_sat. etransitivity; [apply N.le_min_l|]. change one with 1000000000000000000.
  pose proof (div_spec (a * b) 1000000000000000000 ltac:(discriminate)) as D. revert D. generalize (a * b / 1000000000000000000). intros q D. lia.
Qed.

Lemma fx_mul_ge a b c : c <= max_fixed -> c * 1000000000000000000 <= a * b -> c <= fx_mul a b.
Proof.
  intros Hc H. unfold fx_mul, fx_sat. apply N.min_glb; [|exact Hc]. change one with 1000000000000000000.
  apply N.div_le_lower_bound; [discriminate|]. lia.
Qed.

Lemma fx_rational_le n d c : d <> 0 -> n * 1000000000000000000 <= d * c -> fx_rational n d <= c.
Proof.
  intros Hd H. unfold fx_rational, fx_sat. etransitivity; [apply N.le_min_l|]. change one with 1000000000000000000.
  apply N.div_le_upper_bound; [exact Hd|exact H].
Qed.

Lemma fx_rational_ge n d c : d <> 0 -> c <= max_fixed -> d * c <= n * 1000000000000000000 -> c <= fx_rational n d.
Proof.
  intros Hd Hc H. unfold fx_rational, fx_sat. apply N.min_glb; [|exact Hc]. change one with 1000000000000000000.
  apply N.div_le_lower_bound; [exact Hd|exact H].
Qed.

Lemma max_fixed_val : max_fixed = 340282366920938463463374607431768211455. Proof. reflexivity. Qed.
Lemma adjustment_val : adjustment = 75000000000000. Proof. reflexivity. Qed.
Lemma min_val : min_multiplier = 100000000000000000. Proof. reflexivity. Qed.

(** Either dimension. *)
Definition limit_ok (l : N) : Prop := l = 3932160 \/ l = 1500000000000.

Lemma target_val l : limit_ok l -> 4 * target_of l = l /\ l <> 0 /\ N.max l 1 = l.
Proof. intros [-> | ->]; repeat split; discriminate. Qed.

(** The two terms for a difference of at most three, respectively one, quarter. *)
Lemma terms d : d <= 750000000000000000 ->
  fx_mul adjustment d <= 56250000000000 /\ fx_mul 2812500000 (fx_mul d d) <= 1582031250.
Proof.
  intros H. rewrite adjustment_val. split; [apply fx_mul_le; lia|]. assert (fx_mul d d <= 562500000000000000) by (apply fx_mul_le; nia).
  apply fx_mul_le. lia.
Qed.

Lemma terms_low d : d <= 250000000000000000 -> fx_mul adjustment d <= 18750000000000.
Proof. intros H. rewrite adjustment_val. apply fx_mul_le. lia. Qed.

(** The step rises by at most the first share, or falls by at most the second. *)
Lemma step_up m u l : limit_ok l -> u <= l -> l <= 4 * u -> exists s, s <= 56251582031250 /\ (u = l -> 56250000000000 <= s) /\
  step m u l = N.min (N.max (fx_sat (N.max m min_multiplier + fx_mul s (N.max m min_multiplier))) min_multiplier) max_multiplier.
Proof.
  intros Hl Hu Hb. destruct (target_val _ Hl) as (Ht&Hn&Hm). unfold step. cbn zeta. rewrite Hm.
  assert (Hle : (target_of l <=? u) = true) by (apply N.leb_le; lia). rewrite Hle.
  rewrite (N.max_l u), (N.min_r u) by lia.
  set (d := fx_rational (u - target_of l) l). assert (Hd : d <= 750000000000000000) by (apply fx_rational_le; [exact Hn|lia]).
  destruct (terms _ Hd) as (H1&H2). eexists. split; [|split; [|reflexivity]].
  - unfold fx_sat. etransitivity; [apply N.le_min_l|]. lia.
  - intros ->. assert (750000000000000000 <= d) by (apply fx_rational_ge; [exact Hn|rewrite max_fixed_val; lia|lia]).
    unfold fx_sat. apply N.min_glb; [|rewrite max_fixed_val; lia].
    assert (56250000000000 <= fx_mul adjustment d) by (apply fx_mul_ge; [rewrite max_fixed_val; lia|rewrite adjustment_val; lia]). lia.
Qed.

Lemma step_down m u l : limit_ok l -> 4 * u < l -> exists s, s <= 18750000000000 /\ (u = 0 -> 18749000000000 <= s) /\
  step m u l = N.min (N.max (N.max m min_multiplier - fx_mul s (N.max m min_multiplier)) min_multiplier) max_multiplier.
Proof.
  intros Hl Hb. destruct (target_val _ Hl) as (Ht&Hn&Hm). unfold step. cbn zeta. rewrite Hm.
  assert (Hle : (target_of l <=? u) = false) by (apply N.leb_gt; lia). rewrite Hle.
  rewrite (N.max_r u), (N.min_l u) by lia.
  set (d := fx_rational (target_of l - u) l). assert (Hd : d <= 250000000000000000) by (apply fx_rational_le; [exact Hn|lia]).
  pose proof (terms_low _ Hd). eexists. split; [|split; [|reflexivity]]; [lia|].
  intros ->. assert (250000000000000000 <= d) by (apply fx_rational_ge; [exact Hn|rewrite max_fixed_val; lia|lia]).
  assert (18750000000000 <= fx_mul adjustment d) by (apply fx_mul_ge; [rewrite max_fixed_val; lia|rewrite adjustment_val; lia]).
  assert (fx_mul d d <= 62500000000000000) by (apply fx_mul_le; nia).
  assert (fx_mul 2812500000 (fx_mul d d) <= 175781250) by (apply fx_mul_le; lia). lia.
Qed.

(** Which dimension counts. *)
Lemma perbill_val a b : b <> 0 -> perbill a b = N.min a b * 1000000000 / b.
Proof. intros H. unfold perbill. rewrite N.max_l by lia. reflexivity. Qed.

Lemma perbill_quarter a b : b <> 0 -> (250000000 <= perbill a b <-> b <= 4 * a).
Proof.
  intros H. rewrite perbill_val by exact H. pose proof (div_spec (N.min a b * 1000000000) b H) as D. revert D.
  generalize (N.min a b * 1000000000 / b). intros q D. split; intros Hq; [|].
  - assert (b * 250000000 <= b * q) by (apply N.mul_le_mono_l; exact Hq). lia.
  - destruct (N.le_gt_cases 250000000 q); [assumption|]. assert (b * (q + 1) <= b * 250000000) by (apply N.mul_le_mono_l; lia). lia.
Qed.

Lemma perbill_full a b : b <> 0 -> (perbill a b = 1000000000 <-> b <= a) /\ perbill a b <= 1000000000.
Proof.
  intros H. rewrite perbill_val by exact H. pose proof (div_spec (N.min a b * 1000000000) b H) as D. revert D.
  generalize (N.min a b * 1000000000 / b). intros q D.
  assert (q <= 1000000000). { destruct (N.le_gt_cases q 1000000000); [assumption|]. assert (b * 1000000001 <= b * q) by (apply N.mul_le_mono_l; lia). lia. }
  split; [split; intros Hq|]; [subst; lia| |lia].
  destruct (N.eq_dec q 1000000000); [assumption|]. assert (b * (q + 1) <= b * 1000000000) by (apply N.mul_le_mono_l; lia). lia.
Qed.

Definition used (b : block) : N := if by_proof b then N.min (w_proof (b_normal b)) 3932160 else N.min (w_time (b_normal b)) 1500000000000.
Definition limit (b : block) : N := if by_proof b then 3932160 else 1500000000000.

Lemma limit_limit b : limit_ok (limit b) /\ used b <= limit b.
Proof. unfold limit, used, limit_ok. destruct (by_proof b); lia. Qed.

Lemma by_proof_val b : by_proof b =
  (perbill (N.min (w_time (b_normal b)) 1500000000000) 1500000000000 <? perbill (N.min (w_proof (b_normal b)) 3932160) 3932160).
Proof. reflexivity. Qed.

Lemma busy_used b : busy b <-> limit b <= 4 * used b.
Proof.
  unfold busy, limit, used. change (w_time normal_share) with 1500000000000. change (w_proof normal_share) with 3932160.
  pose proof (perbill_quarter (N.min (w_time (b_normal b)) 1500000000000) 1500000000000 ltac:(discriminate)) as Ht.
  pose proof (perbill_quarter (N.min (w_proof (b_normal b)) 3932160) 3932160 ltac:(discriminate)) as Hp.
  rewrite by_proof_val. destruct (N.ltb_spec (perbill (N.min (w_time (b_normal b)) 1500000000000) 1500000000000) (perbill (N.min (w_proof (b_normal b)) 3932160) 3932160)); lia.
Qed.

Lemma full_used b : full b -> used b = limit b.
Proof.
  unfold full, limit, used. change (w_time normal_share) with 1500000000000. change (w_proof normal_share) with 3932160.
  pose proof (perbill_full (N.min (w_time (b_normal b)) 1500000000000) 1500000000000 ltac:(discriminate)) as (Ht&?).
  pose proof (perbill_full (N.min (w_proof (b_normal b)) 3932160) 3932160 ltac:(discriminate)) as (Hp&?).
  rewrite by_proof_val. destruct (N.ltb_spec (perbill (N.min (w_time (b_normal b)) 1500000000000) 1500000000000) (perbill (N.min (w_proof (b_normal b)) 3932160) 3932160)); lia.
Qed.

Lemma next_used m b : next_multiplier m b = step m (used b) (limit b).
Proof. exact (next_step m b). Qed.

(** The floor. *)
Lemma multiplier_floor m b : 10 * next_multiplier m b >= one /\ next_multiplier m b <= max_fixed.
Proof.
  rewrite next_used. destruct (limit_limit b) as (Hl&Hu). change one with 1000000000000000000. 
  destruct (N.le_gt_cases (limit b) (4 * used b)) as [H|H].
  - destruct (step_up m _ _ Hl Hu H) as (s&_&_&->). rewrite min_val. unfold max_multiplier. pose proof max_fixed_val. lia.
  - destruct (step_down m _ _ Hl H) as (s&_&_&->). rewrite min_val. unfold max_multiplier. pose proof max_fixed_val. lia.
Qed.

(** A busy block does not lower the multiplier, one that is not busy does not raise it. *)
Lemma busy_raises m b : m <= max_fixed -> busy b -> m <= next_multiplier m b.
Proof.
  intros Hm Hb. rewrite next_used. destruct (limit_limit b) as (Hl&Hu). destruct (step_up m _ _ Hl Hu (proj1 (busy_used b) Hb)) as (s&_&_&->).
  rewrite min_val. unfold max_multiplier, fx_sat. lia.
Qed.

Lemma calm_lowers m b : one <= 10 * m -> ~ busy b -> next_multiplier m b <= m.
Proof.
  change one with 1000000000000000000. intros Hm Hb. rewrite next_used. destruct (limit_limit b) as (Hl&Hu).
  assert (H : 4 * used b < limit b). { destruct (N.le_gt_cases (limit b) (4 * used b)) as [H|H]; [|exact H]. destruct Hb. apply busy_used, H. }
  destruct (step_down m _ _ Hl H) as (s&_&_&->). rewrite min_val. unfold max_multiplier. lia.
Qed.

Lemma fx_mul_scaled s p k : s * 1000000 <= k * 1000000000000000000 -> fx_mul s p * 1000000 <= k * p.
Proof.
  intros H. unfold fx_mul, fx_sat. change one with 1000000000000000000.
  pose proof (div_spec (s * p) 1000000000000000000 ltac:(discriminate)) as D. revert D. generalize (s * p / 1000000000000000000). intros q D.
  assert (s * p * 1000000 <= k * 1000000000000000000 * p) by (rewrite (N.mul_comm (s * p)), N.mul_assoc, (N.mul_comm 1000000); apply N.mul_le_mono_r; exact H).
  pose proof (N.le_min_l q max_fixed). lia.
Qed.

(** How fast. *)
Lemma rise_bound m b : one <= 10 * m -> 1000000 * next_multiplier m b <= 1000057 * m.
Proof.
  change one with 1000000000000000000. intros Hm. rewrite next_used. destruct (limit_limit b) as (Hl&Hu).
  destruct (N.le_gt_cases (limit b) (4 * used b)) as [H|H].
  - destruct (step_up m _ _ Hl Hu H) as (s&Hs&_&->). rewrite min_val, (N.max_l m) by lia. unfold max_multiplier, fx_sat.
    assert (fx_mul s m * 1000000 <= 57 * m) by (apply fx_mul_scaled; lia). lia.
  - destruct (step_down m _ _ Hl H) as (s&Hs&_&->). rewrite min_val, (N.max_l m) by lia. unfold max_multiplier. lia.
Qed.

Lemma fall_bound m b : m <= max_fixed -> 999981 * m <= 1000000 * next_multiplier m b.
Proof.
  intros Hm. rewrite next_used. destruct (limit_limit b) as (Hl&Hu).
  destruct (N.le_gt_cases (limit b) (4 * used b)) as [H|H].
  - destruct (step_up m _ _ Hl Hu H) as (s&Hs&_&->). rewrite min_val. unfold max_multiplier, fx_sat. lia.
  - destruct (step_down m _ _ Hl H) as (s&Hs&_&->). rewrite min_val. unfold max_multiplier. pose proof max_fixed_val.
    assert (fx_mul s (N.max m 100000000000000000) * 1000000 <= 19 * N.max m 100000000000000000) by (apply fx_mul_scaled; lia).
    lia.
Qed.

Lemma full_rises m b : one <= 10 * m -> m <= 2 ^ 127 -> full b -> 1000056 * m <= 1000000 * next_multiplier m b.
Proof.
  change one with 1000000000000000000. change (2 ^ 127) with 170141183460469231731687303715884105728. intros Hm Hx Hf. rewrite next_used.
  destruct (limit_limit b) as (Hl&Hu). pose proof (full_used _ Hf) as E.
  assert (H : limit b <= 4 * used b) by lia. destruct (step_up m _ _ Hl Hu H) as (s&Hs&Hs'&->). specialize (Hs' E).
  rewrite min_val, (N.max_l m) by lia. unfold max_multiplier, fx_sat. rewrite max_fixed_val.
  assert (Hq : fx_mul s m <= m). { apply fx_mul_le. rewrite (N.mul_comm m). apply N.mul_le_mono_r. lia. }
  assert (56 * m <= 1000000 * fx_mul s m); [|lia].
  unfold fx_mul, fx_sat in *. change one with 1000000000000000000 in *. rewrite max_fixed_val in *.
  pose proof (div_spec (s * m) 1000000000000000000 ltac:(discriminate)) as D. revert D Hq. generalize (s * m / 1000000000000000000). intros q D Hq.
  assert (56250000000000 * m <= s * m) by (apply N.mul_le_mono_r; exact Hs'). lia.
Qed.

Lemma idle_used b : idle b -> used b = 0.
Proof. unfold idle, used. intros ->. destruct (by_proof b); reflexivity. Qed.

Lemma idle_falls m b : one <= 10 * m -> m <= max_fixed -> idle b -> 1000000 * next_multiplier m b <= 999982 * m \/ 10 * next_multiplier m b = one.
Proof.
  change one with 1000000000000000000. intros Hm Hx Hi. rewrite next_used. destruct (limit_limit b) as (Hl&Hu). pose proof (idle_used _ Hi) as E.
  assert (H : 4 * used b < limit b) by (destruct Hl; lia). destruct (step_down m _ _ Hl H) as (s&Hs&Hs'&->). specialize (Hs' E).
  rewrite min_val, (N.max_l m) by lia. unfold max_multiplier. rewrite max_fixed_val in *.
  assert (Hq : fx_mul s m <= m). { apply fx_mul_le. rewrite (N.mul_comm m). apply N.mul_le_mono_r. lia. }
  assert (18 * m <= 1000000 * fx_mul s m); [|lia].
  unfold fx_mul, fx_sat in *. change one with 1000000000000000000 in *. rewrite max_fixed_val in *.
  pose proof (div_spec (s * m) 1000000000000000000 ltac:(discriminate)) as D. revert D Hq. generalize (s * m / 1000000000000000000). intros q D Hq.
  assert (18749000000000 * m <= s * m) by (apply N.mul_le_mono_r; exact Hs'). lia.
Qed.

(** Many blocks. *)
Lemma pow_succ_nat a n : a ^ N.of_nat (S n) = a * a ^ N.of_nat n.
Proof. rewrite Nnat.Nat2N.inj_succ. apply N.pow_succ_r'. Qed.

Lemma after_floor m l : one <= 10 * m -> m <= max_fixed -> one <= 10 * multiplier_after m l /\ multiplier_after m l <= max_fixed.
Proof.
  revert m. induction l as [|b l IH]; intros m Hm Hx; [split; assumption|]. destruct (multiplier_floor m b) as (Hf&Hc).
  apply N.ge_le in Hf. exact (IH _ Hf Hc).
Qed.

Lemma after_rise m l : one <= 10 * m -> m <= max_fixed ->
  1000000 ^ N.of_nat (length l) * multiplier_after m l <= 1000057 ^ N.of_nat (length l) * m.
Proof.
  revert m. induction l as [|b l IH]; intros m Hm Hx; [cbn; lia|]. cbn [length]. rewrite !pow_succ_nat.
  pose proof (rise_bound m b Hm) as R. destruct (multiplier_floor m b) as (Hf&Hc). apply N.ge_le in Hf. specialize (IH _ Hf Hc).
  change (multiplier_after m (b :: l)) with (multiplier_after (next_multiplier m b) l).
  revert IH R. generalize (next_multiplier m b), (multiplier_after (next_multiplier m b) l), (1000000 ^ N.of_nat (length l)), (1000057 ^ N.of_nat (length l)).
  intros n r p q IH R. assert (q * (1000000 * n) <= q * (1000057 * m)) by (apply N.mul_le_mono_l; exact R). lia.
Qed.

Lemma after_fall m l : one <= 10 * m -> m <= max_fixed ->
  999981 ^ N.of_nat (length l) * m <= 1000000 ^ N.of_nat (length l) * multiplier_after m l.
Proof.
  revert m. induction l as [|b l IH]; intros m Hm Hx; [cbn; lia|]. cbn [length]. rewrite !pow_succ_nat.
  pose proof (fall_bound m b Hx) as R. destruct (multiplier_floor m b) as (Hf&Hc). apply N.ge_le in Hf. specialize (IH _ Hf Hc).
  change (multiplier_after m (b :: l)) with (multiplier_after (next_multiplier m b) l).
  revert IH R. generalize (next_multiplier m b), (multiplier_after (next_multiplier m b) l), (1000000 ^ N.of_nat (length l)), (999981 ^ N.of_nat (length l)).
  intros n r p q IH R. assert (q * (999981 * m) <= q * (1000000 * n)) by (apply N.mul_le_mono_l; exact R). lia.
Qed.

(** Powers too large to compute, by way of rounded ones. *)
Lemma ratio_pow x y a d c e : d <> 0 -> x ^ 120 * d <= a * y ^ 120 -> c * a ^ 120 <= e * d ^ 120 -> c * x ^ 14400 <= e * y ^ 14400.
Proof.
  intros Hd H1 H2. change 14400 with (120 * 120). rewrite !N.pow_mul_r. revert H1. generalize (x ^ 120), (y ^ 120). intros p q H1.
  assert (H3 : p ^ 120 * d ^ 120 <= a ^ 120 * q ^ 120) by (rewrite <- !N.pow_mul_l; apply N.pow_le_mono_l; exact H1).
  assert (Z : 0 < d ^ 120) by (apply N.neq_0_lt_0, N.pow_nonzero; exact Hd).
  revert H2 H3 Z. generalize (p ^ 120), (q ^ 120), (d ^ 120), (a ^ 120). intros p' q' d' a' H2 H3 Z.
  apply (N.mul_le_mono_pos_r _ _ d' Z). assert (c * (p' * d') <= c * (a' * q')) by (apply N.mul_le_mono_l; exact H3).
  assert (c * a' * q' <= e * d' * q') by (apply N.mul_le_mono_r; exact H2). lia.
Qed.

Lemma day_up : 100 * 1000057 ^ 14400 <= 228 * 1000000 ^ 14400.
Proof. apply (ratio_pow 1000057 1000000 1006863249957 1000000000000 100 228); [discriminate| |]; apply N.leb_le; vm_compute; reflexivity. Qed.
Lemma day_down : 76 * 1000000 ^ 14400 <= 100 * 999981 ^ 14400.
Proof. apply (ratio_pow 1000000 999981 1002282622887 1000000000000 76 100); [discriminate| |]; apply N.leb_le; vm_compute; reflexivity. Qed.
Lemma day_double : 2 * 1000000 ^ 14400 <= 1 * 1000056 ^ 14400.
Proof. apply (ratio_pow 1000000 1000056 993302715601 1000000000000 2 1); [discriminate| |]; apply N.leb_le; vm_compute; reflexivity. Qed.

Lemma day_rise m l : one <= 10 * m -> m <= max_fixed -> N.of_nat (length l) = 14400 -> 100 * multiplier_after m l <= 228 * m.
Proof.
  intros Hm Hx Hl. pose proof (after_rise m l Hm Hx) as R. rewrite Hl in R. revert R. generalize (multiplier_after m l). intros r R.
  pose proof day_up as P.
  assert (Z : 0 < 1000000 ^ 14400) by (apply N.neq_0_lt_0, N.pow_nonzero; discriminate).
  revert R P Z. generalize (1000000 ^ 14400), (1000057 ^ 14400). intros p q R P Z.
  apply (N.mul_le_mono_pos_l _ _ p Z). assert (100 * q * m <= 228 * p * m) by (apply N.mul_le_mono_r; exact P). lia.
Qed.

Lemma day_fall m l : one <= 10 * m -> m <= max_fixed -> N.of_nat (length l) = 14400 -> 76 * m <= 100 * multiplier_after m l.
Proof.
  intros Hm Hx Hl. pose proof (after_fall m l Hm Hx) as R. rewrite Hl in R. revert R. generalize (multiplier_after m l). intros r R.
  pose proof day_down as P.
  assert (Z : 0 < 1000000 ^ 14400) by (apply N.neq_0_lt_0, N.pow_nonzero; discriminate).
  revert R P Z. generalize (1000000 ^ 14400), (999981 ^ 14400). intros p q R P Z.
  apply (N.mul_le_mono_pos_l _ _ p Z). assert (76 * p * m <= 100 * q * m) by (apply N.mul_le_mono_r; exact P). lia.
Qed.

Lemma after_full m l : one <= 10 * m -> Forall full l -> (forall k, multiplier_after m (firstn k l) <= 2 ^ 127) ->
  1000056 ^ N.of_nat (length l) * m <= 1000000 ^ N.of_nat (length l) * multiplier_after m l.
Proof.
  revert m. induction l as [|b l IH]; intros m Hm Hf Hk; [cbn; lia|]. cbn [length]. rewrite !pow_succ_nat. inversion Hf; subst.
  pose proof (full_rises m b Hm (Hk O) ltac:(assumption)) as R. destruct (multiplier_floor m b) as (Hg&_). apply N.ge_le in Hg.
  specialize (IH _ Hg ltac:(assumption) (fun k => Hk (S k))).
  change (multiplier_after m (b :: l)) with (multiplier_after (next_multiplier m b) l).
  revert IH R. generalize (next_multiplier m b), (multiplier_after (next_multiplier m b) l), (1000000 ^ N.of_nat (length l)), (1000056 ^ N.of_nat (length l)).
  intros n r p q IH R. assert (q * (1000056 * m) <= q * (1000000 * n)) by (apply N.mul_le_mono_l; exact R). lia.
Qed.

Lemma pow_ratio k : k <= 14400 -> 100 * 1000057 ^ k <= 228 * 1000000 ^ k.
Proof.
  intros Hk. assert (E : 14400 = k + (14400 - k)) by lia. pose proof day_up as P. rewrite E in P. rewrite !N.pow_add_r in P. clear E.
  assert (Q : 1000000 ^ (14400 - k) <= 1000057 ^ (14400 - k)) by (apply N.pow_le_mono_l; lia).
  assert (Z : 0 < 1000000 ^ (14400 - k)) by (apply N.neq_0_lt_0, N.pow_nonzero; discriminate).
  revert P Q Z. generalize (1000000 ^ k), (1000057 ^ k), (1000000 ^ (14400 - k)), (1000057 ^ (14400 - k)). intros p q r t P Q Z.
  apply (N.mul_le_mono_pos_r _ _ r Z). assert (100 * q * r <= 100 * q * t) by (apply N.mul_le_mono_l; exact Q). lia.
Qed.

Lemma within_day m l : one <= 10 * m -> m <= max_fixed -> N.of_nat (length l) <= 14400 -> 100 * multiplier_after m l <= 228 * m.
Proof.
  intros Hm Hx Hl. pose proof (after_rise m l Hm Hx) as R. revert R Hl. generalize (multiplier_after m l), (N.of_nat (length l)). intros r k R Hl.
  pose proof (pow_ratio k Hl) as P.
  assert (Z : 0 < 1000000 ^ k) by (apply N.neq_0_lt_0, N.pow_nonzero; discriminate).
  revert R P Z. generalize (1000000 ^ k), (1000057 ^ k). intros p q R P Z.
  apply (N.mul_le_mono_pos_l _ _ p Z). assert (100 * q * m <= 228 * p * m) by (apply N.mul_le_mono_r; exact P). lia.
Qed.

Lemma day_full m l : one <= 10 * m -> m <= 2 ^ 125 -> Forall full l -> N.of_nat (length l) = 14400 -> 2 * m <= multiplier_after m l.
Proof.
  intros Hm Hx Hf Hl. change (2 ^ 125) with 42535295865117307932921825928971026432 in Hx.
  assert (Hb : forall k, multiplier_after m (firstn k l) <= 2 ^ 127).
  { intros k. change (2 ^ 127) with 170141183460469231731687303715884105728.
    assert (N.of_nat (length (firstn k l)) <= 14400) by (rewrite firstn_length; lia).
    pose proof (within_day m (firstn k l) Hm ltac:(rewrite max_fixed_val; lia) ltac:(assumption)). lia. }
  pose proof (after_full m l Hm Hf Hb) as R. rewrite Hl in R. revert R. generalize (multiplier_after m l). intros r R.
  pose proof day_double as P.
  assert (Z : 0 < 1000000 ^ 14400) by (apply N.neq_0_lt_0, N.pow_nonzero; discriminate).
  revert R P Z. generalize (1000000 ^ 14400), (1000056 ^ 14400). intros p q R P Z.
  apply (N.mul_le_mono_pos_l _ _ p Z). assert (2 * p * m <= 1 * q * m) by (apply N.mul_le_mono_r; exact P). lia.
Qed.

(** The bs58 loops compute positional value; encoding and decoding are mutually inverse. *)
From Verif Require Import Base BaseProofs PaymentIdModel.

(** Value of a little-endian digit vector. *)
Fixpoint bval (b : N) (ds : list N) : N :=
  match ds with [] => 0 | d :: ds' => d + b * bval b ds' end.

(** Value of a big-endian digit vector, as the outer loops see it. *)
Fixpoint bfold (b acc : N) (ds : list N) : N :=
  match ds with [] => acc | d :: ds' => bfold b (acc * b + d) ds' end.

Definition digits (b : N) (ds : list N) : Prop := Forall (fun d => d < b) ds.

(** No superfluous most significant zero. *)
Definition canon (b : N) (ds : list N) : Prop :=
  digits b ds /\ (ds = [] \/ b ^ N.of_nat (pred (length ds)) <= bval b ds).

Lemma pow_succ b n : b ^ N.of_nat (S n) = b * b ^ N.of_nat n.
Proof. rewrite Nat2N.inj_succ, N.pow_succ_r'. done. Qed.

Lemma pow_pos b n : 1 < b -> 0 < b ^ N.of_nat n.
Proof. intros Hb. apply N.neq_0_lt_0, N.pow_nonzero. lia. Qed.

Lemma pow_add b n m : b ^ N.of_nat (n + m) = b ^ N.of_nat n * b ^ N.of_nat m.
Proof. rewrite Nat2N.inj_add. apply N.pow_add_r. Qed.

Lemma bval_bound b ds : 1 < b -> digits b ds -> bval b ds < b ^ N.of_nat (length ds).
Proof.
  intros Hb. induction 1 as [|d ds Hd Hds IH]; cbn [bval length].
  - change (b ^ N.of_nat 0) with (b ^ 0). rewrite N.pow_0_r. lia.
  - rewrite pow_succ. nia.
Qed.

Lemma bval_app b l1 l2 : bval b (l1 ++ l2) = bval b l1 + b ^ N.of_nat (length l1) * bval b l2.
Proof.
  induction l1 as [|d l1 IH]; cbn [bval app length].
  - change (N.of_nat 0) with 0. rewrite N.pow_0_r. lia.
  - rewrite IH, pow_succ. nia.
Qed.

Lemma bval_replicate0 b n : bval b (replicate n 0) = 0.
Proof. induction n as [|n IH]; cbn [replicate bval]; [done|]. rewrite IH. lia. Qed.

Lemma bfold_acc b acc ds : bfold b acc ds = acc * b ^ N.of_nat (length ds) + bfold b 0 ds.
Proof.
  revert acc. induction ds as [|d ds IH]; intros acc; cbn [bfold length].
  - change (N.of_nat 0) with 0. rewrite N.pow_0_r. lia.
  - rewrite (IH (acc * b + d)), (IH (0 * b + d)), pow_succ. nia.
Qed.

Lemma bfold_reverse b ds : bfold b 0 (reverse ds) = bval b ds.
Proof.
  induction ds as [|d ds IH]; [done|].
  rewrite reverse_cons. cbn [bval].
  assert (forall l acc, bfold b acc (l ++ [d]) = bfold b acc l * b + d) as Happ.
  { induction l as [|x l IHl]; intros acc; cbn [bfold app]; [done|]. apply IHl. }
  rewrite Happ, IH. lia.
Qed.

Lemma canon_unique b l1 l2 : 1 < b -> canon b l1 -> canon b l2 -> bval b l1 = bval b l2 -> l1 = l2.
Proof.
  intros Hb [D1 C1] [D2 C2] E.
  assert (forall l1 l2 : list N, digits b l1 -> digits b l2 ->
    (l2 = [] \/ b ^ N.of_nat (pred (length l2)) <= bval b l2) ->
    bval b l1 = bval b l2 -> (length l2 <= length l1)%nat) as Hlen.
  { clear - Hb. intros l1 l2 D1 D2 C2 E.
    destruct C2 as [->|C2]; [cbn; lia|].
    destruct (decide (length l2 <= length l1)%nat) as [|Hgt]; [done|exfalso].
    pose proof (bval_bound b l1 Hb D1) as B1.
    assert (b ^ N.of_nat (length l1) <= b ^ N.of_nat (pred (length l2))).
    { apply N.pow_le_mono_r; lia. }
    lia. }
  assert (length l1 = length l2) as Hl.
  { apply Nat.le_antisymm; [apply (Hlen l2 l1)|apply (Hlen l1 l2)]; auto. }
  clear C1 C2 Hlen. revert l2 D2 E Hl.
  induction l1 as [|d1 l1 IH]; intros [|d2 l2] D2 E Hl; cbn [length] in Hl; try lia; [done|].
  inversion D1 as [|? ? Hd1 D1']; subst. inversion D2 as [|? ? Hd2 D2']; subst.
  cbn [bval] in E.
  assert (d1 = d2) as ->.
  { assert ((d1 + b * bval b l1) mod b = (d2 + b * bval b l2) mod b) as Em by (by rewrite E).
    rewrite !(N.mul_comm b), !N.mod_add, !N.mod_small in Em by lia. done. }
  f_equal. apply IH; try done; nia.
Qed.

Lemma b_inner_spec from to ds c r k :
  1 < to -> b_inner from to ds c = (r, k) ->
  length r = length ds /\ digits to r /\
  bval to r + to ^ N.of_nat (length ds) * k = c + from * bval to ds.
Proof.
  intros Hto. revert c r k.
  induction ds as [|d ds IH]; intros c r k; cbn [b_inner].
  - intros [= <- <-]. repeat split; [constructor|]. cbn [bval length].
    change (N.of_nat 0) with 0. rewrite N.pow_0_r. lia.
  - destruct (b_inner from to ds ((c + d * from) / to)) as [r' k'] eqn:E. intros [= <- <-].
    destruct (IH _ _ _ E) as (Hl & Hd & Hv).
    cbn [length bval]. repeat split; [lia| |].
    + constructor; [apply N.mod_lt; lia|done].
    + rewrite pow_succ.
      pose proof (N.div_mod (c + d * from) to ltac:(lia)) as Hdm.
      set (q := (c + d * from) / to) in *. set (m := (c + d * from) mod to) in *.
      nia.
Qed.

Lemma size_nat_log2 m : m <> 0 -> N.size_nat m = N.to_nat (N.succ (N.log2 m)).
Proof.
  intros Hm. rewrite <- (N.size_log2 m Hm). destruct m as [|p]; [done|]. cbn.
  clear. induction p as [p IH|p IH|]; cbn [Pos.size_nat Pos.size]; [rewrite IH; lia|rewrite IH; lia|done].
Qed.

Lemma size_nat_div2 k : N.size_nat (N.div2 k) = pred (N.size_nat k).
Proof. destruct k as [|[p|p|]]; done. Qed.

Lemma size_nat_mono a b : a <= b -> (N.size_nat a <= N.size_nat b)%nat.
Proof.
  intros Hab. destruct (N.eq_dec a 0) as [->|Ha]; [cbn; lia|].
  rewrite !size_nat_log2 by lia. pose proof (N.log2_le_mono _ _ Hab). lia.
Qed.

Lemma size_nat_div k to : 1 < to -> k <> 0 -> (S (N.size_nat (k / to)) <= N.size_nat k)%nat.
Proof.
  intros Hto Hk.
  assert (k / to <= N.div2 k) as Hle.
  { rewrite N.div2_div. apply N.div_le_compat_l; lia. }
  pose proof (size_nat_mono _ _ Hle) as Hm. rewrite size_nat_div2 in Hm.
  assert (N.size_nat k <> 0%nat). { destruct k as [|[]]; done. }
  lia.
Qed.

(** A successful push yields the canonical digits of the carry. *)
Lemma b_push_sound to fuel room k r :
  1 < to -> b_push to fuel room k = Some r ->
  digits to r /\ bval to r = k /\ (length r <= room)%nat /\
  (r = [] \/ to ^ N.of_nat (pred (length r)) <= k).
Proof.
  intros Hto. revert room k r.
  induction fuel as [|fuel IH]; intros room k r; cbn [b_push];
    destruct (k =? 0) eqn:Hk.
  - intros [= <-]. cbn. repeat split; [constructor|lia|lia|by left].
  - done.
  - intros [= <-]. cbn. repeat split; [constructor|lia|lia|by left].
  - destruct room as [|room]; [done|].
    destruct (b_push to fuel room (k / to)) as [r'|] eqn:E; [|done].
    intros [= <-]. destruct (IH _ _ _ E) as (Hd & Hv & Hl & Hc).
    cbn [length bval pred]. pose proof (N.div_mod k to ltac:(lia)).
    repeat split.
    + constructor; [apply N.mod_lt; lia|done].
    + rewrite Hv. lia.
    + lia.
    + right. destruct Hc as [->|Hc].
      * cbn [length]. change (N.of_nat 0) with 0. rewrite N.pow_0_r. lia.
      * destruct r' as [|x r']; cbn [length pred] in *.
        { change (N.of_nat 0) with 0. rewrite N.pow_0_r. lia. }
        rewrite pow_succ. nia.
Qed.

(** The push succeeds whenever the carry fits into the room left. *)
Lemma b_push_ok to fuel room k :
  1 < to -> (N.size_nat k <= fuel)%nat -> k < to ^ N.of_nat room ->
  exists r, b_push to fuel room k = Some r.
Proof.
  intros Hto. revert room k.
  induction fuel as [|fuel IH]; intros room k Hf Hr; cbn [b_push];
    destruct (k =? 0) eqn:Hk; eauto.
  - destruct k as [|[]]; cbn in Hf; lia.
  - destruct room as [|room].
    { change (N.of_nat 0) with 0 in Hr. rewrite N.pow_0_r in Hr. lia. }
    destruct (IH room (k / to)) as [r E].
    + pose proof (size_nat_div k to Hto ltac:(lia)). lia.
    + rewrite pow_succ in Hr. apply N.div_lt_upper_bound; lia.
    + rewrite E. eauto.
Qed.

Lemma b_step_sound from to cap ds v ds' :
  1 < from -> 1 < to -> canon to ds -> (length ds <= cap)%nat -> b_step from to cap ds v = Some ds' ->
  canon to ds' /\ bval to ds' = bval to ds * from + v /\ (length ds' <= cap)%nat.
Proof.
  intros Hf Hto [Hd Hc] Hcap. unfold b_step.
  destruct (b_inner from to ds v) as [r k] eqn:Ei.
  destruct (b_inner_spec _ _ _ _ _ _ Hto Ei) as (Hl & Hdr & Hv).
  destruct (b_push to (N.size_nat k) (cap - length ds) k) as [m|] eqn:Ep; [|done].
  intros [= <-]. destruct (b_push_sound _ _ _ _ _ Hto Ep) as (Hdm & Hvm & Hlm & Hcm).
  assert (bval to (r ++ m) = bval to ds * from + v) as Hval.
  { rewrite bval_app, Hl, Hvm. lia. }
  repeat split; [by apply Forall_app| |done|rewrite app_length; lia].
  rewrite Hval, app_length, Hl. destruct m as [|x m].
  - destruct r as [|y r]; [by left|right].
    cbn [length]. rewrite Nat.add_0_r. destruct Hc as [->|Hc]; [done|]. nia.
  - right. destruct Hcm as [?|Hcm]; [done|]. cbn [length pred] in *.
    replace (pred (length ds + S (length m))) with (length ds + length m)%nat by lia.
    rewrite pow_add, <- Hval, bval_app, Hl, Hvm.
    pose proof (pow_pos to (length ds) Hto). nia.
Qed.

Lemma b_step_ok from to cap ds v :
  1 < to -> (length ds <= cap)%nat -> bval to ds * from + v < to ^ N.of_nat cap ->
  exists ds', b_step from to cap ds v = Some ds'.
Proof.
  intros Hto Hl Hb. unfold b_step.
  destruct (b_inner from to ds v) as [r k] eqn:Ei.
  destruct (b_inner_spec _ _ _ _ _ _ Hto Ei) as (_ & _ & Hv).
  destruct (b_push_ok to (N.size_nat k) (cap - length ds) k Hto ltac:(lia)) as [m Em].
  - replace cap with (length ds + (cap - length ds))%nat in Hb by lia.
    rewrite pow_add in Hb. pose proof (pow_pos to (length ds) Hto). nia.
  - rewrite Em. eauto.
Qed.

Lemma b_loop_sound from to cap ds input ds' :
  1 < from -> 1 < to -> canon to ds -> (length ds <= cap)%nat -> b_loop from to cap ds input = Some ds' ->
  canon to ds' /\ bval to ds' = bfold from (bval to ds) input /\ (length ds' <= cap)%nat.
Proof.
  intros Hf Hto. revert ds. induction input as [|v input IH]; intros ds Hc Hl; cbn [b_loop bfold].
  - intros [= <-]. done.
  - destruct (b_step from to cap ds v) as [ds1|] eqn:E; [|done]. intros E2.
    destruct (b_step_sound _ _ _ _ _ _ Hf Hto Hc Hl E) as (Hc1 & Hv1 & Hl1).
    rewrite <- Hv1. by apply IH.
Qed.

Lemma bfold_ge b acc ds : 1 < b -> acc <= bfold b acc ds.
Proof.
  intros Hb. rewrite bfold_acc. pose proof (pow_pos b (length ds) Hb). nia.
Qed.

Lemma b_loop_ok from to cap ds input :
  1 < from -> 1 < to -> canon to ds -> (length ds <= cap)%nat ->
  bfold from (bval to ds) input < to ^ N.of_nat cap ->
  exists ds', b_loop from to cap ds input = Some ds'.
Proof.
  intros Hf Hto. revert ds. induction input as [|v input IH]; intros ds Hc Hl Hb; cbn [b_loop bfold] in *; eauto.
  destruct (b_step_ok from to cap ds v Hto Hl) as [ds1 E].
  { pose proof (bfold_ge from (bval to ds * from + v) input Hf). lia. }
  rewrite E. destruct (b_step_sound _ _ _ _ _ _ Hf Hto Hc Hl E) as (Hc1 & Hv1 & Hl1).
  apply IH; [done|done|]. by rewrite Hv1.
Qed.

Lemma canon_nil b : canon b [].
Proof. split; [constructor|by left]. Qed.

Lemma leading_zeros_split input :
  input = replicate (leading_zeros input) 0 ++ drop (leading_zeros input) input.
Proof.
  induction input as [|v input IH]; cbn [leading_zeros]; [done|].
  destruct (v =? 0) eqn:E; [|done].
  cbn [replicate app drop]. rewrite <- IH. f_equal. lia.
Qed.

Lemma leading_zeros_drop input :
  match drop (leading_zeros input) input with [] => True | v :: _ => v <> 0 end.
Proof.
  induction input as [|v input IH]; cbn [leading_zeros]; [done|].
  destruct (v =? 0) eqn:E; cbn [drop]; [done|lia].
Qed.

Lemma leading_zeros_app n l :
  match l with [] => True | v :: _ => v <> 0 end -> leading_zeros (replicate n 0 ++ l) = n.
Proof.
  intros Hl. induction n as [|n IH]; cbn [replicate app leading_zeros].
  - destruct l as [|v l]; [done|]. cbn [leading_zeros]. destruct (v =? 0) eqn:E; [lia|done].
  - by rewrite IH.
Qed.

Lemma canon_last_nonzero b l : 1 < b -> canon b l -> match reverse l with [] => True | v :: _ => v <> 0 end.
Proof.
  intros Hb [Hd Hc].
  destruct (reverse l) as [|v r] eqn:E; [done|]. intros ->.
  assert (l = reverse r ++ [0]) as El.
  { rewrite <- (reverse_involutive l), E, reverse_cons. done. }
  destruct Hc as [->|Hc]; [done|].
  rewrite El in Hc, Hd. rewrite bval_app in Hc. cbn [bval] in Hc.
  apply Forall_app in Hd as [Hd _].
  pose proof (bval_bound b _ Hb Hd) as Hlt.
  rewrite app_length in Hc. cbn [length] in Hc.
  replace (pred (length (reverse r) + 1)) with (length (reverse r)) in Hc by lia. nia.
Qed.

Lemma nonzero_head_canon b l :
  1 < b -> digits b l -> match l with [] => True | v :: _ => v <> 0 end -> canon b (reverse l).
Proof.
  intros Hb Hd Hh. split; [by apply Forall_reverse|].
  destruct l as [|v l]; [by left|right].
  rewrite reverse_cons, app_length, bval_app. cbn [length bval].
  replace (pred (length (reverse l) + 1)) with (length (reverse l)) by lia.
  pose proof (pow_pos b (length (reverse l)) Hb). nia.
Qed.

Lemma bfold_replicate0 b n l : bfold b 0 (replicate n 0 ++ l) = bfold b 0 l.
Proof. induction n as [|n IH]; cbn [replicate app bfold]; [done|]. rewrite N.mul_0_l, N.add_0_l. apply IH. Qed.

(** What a successful conversion returns: the leading zeros, then the canonical big-endian
    digits of the same value. *)
Lemma b_conv_sound from to cap input out :
  1 < from -> 1 < to -> b_conv from to cap input = Some out ->
  exists ds, out = replicate (leading_zeros input) 0 ++ reverse ds /\
             canon to ds /\ bval to ds = bfold from 0 input /\ (length out <= cap)%nat.
Proof.
  intros Hf Hto. unfold b_conv.
  destruct (b_loop from to cap [] input) as [ds|] eqn:E; [|done].
  destruct (b_loop_sound _ _ _ _ _ _ Hf Hto (canon_nil to) (Nat.le_0_l _) E) as (Hc & Hv & Hl).
  case_match eqn:Hcap; [|done]. intros [= <-].
  exists ds. rewrite reverse_app, reverse_replicate. split; [done|]. split; [done|]. split; [done|].
  rewrite app_length, replicate_length, reverse_length. apply Nat.leb_le in Hcap. lia.
Qed.

(** Converting there and back is the identity, for digit vectors of every length. *)
Lemma b_conv_roundtrip from to cap cap' input out :
  1 < from -> 1 < to -> digits from input -> (length input <= cap')%nat ->
  b_conv from to cap input = Some out -> b_conv to from cap' out = Some input.
Proof.
  intros Hf Hto Hd Hcap' E.
  destruct (b_conv_sound _ _ _ _ _ Hf Hto E) as (ds & -> & Hc & Hv & _).
  pose proof (leading_zeros_split input) as Hsplit.
  pose proof (leading_zeros_drop input) as Hhead.
  set (z := leading_zeros input) in *. set (tl := drop z input) in *.
  assert (bfold to 0 (replicate z 0 ++ reverse ds) = bfold from 0 input) as Hval.
  { rewrite bfold_replicate0, bfold_reverse. done. }
  assert (digits from tl) as Hdt. { by apply Forall_drop. }
  assert (canon from (reverse tl)) as Hct by (by apply nonzero_head_canon).
  assert (bval from (reverse tl) = bfold from 0 input) as Hvt.
  { rewrite Hsplit, bfold_replicate0, <- bfold_reverse, reverse_involutive. done. }
  destruct (b_loop_ok to from cap' [] (replicate z 0 ++ reverse ds)) as [ds' E']; try done.
  - apply canon_nil.
  - cbn. lia.
  - cbn [bval]. rewrite Hval, <- Hvt.
    pose proof (bval_bound from (reverse tl) Hf (proj1 Hct)) as Hb.
    assert (from ^ N.of_nat (length (reverse tl)) <= from ^ N.of_nat cap'); [|lia].
    apply N.pow_le_mono_r; [lia|]. rewrite reverse_length. unfold tl. rewrite drop_length. lia.
  - destruct (b_loop_sound _ _ _ _ _ _ Hto Hf (canon_nil from) (Nat.le_0_l _) E') as (Hc' & Hv' & Hl').
    cbn [bval] in Hv'.
    assert (ds' = reverse tl) as -> by (apply (canon_unique from _ _ Hf Hc' Hct); by rewrite Hv', Hvt).
    unfold b_conv. rewrite E'.
    rewrite leading_zeros_app by (eapply canon_last_nonzero; done).
    assert (length input = z + length tl)%nat as Hlen.
    { rewrite Hsplit at 1. rewrite app_length, replicate_length. done. }
    rewrite reverse_length.
    assert ((length tl + z <=? cap')%nat = true) as -> by (apply Nat.leb_le; lia).
    rewrite reverse_app, reverse_involutive, reverse_replicate. f_equal. symmetry. exact Hsplit.
Qed.

(** A conversion succeeds when the canonical digits plus zeros fit. *)
Lemma b_conv_ok from to cap input :
  1 < from -> 1 < to -> (leading_zeros input <= cap)%nat ->
  bfold from 0 input < to ^ N.of_nat (cap - leading_zeros input) ->
  exists out, b_conv from to cap input = Some out.
Proof.
  intros Hf Hto Hz Hv.
  destruct (b_loop_ok from to cap [] input) as [ds E]; try done.
  - apply canon_nil.
  - cbn; lia.
  - cbn [bval]. eapply N.lt_le_trans; [apply Hv|]. apply N.pow_le_mono_r; lia.
  - unfold b_conv. rewrite E.
    destruct (b_loop_sound _ _ _ _ _ _ Hf Hto (canon_nil to) (Nat.le_0_l _) E) as ([Hd Hc] & Hvd & Hl).
    cbn [bval] in Hvd.
    assert (length ds <= cap - leading_zeros input)%nat as Hlen.
    { destruct Hc as [->|Hc]; [cbn; lia|].
      destruct (decide (length ds <= cap - leading_zeros input)%nat) as [|Hgt]; [done|exfalso].
      assert (to ^ N.of_nat (cap - leading_zeros input) <= to ^ N.of_nat (pred (length ds))).
      { apply N.pow_le_mono_r; lia. }
      lia. }
    assert ((length ds + leading_zeros input <=? cap)%nat = true) as -> by (apply Nat.leb_le; lia).
    eauto.
Qed.

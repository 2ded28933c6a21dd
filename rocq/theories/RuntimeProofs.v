(** Proofs about fees, deposits, challenges and registration origins. *)
From Verif Require Import Base XcmTypes OriginTypes AccountsModel RuntimeModel.
Open Scope N_scope.

Local Opaque account_bytes account_of_bytes.

(** * Deposits *)
Lemma deposit_exact : forall items b, deposit items b = items * (20 * CENTS) + b * MILLICENTS.
Proof.
  intros i b. unfold deposit, relay_deposit.
  replace (i * 2000 * CENTS + b * 100 * MILLICENTS) with ((i * (20 * CENTS) + b * MILLICENTS) * 100) by lia.
  apply N.div_mul. lia.
Qed.
Lemma deposit_additive : forall i1 b1 i2 b2, deposit (i1 + i2) (b1 + b2) = deposit i1 b1 + deposit i2 b2.
Proof. intros. rewrite !deposit_exact. lia. Qed.
Lemma deposit_monotone : forall i1 b1 i2 b2, i1 <= i2 -> b1 <= b2 -> deposit i1 b1 <= deposit i2 b2.
Proof. intros i1 b1 i2 b2 Hi Hb. rewrite !deposit_exact. apply N.add_le_mono; by apply N.mul_le_mono_r. Qed.
Lemma deposit_fits : forall i b, i <= u32_max -> b <= u32_max -> relay_deposit i b <= u128_max.
Proof.
  intros i b Hi Hb. unfold relay_deposit. change CENTS with 333333333. change MILLICENTS with 333333. unfold u32_max, u128_max in *. lia.
Qed.
Lemma deposit_positive : forall i b, 0 < i \/ 0 < b -> 0 < deposit i b.
Proof. intros i b H. rewrite deposit_exact. change CENTS with 333333333. change MILLICENTS with 333333. lia. Qed.

(** * Fees *)
Lemma div_mod_b a : a = 1000000000 * (a / 1000000000) + a mod 1000000000 /\ a mod 1000000000 < 1000000000.
Proof. split; [by apply N.div_mod|by apply N.mod_lt]. Qed.
(** [perbill_of] is the nearest whole number, ties down. *)
Lemma perbill_of_near parts x : let f := perbill_of parts x in
  2 * 1000000000 * f <= 2 * (x * parts) + 1000000000 - 1 /\ 2 * (x * parts) <= 2 * 1000000000 * f + 1000000000.
Proof. unfold perbill_of. cbv zeta. pose proof (div_mod_b (x * parts)) as [H1 H2].
  set (t := x * parts) in *. clearbody t. set (d := t / 1000000000) in *. set (m := t mod 1000000000) in *. clearbody d m. subst t.
  destruct (N.ltb_spec 500000000 m); lia.
Qed.
Lemma perbill_of_mono parts x y : x <= y -> perbill_of parts x <= perbill_of parts y.
Proof.
  intros H. pose proof (perbill_of_near parts x) as [H1 _]. pose proof (perbill_of_near parts y) as [_ H4]. cbv zeta in *.
  assert (x * parts <= y * parts) as Hm by (by apply N.mul_le_mono_r).
  destruct (N.le_gt_cases (perbill_of parts x) (perbill_of parts y)); [done|lia].
Qed.
Lemma linear_fee_mono f i x y : x <= y -> linear_fee f i x <= linear_fee f i y.
Proof.
  intros H. unfold linear_fee, sat128. pose proof (perbill_of_mono f x y H). assert (i * x <= i * y) by (by apply N.mul_le_mono_l). lia.
Qed.

Lemma fee_larger : forall base t p, weight_to_fee base (t, p) = N.max (ref_time_fee base t) (proof_size_fee p).
Proof. done. Qed.
Lemma fee_monotone : forall base t1 p1 t2 p2, t1 <= t2 -> p1 <= p2 -> weight_to_fee base (t1, p1) <= weight_to_fee base (t2, p2).
Proof.
  intros base t1 p1 t2 p2 Ht Hp. unfold weight_to_fee. cbn [fst snd].
  pose proof (linear_fee_mono (ratio_parts (CENTS mod (100 * base)) (100 * base)) (CENTS / (100 * base)) t1 t2 Ht).
  pose proof (linear_fee_mono (ratio_parts (CENTS mod 10000) 10000) (CENTS / 10000) p1 p2 Hp).
  unfold ref_time_fee, proof_size_fee. cbv zeta. lia.
Qed.

(** A linear fee for a rate of [p] per [q] is that rate up to rounding: to the nearest unit, and the rate cut after nine decimals. *)
Lemma linear_fee_accurate : forall p q x, 0 < q -> x <= u64_max -> p <= u32_max ->
  let fee := linear_fee (ratio_parts (p mod q) q) (p / q) x in
  2 * 1000000000 * q * fee <= 2 * 1000000000 * (p * x) + 1000000000 * q /\
  2 * 1000000000 * (p * x) <= 2 * 1000000000 * q * fee + 1000000000 * q + 2 * q * x.
Proof.
  intros p q x Hq Hx Hp. cbv zeta.
  pose proof (N.div_mod p q ltac:(lia)) as Hd. pose proof (N.mod_lt p q ltac:(lia)) as Hm.
  set (i := p / q) in *. set (r := p mod q) in *.
  assert (Er : ratio_parts r q = r * 1000000000 / q).
  { unfold ratio_parts. rewrite (proj2 (N.eqb_neq q 0)) by lia. rewrite (proj2 (N.leb_gt q r)) by done. done. }
  rewrite Er. set (parts := r * 1000000000 / q).
  assert (Hp1 : q * parts <= r * 1000000000) by (apply N.mul_div_le; lia).
  assert (Hp2 : r * 1000000000 < q * parts + q).
  { pose proof (N.mul_succ_div_gt (r * 1000000000) q ltac:(lia)). fold parts in H. lia. }
  assert (Hp3 : parts < 1000000000).
  { destruct (N.lt_ge_cases parts 1000000000) as [?|Hge]; [done|]. assert (q * 1000000000 <= q * parts) by (by apply N.mul_le_mono_l). lia. }
  pose proof (perbill_of_near parts x) as [H1 H2]. cbv zeta in *. set (f := perbill_of parts x) in *.
  assert (Hi : i <= u32_max) by (unfold i; etransitivity; [apply N.div_le_upper_bound with (b := q) (q := p); [lia|]; nia|done]).
  assert (Hf : f <= 2 * u64_max).
  { assert (x * parts <= x * 1000000000) by (apply N.mul_le_mono_l; lia). unfold u64_max in *. lia. }
  assert (Hix : i * x <= u32_max * u64_max) by (by apply N.mul_le_mono).
  assert (El : linear_fee parts i x = f + i * x).
  { unfold linear_fee, sat128. fold f. unfold u32_max, u64_max, u128_max in *. lia. }
  rewrite El.
  (* exact: p*x = q*i*x + r*x *)
  assert (Hpx : p * x = q * (i * x) + r * x) by (rewrite Hd at 1; lia).
  assert (Hq1 : x * (q * parts) <= x * (r * 1000000000)) by (by apply N.mul_le_mono_l).
  assert (Hq2 : x * (r * 1000000000) <= x * (q * parts) + x * q) by (rewrite <- N.mul_add_distr_l; apply N.mul_le_mono_l; lia).
  assert (Hn1 : q * (2 * 1000000000 * f) <= q * (2 * (x * parts) + 1000000000)) by (apply N.mul_le_mono_l; lia).
  assert (Hn2 : q * (2 * (x * parts)) <= q * (2 * 1000000000 * f + 1000000000)) by (by apply N.mul_le_mono_l).
  clear -Hpx Hq1 Hq2 Hn1 Hn2. rewrite Hpx.
  replace (q * (2 * (x * parts) + 1000000000)) with (2 * (x * (q * parts)) + 1000000000 * q) in Hn1 by lia.
  replace (q * (2 * (x * parts))) with (2 * (x * (q * parts))) in Hn2 by lia.
  replace (q * (2 * 1000000000 * f)) with (2 * 1000000000 * (q * f)) in Hn1 by lia.
  replace (q * (2 * 1000000000 * f + 1000000000)) with (2 * 1000000000 * (q * f) + 1000000000 * q) in Hn2 by lia.
  replace (2 * 1000000000 * q * (f + i * x)) with (2 * 1000000000 * (q * f) + 2 * 1000000000 * (q * (i * x))) by lia.
  replace (x * (r * 1000000000)) with (1000000000 * (r * x)) in Hq1, Hq2 by lia.
  replace (2 * q * x) with (2 * (x * q)) by lia.
  set (A := q * f) in *. set (B := q * (i * x)) in *. set (C := r * x) in *. set (D := x * (q * parts)) in *. set (E := x * q) in *. lia.
Qed.

(** A base transaction costs a hundredth of a cent per unit of its time, ten kilobytes of proof cost a cent. *)
Lemma ref_time_rate : forall base t, 0 < base -> t <= u64_max ->
  2 * 1000000000 * (100 * base) * ref_time_fee base t <= 2 * 1000000000 * (CENTS * t) + 1000000000 * (100 * base) /\
  2 * 1000000000 * (CENTS * t) <= 2 * 1000000000 * (100 * base) * ref_time_fee base t + 1000000000 * (100 * base) + 2 * (100 * base) * t.
Proof. intros base t Hb Ht. apply (linear_fee_accurate CENTS (100 * base) t); [lia|done|]. by vm_compute. Qed.
Lemma proof_size_rate : forall p, p <= u64_max ->
  2 * 1000000000 * 10000 * proof_size_fee p <= 2 * 1000000000 * (CENTS * p) + 1000000000 * 10000 /\
  2 * 1000000000 * (CENTS * p) <= 2 * 1000000000 * 10000 * proof_size_fee p + 1000000000 * 10000 + 2 * 10000 * p.
Proof. intros p Hp. apply (linear_fee_accurate CENTS 10000 p); [lia|done|]. by vm_compute. Qed.

(** With a base transaction of at most a millisecond, a fee of zero means no proof and less than a nanosecond of time. *)
Lemma zero_fee : forall base t p, 0 < base <= 1000000000 -> t <= u64_max -> p <= u64_max ->
  weight_to_fee base (t, p) = 0 -> p = 0 /\ t <= 1000.
Proof.
  intros base t p Hb Ht Hp H. rewrite fee_larger in H. assert (ref_time_fee base t = 0 /\ proof_size_fee p = 0) as [H1 H2] by lia.
  pose proof (ref_time_rate base t ltac:(lia) Ht) as [_ H3]. pose proof (proof_size_rate p Hp) as [_ H4]. rewrite H1 in H3. rewrite H2 in H4.
  change CENTS with 333333333 in *. split; [lia|].
  assert (t * base <= t * 1000000000) by (apply N.mul_le_mono_l; lia).
  destruct (N.le_gt_cases t 1000); [done|]. nia.
Qed.

(** * Challenges *)
(** Hashes are kept of blocks up to [keep] before the current one, and never of the current one or later. *)
Definition hashes_of_past (hashes : N -> option bytes) (now : N) : Prop := forall n, now <= n -> hashes n = None.

Lemma challenge_exact : forall hashes now cx ch, check_challenge hashes now cx ch = true <->
  now <= cx + 3 /\ (hashes cx = Some ch \/ hashes cx = None /\ ch = replicate 32 0).
Proof.
  intros hashes now cx ch. unfold check_challenge, generate_challenge, block_hash, zero_hash. split.
  - destruct (N.leb_spec (now - 3) cx); [|done]. intros Hb. apply bool_decide_eq_true in Hb. split; [lia|].
    destruct (hashes cx); cbn [default] in Hb; [left; by f_equal|right; by split].
  - intros [Hn Hh]. rewrite (proj2 (N.leb_le (now - 3) cx)) by lia. apply bool_decide_eq_true.
    destruct Hh as [->|[-> ->]]; done.
Qed.
(** What holds of real hashes: only those of the last three blocks. *)
Lemma challenge_recent : forall hashes now cx ch, hashes_of_past hashes now -> ch <> replicate 32 0 ->
  check_challenge hashes now cx ch = true -> now <= cx + 3 /\ cx < now /\ hashes cx = Some ch.
Proof.
  intros hashes now cx ch Hp Hz H. apply challenge_exact in H as [Hn [Hh|[_ ->]]]; [|done]. split_and!; try done.
  destruct (N.lt_ge_cases cx now) as [?|Hge]; [done|]. by rewrite (Hp cx Hge) in Hh.
Qed.
Lemma challenge_own : forall hashes now cx h, hashes cx = Some h -> now <= cx + 3 -> check_challenge hashes now cx h = true.
Proof. intros. apply challenge_exact. split; [done|by left]. Qed.

(** * Registering *)
Lemma pass_register : forall o d, pass_register_origin o = Some d <->
  (o = ORoot \/ (exists c s, o = OCommunity c s)) /\ d = None \/
  (exists who, o = OSigned who /\ d = Some (CENTS / 10, who, treasury_account)).
Proof.
  intros o d. unfold pass_register_origin, either_of, root_with, communities_dont_deposit, pass_signed_pays, as_signed_by_community, EXISTENTIAL_DEPOSIT.
  split.
  - destruct o; try done; intros [= <-]; eauto 8.
  - intros [[[->|(c & s & ->)] ->]|(who & -> & ->)]; done.
Qed.

Lemma uploading : forall o a, upload_origin o = Some a <-> o = ORoot /\ a = treasury_account.
Proof. intros o a. unfold upload_origin, root_with. split; [destruct o; try done; by intros [= <-]|by intros [-> ->]]. Qed.
Lemma instantiating : forall o a, instantiate_origin o = Some a <->
  (o = ORoot /\ a = treasury_account) \/ (exists c s, (c = 1 \/ c = 2) /\ o = OCommunity c s /\ a = community_account c).
Proof.
  intros o a. unfold instantiate_origin, either_of, root_with, as_signed_by_static_community. split.
  - destruct o as [| |w|c s|cu|l|n]; try done; [intros [= <-]; by left|]. destruct (N.eqb_spec c 1) as [->|H1].
    + intros [= <-]. right. exists 1, s. split_and!; auto.
    + destruct (N.eqb_spec c 2) as [->|H2]; [|done]. intros [= <-]. right. exists 2, s. split_and!; auto.
  - intros [[-> ->]|(c & s & [->| ->] & -> & ->)]; done.
Qed.

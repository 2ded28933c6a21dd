(** Proofs about threshold curves and tracks. *)
From Coq Require Import Lia Sorting.Sorted.
From Verif Require Import Base XcmTypes OriginTypes TracksModel TracksSpec.

Lemma perbill_div_le a b : perbill_div a b <= billion.
Proof.
  unfold perbill_div. destruct (N.eqb_spec b 0); [done|]. cbn. destruct (N.leb_spec b a); [done|].
  apply N.div_le_upper_bound; [done|]. nia.
Qed.
Lemma perbill_div_mono a a' b : a <= a' -> perbill_div a b <= perbill_div a' b.
Proof.
  intros H. unfold perbill_div. destruct (N.eqb_spec b 0); [done|]. cbn.
  destruct (N.leb_spec b a), (N.leb_spec b a'); try lia; [|apply N.div_le_mono; nia].
  apply N.div_le_upper_bound; [done|]. nia.
Qed.
Lemma perbill_mul_le a b : a <= billion -> perbill_mul a b <= b.
Proof. intros H. unfold perbill_mul. apply N.div_le_upper_bound; [done|]. unfold billion in *. nia. Qed.
Lemma perbill_mul_mono a a' b : a <= a' -> perbill_mul a b <= perbill_mul a' b.
Proof. intros H. unfold perbill_mul. apply N.div_le_mono; [done|]. nia. Qed.

Lemma linear_bounds len fl ceil x : fl <= ceil -> fl <= threshold (LinearDecreasing len fl ceil) x /\ threshold (LinearDecreasing len fl ceil) x <= ceil.
Proof. intros H. cbn. pose proof (perbill_mul_le _ (ceil - fl) (perbill_div_le (N.min x len) len)). lia. Qed.
Lemma linear_antitone len fl ceil x x' : x <= x' -> threshold (LinearDecreasing len fl ceil) x' <= threshold (LinearDecreasing len fl ceil) x.
Proof.
  intros H. cbn. pose proof (perbill_mul_mono _ _ (ceil - fl) (perbill_div_mono (N.min x len) (N.min x' len) len ltac:(lia))). lia.
Qed.
Lemma linear_start len fl ceil : 0 < len -> threshold (LinearDecreasing len fl ceil) 0 = ceil.
Proof.
  intros H. cbn [threshold]. rewrite N.min_0_l. unfold perbill_div. destruct (N.eqb_spec len 0); [lia|]. destruct (N.leb_spec len 0); [lia|].
  cbn [orb]. rewrite N.mul_0_l, N.div_0_l by done. unfold perbill_mul. rewrite N.mul_0_l, N.div_0_l by done. lia.
Qed.
Lemma linear_end len fl ceil x : fl <= ceil -> len <= x -> threshold (LinearDecreasing len fl ceil) x = fl.
Proof.
  intros Hf H. cbn. rewrite N.min_r by done. unfold perbill_div. rewrite N.leb_refl, orb_true_r. unfold perbill_mul.
  rewrite N.mul_comm, N.div_mul by done. lia.
Qed.

(** * The default track of a community *)
Lemma default_track_needs : forall name x approval support,
  approved (default_track name) x approval support -> percent 50 <= approval.
Proof. intros name x a b [H _]. apply N.leb_le in H. destruct (linear_bounds (perbill_percent 100) (perbill_percent 50) (perbill_percent 100) x ltac:(done)). unfold percent, default_track in *. cbn [ti_min_approval] in H. unfold perbill_percent in *. cbn in *. lia. Qed.

Lemma linear_closed fl ceil x : fl <= ceil -> x <= billion ->
  threshold (LinearDecreasing (perbill_percent 100) fl ceil) x = ceil - x * (ceil - fl) / billion.
Proof.
  intros Hf Hx. change (perbill_percent 100) with billion. cbn [threshold]. rewrite N.min_l by done. unfold perbill_div, perbill_mul.
  replace (billion =? 0) with false by done. cbn [orb]. destruct (N.leb_spec billion x).
  - assert (x = billion) as -> by lia. done.
  - by rewrite N.div_mul.
Qed.

Lemma default_track_exact : forall name x approval support, x <= billion ->
  approved (default_track name) x approval support <->
  percent 100 - x * percent 50 / billion <= approval /\ percent 50 - x * percent 50 / billion <= support.
Proof.
  intros name x a b Hx. unfold approved, curve_passing. rewrite !N.leb_le. cbn [ti_min_approval ti_min_support default_track].
  by rewrite !linear_closed.
Qed.

Lemma default_track_relaxes : forall name x x' approval approval' support support',
  x <= x' -> approval <= approval' -> support <= support' ->
  approved (default_track name) x approval support -> approved (default_track name) x' approval' support'.
Proof.
  intros name x x' a a' b b' Hx Ha Hb. unfold approved, curve_passing. rewrite !N.leb_le. cbn [ti_min_approval ti_min_support default_track].
  intros [H1 H2]. split; (etransitivity; [apply linear_antitone, Hx|]); lia.
Qed.

Lemma default_track_end : forall name approval support,
  approved (default_track name) billion approval support <-> percent 50 <= approval.
Proof. intros. rewrite default_track_exact by done. change (billion * percent 50 / billion) with (percent 50). unfold percent. lia. Qed.

Lemma default_track_start : forall name approval support,
  approved (default_track name) 0 approval support <-> percent 100 <= approval /\ percent 50 <= support.
Proof. intros. rewrite default_track_exact by done. change (0 * percent 50 / billion) with 0. unfold percent. lia. Qed.

(** * Kreivo's own tracks *)
Lemma kreivo_tracks_listed : forall o id, kreivo_track_for o = Some id -> exists t, In (id, t) kreivo_tracks.
Proof. intros o id H. destruct o as [| | | |[]| |]; try discriminate; injection H as <-; eexists; cbn; eauto 10. Qed.
Lemma kreivo_tracks_injective : forall o o' id, kreivo_track_for o = Some id -> kreivo_track_for o' = Some id -> o = o'.
Proof. intros o o' id H H'. destruct o as [| | | |[]| |]; try discriminate; injection H as <-; destruct o' as [| | | |[]| |]; try discriminate; done. Qed.
Lemma kreivo_tracks_origins : forall o, kreivo_track_for o <> None <->
  o = ORoot \/ o = OCustom ReferendumCanceller \/ o = OCustom ReferendumKiller \/ o = OCustom CreateMemberships.
Proof. intros o. split; [|intros [->|[->|[->| ->]]]; done]. destruct o as [| | | |[]| |]; cbn; try done; auto. Qed.
Lemma kreivo_tracks_increasing : StronglySorted N.lt (map fst kreivo_tracks).
Proof. cbn. repeat constructor; lia. Qed.
Lemma kreivo_tracks_used : forall id t, In (id, t) kreivo_tracks -> exists o, kreivo_track_for o = Some id.
Proof.
  intros id t H. cbn in H. destruct H as [H|[H|[H|[H|[]]]]]; apply pair_equal_spec in H as [<- _].
  - by exists ORoot.
  - by exists (OCustom ReferendumCanceller).
  - by exists (OCustom ReferendumKiller).
  - by exists (OCustom CreateMemberships).
Qed.

(** The share of ayes each governance origin needs, whenever in the decision period. *)
Lemma kreivo_tracks_need : forall o id t x approval support,
  kreivo_track_for o = Some id -> In (id, t) kreivo_tracks -> approved t x approval support ->
  (o = OCustom CreateMemberships -> percent 50 <= approval /\ percent 50 <= support) /\
  (o <> OCustom CreateMemberships -> percent 90 <= approval).
Proof.
  intros o id t x a b Ho Hin [H1 H2]. apply N.leb_le in H1, H2.
  pose proof (fun f Hf => linear_bounds (perbill_percent 100) f (perbill_percent 100) x Hf) as B.
  pose proof (B (perbill_percent 90) ltac:(done)) as [B1 _]. pose proof (B (perbill_percent 50) ltac:(done)) as [B2 _].
  unfold kreivo_tracks in Hin. cbv zeta beta in Hin. cbn [In] in Hin.
  change (perbill_percent 90) with (percent 90) in *. change (perbill_percent 50) with (percent 50) in *.
  destruct Hin as [Hin|[Hin|[Hin|[Hin|[]]]]]; apply pair_equal_spec in Hin as [<- <-]; cbn [ti_min_approval ti_min_support] in *;
    (destruct o as [| | | |[]| |]; try discriminate); split; intros Hq; try congruence; try split; lia.
Qed.

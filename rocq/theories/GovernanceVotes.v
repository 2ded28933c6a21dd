(** Kreivo's governance: whose votes decide. *)
From stdpp Require Import gmap.
From Verif Require Import Base XcmTypes OriginTypes AccountsModel CommunitiesModel CommunitiesSpec CommunitiesProofs CommunitiesTally CommunitiesRegistry TracksModel TracksSpec
  TracksProofs ManagerModel ManagerSpec ManagerProofs XcmConfigModel GovernanceModel GovernanceSpec GovernanceProofs GovernanceMore GovernanceRanks.
Open Scope N_scope.

Local Opaque community_account treasury_account community_deposit kreivo_tracks.

(* ------------------------------------------------------------------ *)
(** * The collective *)

Lemma leaf_votes e s o k s' : leaf_kind e s o k s' -> gv_votes s' = gv_votes s \/
  exists p aye who rank, k = GVote p aye /\ o = OSigned who /\ collective_rank s who = Some rank /\ 1 <= rank /\
    gv_votes s' = <[(p, who) := (aye, rank)]> (gv_votes s).
Proof.
  intros H. leaf_cases H; try (left; rewrite E; done).
  - left. by destruct (submit_fields _ _ _ _ _ _ _ _ H3) as (t' & _ & _ & _ & _ & _ & _ & -> & _).
  - left. rewrite E. by destruct (put_status_fields s i p (service e (gv_now s) (undeciding_timeout i) ti (approval t) (gsupport e s i (rf_track r) t) (rset_deposit r))) as (_ & _ & _ & -> & _).
  - left. rewrite E. by destruct (put_status_fields s i p (RCancelled (gv_now s))) as (_ & _ & _ & -> & _).
  - left. rewrite E. by destruct (put_status_fields s i p (RKilled (gv_now s))) as (_ & _ & _ & -> & _).
  - right. rewrite E. cbn. eauto 10.
Qed.

Lemma step_votes s x p who b n : gv_votes (gstep_run s x) !! (p, who) = Some (b, n) -> gv_votes s !! (p, who) = Some (b, n) \/
  (exists s1, happens s x s1 (OSigned who) (GVote p b) /\ collective_rank s1 who = Some n /\ 1 <= n).
Proof.
  revert p who b n. apply (step_induct (fun s' => forall p who b n, gv_votes s' !! (p, who) = Some (b, n) -> gv_votes s !! (p, who) = Some (b, n) \/
    (exists s1, happens s x s1 (OSigned who) (GVote p b) /\ collective_rank s1 who = Some n /\ 1 <= n))); try (by left).
  - intros s1 o1 k1 e s2 Hh Hl IH Hc p who b n Hv. apply leaf_kind_of in Hc; [|done].
    destruct (leaf_votes _ _ _ _ _ Hc) as [E|(p' & aye & w & rank & -> & -> & Hk & Hle & E)]; rewrite E in Hv; [by apply IH|].
    rewrite lookup_insert_Some in Hv. destruct Hv as [[[= <- <-] [= <- <-]]|[_ Hv]]; [right; eauto|by apply IH].
  - intros e i q _. destruct (service_tally e s i q) as [_ ->]. by left.
  - intros e i q _. destruct (next_tally e s i q) as [_ ->]. by left.
Qed.

Lemma vote_counts_latest e s who p b s' : g_call e s (OSigned who) (GVote p b) = Some s' ->
  exists rank, collective_rank s who = Some rank /\ 1 <= rank /\ gv_votes s' = <[(p, who) := (b, rank)]> (gv_votes s).
Proof.
  intros H. apply leaf_kind_of in H; [|done]. inversion H as [| | | |p' aye w rank r t E0 E1 Hk Hle Hr Ht E| | | | |m' E0| |]; try discriminate.
  injection E0 as <- <-. injection E1 as <-. exists rank. split_and!; [done..|]. by rewrite E.
Qed.

(** The tally of a referendum of the collective is the sum of the votes recorded for it; each was cast by a member of rank 1 or more,
    and counts as many votes as the rank then was; the latest vote of a member is the one recorded. *)
Lemma collective_tally : forall ranks now l p t,
  (forall who r, ranks !! who = Some r -> r <= 65535) ->
  let s := grun (g_start ranks now) l in
  gv_tally s !! p = Some t ->
  (voters s p <= 65537 -> ayes t = cast_ayes s p /\ nays t = cast_nays s p /\ bare_ayes t = aye_voters s p) /\
  (forall who b n, gv_votes s !! (p, who) = Some (b, n) -> has_voted (g_start ranks now) l p who b n /\ 1 <= n) /\
  (forall e who b s', g_call e s (OSigned who) (GVote p b) = Some s' ->
    exists rank, collective_rank s who = Some rank /\ 1 <= rank /\ gv_votes s' = <[(p, who) := (b, rank)]> (gv_votes s)).
Proof.
  intros ranks now l p t Hr s Ht. split_and!.
  - apply (vi_tally s); [|done]. by apply vinv_run, vinv_start.
  - clear t Ht. subst s. induction l as [|x l IH] using rev_ind; intros who b n Hv; [done|]. rewrite grun_snoc in Hv.
    apply step_votes in Hv as [Hv|(s1 & Hh & Hk & Hle)].
    + destruct (IH who b n Hv) as [(l1 & y & l2 & s1 & -> & H) Hle]. split; [|done]. exists l1, y, (l2 ++ [x]), s1. split; [by rewrite <- app_assoc|done].
    + split; [|done]. by exists l, x, [], s1.
  - intros. by eapply vote_counts_latest.
Qed.

Lemma parts_at_least c p q : 0 < q -> c <= 100 -> percent c <= perbill_from_rational p q -> c * q <= 100 * p.
Proof.
  intros Hq Hc. unfold perbill_from_rational, percent. destruct (_ || _) eqn:E.
  - apply orb_true_iff in E as [E|E]; [apply N.eqb_eq in E|apply N.leb_le in E]; nia.
  - intros H. assert (c * 10000000 * q <= p * 1000000000); [|lia].
    pose proof (N.mul_div_le (p * 1000000000) q ltac:(lia)). nia.
Qed.

(** What an approval of the collective takes: of the votes recorded then, nine tenths were ayes; for memberships, half, cast by half of
    those ranked. There is at least one aye. *)
Lemma collective_majority : forall ranks now l e p r,
  (forall who r, ranks !! who = Some r -> r <= 65535) ->
  let s := grun (g_start ranks now) l in
  gets_approved s e Collective p r -> voters s p <= 65537 ->
  1 <= cast_ayes s p /\
  (rf_origin r <> OCustom CreateMemberships -> 9 * (cast_ayes s p + cast_nays s p) <= 10 * cast_ayes s p) /\
  (rf_origin r = OCustom CreateMemberships -> cast_ayes s p + cast_nays s p <= 2 * cast_ayes s p /\ ranked_members (gv_m s) <= 2 * aye_voters s p).
Proof.
  intros ranks now l e p r Hr s [Ho (since & until & _ & _ & (t & ti & Ht & Hti & Ha))]%gets_approved_at Hv. cbn in Ht.
  assert (V : vinv s) by (by apply vinv_run, vinv_start).
  destruct (vi_tally _ V p t Ht) as [_ Hs]. destruct (Hs Hv) as (E1 & E2 & E3).
  destruct (gi_collective _ (vi_ginv _ V) p r Ho) as [Hk _].
  assert (Hsum : ayes t + nays t <= u32_max).
  { rewrite E1, E2. change (csum (gv_votes s) p (fun b n => if b then n else 0) + csum (gv_votes s) p (fun b n => if b then 0 else n) <= u32_max).
    rewrite <- csum_add. etransitivity; [apply (csum_le _ _ _ (fun _ _ => 65535))|rewrite csum_scale].
    - intros m b n H. apply (vi_votes _ V) in H. destruct b; lia.
    - change (65535 * voters s p <= u32_max). unfold u32_max. lia. }
  assert (Hay : 0 < ayes t).
  { destruct (N.eq_dec (ayes t) 0) as [E|]; [|lia]. pose proof (no_ayes_no_approval t E) as E0.
    destruct (collective_thresholds _ _ _ _ _ _ Hk Hti Ha) as [(_ & H & _)|H]; rewrite E0 in H; unfold percent in H; lia. }
  destruct (kreivo_tracks_need _ _ _ _ _ _ Hk (kreivo_track_listed _ _ _ Hti) Ha) as [H1 H2].
  assert (Hap : approval t = perbill_from_rational (ayes t) (ayes t + nays t)).
  { unfold approval, wrap32. rewrite N.mod_small by (unfold u32_max in Hsum; lia). f_equal. lia. }
  rewrite Hap in H1, H2. rewrite <- E1, <- E2, <- E3. split_and!; [lia| |].
  - intros Hn. specialize (H2 Hn). apply parts_at_least in H2; lia.
  - intros Hn. destruct (H1 Hn) as [H3 H4]. apply parts_at_least in H3; [|lia..]. split; [lia|]. cbn in H4.
    destruct (N.eq_dec (ranked_members (gv_m s)) 0) as [->|Hz]; [lia|]. apply parts_at_least in H4; lia.
Qed.

(* ------------------------------------------------------------------ *)
(** * Communities *)

Lemma ccall_ayes c e s o k s' evs : ccall_run c e s o k = COk (s', evs) -> forall p t' g,
  c_polls s' !! p = Some (Ongoing t' g) -> 0 < ayes t' ->
  (exists t, c_polls s !! p = Some (Ongoing t g) /\ 0 < ayes t) \/
  (exists who m v, k = CVote m p v /\ o = OSigned who /\ says_aye v = true /\ check_membership s who m = Some g).
Proof.
  intros E p t' g Hp Hay.
  assert (Hrem : forall s0 g0 m0 p0 t0 v0 w0 dm, c_polls s0 !! p0 = Some (Ongoing t0 g0) ->
    c_polls (vote_removed s0 g0 m0 p0 t0 v0 w0 dm) !! p = Some (Ongoing t' g) -> 0 < ayes t' -> exists t, c_polls s0 !! p = Some (Ongoing t g) /\ 0 < ayes t).
  { intros s0 g0 m0 p0 t0 v0 w0 dm H0 H1 H2. destruct (vote_removed_fields s0 g0 m0 p0 t0 v0 w0 dm) as (_ & _ & F & _). rewrite F in H1.
    rewrite lookup_insert_Some in H1. destruct H1 as [[<- [= <- <-]]|[_ H1]]; [|eauto]. exists t0. split; [done|].
    unfold remove_vote_tally in H2. destruct (vote_say v0); cbn in H2; lia. }
  assert (Hsame : c_polls s' = c_polls s -> exists t, c_polls s !! p = Some (Ongoing t g) /\ 0 < ayes t).
  { intros Es. rewrite Es in Hp. eauto. }
  destruct k; cbn [ccall_run] in E.
  - left. apply Hsame. unfold call_create in E. cinv E. injection E as <- <-. by apply register_same in H0 as [(_ & _ & _ & ?) _].
  - left. apply Hsame. unfold call_set_admin in E. cinv E. by injection E as <- <-.
  - left. apply Hsame. unfold call_add_member in E. cinv E. injection E as <- <-. unfold assign in H2. cinv H2. by injection H2 as <-.
  - left. apply Hsame. unfold call_remove_member in E. cinv E. injection E as <- <-. unfold release in H2. cinv H2. by injection H2 as <-.
  - left. apply Hsame. unfold call_promote in E. cinv E. injection E as <- <-. unfold set_rank in H1. cinv H1. by injection H1 as <-.
  - left. apply Hsame. unfold call_demote in E. cinv E. injection E as <- <-. unfold set_rank in H1. cinv H1. by injection H1 as <-.
  - left. apply Hsame. by apply call_set_method_ok in E as (A & w & _ & -> & _).
  - apply call_vote_ok in E as (who & g1 & t & s1 & -> & Hc & Hw & Hf & -> & Hs1 & Hp1 & Hl & ->).
    destruct (vote_recorded_fields s1 g1 who m p0 t v) as (_ & _ & F & _). rewrite F in Hp.
    assert (Hback : forall t1, c_polls s1 !! p = Some (Ongoing t1 g) -> 0 < ayes t1 -> exists t, c_polls s !! p = Some (Ongoing t g) /\ 0 < ayes t).
    { intros t1 H1 H2. destruct Hs1 as [[_ ->]|(t0 & v0 & w0 & _ & Hp0 & ->)]; [eauto|].
      destruct (vote_removed_fields s g1 m p0 t0 v0 w0 (method_of s g1)) as (_ & _ & F1 & _). rewrite F1 in H1.
      rewrite lookup_insert_Some in H1. destruct H1 as [[<- [= <- <-]]|[_ H1]]; [|eauto]. exists t0. split; [done|].
      unfold remove_vote_tally in H2. destruct (vote_say v0); cbn in H2; lia. }
    rewrite lookup_insert_Some in Hp. destruct Hp as [[<- [= <- <-]]|[Hn Hp]]; [|left; by eapply Hback].
    destruct (says_aye v) eqn:Hsay; [right; eauto 10|]. left. rewrite says_aye_say in Hsay. rewrite Hsay in Hay. cbn in Hay. by eapply Hback.
  - left. apply call_remove_vote_ok in E as (who & g1 & t & v & voter & -> & Hc & -> & Hp1 & Hv & ->). by eapply Hrem.
  - left. apply Hsame. apply call_unlock_ok in E as (who & v & -> & -> & Hl & Hp1 & ->). by destruct (lock_removed_fields s who p0 v) as (_ & _ & _ & _ & ? & _).
Qed.

Definition ayed (s : gstate) (p g : N) : Prop := exists t, c_polls (mg_c (gv_m s)) !! p = Some (Ongoing t g) /\ 0 < ayes t.
Definition aye_cast (s : gstate) (x : gstep) (p g who : N) : Prop := exists s1 m v y, happens s x s1 (OSigned who) (GCommunityCall (CVote m p v)) /\
  (exists e s', g_call e s1 (OSigned who) (GCommunityCall (CVote m p v)) = Some s') /\
  says_aye v = true /\ c_members (mg_c (gv_m s1)) !! m = Some y /\ m_group y = g /\ m_owner y = who.

Lemma ayed_or s p g : ayed s p g \/ ~ ayed s p g.
Proof.
  unfold ayed. destruct (c_polls (mg_c (gv_m s)) !! p) as [[t g'|]|]; [|right; intros (? & ? & _); discriminate..].
  destruct (N.eq_dec g' g) as [->|]; [|right; intros (? & [= ] & _); congruence].
  destruct (N.eq_dec (ayes t) 0); [right; intros (? & [= <-] & ?); lia|left; exists t; split; [done|lia]].
Qed.
Lemma put_status_ayed s i p x q g : ayed (put_status s i p x) q g -> ayed s q g.
Proof.
  intros (t & Ht & Hay). destruct (put_status_fields s i p x) as (_ & _ & _ & _ & _ & _ & _ & _ & _ & [E|(_ & _ & E)]); rewrite E in Ht; [by exists t|].
  rewrite lookup_insert_Some in Ht. destruct Ht as [[_ ?]|[_ Ht]]; [done|by exists t].
Qed.

Lemma step_ayed s x p g : ayed (gstep_run s x) p g -> ayed s p g \/ exists who, aye_cast s x p g who.
Proof.
  apply (step_induct (fun s' => ayed s' p g -> ayed s p g \/ exists who, aye_cast s x p g who)); try (by left).
  - intros s1 o1 k1 e s2 Hh Hl IH Hc Ha. destruct (ayed_or s1 p g) as [Hd|Hd]; [by apply IH|]. right.
    assert (Hput : forall i q y, s2 = put_status s1 i q y -> False) by (intros i q y E; apply Hd, (put_status_ayed s1 i q y); by rewrite <- E).
    pose proof (leaf_kind_of _ _ _ _ _ Hl Hc) as Hk. destruct Ha as (t & Ht & Hay).
    inversion Hk as [i po k' w t1 E0 H1 H2 H3|i q r t1 ti E0 _ _ _ _ _ E|i q r E0 _ _ E|i q r E0 _ _ E|q aye who rank r t1 E0 E1 _ _ _ _ E
      |who r E0 _ _ _ E|who r E0 _ _ E|who r m E0 _ _ _ E|who r w E0 _ _ _ E|m' E0 E Hm Hj|n k' E0 _ _ E|n E0 E];
      try (by exfalso; eapply Hput); try (exfalso; apply Hd; exists t; rewrite E in Ht; done).
    + exfalso. destruct (submit_fields _ _ _ _ _ _ _ _ H3) as (t' & _ & _ & _ & _ & _ & F & _). rewrite F in Ht.
      destruct i; [apply Hd; by exists t|]. rewrite lookup_insert_Some in Ht. destruct Ht as [[_ [= <- _]]|[_ Ht]]; [cbn in Hay; lia|apply Hd; by exists t].
    + destruct k1; try discriminate; cbn [g_call] in Hc.
      * exfalso. apply Hd. exists t. split; [|done]. unfold g_update_track in Hc. destruct (ensure_origin_to_track _ _ _); [|discriminate].
        destruct (mg_tracks _ !! _); [|discriminate]. by injection Hc as <-.
      * exfalso. apply Hd. exists t. split; [|done]. unfold from_m in Hc. destruct (mg_register _ _ _ _ _ _ _ _ _) as [[m2 evs]|] eqn:Er; [|discriminate]. injection Hc as <-.
        apply register_complete in Er as (d & a' & _ & _ & _ & _ & _ & _ & _ & _ & _ & _ & _ & _ & _ & (_ & _ & _ & Hv) & _). cbn in Ht. by rewrite Hv in Ht.
      * exfalso. apply Hd. exists t. split; [|done]. unfold from_m in Hc. destruct (mg_create_memberships _ _ _ _ _ _ _) as [[m2 evs]|] eqn:Er; [|discriminate]. injection Hc as <-.
        unfold mg_create_memberships in Er. minv. destruct a1 as [s3 k]. minv.
        match goal with H : mint_loop _ _ _ _ _ _ _ = _ |- _ => apply mint_loop_frame in H as (G1 & _) end. cbn in Ht. by rewrite G1 in Ht.
      * destruct (ccall_run _ _ _ _ _) as [[c' evs]|] eqn:Er; [|discriminate]. injection Hc as <-. cbn in Ht.
        destruct (ccall_ayes _ _ _ _ _ _ _ Er p t g Ht Hay) as [Hold|(who & m & v & -> & -> & Hsay & Hmem)]; [by exfalso; apply Hd|].
        unfold check_membership in Hmem. destruct (c_members (mg_c (gv_m s1)) !! m) as [y|] eqn:Ey; [|discriminate].
        destruct (N.eqb_spec (m_owner y) who) as [Ew|]; [|discriminate]. injection Hmem as Hg.
        exists who, s1, m, v, y. split_and!; try done. exists e. cbn [g_call]. rewrite Er. by eexists.
  - intros e i q _ Ha. left. destruct (service_effect e s i q) as [E|(r0 & t & ti & y & _ & _ & _ & _ & _ & [E|[_ E]])]; rewrite E in Ha;
      [done|by apply put_status_ayed in Ha|by apply (put_status_ayed s i q y)].
  - intros e i q _ Ha. left. destruct (next_effect e s i q) as [E|(r0 & t & ti & _ & _ & _ & _ & _ & E)]; rewrite E in Ha; [done|by apply put_status_ayed in Ha].
  - intros y _ Hy (t & Ht & Hay). left. exists t. split; [|done]. destruct y; done.
Qed.

(** No referendum of a community is approved without an aye of someone holding a membership of it, if its track wants any approval at all. *)
Lemma community_aye : forall ranks now l e p r,
  let s := grun (g_start ranks now) l in
  gets_approved s e Community p r ->
  (forall ti x, track_info_of s Community (rf_track r) = Some ti -> 0 < threshold (ti_min_approval ti) x) ->
  exists who, member_aye (g_start ranks now) l (rf_track r) p who.
Proof.
  intros ranks now l e p r s [Ho (since & until & _ & _ & (t & ti & Ht & Hti & Ha))]%gets_approved_at Hth.
  pose proof (approval_needs_ayes ti _ t _ (Hth ti _ Hti) Ha) as Hay.
  assert (ayed s p (rf_track r)) as Hd.
  { pose proof (gi_community _ (ginv_run _ l (ginv_start ranks now)) p r Ho) as [_ [t' Ht']]. exists t. split; [|done].
    cbn in Ht. subst s. rewrite Ht' in *. by injection Ht as ->. }
  clear -Hd. subst s. induction l as [|x l IH] using rev_ind.
  - destruct Hd as (t & Ht & _). done.
  - rewrite grun_snoc in Hd. apply step_ayed in Hd as [Hd|(who & s1 & m & v & y & Hh & Hc & Hsay & Hm & Hg & Hw)].
    + destruct (IH Hd) as (who & l1 & x1 & l2 & s1 & m & v & y & -> & H). exists who, l1, x1, (l2 ++ [x]), s1, m, v, y. split; [by rewrite <- app_assoc|done].
    + exists who, l, x, [], s1, m, v, y. by split_and!.
Qed.

(* ------------------------------------------------------------------ *)
(** * The share of members *)

Local Transparent kreivo_tracks.
Lemma falling_threshold x : x <= 1000000000 -> threshold (LinearDecreasing (perbill_percent 100) (perbill_percent 0) (perbill_percent 100)) x = 1000000000 - x.
Proof.
  intros Hx. cbn [threshold]. change (perbill_percent 100) with 1000000000. change (perbill_percent 0) with 0. rewrite N.sub_0_r, N.min_l by done.
  unfold perbill_mul, perbill_div. change billion with 1000000000. destruct (_ || _) eqn:E.
  - apply orb_true_iff in E as [E|E]; [discriminate|apply N.leb_le in E]. assert (x = 1000000000) as -> by lia. by vm_compute.
  - rewrite !N.div_mul by done. done.
Qed.
Lemma falling_support s o t ti : kreivo_track_for o = Some t -> o <> OCustom CreateMemberships -> track_info_of s Collective t = Some ti ->
  ti_min_support ti = LinearDecreasing (perbill_percent 100) (perbill_percent 0) (perbill_percent 100) /\ ti_decision ti = 57600.
Proof. destruct o as [| | | | |c|]; try discriminate; [intros [= <-] _ [= <-]|destruct c; intros [= <-] ? [= <-]]; try done; split; reflexivity. Qed.
Local Opaque kreivo_tracks.

(** [n] blocks into the decision period of four days (57600 blocks), what does not concern memberships is approved only if ayes come from the
    share of ranked members that the rest of the period is of the whole. *)
Lemma collective_share : forall ranks now l e p r,
  (forall who r, ranks !! who = Some r -> r <= 65535) ->
  let s := grun (g_start ranks now) l in
  gets_approved s e Collective p r -> voters s p <= 65537 -> rf_origin r <> OCustom CreateMemberships ->
  exists since c, rf_deciding r = Some (since, c) /\ (57600 - (gv_now s - since)) * ranked_members (gv_m s) <= 57600 * aye_voters s p.
Proof.
  intros ranks now l e p r Hr s [Ho (since & until & Hd & _ & (t & ti & Ht & Hti & [_ Ha]))]%gets_approved_at Hv Hn. exists since, (Some until). split; [done|]. cbn in Ht.
  assert (V : vinv s) by (by apply vinv_run, vinv_start).
  destruct (vi_tally _ V p t Ht) as [_ Hs]. destruct (Hs Hv) as (_ & _ & E3).
  destruct (gi_collective _ (vi_ginv _ V) p r Ho) as [Hk _]. destruct (falling_support _ _ _ _ Hk Hn Hti) as [Es Ed].
  unfold curve_passing in Ha. rewrite Es in Ha. apply N.leb_le in Ha. unfold period_part in Ha. rewrite Ed in Ha.
  set (n := gv_now s - since) in *. cbn [gsupport] in Ha. rewrite E3 in Ha. set (R := ranked_members (gv_m s)) in *. set (a := aye_voters s p) in *.
  destruct (N.le_gt_cases 57600 n) as [Hn1|Hn1]; [replace (57600 - n) with 0 by lia; lia|].
  rewrite (N.min_l n 57600) in Ha by lia.
  assert (Ex : perbill_from_rational n 57600 = n * 1000000000 / 57600).
  { unfold perbill_from_rational. destruct (_ || _) eqn:E; [|done]. apply orb_true_iff in E as [E|E]; [discriminate|apply N.leb_le in E; lia]. }
  rewrite Ex in Ha. pose proof (N.mul_div_le (n * 1000000000) 57600 ltac:(done)) as Hx. set (x := n * 1000000000 / 57600) in *.
  rewrite falling_threshold in Ha by lia. unfold perbill_from_rational in Ha. destruct (_ || _) eqn:E.
  - apply orb_true_iff in E as [E|E]; [apply N.eqb_eq in E|apply N.leb_le in E]; nia.
  - apply orb_false_iff in E as [E _]. apply N.eqb_neq in E. pose proof (N.mul_div_le (a * 1000000000) R E) as Hy.
    set (y := a * 1000000000 / R) in *. assert (R * (1000000000 - x) <= a * 1000000000) by nia.
    assert (1000000000 * (57600 - n) <= 57600 * (1000000000 - x)) by lia. nia.
Qed.

(** Kreivo's governance: why referenda end. *)
From stdpp Require Import gmap.
From Verif Require Import Base XcmTypes OriginTypes AccountsModel CommunitiesModel CommunitiesSpec CommunitiesProofs CommunitiesTally CommunitiesRegistry TracksModel TracksSpec
  TracksProofs ManagerModel ManagerSpec ManagerProofs XcmConfigModel GovernanceModel GovernanceSpec GovernanceProofs GovernanceMore GovernanceRanks GovernanceTiming
  GovernanceEndsSpec.
Open Scope N_scope.

Local Opaque community_account treasury_account community_deposit kreivo_tracks.

Lemma cancel_may i o : cancel_origin i o = true -> may_cancel i o.
Proof. destruct i, o; try discriminate; try done; match goal with c : _ |- _ => by destruct c end. Qed.
Lemma kill_may i o : kill_origin i o = true -> may_kill i o.
Proof. destruct i, o; try discriminate; try done; match goal with c : _ |- _ => by destruct c end. Qed.
Lemma patience_timeout i : undeciding_timeout i = patience i.
Proof. by destruct i. Qed.

Lemma passing_if_reaches e s i p r t ti n : gtally s i p = Some t -> track_info_of s i (rf_track r) = Some ti -> reaches e s i p r n ->
  is_passing ti n (approval t) (gsupport e s i (rf_track r) t) = true.
Proof.
  intros Ht Hti (t' & ti' & Ht' & Hti' & Ha). rewrite Ht in Ht'. rewrite Hti in Hti'. injection Ht' as <-. injection Hti' as <-.
  unfold is_passing. unfold approved, period_part in Ha. apply andb_true_iff. destruct Ha; split; done.
Qed.

(** What [service] answers, when it does not let a referendum go on. *)
Lemma service_ends e now timeout ti app sup r y : service e now timeout ti app sup r = y -> (forall r', y <> ROngoing r') ->
  (exists since until, rf_deciding r = Some (since, Some until) /\ until <= now /\ is_passing ti (now - since) app sup = true /\ y = RApproved now) \/
  (exists since c, rf_deciding r = Some (since, c) /\ since + ti_decision ti <= now /\ is_passing ti (now - since) app sup = false /\ y = RRejected now) \/
  (rf_deciding r = None /\ rf_queued r = false /\ rf_submitted r + timeout <= now /\ (rf_deposit r = false \/ now < rf_submitted r + ti_prepare ti) /\ y = RTimedOut now).
Proof.
  unfold service. intros <- Hy. destruct (rf_deciding r) as [[since c]|].
  - destruct (is_passing ti (now - since) app sup) eqn:Ep.
    + destruct c as [t|]; [|by edestruct Hy]. destruct (N.leb_spec t now); [|by edestruct Hy]. left. eauto 10.
    + destruct (N.leb_spec (since + ti_decision ti) now); [|by edestruct Hy]. right; left. eauto 10.
  - destruct (rf_queued r); [by edestruct Hy|]. destruct (rf_deposit r); cbn [andb] in *.
    + destruct (N.leb_spec (rf_submitted r + ti_prepare ti) now); [destruct (ge_slot e); by edestruct Hy|].
      destruct (N.leb_spec (rf_submitted r + timeout) now); [|by edestruct Hy]. right; right. auto 10.
    + destruct (N.leb_spec (rf_submitted r + timeout) now); [|by edestruct Hy]. right; right. auto 10.
Qed.

Lemma put_status_ref s j q y i p : gv_refs (put_status s j q y) !! (i, p) = if decide ((i, p) = (j, q)) then Some y else gv_refs s !! (i, p).
Proof.
  destruct (put_status_fields s j q y) as (-> & _). destruct (decide ((i, p) = (j, q))) as [->|Hn]; [apply lookup_insert|by rewrite lookup_insert_ne].
Qed.

Lemma end_service e s j q i p y : gv_refs (g_service e s j q) !! (i, p) = Some y -> (forall r, y <> ROngoing r) ->
  gv_refs s !! (i, p) = Some y \/ end_reason s (GService e j q) i p y.
Proof.
  intros Hy Hno. destruct (service_effect e s j q) as [E|(r & t & ti & z & Hr & Ht & Hti & Ez & _ & Hs)]; [rewrite E in Hy; auto|].
  assert (Hp : gv_refs (g_service e s j q) = gv_refs (put_status s j q z)) by (destruct Hs as [->|[_ ->]]; reflexivity).
  rewrite Hp, put_status_ref in Hy. destruct (decide ((i, p) = (j, q))) as [[= -> ->]|Hn]; [|auto]. injection Hy as <-. right. symmetry in Ez.
  destruct (service_ends _ _ _ _ _ _ _ _ Ez Hno) as [(since & until & Hd & Hu & Hps & ->)|[(since & c & Hd & Hle & Hps & ->)|(Hd & Hq & Hle & Hdep & ->)]].
  - eapply end_approved; [done|]. split; [exact Hr|]. exists since, until. split_and!; [done..|]. by eapply passing_reaches.
  - eapply end_rejected; try done. intros Hre. rewrite (passing_if_reaches _ _ _ _ _ _ _ _ Ht Hti Hre) in Hps. discriminate.
  - rewrite patience_timeout in Hle. eapply (end_timed_out _ _ _ _ s e r ti); try done; [split; [done|]; left; eauto|]. destruct Hdep; [left|right]; done.
Qed.

(** Every end has its reason. *)
Lemma ends_for_a_reason : forall ranks now l x i p y,
  let s := grun (g_start ranks now) l in
  ended (gstep_run s x) i p y -> ~ ended s i p y -> end_reason s x i p y.
Proof.
  intros ranks now l x i p y s [Hy Hno] Hnot.
  cut (gv_refs s !! (i, p) = Some y \/ end_reason s x i p y); [intros [H|H]; [|done]; exfalso; apply Hnot; by split|].
  destruct (timed_run ranks now l) as [_ D]. fold s in D. clearbody s. clear Hnot ranks now l.
  assert (Hx : (exists e j q, x = GService e j q) \/ forall e j q, x <> GService e j q).
  { destruct x; try (by right); left; eauto. }
  destruct Hx as [(e & j & q & ->)|Hx]; [by eapply end_service|].
  revert y Hy Hno.
  cut ((x <> GBlock -> gv_now (gstep_run s x) = gv_now s) /\ paid (gstep_run s x) /\
       forall y, gv_refs (gstep_run s x) !! (i, p) = Some y -> (forall r, y <> ROngoing r) -> gv_refs s !! (i, p) = Some y \/ end_reason s x i p y); [tauto|].
  apply (step_induct_env (fun s' => (x <> GBlock -> gv_now s' = gv_now s) /\ paid s' /\
       forall y, gv_refs s' !! (i, p) = Some y -> (forall r, y <> ROngoing r) -> gv_refs s !! (i, p) = Some y \/ end_reason s x i p y)); try (intros; split; [done|split; [exact D|intros y Hy _; left; exact Hy]]; fail).
  - intros s1 o1 k1 e s2 Hh He Hl (Hn & D1 & IH) Hc. pose proof Hc as Hc0. apply leaf_kind_of in Hc; [|done].
    assert (Hnb : x <> GBlock) by (intros ->; inversion Hh). pose proof (leaf_now _ _ _ _ _ Hc) as En. specialize (Hn Hnb). split; [congruence|].
    inversion Hc as [j po k' w t E0 H1 H2 H3|j q r0 t ti E0 Hs Hr0 Hdep Ht Hti E|j q r0 E0 Ho Hr0 E|j q r0 E0 Ho Hr0 E|q aye who rank r0 t E0 E1 _ _ _ _ E
      |who r0 E0 _ _ _ E|who r0 E0 _ _ E|who r0 m E0 _ _ _ E|who r0 w E0 _ _ _ E|m' E0 E Hm Hj|n k' E0 _ _ E|n E0 E]; try (rewrite E; split; done).
    + destruct (submit_fields _ _ _ _ _ _ _ _ H3) as (t' & Ht' & F1 & _). split.
      * intros j' q r Hr Hd. unfold is_open in Hr. rewrite F1 in Hr. rewrite lookup_insert_Some in Hr. destruct Hr as [[_ [= <-]]|[_ Hr]]; [done|by eapply D1].
      * intros y Hy Hno. rewrite F1, lookup_insert_Some in Hy. destruct Hy as [[_ <-]|[_ Hy]]; [by edestruct Hno|by apply IH].
    + destruct (D1 _ _ _ Hr0 Hdep) as [Dd Dq]. subst k1.
      set (z := service e (gv_now s1) (undeciding_timeout j) ti (approval t) (gsupport e s1 j (rf_track r0) t) (rset_deposit r0)) in E.
      rewrite E. split.
      * intros i' p' r Hr Hd. apply put_open in Hr as [[[= -> ->] E1]|[_ Hr]]; [|by eapply D1]. subst z.
        pose proof (service_keeps _ _ _ _ _ _ _ _ E1) as [_ Ed]. by rewrite Hd in Ed.
      * intros y Hy Hno. rewrite put_status_ref in Hy. destruct (decide ((i, p) = (j, q))) as [[= -> ->]|Hn']; [|by apply IH]. injection Hy as <-. right.
        destruct (service_ends _ _ _ _ _ _ _ z eq_refl Hno) as [(since & until & Hd & _)|[(since & c & Hd & _)|(Hd & Hq & Hle & Hd' & Ez)]]; cbn in Hd; try congruence.
        rewrite Ez. rewrite patience_timeout in Hle. cbn in Hle, Hd'. rewrite Hn in *. eapply (end_timed_out _ _ _ _ s1 e r0 ti); try done; [split; [done|]; right; eauto|].
        destruct Hd' as [|Hd']; [discriminate|]. by right.
    + rewrite E. split.
      * intros i' p' r Hr Hd. apply put_open in Hr as [[_ ?]|[_ Hr]]; [discriminate|by eapply D1].
      * intros y Hy Hno. rewrite put_status_ref in Hy. destruct (decide ((i, p) = (j, q))) as [[= -> ->]|Hn']; [|by apply IH]. injection Hy as <-. right.
        subst k1. rewrite Hn. eapply end_cancelled; [exact Hh|by apply cancel_may].
    + rewrite E. split.
      * intros i' p' r Hr Hd. apply put_open in Hr as [[_ ?]|[_ Hr]]; [discriminate|by eapply D1].
      * intros y Hy Hno. rewrite put_status_ref in Hy. destruct (decide ((i, p) = (j, q))) as [[= -> ->]|Hn']; [|by apply IH]. injection Hy as <-. right.
        subst k1. rewrite Hn. eapply end_killed; [exact Hh|by apply kill_may].
  - intros e j q E. by apply Hx in E.
  - intros e j q ->. destruct (next_effect e s j q) as [->|(r0 & t & ti & Hr0 & Ht & Hti & Hq & Hd0 & ->)]; [split_and!; auto|].
    split; [by destruct (put_status_fields s j q (ROngoing (begin_deciding (gv_now s) ti (approval t) (gsupport e s j (rf_track r0) t) r0))) as (_ & _ & _ & _ & _ & E & _)|].
    split.
    + intros i' p' r Hr Hd. apply put_open in Hr as [[_ [= <-]]|[_ Hr]]; [|by eapply D]. cbn in Hd. destruct (D _ _ _ Hr0 Hd). congruence.
    + intros y Hy Hno. rewrite put_status_ref in Hy. destruct (decide ((i, p) = (j, q))); [injection Hy as <-; by edestruct Hno|auto].
  - intros z _ _. split; [done|split; [exact D|intros y Hy _; left; exact Hy]].
Qed.

(** Kreivo's governance: how long a decision takes, and what keeps it confirmed. *)
From stdpp Require Import gmap.
From Verif Require Import Base XcmTypes OriginTypes AccountsModel CommunitiesModel CommunitiesSpec CommunitiesProofs CommunitiesTally CommunitiesRegistry TracksModel TracksSpec
  TracksProofs ManagerModel ManagerSpec ManagerProofs XcmConfigModel GovernanceModel GovernanceSpec GovernanceProofs GovernanceMore GovernanceRanks.
Open Scope N_scope.

Local Opaque community_account treasury_account community_deposit kreivo_tracks.

(* ------------------------------------------------------------------ *)
(** * Tracks in use stay *)

Definition known (s : gstate) : Prop :=
  (forall o g, mg_track_of (gv_m s) o = Some g -> mg_tracks (gv_m s) !! g <> None) /\
  (forall p r, is_open s Community p r -> mg_tracks (gv_m s) !! rf_track r <> None).
Definition tracks_stay (m m' : mstate) : Prop :=
  (forall g, mg_tracks m !! g <> None -> mg_tracks m' !! g <> None) /\
  (forall o g, mg_track_of m' o = Some g -> mg_track_of m o = Some g \/ mg_tracks m' !! g <> None).
Lemma tracks_stay_same m m' : mg_tracks m' = mg_tracks m -> mg_track_of m' = mg_track_of m -> tracks_stay m m'.
Proof. intros E1 E2. split; rewrite E1, ?E2; auto. Qed.

Lemma call_tracks e s o k s' : leaf k = true -> g_call e s o k = Some s' -> tracks_stay (gv_m s) (gv_m s').
Proof.
  intros Hl Hc. pose proof (leaf_kind_of _ _ _ _ _ Hl Hc) as H.
  leaf_cases H; try (apply tracks_stay_same; rewrite E; done).
  - apply tracks_stay_same; by destruct (submit_fields _ _ _ _ _ _ _ _ H3) as (t' & _ & _ & _ & _ & _ & _ & _ & _ & _ & E1 & E2 & _).
  - rewrite E. apply tracks_stay_same;
      by destruct (put_status_fields s i p (service e (gv_now s) (undeciding_timeout i) ti (approval t) (gsupport e s i (rf_track r) t) (rset_deposit r))) as (_ & _ & _ & _ & _ & _ & E1 & E2 & _).
  - rewrite E. apply tracks_stay_same; by destruct (put_status_fields s i p (RCancelled (gv_now s))) as (_ & _ & _ & _ & _ & _ & E1 & E2 & _).
  - rewrite E. apply tracks_stay_same; by destruct (put_status_fields s i p (RKilled (gv_now s))) as (_ & _ & _ & _ & _ & _ & E1 & E2 & _).
  - destruct k; try discriminate; cbn [g_call] in Hc.
    + unfold g_update_track in Hc. destruct (ensure_origin_to_track _ _ _); [|discriminate]. destruct (mg_tracks (gv_m s) !! id) eqn:Ht; [|discriminate].
      injection Hc as <-. split; cbn; [|auto]. intros g Hg. destruct (decide (g = id)) as [->|]; [by rewrite lookup_insert|by rewrite lookup_insert_ne].
    + unfold from_m in Hc. destruct (mg_register _ _ _ _ _ _ _ _ _) as [[m2 evs]|] eqn:Er; [|discriminate]. injection Hc as <-.
      apply register_complete in Er as (d & a' & _ & _ & _ & Hi & _ & Hc & Ht & Hk & E1 & _ & _ & _ & _ & Hv & _ & E2 & _ & E3 & E4 & E5 & E6 & _).
      assert (F : forall g, mg_tracks (gv_m s) !! g <> None \/ g = id -> mg_tracks m2 !! g <> None).
      { intros g Hg. rewrite E3. destruct (decide (g = id)) as [->|]; [by rewrite lookup_insert|rewrite lookup_insert_ne by done; destruct Hg; done]. }
      split; cbn; [auto|]. intros o' g Ho'. destruct (decide (o' = OCommunity id None)) as [->|]; [|rewrite E5 in Ho' by done; by left].
      right. apply F. right. congruence.
    + unfold from_m in Hc. destruct (mg_create_memberships _ _ _ _ _ _ _) as [[m2 evs]|] eqn:Er; [|discriminate]. injection Hc as <-.
      unfold mg_create_memberships in Er. minv. destruct a1 as [s3 k]. minv.
      match goal with H : mint_loop _ _ _ _ _ _ _ = _ |- _ => apply mint_loop_frame in H as (G1 & G2 & G3 & G4 & G5) end.
      by apply tracks_stay_same.
    + destruct (ccall_run _ _ _ _ _) as [[c' evs]|] eqn:Er; [|discriminate]. injection Hc as <-. by apply tracks_stay_same.
Qed.

Lemma known_move s s' : known s -> tracks_stay (gv_m s) (gv_m s') -> (forall p, ref_move s s' Community p) -> known s'.
Proof.
  intros [K1 K2] [T1 T2] Hm. split.
  - intros o g Hg. destruct (T2 o g Hg) as [H|H]; [|done]. eapply T1, K1, H.
  - intros p r Hr. destruct (Hm p) as [E|r0 x Hr0 E Hx]; unfold is_open in Hr; rewrite E in Hr; [by eapply T1, K2|].
    injection Hr as ->. destruct (Hx r eq_refl) as (-> & _). by eapply T1, K2.
Qed.

Lemma known_step s x : known s -> known (gstep_run s x).
Proof.
  intros K. apply step_induct; try done.
  - intros s1 o1 k1 e s2 _ Hl [K1 K2] Hc. pose proof (call_tracks _ _ _ _ _ Hl Hc) as [T1 T2]. apply leaf_kind_of in Hc; [|done]. split.
    + intros o g Hg. destruct (T2 o g Hg) as [H|H]; [|done]. eapply T1, K1, H.
    + intros p r Hr. destruct (leaf_refs _ _ _ _ _ Hc Community p) as [Hm|(po & k' & w & t & _ & _ & _ & Ht & E)].
      * destruct Hm as [E|r0 y Hr0 E Hx]; unfold is_open in Hr; rewrite E in Hr; [by eapply T1, K2|].
        injection Hr as ->. destruct (Hx r eq_refl) as (-> & _). by eapply T1, K2.
      * unfold is_open in Hr. rewrite E in Hr. injection Hr as <-. cbn. eapply T1, K1, Ht.
  - intros e i q _. apply (known_move s); [done| |intros; apply service_refs].
    destruct (service_effect e s i q) as [->|(r0 & t & ti & y & _ & _ & _ & _ & _ & [->|[_ ->]])]; apply tracks_stay_same; try done;
      by destruct (put_status_fields s i q y) as (_ & _ & _ & _ & _ & _ & E1 & E2 & _).
  - intros e i q _. apply (known_move s); [done| |intros; apply next_refs].
    destruct (next_effect e s i q) as [->|(r0 & t & ti & _ & _ & _ & _ & _ & ->)]; apply tracks_stay_same; try done;
      by destruct (put_status_fields s i q (ROngoing (begin_deciding (gv_now s) ti (approval t) (gsupport e s i (rf_track r0) t) r0))) as (_ & _ & _ & _ & _ & _ & E1 & E2 & _).
Qed.
Lemma known_start ranks now : known (g_start ranks now).
Proof. split; cbn; done. Qed.
Lemma known_run s l : known s -> known (grun s l).
Proof. revert s. induction l as [|x l IH]; intros s K; [done|]. cbn. by apply IH, known_step. Qed.

Lemma kreivo_track_found o t : kreivo_track_for o = Some t -> exists ti, (snd <$> find (fun x => fst x =? t) kreivo_tracks) = Some ti.
Proof. destruct o as [| | | | |c|]; try discriminate; [intros [= <-]|destruct c; intros [= <-]]; by eexists. Qed.

(** An open referendum has a tally and its track settings. *)
Lemma open_ready s i p r : ginv s -> known s -> is_open s i p r -> exists t ti, gtally s i p = Some t /\ track_info_of s i (rf_track r) = Some ti.
Proof.
  intros I [_ K] Hr. destruct i.
  - destruct (gi_collective _ I p r Hr) as [Hk [t Ht]]. destruct (kreivo_track_found _ _ Hk) as [ti Hti]. by exists t, ti.
  - destruct (gi_community _ I p r Hr) as [_ [t Ht]]. specialize (K p r Hr). cbn. rewrite Ht. destruct (mg_tracks (gv_m s) !! rf_track r) as [ti|]; [|done].
    by exists t, ti.
Qed.

(* ------------------------------------------------------------------ *)
(** * Turns in the life of a referendum *)

Definition paid (s : gstate) : Prop := forall i p r, is_open s i p r -> rf_deposit r = false -> rf_deciding r = None /\ rf_queued r = false.

Inductive turn (s : gstate) (x : gstep) (i : inst) (p : N) (r : referendum) : Prop :=
| TSame r0 : is_open s i p r0 -> same_proposal r0 r -> rf_deciding r = rf_deciding r0 -> rf_queued r = rf_queued r0 ->
    (forall e since until, x = GService e i p -> rf_deciding r = Some (since, Some until) -> reaches e s i p r (gv_now s - since)) -> turn s x i p r
| TNew : rf_deciding r = None -> rf_queued r = false -> rf_submitted r = gv_now s -> turn s x i p r
| TQueued s1 e ti : rf_deciding r = None -> rf_submitted r <= gv_now s1 ->
    looked s x s1 e i p -> gv_now s1 = gv_now s -> track_info_of s1 i (rf_track r) = Some ti -> rf_submitted r + ti_prepare ti <= gv_now s1 -> turn s x i p r
| TBegin s1 e ti c : rf_deciding r = Some (gv_now s1, c) -> rf_queued r = false ->
    looked s x s1 e i p -> gv_now s1 = gv_now s -> track_info_of s1 i (rf_track r) = Some ti ->
    rf_submitted r + ti_prepare ti <= gv_now s1 \/ (exists r0, is_open s i p r0 /\ same_proposal r0 r /\ rf_queued r0 = true /\ rf_deciding r0 = None) ->
    (forall until, c = Some until -> until = gv_now s1 + ti_confirm ti /\ reaches e s1 i p r 0) -> turn s x i p r
| TConfirm r0 e ti since : is_open s i p r0 -> same_proposal r0 r -> rf_deciding r0 = Some (since, None) -> rf_queued r = rf_queued r0 ->
    rf_deciding r = Some (since, Some (gv_now s + ti_confirm ti)) -> x = GService e i p -> track_info_of s i (rf_track r) = Some ti ->
    reaches e s i p r (gv_now s - since) -> turn s x i p r
| TAbort r0 since c : is_open s i p r0 -> same_proposal r0 r -> rf_deciding r0 = Some (since, c) -> rf_queued r = rf_queued r0 ->
    rf_deciding r = Some (since, None) -> turn s x i p r.

Lemma same_proposal_refl r : same_proposal r r.
Proof. done. Qed.
Lemma same_proposal_trans r1 r2 r3 : same_proposal r1 r2 -> same_proposal r2 r3 -> same_proposal r1 r3.
Proof. intros (?&?&?&?&?) (?&?&?&?&?). unfold same_proposal. split_and!; congruence. Qed.

Lemma put_open s j q y i p r : is_open (put_status s j q y) i p r -> ((i, p) = (j, q) /\ y = ROngoing r) \/ ((i, p) <> (j, q) /\ is_open s i p r).
Proof.
  unfold is_open. destruct (put_status_fields s j q y) as (-> & _). rewrite lookup_insert_Some. intros [[E ->]|[E H]]; [left|right]; eauto.
Qed.
Lemma passing_reaches e s i p r t ti n : gtally s i p = Some t -> track_info_of s i (rf_track r) = Some ti ->
  is_passing ti n (approval t) (gsupport e s i (rf_track r) t) = true -> reaches e s i p r n.
Proof. intros H1 H2 H3. exists t, ti. split_and!; [done..|]. by apply passing_approved. Qed.

Lemma turn_service e s j q : ginv s -> known s -> paid s ->
  paid (g_service e s j q) /\ forall i p r, is_open (g_service e s j q) i p r -> turn s (GService e j q) i p r.
Proof.
  intros I K D.
  assert (Hother : forall i p r, (i, p) <> (j, q) -> is_open s i p r -> turn s (GService e j q) i p r).
  { intros i p r Hn Hr. eapply TSame; try done. intros e' since until [= <- -> ->]. done. }
  destruct (gv_refs s !! (j, q)) as [[r0| | | | |]|] eqn:Hr0; try (
    assert (E : g_service e s j q = s) by (unfold g_service; by rewrite Hr0); rewrite E; split; [done|];
    intros i p r Hr; apply Hother; [intros [= -> ->]; unfold is_open in Hr; congruence|done]).
  destruct (open_ready s j q r0 I K Hr0) as (t & ti & Ht & Hti).
  set (y := service e (gv_now s) (undeciding_timeout j) ti (approval t) (gsupport e s j (rf_track r0) t) r0).
  assert (Hopen : forall i p r, is_open (g_service e s j q) i p r <-> is_open (put_status s j q y) i p r).
  { intros i p r. unfold g_service. rewrite Hr0, Ht, Hti. fold y. destruct y; try done. by destruct (ge_sched_ok e). }
  split.
  - intros i p r Hr Hd. apply Hopen, put_open in Hr as [[[= -> ->] E]|[_ Hr]]; [|by eapply D]. subst y.
    pose proof (service_keeps _ _ _ _ _ _ _ _ E) as [_ Ed]. rewrite Hd in Ed. symmetry in Ed. destruct (D _ _ _ Hr0 Ed) as [D1 D2].
    revert E. unfold service. rewrite D1, D2, Ed. cbn. destruct (_ <=? _); [discriminate|]. intros [= <-]. done.
  - intros i p r Hr. apply Hopen, put_open in Hr as [[[= -> ->] E]|[Hn Hr]]; [|by apply Hother].
    destruct (service_cases e (gv_now s) (undeciding_timeout j) ti (approval t) (gsupport e s j (rf_track r0) t) r0)
      as [(since & until & _ & _ & _ & E1)|[E1|[E1|(d & b & E1 & Hg)]]]; subst y; rewrite E1 in E; try discriminate. injection E as <-. clear E1.
    assert (Hlk : looked s (GService e j q) s e j q) by (split; [done|]; left; eauto).
    inversion Hg as [Ed Eo Eb|Ed Eq Edep Epr Eo Eb|Ed Eq Edep Epr Eo Eb|since until Ed Ep Hlt Eo Eb|since Ed Ep Eo Eb|since c Ed Ep Eo Eb]; subst d b.
    + eapply TSame; [done|done|cbn; by rewrite Ed|done|]. intros e' since until _ [=].
    + eapply (TQueued _ _ _ _ _ s e ti); cbn; try done. lia.
    + eapply (TBegin _ _ _ _ _ s e ti); cbn; try done; [by left|]. intros u Hu. destruct (is_passing ti 0 _ _) eqn:Ep; [|discriminate].
      injection Hu as <-. split; [done|]. by eapply passing_reaches.
    + eapply TSame; [done|done|cbn; by rewrite Ed|done|]. intros e' since' until' [= <-] [= <- <-]. by eapply passing_reaches.
    + eapply (TConfirm _ _ _ _ _ r0 e ti since); cbn; try done. by eapply passing_reaches.
    + by eapply (TAbort _ _ _ _ _ r0 since c).
Qed.

Lemma turn_step s x : ginv s -> known s -> paid s ->
  paid (gstep_run s x) /\ forall i p r, is_open (gstep_run s x) i p r -> turn s x i p r.
Proof.
  intros I K D.
  assert (Hx : (exists e j q, x = GService e j q) \/ forall e j q, x <> GService e j q).
  { destruct x; try (by right); left; eauto. }
  destruct Hx as [(e & j & q & ->)|Hx]; [by apply turn_service|].
  cut ((x <> GBlock -> gv_now (gstep_run s x) = gv_now s) /\ paid (gstep_run s x) /\ forall i p r, is_open (gstep_run s x) i p r -> turn s x i p r); [tauto|].
  assert (Hid : forall i p r, is_open s i p r -> turn s x i p r).
  { intros i p r Hr. eapply TSame; try done. intros e since until E. by apply Hx in E. }
  apply (step_induct_env (fun s' => (x <> GBlock -> gv_now s' = gv_now s) /\ paid s' /\ forall i p r, is_open s' i p r -> turn s x i p r)); try done.
  - intros s1 o1 k1 e s2 Hh He Hl (Hn & D1 & IH) Hc. pose proof Hc as Hc0. apply leaf_kind_of in Hc; [|done].
    assert (Hnb : x <> GBlock) by (intros ->; inversion Hh). pose proof (leaf_now _ _ _ _ _ Hc) as En. specialize (Hn Hnb). split; [congruence|].
    inversion Hc as [i po k' w t E0 H1 H2 H3|j q r0 t ti E0 Hs Hr0 Hdep Ht Hti E|j q r0 E0 _ Hr0 E|j q r0 E0 _ Hr0 E|q aye who rank r0 t E0 E1 _ _ _ _ E
      |who r0 E0 _ _ _ E|who r0 E0 _ _ E|who r0 m E0 _ _ _ E|who r0 w E0 _ _ _ E|m' E0 E Hm Hj|n k' E0 _ _ E|n E0 E]; try (rewrite E; done).
    + destruct (submit_fields _ _ _ _ _ _ _ _ H3) as (t' & Ht' & F1 & _). split.
      * intros j q r Hr Hd. unfold is_open in Hr. rewrite F1 in Hr. rewrite lookup_insert_Some in Hr. destruct Hr as [[_ [= <-]]|[_ Hr]]; [done|by eapply D1].
      * intros j q r Hr. unfold is_open in Hr. rewrite F1 in Hr. rewrite lookup_insert_Some in Hr. destruct Hr as [[_ [= <-]]|[_ Hr]]; [by apply TNew|by apply IH].
    + destruct (D1 _ _ _ Hr0 Hdep) as [Dd Dq]. subst k1.
      set (y := service e (gv_now s1) (undeciding_timeout j) ti (approval t) (gsupport e s1 j (rf_track r0) t) (rset_deposit r0)) in E.
      rewrite E. split.
      * intros i p r Hr Hd. apply put_open in Hr as [[[= -> ->] E1]|[_ Hr]]; [|by eapply D1]. subst y.
        pose proof (service_keeps _ _ _ _ _ _ _ _ E1) as [_ Ed]. by rewrite Hd in Ed.
      * intros i p r Hr. apply put_open in Hr as [[[= -> ->] E1]|[_ Hr]]; [|by apply IH].
        assert (Hlk : looked s x s1 e j q) by (split; [done|]; right; eauto).
        destruct (service_cases e (gv_now s1) (undeciding_timeout j) ti (approval t) (gsupport e s1 j (rf_track r0) t) (rset_deposit r0))
          as [(since & until & _ & _ & _ & E2)|[E2|[E2|(d & b & E2 & Hg)]]]; subst y; rewrite E2 in E1; try discriminate. injection E1 as <-. clear E2.
        inversion Hg as [Ed Eo Eb|Ed Eq Edep Epr Eo Eb|Ed Eq Edep Epr Eo Eb|since until Ed Ep Hlt Eo Eb|since Ed Ep Eo Eb|since c Ed Ep Eo Eb]; subst d b;
          cbn in Ed; try congruence.
        -- destruct (IH _ _ _ Hr0) as [r00 G1 G2 G3 G4 G5|G1 G2 G3|s3 e3 ti3 G1 G2 G3 G4 G5 G6|s3 e3 ti3 c3 G1 G2 G3 G4 G5 G6 G7|r00 e3 ti3 since G1 G2 G3 G4 G5 G6 G7 G8|r00 since c G1 G2 G3 G4 G5];
             try congruence.
           ++ eapply (TSame _ _ _ _ _ r00); cbn; try done. congruence.
           ++ by apply TNew.
           ++ by eapply (TQueued _ _ _ _ _ s3 e3 ti3).
        -- eapply (TQueued _ _ _ _ _ s1 e ti); cbn in *; try done. lia.
        -- eapply (TBegin _ _ _ _ _ s1 e ti); cbn in *; try done; [by left|]. intros u Hu. destruct (is_passing ti 0 _ _) eqn:Ep; [|discriminate].
           injection Hu as <-. split; [done|]. by eapply passing_reaches.
    + rewrite E. split.
      * intros i p r Hr Hd. apply put_open in Hr as [[_ ?]|[_ Hr]]; [discriminate|by eapply D1].
      * intros i p r Hr. apply put_open in Hr as [[_ ?]|[_ Hr]]; [discriminate|by apply IH].
    + rewrite E. split.
      * intros i p r Hr Hd. apply put_open in Hr as [[_ ?]|[_ Hr]]; [discriminate|by eapply D1].
      * intros i p r Hr. apply put_open in Hr as [[_ ?]|[_ Hr]]; [discriminate|by apply IH].
  - intros e i q E. by apply Hx in E.
  - intros e j q ->. destruct (next_effect e s j q) as [->|(r0 & t & ti & Hr0 & Ht & Hti & Hq & Hd0 & ->)]; [done|].
    split; [by destruct (put_status_fields s j q (ROngoing (begin_deciding (gv_now s) ti (approval t) (gsupport e s j (rf_track r0) t) r0))) as (_ & _ & _ & _ & _ & E & _)|].
    split.
    + intros i p r Hr Hd. apply put_open in Hr as [[_ [= <-]]|[_ Hr]]; [|by eapply D]. cbn in Hd. destruct (D _ _ _ Hr0 Hd). congruence.
    + intros i p r Hr. apply put_open in Hr as [[[= -> ->] [= <-]]|[_ Hr]]; [|by apply Hid].
      assert (Hlk : looked s (GNext e j q) s e j q) by (split; [done|]; left; eauto).
      eapply (TBegin _ _ _ _ _ s e ti); cbn; try done; [right; by exists r0|]. intros u Hu. destruct (is_passing ti 0 _ _) eqn:Ep; [|discriminate].
      injection Hu as <-. split; [done|]. by eapply passing_reaches.
Qed.

(* ------------------------------------------------------------------ *)
(** * Histories *)

Lemma prepared_more s0 l l' i p t b n n' : prepared s0 l i p t b n -> n <= n' -> prepared s0 (l ++ l') i p t b n'.
Proof.
  intros (l1 & x & l2 & s & e & ti & -> & H1 & H2 & H3 & H4) Hn. exists l1, x, (l2 ++ l'), s, e, ti. split_and!; [by rewrite <- app_assoc|done..|lia].
Qed.
Lemma reaches_track e s i p r r' n : rf_track r' = rf_track r -> reaches e s i p r n -> reaches e s i p r' n.
Proof. unfold reaches. by intros ->. Qed.
Lemma snoc_split {A} (l : list A) x m1 y m2 : l ++ [x] = m1 ++ y :: m2 -> (m2 = [] /\ l = m1 /\ x = y) \/ exists m2', m2 = m2' ++ [x] /\ l = m1 ++ y :: m2'.
Proof.
  destruct m2 as [|z m2] using rev_ind.
  - intros H. apply app_inj_tail in H as [-> ->]. by left.
  - rewrite app_comm_cons, app_assoc. intros H. apply app_inj_tail in H as [-> ->]. right. by eexists.
Qed.

Definition timed (s0 : gstate) (l : list gstep) : Prop := forall i p r, is_open (grun s0 l) i p r ->
  rf_submitted r <= gv_now (grun s0 l) /\
  (rf_queued r = true -> prepared s0 l i p (rf_track r) (rf_submitted r) (gv_now (grun s0 l))) /\
  (forall since c, rf_deciding r = Some (since, c) -> since <= gv_now (grun s0 l) /\ prepared s0 l i p (rf_track r) (rf_submitted r) since /\
    forall until, c = Some until -> confirmed s0 l i p r since until).

Lemma now_step s x : gv_now s <= gv_now (gstep_run s x).
Proof.
  apply (step_induct (fun s' => gv_now s <= gv_now s')); try done.
  - intros s1 o1 k1 e s2 _ Hl IH Hc. apply leaf_kind_of in Hc; [|done]. by rewrite (leaf_now _ _ _ _ _ Hc).
  - intros e i q _. destruct (service_effect e s i q) as [->|(r0 & t & ti & y & _ & _ & _ & _ & _ & [->|[_ ->]])]; [done|..]; cbn;
      by destruct (put_status_fields s i q y) as (_ & _ & _ & _ & _ & -> & _).
  - intros e i q _. destruct (next_effect e s i q) as [->|(r0 & t & ti & _ & _ & _ & _ & _ & ->)]; [done|].
    by destruct (put_status_fields s i q (ROngoing (begin_deciding (gv_now s) ti (approval t) (gsupport e s i (rf_track r0) t) r0))) as (_ & _ & _ & _ & _ & -> & _).
  - intros _. cbn. lia.
Qed.

Lemma timed_run ranks now l : timed (g_start ranks now) l /\ paid (grun (g_start ranks now) l).
Proof.
  set (s0 := g_start ranks now). induction l as [|x l [IH D] ] using rev_ind; [split; [intros i p r Hr; done|intros i p r Hr; done]|].
  pose proof (ginv_run _ l (ginv_start ranks now)) as I. pose proof (known_run _ l (known_start ranks now)) as K. fold s0 in I, K.
  destruct (turn_step (grun s0 l) x I K D) as [D' T]. unfold timed. rewrite grun_snoc. split; [|done].
  intros i p r Hr. pose proof (now_step (grun s0 l) x) as Hnow. unfold timed in IH. set (s := grun s0 l) in *.
  destruct (T i p r Hr) as [r0 G1 G2 G3 G4 G5|G1 G2 G3|s1 e ti G1 G2 G3 G4 G5 G6|s1 e ti c G1 G2 G3 G4 G5 G6 G7|r0 e ti since G1 G2 G3 G4 G5 G6 G7 G8|r0 since c G1 G2 G3 G4 G5].
  - destruct (IH _ _ _ G1) as (H1 & H2 & H3). destruct G2 as (K1 & _ & _ & _ & K5). rewrite K1, K5, G3, G4. split_and!; [lia|..].
    + intros Hq. eapply prepared_more; [by apply H2|done].
    + intros since c Hd. destruct (H3 since c Hd) as (J1 & J2 & J3). split_and!; [lia|by eapply prepared_more|].
      intros u ->. destruct (J3 u eq_refl) as (l1 & y & l2 & s1 & e & ti & -> & C1 & C2 & C3 & C4 & C5 & C6).
      exists l1, y, (l2 ++ [x]), s1, e, ti. split_and!; try done.
      * by rewrite <- app_assoc.
      * by rewrite K1.
      * by eapply reaches_track.
      * intros m1 e' m2 Hs. apply snoc_split in Hs as [(-> & -> & ->)|(m2' & -> & ->)].
        -- cbv zeta. apply (G5 e' since u eq_refl). by rewrite G3.
        -- cbv zeta. eapply reaches_track; [done|]. by eapply C6.
  - split_and!; [rewrite G3; done|by rewrite G2|]. intros since c. by rewrite G1.
  - split_and!; [lia| |intros since c; by rewrite G1]. intros _. exists l, x, [], s1, e, ti. split_and!; try done. lia.
  - assert (Hsub : rf_submitted r <= gv_now s1 /\ prepared s0 (l ++ [x]) i p (rf_track r) (rf_submitted r) (gv_now s1)).
    { destruct G6 as [G6|(r0 & R1 & R2 & R3 & R4)].
      - split; [lia|]. exists l, x, [], s1, e, ti. by split_and!.
      - destruct (IH _ _ _ R1) as (H1 & H2 & _). destruct R2 as (K1 & _ & _ & _ & K5). rewrite K1, K5. split; [by rewrite G4|].
        eapply prepared_more; [by apply H2|]. by rewrite G4. }
    destruct Hsub as [Hs1 Hs2]. split_and!; [lia|by rewrite G2|]. intros since c'. rewrite G1. intros [= <- <-]. split_and!; [lia|done|].
    intros u ->. destruct (G7 u eq_refl) as [-> Hrc]. exists l, x, [], s1, e, ti. split_and!; try done.
    { by rewrite N.sub_diag. } { intros m1 e' m2 Hs. by destruct m1. }
  - destruct (IH _ _ _ G1) as (H1 & H2 & H3). destruct G2 as (K1 & _ & _ & _ & K5). rewrite K1, K5, G4. split_and!; [lia|..].
    + intros Hq. eapply prepared_more; [by apply H2|done].
    + intros since' c' Hd. rewrite G5 in Hd. injection Hd as <- <-. destruct (H3 since None G3) as (J1 & J2 & _). split_and!; [lia|by eapply prepared_more|].
      intros u [= <-]. exists l, x, [], s, e, ti. split_and!; try done.
      { subst x. split; [done|]. left. eauto. } { intros m1 e' m2 Hs. by destruct m1. }
  - destruct (IH _ _ _ G1) as (H1 & H2 & H3). destruct G2 as (K1 & _ & _ & _ & K5). rewrite K1, K5, G4. split_and!; [lia|..].
    + intros Hq. eapply prepared_more; [by apply H2|done].
    + intros since' c' Hd. rewrite G5 in Hd. injection Hd as <- <-. destruct (H3 since c G3) as (J1 & J2 & _). split_and!; [lia|by eapply prepared_more|].
      intros u [=].
Qed.

(** When the task of a decision is due. *)
Definition due_right (s0 : gstate) (l : list gstep) (i : inst) (p due : N) : Prop :=
  exists l1 e l2 r ti, l = l1 ++ GService e i p :: l2 /\ approved_at (grun s0 l1) e i p r /\ track_info_of (grun s0 l1) i (rf_track r) = Some ti /\
    gv_refs (grun s0 (l1 ++ [GService e i p])) !! (i, p) = Some (RApproved (gv_now (grun s0 l1))) /\ due = enact_at (gv_now (grun s0 l1)) ti (rf_enact r).
Lemma tasks_due ranks now l t i p : In t (gv_agenda (grun (g_start ranks now) l)) -> tk_source t = Some (i, p) -> due_right (g_start ranks now) l i p (tk_due t).
Proof.
  set (s0 := g_start ranks now). induction l as [|x l IH] using rev_ind; intros Ht Hs; [done|]. rewrite grun_snoc in Ht.
  apply step_tasks in Ht as [Ht|[(s1 & n & k' & _ & _ & ->)|(j & q & r & ti & (e & -> & Ha & Hap) & Hti & ->)]].
  - destruct (IH Ht Hs) as (l1 & e & l2 & r & ti & -> & H). exists l1, e, (l2 ++ [x]), r, ti. split; [by rewrite <- app_assoc|done].
  - done.
  - cbn in Hs. injection Hs as -> ->. exists l, e, [], r, ti. split_and!; try done. by rewrite grun_snoc.
Qed.

(** How long a decision takes: prepared, decided about, confirmed without a break, approved, and carried out no earlier than its track and
    its proposal say. *)
Lemma carried_in_time : forall ranks now l x i p,
  let s0 := g_start ranks now in
  carries_out (grun s0 l) x i p ->
  exists l1 e l2 r since until ti, l = l1 ++ GService e i p :: l2 /\ was_approved s0 l i p r /\ is_open (grun s0 l1) i p r /\
    track_info_of (grun s0 l1) i (rf_track r) = Some ti /\
    prepared s0 l1 i p (rf_track r) (rf_submitted r) since /\ confirmed s0 l1 i p r since until /\
    until <= gv_now (grun s0 l1) /\ reaches e (grun s0 l1) i p r (gv_now (grun s0 l1) - since) /\
    gv_now (grun s0 l1) + N.max (ti_enactment ti) 1 <= gv_now (grun s0 l) /\
    match rf_enact r with MAt n => n <= gv_now (grun s0 l) | MAfter n => gv_now (grun s0 l1) + n <= gv_now (grun s0 l) end.
Proof.
  intros ranks now l x i p s0 (e & n & t & -> & Hn & Hdue & Hs). apply elem_of_list_lookup_2, elem_of_list_In in Hn.
  destruct (tasks_due ranks now l t i p Hn Hs) as (l1 & e1 & l2 & r & ti & E & [Ho (since & until & Hd & Hu & Hre)] & Hti & Hap & Edue). fold s0 in E, Ho, Hti, Hap, Edue, Hu, Hre.
  destruct (timed_run ranks now l1) as [T _]. destruct (T i p r Ho) as (_ & _ & T3). destruct (T3 _ _ Hd) as (_ & T4 & T5).
  exists l1, e1, l2, r, since, until, ti. rewrite Edue in Hdue. unfold enact_at in Hdue.
  split_and!; try done; [|by apply T5|lia|destruct (rf_enact r); lia].
  exists l1, e1, l2. split_and!; try done. split; [done|]. exists since, until. done.
Qed.

Local Transparent kreivo_tracks.
Lemma kreivo_periods s t ti : track_info_of s Collective t = Some ti -> ti_prepare ti = 150 /\ ti_confirm ti = 150 /\ ti_enactment ti = 1 /\ ti_decision ti = 57600.
Proof.
  intros H. apply kreivo_track_listed in H. unfold kreivo_tracks in H. cbv zeta in H. cbn [In] in H.
  destruct H as [H|[H|[H|[H|[]]]]]; injection H as _ <-; by vm_compute.
Qed.
Local Opaque kreivo_tracks.

(** The collective: an hour and a bit at six seconds a block, whatever it decides. *)
Lemma collective_takes : forall ranks now l x p,
  let s0 := g_start ranks now in
  carries_out (grun s0 l) x Collective p ->
  exists r o s, was_approved s0 l Collective p r /\ was_submitted s0 l Collective p o (rf_origin r) (rf_call r) (rf_enact r) s /\
    gv_now s + 301 <= gv_now (grun s0 l).
Proof.
  intros ranks now l x p s0 Hc. destruct (carried_in_time ranks now l x Collective p Hc) as (l1 & e & l2 & r & since & until & ti & -> & Ha & Ho & Hti & Hp & Hcf & Hu & _ & Hen & _).
  fold s0 in Ha, Ho, Hti, Hp, Hcf, Hu, Hen |- *.
  destruct (proposed _ _ _ _ _ _ Ho) as (o & s & Hsub & Es & _). exists r, o, s. split_and!; [done|by apply was_submitted_more|].
  destruct Hp as (a1 & y & a2 & s1 & e1 & ti1 & _ & _ & P1 & P2 & P3). destruct Hcf as (b1 & z & b2 & s2 & e2 & ti2 & _ & _ & C1 & C2 & C3 & _).
  apply kreivo_periods in P1 as (Q1 & _). apply kreivo_periods in C1 as (_ & Q2 & _). apply kreivo_periods in Hti as (_ & _ & Q3 & _).
  rewrite Q1 in P2. rewrite Q2 in C3. rewrite Q3 in Hen. rewrite <- Es. lia.
Qed.

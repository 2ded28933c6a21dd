(** Referenda of the collective end in time. *)
From stdpp Require Import gmap.
From Verif Require Import Base XcmTypes OriginTypes AccountsModel CommunitiesModel CommunitiesSpec TracksModel TracksSpec
  TracksProofs ManagerModel ManagerSpec XcmConfigModel GovernanceModel GovernanceSpec GovernanceProofs GovernanceMore GovernanceRanks GovernanceTiming EndInTimeSpec.
Open Scope N_scope.

Local Opaque community_account treasury_account community_deposit kreivo_tracks.

(** Before the end of the period, or in its last block. *)
Definition early (now : N) (r : referendum) : Prop := forall t, period_end r = Some t -> now < t.
Definition in_time (W : Prop) (now : N) (r : referendum) : Prop :=
  (forall t, period_end r = Some t -> now <= t) /\
  forall d c, rf_deciding r = Some (d, c) -> d <= now /\ (W \/ d <= rf_submitted r + 28800) /\ forall u, c = Some u -> u <= d + 57600 + 150.

Lemma service_early e now ti app sup r r' W : ti_confirm ti = 150 -> ti_decision ti = 57600 ->
  in_time W now r -> service e now 28800 ti app sup r = ROngoing r' -> early now r' /\ in_time W now r'.
Proof.
  intros HC HD [J1 J2] H. unfold service in H. unfold early, in_time, period_end in *.
  destruct (rf_deciding r) as [[since c]|] eqn:Ed.
  - destruct (J2 _ _ eq_refl) as (J3 & J4 & J5). destruct (is_passing _ _ _ _).
    + destruct c as [t|].
      * destruct (t <=? now) eqn:Et; [discriminate|]. injection H as <-. rewrite Ed. apply N.leb_gt in Et. split; [by intros ? [= <-]|]. split; [done|].
        intros d c [= <- <-]. split_and!; [done..|]. done.
      * injection H as <-. cbn. specialize (J1 _ eq_refl). rewrite HC. split; [intros ? [= <-]; lia|]. split; [intros ? [= <-]; lia|].
        intros d c [= <- <-]. split_and!; [done..|]. intros u [= <-]. lia.
    + destruct (_ <=? now) eqn:Et; [discriminate|]. apply N.leb_gt in Et. rewrite HD in Et. injection H as <-. cbn.
      split; [by intros ? [= <-]|]. split; [intros ? [= <-]; lia|]. intros d c' [= <- <-]. split_and!; [done..|]. discriminate.
  - destruct (rf_queued r) eqn:Eq; [injection H as <-; rewrite Ed, Eq; done|]. specialize (J1 _ eq_refl).
    destruct (_ && _).
    + destruct (ge_slot e); injection H as <-; cbn; [|rewrite ?Ed; split_and!; done].
      rewrite HC. destruct (is_passing _ _ _ _).
      * split; [intros ? [= <-]; lia|]. split; [intros ? [= <-]; lia|]. intros d c [= <- <-]. split_and!; [lia|by right|]. intros u [= <-]. lia.
      * split; [intros ? [= <-]; lia|]. split; [intros ? [= <-]; lia|]. intros d c [= <- <-]. split_and!; [lia|by right|]. discriminate.
    + destruct (_ <=? now) eqn:Et; [discriminate|]. apply N.leb_gt in Et. injection H as <-. rewrite Ed, Eq. split; [by intros ? [= <-]|].
      split; [intros ? [= <-]; lia|]. done.
Qed.

Definition all_early (p : N) (s : gstate) : Prop := forall r, is_open s Collective p r -> early (gv_now s) r.
Definition all_in_time (W : Prop) (p : N) (s : gstate) : Prop := forall r, is_open s Collective p r -> in_time W (gv_now s) r.

Lemma service_makes_early W e s p : ginv s -> known s -> all_in_time W p s -> all_early p (g_service e s Collective p) /\ all_in_time W p (g_service e s Collective p).
Proof.
  intros I K J.
  assert (H : forall r, is_open (g_service e s Collective p) Collective p r -> gv_now (g_service e s Collective p) = gv_now s /\ early (gv_now s) r /\ in_time W (gv_now s) r).
  { intros r Hr. unfold g_service in Hr |- *. destruct (gv_refs s !! (Collective, p)) as [[r0| | | | |]|] eqn:Hr0; try (unfold is_open in Hr; congruence).
    destruct (open_ready s Collective p r0 I K Hr0) as (t & ti & Ht & Hti). rewrite Ht, Hti in *.
    destruct (kreivo_periods _ _ _ Hti) as (_ & HC & _ & HD).
    set (y := service e (gv_now s) (undeciding_timeout Collective) ti (approval t) (gsupport e s Collective (rf_track r0) t) r0) in *.
    assert (Hy : is_open (put_status s Collective p y) Collective p r) by (revert Hr; destruct y; try done; by destruct (ge_sched_ok e)).
    apply put_open in Hy as [[_ Hy]|[? _]]; [|done]. rewrite Hy.
    split; [by destruct (put_status_fields s Collective p (ROngoing r)) as (_ & _ & _ & _ & _ & E & _)|].
    subst y. eapply service_early; [exact HC|exact HD|by apply J|exact Hy]. }
  split; intros r Hr; destruct (H r Hr) as (-> & H1 & H2); done.
Qed.

(** Every step but the end of a block keeps both. *)
Lemma step_in_time (W : Prop) s x p : ginv s -> known s -> paid s -> x <> GBlock ->
  (forall r, is_open s Collective p r -> rf_deciding r = None -> rf_queued r = true -> W) ->
  all_in_time W p s -> all_in_time W p (gstep_run s x) /\ (all_early p s -> all_early p (gstep_run s x)).
Proof.
  intros I K D Hx HW J.
  cut (gv_now (gstep_run s x) = gv_now s /\ paid (gstep_run s x) /\ all_in_time W p (gstep_run s x) /\ (all_early p s -> all_early p (gstep_run s x))); [tauto|].
  apply (step_induct_env (fun s' => gv_now s' = gv_now s /\ paid s' /\ all_in_time W p s' /\ (all_early p s -> all_early p s'))); try done.
  - intros s1 o1 k1 e s2 Hh He Hl (Hn & D1 & IH1 & IH2) Hc. apply leaf_kind_of in Hc; [|done].
    pose proof (leaf_now _ _ _ _ _ Hc) as En.
    assert (Hsame : gv_refs s2 = gv_refs s1 -> gv_now s2 = gv_now s /\ paid s2 /\ all_in_time W p s2 /\ (all_early p s -> all_early p s2)).
    { intros E. unfold paid, all_in_time, all_early, is_open in *. rewrite E, En. done. }
    inversion Hc as [i po k' w t E0 H1 H2 H3|j q r0 t ti E0 Hs Hr0 Hdep Ht Hti E|j q r0 E0 _ Hr0 E|j q r0 E0 _ Hr0 E|q aye who rank r0 t E0 E1 _ _ _ _ E
      |who r0 E0 _ _ _ E|who r0 E0 _ _ E|who r0 m E0 _ _ _ E|who r0 w E0 _ _ _ E|m' E0 E Hm Hj|n k' E0 _ _ E|n E0 E]; try (apply Hsame; rewrite E; done).
    + destruct (submit_fields _ _ _ _ _ _ _ _ H3) as (t' & Ht' & F1 & _). split; [congruence|]. split_and!.
      * intros j q r Hr Hd. unfold is_open in Hr. rewrite F1 in Hr. rewrite lookup_insert_Some in Hr. destruct Hr as [[_ [= <-]]|[_ Hr]]; [done|by eapply D1].
      * intros r Hr. rewrite En. unfold is_open in Hr. rewrite F1 in Hr. rewrite lookup_insert_Some in Hr. destruct Hr as [[_ [= <-]]|[_ Hr]]; [|by apply IH1].
        split; cbn; [|done]. intros ? [= <-]. lia.
      * intros Ha r Hr. rewrite En. unfold is_open in Hr. rewrite F1 in Hr. rewrite lookup_insert_Some in Hr. destruct Hr as [[_ [= <-]]|[_ Hr]]; [|by apply IH2].
        intros t0. cbn. intros [= <-]. lia.
    + destruct (D1 _ _ _ Hr0 Hdep) as [Dd Dq]. subst k1.
      set (y := service e (gv_now s1) (undeciding_timeout j) ti (approval t) (gsupport e s1 j (rf_track r0) t) (rset_deposit r0)) in E.
      split; [congruence|]. rewrite E in *.
      assert (Hp : forall r, j = Collective -> q = p -> y = ROngoing r -> early (gv_now s1) r /\ in_time W (gv_now s1) r).
      { intros r -> -> Hy. destruct (kreivo_periods _ _ _ Hti) as (_ & HC & _ & HD). subst y.
        eapply service_early; [exact HC|exact HD| |exact Hy]. destruct (IH1 _ Hr0) as [G1 G2]. split; cbn; [exact G1|exact G2]. }
      split_and!.
      * intros i q' r Hr Hd. apply put_open in Hr as [[[= -> ->] E1]|[_ Hr]]; [|by eapply D1]. subst y.
        pose proof (service_keeps _ _ _ _ _ _ _ _ E1) as [_ Ed]. by rewrite Hd in Ed.
      * intros r Hr. rewrite En. apply put_open in Hr as [[[= <- <-] E1]|[_ Hr]]; [|by apply IH1]. by apply Hp.
      * intros Ha r Hr. rewrite En. apply put_open in Hr as [[[= <- <-] E1]|[_ Hr]]; [|by apply IH2]. by apply Hp.
    + rewrite E in *. split; [congruence|]. split_and!.
      * intros i q' r Hr Hd. apply put_open in Hr as [[_ ?]|[_ Hr]]; [discriminate|by eapply D1].
      * intros r Hr. rewrite En. apply put_open in Hr as [[_ ?]|[_ Hr]]; [discriminate|by apply IH1].
      * intros Ha r Hr. rewrite En. apply put_open in Hr as [[_ ?]|[_ Hr]]; [discriminate|by apply IH2].
    + rewrite E in *. split; [congruence|]. split_and!.
      * intros i q' r Hr Hd. apply put_open in Hr as [[_ ?]|[_ Hr]]; [discriminate|by eapply D1].
      * intros r Hr. rewrite En. apply put_open in Hr as [[_ ?]|[_ Hr]]; [discriminate|by apply IH1].
      * intros Ha r Hr. rewrite En. apply put_open in Hr as [[_ ?]|[_ Hr]]; [discriminate|by apply IH2].
  - intros e j q ->. destruct (turn_service e s j q I K D) as [Dp _].
    assert (En : gv_now (g_service e s j q) = gv_now s).
    { destruct (service_effect e s j q) as [->|(r0 & t & ti & y & _ & _ & _ & _ & _ & [->|[_ ->]])]; [done|..];
        by destruct (put_status_fields s j q y) as (_ & _ & _ & _ & _ & E & _). }
    split; [done|]. split; [done|]. destruct (decide ((j, q) = (Collective, p))) as [[= -> ->]|Hn].
    + destruct (service_makes_early W e s p I K J). done.
    + assert (Ho : forall r, is_open (g_service e s j q) Collective p r -> is_open s Collective p r).
      { intros r. destruct (service_effect e s j q) as [->|(r0 & t & ti & y & _ & _ & _ & _ & _ & [->|[_ ->]])]; [done|..];
          intros Hr; apply put_open in Hr as [[[= <- <-] _]|[_ Hr]]; done. }
      split; [intros r Hr; rewrite En; by apply J, Ho|]. intros Ha r Hr. rewrite En. by apply Ha, Ho.
  - intros e j q ->. destruct (turn_step s (GNext e j q) I K D) as [Dp _]. cbn [gstep_run] in Dp.
    destruct (next_effect e s j q) as [->|(r0 & t & ti & Hr0 & Ht & Hti & Hq & Hd0 & E)]; [done|]. rewrite E in *.
    set (y := begin_deciding (gv_now s) ti (approval t) (gsupport e s j (rf_track r0) t) r0) in *.
    assert (En : gv_now (put_status s j q (ROngoing y)) = gv_now s) by (by destruct (put_status_fields s j q (ROngoing y)) as (_ & _ & _ & _ & _ & E1 & _)).
    assert (Hp : j = Collective -> q = p -> early (gv_now s) y /\ in_time W (gv_now s) y).
    { intros -> ->. destruct (kreivo_periods _ _ _ Hti) as (_ & HC & _ & HD). subst y. unfold begin_deciding, early, in_time, period_end. cbn. rewrite HC.
      pose proof (HW _ Hr0 Hd0 Hq) as Hw. destruct (is_passing _ _ _ _).
      - split; [intros ? [= <-]; lia|]. split; [intros ? [= <-]; lia|]. intros d c [= <- <-]. split_and!; [lia|by left|]. intros u [= <-]. lia.
      - split; [intros ? [= <-]; lia|]. split; [intros ? [= <-]; lia|]. intros d c [= <- <-]. split_and!; [lia|by left|]. discriminate. }
    split; [done|]. split; [done|]. split.
    + intros r Hr. rewrite En. apply put_open in Hr as [[[= <- <-] [= <-]]|[_ Hr]]; [by apply Hp|by apply J].
    + intros Ha r Hr. rewrite En. apply put_open in Hr as [[[= <- <-] [= <-]]|[_ Hr]]; [by apply Hp|by apply Ha].
Qed.

Lemma weaken (W W' : Prop) p s : (W -> W') -> all_in_time W p s -> all_in_time W' p s.
Proof. intros HW J r Hr. destruct (J r Hr) as [J1 J2]. split; [done|]. intros d c Hd. destruct (J2 d c Hd) as (? & [?|?] & ?); split_and!; auto. Qed.
Lemma waited_more s0 l x p : waited s0 l p -> waited s0 (l ++ [x]) p.
Proof. intros (l1 & l2 & r & -> & H). exists l1, (l2 ++ [x]), r. by rewrite <- app_assoc. Qed.
Lemma attended_less s0 l x p : attended s0 (l ++ [x]) p -> attended s0 l p.
Proof. intros A l1 mid l2 r -> H1 H2 H3 H4. eapply (A l1 mid (l2 ++ [x]) r); [by rewrite <- !app_assoc|done..]. Qed.

Lemma classic_block x : x = GBlock \/ x <> GBlock.
Proof. destruct x; (by left) || (by right). Qed.
Lemma open_dec s p : (exists r, is_open s Collective p r) \/ forall r, ~ is_open s Collective p r.
Proof. unfold is_open. destruct (gv_refs s !! (Collective, p)) as [[r| | | | |]|]; try (by right; intros ? ?); left; by exists r. Qed.

(** The last block of the history: [l1] is what came before, [mid] what happened in it. *)
Definition in_block (s0 : gstate) (p : N) (l : list gstep) : Prop := exists l1 mid, l = l1 ++ mid /\ (l1 = [] \/ exists l0, l1 = l0 ++ [GBlock]) /\ GBlock ∉ mid /\
  all_in_time (waited s0 l p) p (grun s0 l) /\
  (((forall r, is_open (grun s0 l1) Collective p r -> period_end r <> Some (gv_now (grun s0 l1))) \/ exists e, GService e Collective p ∈ mid) -> all_early p (grun s0 l)).

Lemma in_block_run ranks now l p : attended (g_start ranks now) l p -> in_block (g_start ranks now) p l.
Proof.
  set (s0 := g_start ranks now). induction l as [|x l IH] using rev_ind; intros A.
  { exists [], []. split_and!; [done|by left|apply not_elem_of_nil|done|done]. }
  destruct (IH (attended_less _ _ _ _ A)) as (l1 & mid & -> & Hl1 & Hmid & J & E). clear IH.
  set (l := l1 ++ mid) in *. pose proof (ginv_run _ l (ginv_start ranks now)) as I. pose proof (known_run _ l (known_start ranks now)) as K.
  pose proof (proj2 (timed_run ranks now l)) as D. fold s0 in I, K, D.
  assert (Jw : all_in_time (waited s0 (l ++ [x]) p) p (grun s0 l)) by (eapply weaken; [apply waited_more|done]).
  assert (HW : forall r, is_open (grun s0 l) Collective p r -> rf_deciding r = None -> rf_queued r = true -> waited s0 (l ++ [x]) p).
  { intros r Hr Hd Hq. exists l, [x], r. done. }
  destruct (classic_block x) as [->|Hx].
  - assert (Ea : all_early p (grun s0 l)).
    { apply E. destruct (open_dec (grun s0 l1) p) as [[r Hr]|Hn]; [|left; intros r Hr; by destruct (Hn r)].
      destruct (decide (period_end r = Some (gv_now (grun s0 l1)))) as [Ep|Ep].
      - right. eapply (A l1 mid [] r); [unfold l; by rewrite <- app_assoc|done..].
      - left. intros r' Hr'. unfold is_open in Hr, Hr'. by assert (r' = r) as -> by congruence. }
    assert (J' : all_in_time (waited s0 (l ++ [GBlock]) p) p (grun s0 (l ++ [GBlock]))).
    { rewrite grun_snoc. intros r Hr. destruct (Jw r Hr) as [J1 J2]. pose proof (Ea r Hr) as J3. cbn. split; [intros t Ht; specialize (J3 t Ht); lia|].
      intros d c Hd. destruct (J2 d c Hd) as (? & ? & ?). split_and!; [lia|done..]. }
    exists (l ++ [GBlock]), []. split_and!; [by rewrite app_nil_r|right; by eexists|apply not_elem_of_nil|exact J'|].
    intros [H|[e He]]; [|by apply elem_of_nil in He]. intros r Hr t Ht. destruct (J' r Hr) as [J1 _]. specialize (J1 t Ht). specialize (H r Hr).
    rewrite Ht in H. assert (t <> gv_now (grun s0 (l ++ [GBlock]))) by congruence. lia.
  - exists l1, (mid ++ [x]). pose proof (step_in_time (waited s0 (l ++ [x]) p) (grun s0 l) x p I K D Hx HW Jw) as [S1 S2].
    split_and!; [by unfold l; rewrite app_assoc|done| | |].
    + intros [?|H%elem_of_list_singleton]%elem_of_app; [done|by subst].
    + by rewrite grun_snoc.
    + rewrite grun_snoc. intros [H|[e [He|He%elem_of_list_singleton]%elem_of_app]]; [apply S2, E; by left|apply S2, E; right; by eexists|].
      subst x. cbn [gstep_run]. eapply (service_makes_early (waited s0 (l ++ [GService e Collective p]) p)); done.
Qed.

Lemma ends_in_time : forall ranks now l p r, let s := grun (g_start ranks now) l in
  attended (g_start ranks now) l p -> is_open s Collective p r ->
  match rf_deciding r with
  | None => rf_queued r = true \/ gv_now s <= rf_submitted r + 28800
  | Some (since, _) => since <= gv_now s /\ gv_now s <= since + 57750
  end.
Proof.
  intros ranks now l p r s A Hr. destruct (in_block_run ranks now l p A) as (l1 & mid & _ & _ & _ & J & _). destruct (J r Hr) as [J1 J2]. fold s in J1, J2.
  unfold period_end in J1. destruct (rf_deciding r) as [[d c]|].
  - destruct (J2 _ _ eq_refl) as (H1 & _ & H2). split; [done|]. destruct c as [u|]; [specialize (H2 _ eq_refl); specialize (J1 _ eq_refl); lia|specialize (J1 _ eq_refl); lia].
  - destruct (rf_queued r); [by left|right]. by apply J1.
Qed.
Lemma ends_in_all : forall ranks now l p r, let s0 := g_start ranks now in
  attended s0 l p -> is_open (grun s0 l) Collective p r -> ~ waited s0 l p ->
  gv_now (grun s0 l) <= rf_submitted r + 86550.
Proof.
  intros ranks now l p r s0 A Hr Hw. destruct (in_block_run ranks now l p A) as (l1 & mid & _ & _ & _ & J & _). destruct (J r Hr) as [J1 J2]. fold s0 in J1, J2.
  pose proof (ends_in_time ranks now l p r A Hr) as H. cbv zeta in H. fold s0 in H. destruct (rf_deciding r) as [[d c]|] eqn:Hd.
  - destruct (J2 _ _ eq_refl) as (_ & [?|?] & _); [done|]. lia.
  - destruct H as [Hq|H]; [|lia]. exfalso. apply Hw. exists l, [], r. by rewrite app_nil_r.
Qed.

(** Computing it for a history. *)
Definition ends_now (s : gstate) (p : N) : bool :=
  match gv_refs s !! (Collective, p) with Some (ROngoing r) => match period_end r with Some t => t =? gv_now s | None => false end | _ => false end.
Definition waits_now (s : gstate) (p : N) : bool :=
  match gv_refs s !! (Collective, p) with Some (ROngoing r) => match rf_deciding r with None => rf_queued r | Some _ => false end | _ => false end.
Fixpoint never (f : gstate -> N -> bool) (s : gstate) (l : list gstep) (p : N) : bool :=
  negb (f s p) && match l with [] => true | x :: l' => never f (gstep_run s x) l' p end.
Lemma never_prefix f p : forall l1 l2 s, never f s (l1 ++ l2) p = true -> f (grun s l1) p = false.
Proof.
  induction l1 as [|x l1 IH]; intros l2 s H.
  - cbn. destruct (f s p) eqn:E; [|done]. destruct l2; cbn [app never] in H; rewrite E in H; discriminate.
  - cbn [app never] in H. apply andb_prop in H as [_ H]. exact (IH l2 (gstep_run s x) H).
Qed.
Lemma never_app f p : forall l1 l2 s, never f s l1 p = true -> never f (grun s l1) l2 p = true -> never f s (l1 ++ l2) p = true.
Proof.
  induction l1 as [|x l1 IH]; intros l2 s H1 H2; [exact H2|]. cbn [app never] in *. apply andb_prop in H1 as [-> H1]. cbn [andb]. apply IH; [exact H1|exact H2].
Qed.
(** [need]: the period ends with this block, and nobody looked yet. *)
Fixpoint looked (need : bool) (s : gstate) (l : list gstep) (p : N) : bool :=
  match l with
  | [] => true
  | x :: l' => let s' := gstep_run s x in
    match x with
    | GBlock => negb need && looked (ends_now s' p) s' l' p
    | GService _ Collective q => looked (need && negb (q =? p)) s' l' p
    | _ => looked need s' l' p
    end
  end.
Lemma looked_step need s x l p : looked need s (x :: l) p = true -> x <> GBlock ->
  looked need (gstep_run s x) l p = true \/ exists e, x = GService e Collective p.
Proof.
  intros H Hx. destruct x; try (by left). cbn [looked] in H. destruct i; [|by left]. destruct (N.eqb_spec p0 p) as [->|]; [right; by eexists|left].
  by rewrite andb_true_r in H.
Qed.
Lemma looked_block l0 : forall need s l p, looked need s (l0 ++ GBlock :: l) p = true ->
  looked (ends_now (grun s (l0 ++ [GBlock])) p) (grun s (l0 ++ [GBlock])) l p = true.
Proof.
  induction l0 as [|x l0 IH]; intros need s l p H.
  - cbn [app looked] in H. apply andb_prop in H as [_ H]. exact H.
  - change (grun s ((x :: l0) ++ [GBlock])) with (grun (gstep_run s x) (l0 ++ [GBlock])). cbn [app] in H.
    destruct x; cbn [looked] in H; try (by eapply IH). { destruct i; by eapply IH. } apply andb_prop in H as [_ H]. by eapply IH.
Qed.
Lemma looked_mid mid : forall s l p, looked true s (mid ++ GBlock :: l) p = true -> GBlock ∉ mid -> exists e, GService e Collective p ∈ mid.
Proof.
  induction mid as [|x mid IH]; intros s l p H Hm; [cbn in H; discriminate|]. apply not_elem_of_cons in Hm as [H1 H2]. cbn [app] in H.
  apply looked_step in H as [H|[e ->]]; [|exists e; by left|congruence]. destruct (IH _ _ _ H H2) as [e He]. exists e. by right.
Qed.
Lemma looked_attended s l p : looked (ends_now s p) s l p = true -> attended s l p.
Proof.
  intros H l1 mid l2 r -> H1 Hm Hr He. assert (En : ends_now (grun s l1) p = true) by (unfold ends_now, is_open in *; by rewrite Hr, He, N.eqb_refl).
  destruct H1 as [->|[l0 ->]]; [cbn in En; rewrite En in H; by eapply looked_mid|]. rewrite <- app_assoc in H. apply looked_block in H. rewrite En in H.
  by eapply looked_mid.
Qed.
Lemma never_attended s l p : never ends_now s l p = true -> attended s l p.
Proof.
  intros H l1 mid l2 r -> _ _ Hr He. apply never_prefix in H. unfold ends_now, is_open in *. rewrite Hr, He in H. by rewrite N.eqb_refl in H.
Qed.
Lemma never_waited s l p : never waits_now s l p = true -> ~ waited s l p.
Proof.
  intros H (l1 & l2 & r & -> & Hr & Hd & Hq). apply never_prefix in H. unfold waits_now, is_open in *. rewrite Hr, Hd in H. congruence.
Qed.
Lemma only_blocks s n : gv_refs (grun s (replicate n GBlock)) = gv_refs s /\ gv_now (grun s (replicate n GBlock)) = gv_now s + N.of_nat n.
Proof.
  revert s. induction n as [|n IH]; intros s; [cbn; split; [done|lia]|]. cbn [replicate]. 
  destruct (IH (gset_now (gv_now s + 1) s)) as [E1 E2]. change (grun s (GBlock :: replicate n GBlock)) with (grun (gset_now (gv_now s + 1) s) (replicate n GBlock)).
  rewrite E1, E2. cbn. split; [done|lia].
Qed.
Lemma blocks_wait p n : forall s, waits_now s p = true -> never ends_now s (replicate n GBlock) p = true.
Proof.
  assert (H : forall s, waits_now s p = true -> ends_now s p = false).
  { intros s. unfold waits_now, ends_now, period_end. destruct (gv_refs s !! (Collective, p)) as [[r| | | | |]|]; try done.
    destruct (rf_deciding r) as [[? [?|]]|]; try done. by intros ->. }
  induction n as [|n IH]; intros s Hs; cbn [replicate never]; rewrite (H s Hs); [done|]. cbn [negb andb]. apply IH. exact Hs.
Qed.
Definition open_now (s : gstate) (p : N) : bool := match gv_refs s !! (Collective, p) with Some (ROngoing _) => true | _ => false end.
Lemma over_now s p r : open_now s p = false -> ~ is_open s Collective p r.
Proof. unfold open_now, is_open. intros H E. by rewrite E in H. Qed.

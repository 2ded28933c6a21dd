(** Vote locks and frozen amounts, along histories. *)
From stdpp Require Import gmap.
From Verif Require Import Base XcmTypes OriginTypes AccountsModel CommunitiesModel CommunitiesSpec CommunitiesProofs CommunitiesTally.
Open Scope N_scope.

(* ------------------------------------------------------------------ *)
(** * Every lock is covered *)

Definition covered (s : cstate) : Prop :=
  forall who p v k n, c_locks s !! (who, p) = Some v -> pledges v k n -> n <= frozen s k who.

Lemma covered_ext s s' : c_locks s' = c_locks s -> c_frozen s' = c_frozen s -> covered s -> covered s'.
Proof. intros E1 E2 H. unfold covered, frozen. rewrite E1, E2. exact H. Qed.

Lemma frozen_lock_added s who p v k w :
  frozen (lock_added s who p v) k w =
  match vote_lock v with
  | Some (k0, n) => if decide ((k, w) = (k0, who)) then N.max (frozen s k w) n else frozen s k w
  | None => frozen s k w
  end.
Proof.
  unfold lock_added. destruct (vote_lock v) as [[k0 n]|]; [|done]. unfold frozen at 1. cbn.
  destruct (decide ((k, w) = (k0, who))) as [[= -> ->]|Hne].
  - by rewrite lookup_insert.
  - by rewrite lookup_insert_ne by congruence.
Qed.
Lemma frozen_lock_removed s who p v k w :
  frozen (lock_removed s who p v) k w =
  match vote_lock v with
  | Some (k0, n) => if decide ((k, w) = (k0, who)) then max_locked (lock_removed s who p v) k w else frozen s k w
  | None => frozen s k w
  end.
Proof.
  unfold lock_removed. destruct (vote_lock v) as [[k0 n]|]; [|done]. unfold frozen at 1. cbn.
  destruct (decide ((k, w) = (k0, who))) as [[= -> ->]|Hne].
  - by rewrite lookup_insert.
  - by rewrite lookup_insert_ne by congruence.
Qed.
Lemma locks_lock_added s who p v :
  c_locks (lock_added s who p v) = match vote_lock v with Some _ => <[(who, p) := v]> (c_locks s) | None => c_locks s end.
Proof. unfold lock_added. by destruct (vote_lock v) as [[]|]. Qed.
Lemma locks_lock_removed s who p v :
  c_locks (lock_removed s who p v) = match vote_lock v with Some _ => delete (who, p) (c_locks s) | None => c_locks s end.
Proof. unfold lock_removed. by destruct (vote_lock v) as [[]|]. Qed.

Lemma covered_added s who p v : covered s -> covered (lock_added s who p v).
Proof.
  intros H w q v' k n Hl Hp. rewrite locks_lock_added in Hl. rewrite frozen_lock_added.
  destruct (vote_lock v) as [[k0 n0]|] eqn:Hv; [|by eapply H].
  apply lookup_insert_Some in Hl as [[[= <- <-] <-]|[Hne Hl]].
  - apply pledges_lock in Hp. rewrite Hv in Hp. injection Hp as -> ->. rewrite decide_True by done. lia.
  - specialize (H _ _ _ _ _ Hl Hp). destruct (decide _); lia.
Qed.
Lemma covered_removed s who p v : covered s -> covered (lock_removed s who p v).
Proof.
  intros H w q v' k n Hl Hp. rewrite frozen_lock_removed.
  destruct (vote_lock v) as [[k0 n0]|] eqn:Hv.
  - destruct (decide _) as [[= -> ->]|Hne].
    + destruct (max_locked_spec (lock_removed s who p v) k0 who) as [Hm _]. by eapply Hm.
    + rewrite locks_lock_removed, Hv in Hl. apply lookup_delete_Some in Hl as [_ Hl]. by eapply H.
  - rewrite locks_lock_removed, Hv in Hl. by eapply H.
Qed.

Lemma covered_step c s x : covered s -> covered (cstep_run c s x).
Proof.
  intros HC. pose proof (step_kind_of c s x) as HS. generalize dependent (cstep_run c s x). intros s' HS.
  destruct HS as [Hs|e who m p v _ Hv|e who m p _ Hv|e who p _ Hv|p g Hp ->|p y Hp ->].
  - destruct Hs as (_ & E2 & E3 & _). by eapply covered_ext.
  - destruct Hv as (g & t & s1 & _ & _ & _ & Hs1 & Hp & _ & ->).
    destruct (vote_recorded_fields s1 g who m p t v) as (_ & _ & _ & EL & EF).
    eapply covered_ext; [exact EL | exact EF |]. apply covered_added.
    destruct Hs1 as [[Hv ->]|(t0 & v0 & w0 & Hv0 & Hp0 & ->)]; [done|].
    destruct (vote_removed_fields s g m p t0 v0 w0 (method_of s g)) as (_ & _ & _ & EL' & EF').
    eapply covered_ext; [exact EL' | exact EF' |]. by apply covered_removed.
  - destruct Hv as (g & t & v & voter & _ & Hp & Hv & ->).
    destruct (vote_removed_fields s g m p t v voter (method_of s g)) as (_ & _ & _ & EL' & EF').
    eapply covered_ext; [exact EL' | exact EF' |]. by apply covered_removed.
  - destruct Hv as (v & _ & _ & ->). by apply covered_removed.
  - by eapply covered_ext; [| | exact HC].
  - by eapply covered_ext; [| | exact HC].
Qed.

Lemma covered_reachable c s : creachable c s -> covered s.
Proof.
  apply reachable_invariant; [|intros; by apply covered_step].
  intros who p v k n H. cbn in H. by rewrite lookup_empty in H.
Qed.

(* ------------------------------------------------------------------ *)
(** * Histories in which accounts vote with one membership per poll *)

Record tidy (s : cstate) : Prop := Tidy {
  tidy_lock : forall p w v, is_ongoing s p -> c_locks s !! (w, p) = Some v <-> (exists m, c_votes s !! (p, m) = Some (v, w)) /\ vote_lock v <> None;
  tidy_one : forall p m m' v v' w, is_ongoing s p -> c_votes s !! (p, m) = Some (v, w) -> c_votes s !! (p, m') = Some (v', w) -> m = m';
  tidy_frozen : forall k w, frozen s k w = max_locked s k w;
  tidy_known : forall w p v, c_locks s !! (w, p) = Some v -> c_polls s !! p <> None /\ vote_lock v <> None;
  tidy_votes : votes_known s
}.

(** [tidy] only looks at votes, locks, polls and frozen amounts, and fewer ongoing polls keep it. *)
Lemma tidy_ext s s' :
  c_votes s' = c_votes s -> c_locks s' = c_locks s -> c_frozen s' = c_frozen s ->
  (forall p, is_ongoing s' p -> is_ongoing s p) -> (forall p, c_polls s !! p <> None -> c_polls s' !! p <> None) ->
  tidy s -> tidy s'.
Proof.
  intros E1 E2 E3 E4 E5 [H1 H2 H3 H4 H5]. constructor.
  - intros p w v Ho. rewrite E1, E2. by apply H1, E4.
  - intros p m m' v v' w Ho. rewrite E1. by eapply H2, E4.
  - intros k w. unfold frozen. rewrite E3. rewrite (max_locked_ext s s' k w E2). apply H3.
  - intros w p v Hl. rewrite E2 in Hl. destruct (H4 _ _ _ Hl). split; auto.
  - intros p m y Hy. rewrite E1 in Hy. by eapply E5, H5.
Qed.

Lemma max_locked_other s s' k w :
  (forall p v n, pledges v k n -> c_locks s' !! (w, p) = Some v <-> c_locks s !! (w, p) = Some v) -> max_locked s' k w = max_locked s k w.
Proof.
  intros H. apply max_locked_eq. destruct (max_locked_spec s k w) as [H1 H2]. split.
  - intros p v a Hl Hp. eapply H1; [by apply (H p v a Hp) | done].
  - destruct H2 as [->|(p & v & Hl & Hp)]; [by left|]. right. exists p, v. split; [by apply (H p v _ Hp) | done].
Qed.

Lemma ongoing_put s s' p t t' g :
  c_polls s !! p = Some (Ongoing t g) -> c_polls s' = <[p := Ongoing t' g]> (c_polls s) ->
  (forall q, is_ongoing s' q <-> is_ongoing s q) /\ (forall q, c_polls s !! q <> None <-> c_polls s' !! q <> None).
Proof.
  intros Hp E. split; intros q; unfold is_ongoing; rewrite E; destruct (decide (q = p)) as [->|Hne].
  - rewrite lookup_insert. split; intros _; eauto.
  - by rewrite lookup_insert_ne.
  - rewrite lookup_insert. rewrite Hp. done.
  - by rewrite lookup_insert_ne.
Qed.

Lemma tidy_removed s g m p t v w dm :
  tidy s -> c_polls s !! p = Some (Ongoing t g) -> c_votes s !! (p, m) = Some (v, w) -> tidy (vote_removed s g m p t v w dm).
Proof.
  intros [H1 H2 H3 H4 H5] Hp Hv. set (s' := vote_removed s g m p t v w dm).
  destruct (vote_removed_fields s g m p t v w dm) as (Hr & EV & EP & EL & EF). fold s' in Hr, EV, EP, EL, EF.
  destruct (ongoing_put s s' p t _ g Hp EP) as [EO EK].
  assert (is_ongoing s p) as Hop by (unfold is_ongoing; eauto).
  rewrite locks_lock_removed in EL.
  assert (forall v', c_locks s !! (w, p) = Some v' -> v' = v) as Hlock.
  { intros v' Hl. apply (H1 _ _ _ Hop) in Hl as [[m' Hm'] _]. pose proof (H2 _ _ _ _ _ _ Hop Hv Hm') as <-. congruence. }
  assert (forall w' q, c_locks s' !! (w', q) = if decide ((w', q) = (w, p)) then None else c_locks s !! (w', q)) as EL'.
  { intros w' q. rewrite EL. destruct (vote_lock v) as [[k n]|] eqn:Hvl.
    - destruct (decide _) as [[= -> ->]|Hne]; [apply lookup_delete | by rewrite lookup_delete_ne by congruence].
    - destruct (decide _) as [[= -> ->]|Hne]; [|done].
      destruct (c_locks s !! (w, p)) as [v'|] eqn:Hl; [|done]. pose proof (Hlock _ eq_refl) as ->. by apply H4 in Hl as [_ ?]. }
  constructor.
  - intros q w' v' Ho. apply EO in Ho. rewrite EL', EV. destruct (decide _) as [[= -> ->]|Hne].
    + split; [done|]. intros [[m' Hm'] _]. apply lookup_delete_Some in Hm' as [Hne Hm']. exfalso.
      apply Hne. f_equal. by eapply H2.
    + rewrite (H1 _ _ _ Ho). split; intros [[m' Hm'] ?]; (split; [exists m'|done]).
      * apply lookup_delete_Some. split; [|done]. intros [= <- <-]. congruence.
      * by apply lookup_delete_Some in Hm' as [_ ?].
  - intros q m1 m2 v1 v2 w' Ho. apply EO in Ho. rewrite EV. intros Hm1 Hm2.
    apply lookup_delete_Some in Hm1 as [_ Hm1]. apply lookup_delete_Some in Hm2 as [_ Hm2]. by eapply H2.
  - intros k w'. assert (frozen s' k w' = frozen (lock_removed s w p v) k w') as ->
      by (unfold frozen; by rewrite EF).
    assert (max_locked s' k w' = max_locked (lock_removed s w p v) k w') as ->.
    { apply max_locked_ext. rewrite EL. symmetry. apply locks_lock_removed. }
    rewrite frozen_lock_removed. destruct (vote_lock v) as [[k0 n0]|] eqn:Hvl.
    + destruct (decide _) as [[= -> ->]|Hne]; [done|]. rewrite H3. symmetry. apply max_locked_other.
      intros q v' n' Hpl. rewrite locks_lock_removed, Hvl.
      destruct (decide ((w', q) = (w, p))) as [[= -> ->]|Hne'].
      * rewrite lookup_delete. split; [done|]. intros Hl. exfalso. pose proof (Hlock _ Hl) as ->.
        apply pledges_lock in Hpl. congruence.
      * by rewrite lookup_delete_ne by congruence.
    + rewrite H3. symmetry. apply max_locked_ext. by rewrite locks_lock_removed, Hvl.
  - intros w' q v'. rewrite EL'. destruct (decide _); [done|]. intros Hl. destruct (H4 _ _ _ Hl). split; [by apply EK | done].
  - intros q m' y Hy. rewrite EV in Hy. apply lookup_delete_Some in Hy as [_ Hy]. apply EK. by eapply H5.
Qed.

Lemma tidy_recorded s g who m p t v :
  tidy s -> c_polls s !! p = Some (Ongoing t g) -> c_votes s !! (p, m) = None ->
  (forall m' v', c_votes s !! (p, m') <> Some (v', who)) -> tidy (vote_recorded s g who m p t v).
Proof.
  intros [H1 H2 H3 H4 H5] Hp Hv Hno. set (s' := vote_recorded s g who m p t v).
  destruct (vote_recorded_fields s g who m p t v) as (Hr & EV & EP & EL & EF). fold s' in Hr, EV, EP, EL, EF.
  destruct (ongoing_put s s' p t _ g Hp EP) as [EO EK].
  assert (is_ongoing s p) as Hop by (unfold is_ongoing; eauto).
  assert (c_locks s !! (who, p) = None) as Hln.
  { destruct (c_locks s !! (who, p)) as [v'|] eqn:Hl; [|done]. apply (H1 _ _ _ Hop) in Hl as [[m' Hm'] _]. by apply Hno in Hm'. }
  rewrite locks_lock_added in EL.
  constructor.
  - intros q w' v' Ho. apply EO in Ho. rewrite EV.
    destruct (decide ((w', q) = (who, p))) as [[= -> ->]|Hne].
    + split.
      * intros Hl. rewrite EL in Hl. destruct (vote_lock v) as [[]|] eqn:Hvl; [|congruence].
        rewrite lookup_insert in Hl. injection Hl as <-. split; [exists m; by rewrite lookup_insert | congruence].
      * intros [[m' Hm'] Hvl]. apply lookup_insert_Some in Hm' as [[[= <-] [= <-]]|[_ Hm']]; [|by apply Hno in Hm'].
        rewrite EL. destruct (vote_lock v); [apply lookup_insert | done].
    + assert (c_locks s' !! (w', q) = c_locks s !! (w', q)) as ->.
      { rewrite EL. destruct (vote_lock v); [by rewrite lookup_insert_ne by congruence | done]. }
      rewrite (H1 _ _ _ Ho). split; intros [[m' Hm'] ?]; (split; [exists m'|done]).
      * rewrite lookup_insert_ne; [done|]. intros [= <- <-]. congruence.
      * apply lookup_insert_Some in Hm' as [[[= <- <-] [= <- <-]]|[_ Hm']]; [congruence | done].
  - intros q m1 m2 v1 v2 w' Ho. apply EO in Ho. rewrite EV. intros Hm1 Hm2.
    apply lookup_insert_Some in Hm1 as [[[= <- <-] [= <- <-]]|[Hn1 Hm1]];
      apply lookup_insert_Some in Hm2 as [[Ek Ew]|[Hn2 Hm2]].
    + congruence.
    + by apply Hno in Hm2.
    + injection Ek as <- <-. injection Ew as <- <-. by apply Hno in Hm1.
    + by eapply H2.
  - intros k w'. assert (frozen s' k w' = frozen (lock_added s who p v) k w') as ->
      by (unfold frozen; by rewrite EF).
    rewrite frozen_lock_added. destruct (vote_lock v) as [[k0 n0]|] eqn:Hvl.
    + unfold max_locked. rewrite EL. rewrite max_locked_insert by done. cbv zeta.
      fold (max_locked s k w'). rewrite <- H3. unfold lock_amount. rewrite Hvl.
      destruct (N.eqb_spec who w') as [<-|Hne].
      * destruct (decide (k0 = k)) as [->|]; [by rewrite decide_True | rewrite decide_False by congruence; lia].
      * by rewrite decide_False by congruence.
    + rewrite H3. symmetry. by apply max_locked_ext.
  - intros w' q v'. rewrite EL. destruct (vote_lock v) as [[]|] eqn:Hvl.
    + intros Hl. apply lookup_insert_Some in Hl as [[[= <- <-] <-]|[_ Hl]].
      * split; [|congruence]. apply EK. by rewrite Hp.
      * destruct (H4 _ _ _ Hl). split; [by apply EK | done].
    + intros Hl. destruct (H4 _ _ _ Hl). split; [by apply EK | done].
  - intros q m' y Hy. rewrite EV in Hy. apply EK.
    apply lookup_insert_Some in Hy as [[[= <- <-] _]|[_ Hy]]; [by rewrite Hp | by eapply H5].
Qed.

Lemma tidy_unlocked s who p v :
  tidy s -> c_locks s !! (who, p) = Some v -> (forall t g, c_polls s !! p <> Some (Ongoing t g)) -> tidy (lock_removed s who p v).
Proof.
  intros [H1 H2 H3 H4 H5] Hl Hp.
  destruct (lock_removed_fields s who p v) as (_ & _ & _ & EV & EP & _).
  assert (forall q, is_ongoing (lock_removed s who p v) q <-> is_ongoing s q) as EO
    by (intros q; unfold is_ongoing; by rewrite EP).
  destruct (H4 _ _ _ Hl) as [_ Hvl0]. destruct (vote_lock v) as [[k0 n0]|] eqn:Hvl; [|done].
  pose proof (locks_lock_removed s who p v) as EL. rewrite Hvl in EL.
  constructor.
  - intros q w' v' Ho. apply EO in Ho. rewrite EL, EV. rewrite lookup_delete_ne; [by apply H1|].
    intros [= <- <-]. destruct Ho as (t & g & Ho). by apply Hp in Ho.
  - intros q m1 m2 v1 v2 w' Ho. apply EO in Ho. rewrite EV. by eapply H2.
  - intros k w'. rewrite frozen_lock_removed, Hvl.
    destruct (decide _) as [[= -> ->]|Hne]; [done|]. rewrite H3. symmetry. apply max_locked_other.
    intros q v' n' Hpl. rewrite EL.
    destruct (decide ((w', q) = (who, p))) as [[= -> ->]|Hne'].
    + rewrite lookup_delete. split; [done|]. intros Hl'. exfalso. apply pledges_lock in Hpl. congruence.
    + by rewrite lookup_delete_ne by congruence.
  - intros w' q v'. rewrite EL. intros Hl'. apply lookup_delete_Some in Hl' as [_ Hl']. rewrite EP. by eapply H4.
  - unfold votes_known. rewrite EV, EP. exact H5.
Qed.

Lemma tidy_step c s x : tidy s -> one_membership_each s x -> tidy (cstep_run c s x).
Proof.
  intros HT Hone. pose proof (step_kind_of c s x) as HS. generalize dependent (cstep_run c s x). intros s' HS.
  destruct HS as [Hs|e who m p v -> Hv|e who m p _ Hv|e who p _ Hv|p g Hp ->|p y Hp ->].
  - destruct Hs as (E1 & E2 & E3 & E4). apply (tidy_ext s); try done; unfold is_ongoing; by rewrite E4.
  - destruct Hv as (g & t & s1 & _ & _ & _ & Hs1 & Hp & _ & ->). cbn in Hone.
    destruct Hs1 as [[Hv ->]|(t0 & v0 & w0 & Hv0 & Hp0 & ->)].
    + apply tidy_recorded; try done. intros m' v' Hm'. pose proof (Hone _ _ Hm') as ->. congruence.
    + destruct (vote_removed_fields s g m p t0 v0 w0 (method_of s g)) as (_ & EV & _).
      apply tidy_recorded; try done; [by apply tidy_removed| |].
      * rewrite EV. apply lookup_delete.
      * intros m' v' Hm'. rewrite EV in Hm'. apply lookup_delete_Some in Hm' as [Hne Hm']. apply Hne. f_equal.
        symmetry. by eapply Hone.
  - destruct Hv as (g & t & v & voter & _ & Hp & Hv & ->). by apply tidy_removed.
  - destruct Hv as (v & Hl & Hp & ->). by apply tidy_unlocked.
  - destruct HT as [H1 H2 H3 H4 H5]. constructor; try done.
    + intros q w v Ho. cbn. destruct (decide (q = p)) as [->|Hne].
      * split; [intros Hl; by apply H4 in Hl as [? _] | intros [[m Hm] _]; by apply H5 in Hm].
      * apply H1. destruct Ho as (t & g' & Ho). cbn in Ho. rewrite lookup_insert_ne in Ho by done. by exists t, g'.
    + intros q m m' v v' w Ho Hm Hm'. cbn in *. destruct (decide (q = p)) as [->|Hne]; [by apply H5 in Hm|].
      eapply H2; try done. destruct Ho as (t & g' & Ho). cbn in Ho. rewrite lookup_insert_ne in Ho by done. by exists t, g'.
    + intros w q v Hl. cbn in *. destruct (H4 _ _ _ Hl) as [Hq ?]. split; [|done].
      destruct (decide (q = p)) as [->|Hne]; [by rewrite lookup_insert | by rewrite lookup_insert_ne].
    + intros q m y Hy. cbn in *. apply H5 in Hy.
      destruct (decide (q = p)) as [->|Hne]; [by rewrite lookup_insert | by rewrite lookup_insert_ne].
  - apply (tidy_ext s); try done.
    + intros q (t & g & Ho). cbn in Ho. apply lookup_insert_Some in Ho as [[_ [=]]|[_ Ho]]. by exists t, g.
    + intros q Hq. cbn. destruct (decide (q = p)) as [->|Hne]; [by rewrite lookup_insert | by rewrite lookup_insert_ne].
Qed.

Lemma tidy_empty : tidy c_empty.
Proof.
  constructor.
  - intros p w v (t & g & H). cbn in H. by rewrite lookup_empty in H.
  - intros p m m' v v' w (t & g & H). cbn in H. by rewrite lookup_empty in H.
  - intros k w. done.
  - intros w p v H. cbn in H. by rewrite lookup_empty in H.
  - apply votes_known_empty.
Qed.

Lemma tidy_history c l : all_along c one_membership_each c_empty l -> tidy (crun c c_empty l).
Proof. apply history_invariant; [apply tidy_empty | intros; by apply tidy_step]. Qed.

(** Adding and then taking away a lock that was not there. *)
Lemma lock_add_remove s who p v k w :
  tidy s -> c_locks s !! (who, p) = None ->
  c_locks (lock_removed (lock_added s who p v) who p v) = c_locks s /\
  frozen (lock_removed (lock_added s who p v) who p v) k w = frozen s k w.
Proof.
  intros HT Hn. assert (c_locks (lock_removed (lock_added s who p v) who p v) = c_locks s) as EL.
  { rewrite locks_lock_removed, locks_lock_added. destruct (vote_lock v); [by rewrite delete_insert | done]. }
  split; [done|]. rewrite frozen_lock_removed, frozen_lock_added.
  destruct (vote_lock v) as [[k0 n0]|]; [|done].
  destruct (decide _) as [[= -> ->]|Hne].
  - rewrite (max_locked_ext s _ _ _ EL). by rewrite (tidy_frozen _ HT).
  - done.
Qed.

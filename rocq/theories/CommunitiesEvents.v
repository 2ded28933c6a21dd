From stdpp Require Import gmap.
From Verif Require Import Base XcmTypes OriginTypes AccountsModel CommunitiesModel CommunitiesSpec CommunitiesProofs CommunitiesRegistry
  CommunitiesTheorems CommunitiesEventsSpec.
Open Scope N_scope.

Definition one_each (s : cstate) : Prop :=
  forall p m m' v v' who, c_votes s !! (p, m) = Some (v, who) -> c_votes s !! (p, m') = Some (v', who) -> m' = m.
Definition vagrees (s : cstate) (M : gmap (N * N) vote) : Prop :=
  forall p who v, M !! (p, who) = Some v <-> exists m, c_votes s !! (p, m) = Some (v, who).

(** A step does nothing to votes but what the events of its calls say. *)
Lemma votes_step c s x :
  (exists e who m p v, x = StCall e (OSigned who) (CVote m p v) /\ cstep_events c s x = [EvVoteCasted who p v] /\
     c_votes (cstep_run c s x) = <[(p, m) := (v, who)]> (c_votes s)) \/
  (exists e who m p v w, x = StCall e (OSigned who) (CRemoveVote m p) /\ cstep_events c s x = [EvVoteRemoved who p] /\
     c_votes s !! (p, m) = Some (v, w) /\ c_votes (cstep_run c s x) = delete (p, m) (c_votes s)) \/
  (fold_left learn_vote (cstep_events c s x) = fold_left learn_vote [] /\ c_votes (cstep_run c s x) = c_votes s).
Proof.
  destruct x; cbn [cstep_run cstep_events]; try (by right; right);
    try (right; right; split; [done|]; destruct (c_polls s !! p) as [[]|]; done).
  - unfold cdispatch. destruct (ccall_run c e s o k) as [[s' evs]|] eqn:E; [|by right; right].
    destruct k; cbn [ccall_run] in E.
    + right; right. unfold call_create in E. cinv E. injection E as <- <-. split; [done|].
      unfold register in H0. cinv H0. injection H0 as <-. cbn. destruct a as [[[amt f] t]|]; [|by injection H3 as <-].
      unfold transfer in H3. cinv H3. injection H3 as <-. done.
    + right; right. unfold call_set_admin in E. cinv E. by injection E as <- <-.
    + right; right. unfold call_add_member in E. cinv E. injection E as <- <-. unfold assign in H2. cinv H2. by injection H2 as <-.
    + right; right. unfold call_remove_member in E. cinv E. injection E as <- <-. unfold release in H2. cinv H2. by injection H2 as <-.
    + right; right. unfold call_promote in E. cinv E. injection E as <- <-. unfold set_rank in H1. cinv H1. by injection H1 as <-.
    + right; right. unfold call_demote in E. cinv E. injection E as <- <-. unfold set_rank in H1. cinv H1. by injection H1 as <-.
    + right; right. unfold call_set_method in E. cinv E. injection E as <- <-. cbn. split; [done|].
      destruct dm; try done. unfold create_asset. destruct (c_assets s !! asset); [done|]. by destruct (min =? 0).
    + left. apply call_vote_ok in E as (who & g & t & s1 & -> & _ & _ & _ & -> & Hs1 & _ & _ & ->).
      exists e, who, m, p, v. split_and!; [done|done|]. destruct (vote_recorded_fields s1 g who m p t v) as (_ & -> & _).
      destruct Hs1 as [[_ ->]|(t0 & v0 & w0 & _ & _ & ->)]; [done|].
      destruct (vote_removed_fields s g m p t0 v0 w0 (method_of s g)) as (_ & -> & _). by rewrite insert_delete_insert.
    + right; left. apply call_remove_vote_ok in E as (who & g & t & v & w & -> & _ & -> & _ & Hv & ->).
      exists e, who, m, p, v, w. destruct (vote_removed_fields s g m p t v w (method_of s g)) as (_ & -> & _). done.
    + right; right. apply call_unlock_ok in E as (who & v & -> & -> & _ & _ & ->). split; [done|].
      by destruct (lock_removed_fields s who p v) as (_ & _ & _ & -> & _).
  - right; right. split; [done|]. destruct (register c e s admin id deposit) as [s'|] eqn:E; [|done].
    unfold register in E. cinv E. injection E as <-. cbn. destruct deposit as [[[amt f] t]|]; [|by injection H1 as <-].
    unfold transfer in H1. cinv H1. injection H1 as <-. done.
  - right; right. split; [done|]. unfold force_state. destruct (c_info s !! id); done.
Qed.

Lemma vagrees_step c s x M :
  one_membership_each s x -> own_votes_only s x -> one_each s -> vagrees s M ->
  one_each (cstep_run c s x) /\ vagrees (cstep_run c s x) (fold_left learn_vote (cstep_events c s x) M).
Proof.
  intros H1 H2 O A. destruct (votes_step c s x) as [(e & who & m & p & v & -> & -> & E)|[(e & who & m & p & v & w & -> & -> & Hv & E)|[El E]]].
  - cbn [one_membership_each own_votes_only] in H1, H2. cbn [fold_left learn_vote]. split.
    + intros p' m1 m2 v1 v2 w. rewrite E, !lookup_insert_Some.
      intros [[[= <- <-] [= <- <-]]|[N1 K1]] [[E2 E3]|[N2 K2]].
      * by injection E2.
      * by apply H1 in K2.
      * injection E2 as <- <-. injection E3 as <- <-. symmetry. by apply H1 in K1.
      * by eapply O.
    + intros p' w v'. rewrite E. rewrite lookup_insert_Some. split.
      * intros [[[= <- <-] <-]|[Hne K]]; [exists m; by rewrite lookup_insert|].
        apply A in K as [m' K]. exists m'. rewrite lookup_insert_ne; [done|].
        intros [= <- <-]. apply Hne. f_equal. symmetry. by apply (H2 v').
      * intros [m' K]. apply lookup_insert_Some in K as [[[= <- <-] [= <- <-]]|[Hne K]]; [by left|].
        destruct (decide ((p, who) = (p', w))) as [[= <- <-]|Hk].
        -- exfalso. apply Hne. by rewrite (H1 _ _ K).
        -- right. split; [done|]. apply A. eauto.
  - cbn [own_votes_only] in H2. cbn [fold_left learn_vote]. pose proof (H2 _ _ Hv) as ->. split.
    + intros p' m1 m2 v1 v2 w. rewrite E, !lookup_delete_Some. intros [_ K1] [_ K2]. by eapply O.
    + intros p' w v'. rewrite E, lookup_delete_Some. split.
      * intros [Hne K]. apply A in K as [m' K]. exists m'. rewrite lookup_delete_ne; [done|]. intros [= <- <-].
        rewrite Hv in K. injection K as <- <-. by apply Hne.
      * intros [m' K]. apply lookup_delete_Some in K as [Hne K]. split; [|apply A; eauto].
        intros [= <- <-]. apply Hne. by rewrite (O _ _ _ _ _ _ Hv K).
  - rewrite El. cbn [fold_left]. split.
    + intros p m m' v v' who. rewrite E. apply O.
    + intros p who v. rewrite E. apply A.
Qed.

Lemma vagrees_run c s l M :
  all_along c (fun s x => one_membership_each s x /\ own_votes_only s x) s l -> one_each s -> vagrees s M ->
  vagrees (crun c s l) (fold_left learn_vote (clog c s l) M).
Proof.
  revert s M. induction l as [|x l IH]; intros s M H O A; [done|]. cbn [clog]. destruct H as [[H1 H2] H]. rewrite fold_left_app.
  destruct (vagrees_step c s x M H1 H2 O A) as [O' A']. by apply IH.
Qed.

Lemma events_tell_votes c l :
  all_along c (fun s x => one_membership_each s x /\ own_votes_only s x) c_empty l ->
  forall p who v, votes_told (clog c c_empty l) !! (p, who) = Some v <-> exists m, c_votes (crun c c_empty l) !! (p, m) = Some (v, who).
Proof.
  intros H. apply (vagrees_run c c_empty l ∅ H).
  - intros p m m' v v' who K. cbn in K. by rewrite lookup_empty in K.
  - intros p who v. rewrite lookup_empty. split; [done|]. intros [m K]. cbn in K. by rewrite lookup_empty in K.
Qed.

(** The events of a call are true, those of [remove_member] and [demote] aside. *)
Lemma check_membership_some s who m g : check_membership s who m = Some g -> exists x, c_members s !! m = Some x /\ m_owner x = who.
Proof.
  unfold check_membership. destruct (c_members s !! m) as [x|]; [|done]. destruct (N.eqb_spec (m_owner x) who); [|done]. eauto.
Qed.
Lemma events_true c e s o k s' evs :
  ccall_run c e s o k = COk (s', evs) ->
  (forall w m, k <> CRemoveMember w m) -> (forall m, k <> CDemote m) -> Forall (event_true s s') evs.
Proof.
  intros E Hr Hd. destruct k; cbn [ccall_run] in E.
  - unfold call_create in E. cinv E. injection E as <- <-. apply Forall_singleton. cbn.
    unfold register in H0. cinv H0. injection H0 as <-. cbn. rewrite lookup_insert.
    split_and!; [by destruct (c_info s !! id)|done|]. unfold admin_insert. by rewrite decide_True.
  - unfold call_set_admin in E. cinv E. injection E as <- <-. apply Forall_singleton. cbn.
    unfold admin_insert. by rewrite decide_True.
  - unfold call_add_member in E. cinv E. injection E as <- <-. apply Forall_singleton. cbn.
    unfold assign in H2. cinv H2. injection H2 as <-. cbn. eexists. by rewrite lookup_insert.
  - by destruct (Hr who m).
  - unfold call_promote in E. cinv E. injection E as <- <-. apply Forall_singleton. cbn.
    unfold set_rank in H1. cinv H1. injection H1 as <-. cbn. eexists. by rewrite lookup_insert.
  - by destruct (Hd m).
  - unfold call_set_method in E. cinv E. injection E as <- <-. apply Forall_singleton. cbn. exists dm.
    destruct dm; try done. unfold create_asset. destruct (c_assets s !! asset); [done|]. by destruct (min =? 0).
  - pose proof E as E0. apply call_vote_ok in E as (who & g & t & s1 & -> & Hm & _ & _ & -> & Hs1 & _ & _ & ->).
    apply Forall_singleton. cbn [event_true]. apply check_membership_some in Hm as (x & Hx & Ho). exists m, x. split_and!; [done|done|].
    destruct (vote_recorded_fields s1 g who m p t v) as (_ & -> & _). by rewrite lookup_insert.
  - apply call_remove_vote_ok in E as (who & g & t & v & w & -> & Hm & -> & _ & Hv & ->).
    apply Forall_singleton. cbn [event_true]. apply check_membership_some in Hm as (x & Hx & Ho). exists m, x. split_and!; [done|done| |].
    + by rewrite Hv.
    + destruct (vote_removed_fields s g m p t v w (method_of s g)) as (_ & -> & _). by rewrite lookup_delete.
  - apply call_unlock_ok in E as (who & v & -> & -> & _). constructor.
Qed.

(** A call that succeeds deposits one event, except [unlock], which deposits none. *)
Lemma one_cevent c e s o k s' evs : ccall_run c e s o k = COk (s', evs) -> (forall p, k <> CUnlock p) -> exists ev, evs = [ev].
Proof.
  intros E Hu. destruct k; cbn [ccall_run] in E;
    [unfold call_create in E|unfold call_set_admin in E|unfold call_add_member in E|unfold call_remove_member in E|unfold call_promote in E
    |unfold call_demote in E|unfold call_set_method in E|unfold call_vote in E|unfold call_remove_vote in E|by destruct (Hu p)];
    cinv E; injection E as <- <-; eauto.
Qed.

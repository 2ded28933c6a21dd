(** Votes of those whose membership was taken away. *)
From stdpp Require Import gmap.
From Verif Require Import Base XcmTypes OriginTypes AccountsModel CommunitiesModel CommunitiesSpec CommunitiesProofs CommunitiesTally CommunitiesLocks CommunitiesTheorems CommunitiesExamples FormerMembersSpec.
Open Scope N_scope.

Lemma removal_keeps_votes : forall c e s o a m s' evs, ccall_run c e s o (CRemoveMember a m) = COk (s', evs) ->
  c_votes s' = c_votes s /\ c_polls s' = c_polls s /\ c_locks s' = c_locks s /\ c_frozen s' = c_frozen s.
Proof. intros c e s o a m s' evs. cbn. unfold call_remove_member. intros E. cinv E. injection E as <- <-. unfold release in H2. cinv H2. by injection H2 as <-. Qed.

Lemma check_no_member s g who m : no_member s g who -> check_membership s who m <> Some g.
Proof.
  intros H. unfold check_membership. destruct (c_members s !! m) as [x|] eqn:E; [|done]. destruct (N.eqb_spec (m_owner x) who); [|done].
  intros [= <-]. by eapply H.
Qed.

(** Calls do not end polls. *)
Lemma call_ends_no_poll c e s o k p t g : c_polls s !! p = Some (Ongoing t g) -> c_polls (cstep_run c s (StCall e o k)) !! p <> Some Completed.
Proof.
  intros Hp. cbn. unfold cdispatch. destruct (ccall_run c e s o k) as [[s' evs]|er] eqn:E; [|congruence].
  assert (c_polls s' = c_polls s -> c_polls s' !! p <> Some Completed) as Hsame by congruence.
  destruct k as [| | | | | | |m n v|m n|n]; cbn in E.
  + unfold call_create in E. cinv E. injection E as <- <-. apply register_same in H0 as [(_ & _ & _ & H0) _]. auto.
  + unfold call_set_admin in E. cinv E. injection E as <- <-. by apply Hsame.
  + unfold call_add_member in E. cinv E. injection E as <- <-. unfold assign in H2. cinv H2. injection H2 as <-. by apply Hsame.
  + unfold call_remove_member in E. cinv E. injection E as <- <-. unfold release in H2. cinv H2. injection H2 as <-. by apply Hsame.
  + unfold call_promote in E. cinv E. injection E as <- <-. unfold set_rank in H1. cinv H1. injection H1 as <-. by apply Hsame.
  + unfold call_demote in E. cinv E. injection E as <- <-. unfold set_rank in H1. cinv H1. injection H1 as <-. by apply Hsame.
  + apply call_set_method_ok in E as (A & w & _ & -> & _). by apply Hsame.
  + apply call_vote_ok in E as (who & g' & t' & s1 & -> & Hc & Hw & Hf & -> & Hs1 & Hp' & Hl & ->).
    destruct (vote_recorded_fields s1 g' who m n t' v) as (_ & _ & -> & _).
    destruct (decide (n = p)) as [->|]; [by rewrite lookup_insert|]. rewrite lookup_insert_ne by done.
    destruct Hs1 as [[_ ->]|(t0 & v0 & w0 & _ & _ & ->)]; [congruence|].
    destruct (vote_removed_fields s g' m n t0 v0 w0 (method_of s g')) as (_ & _ & -> & _). rewrite lookup_insert_ne by done. congruence.
  + apply call_remove_vote_ok in E as (who & g' & t' & v & voter & -> & Hc & -> & Hp' & Hv & ->).
    destruct (vote_removed_fields s g' m n t' v voter (method_of s g')) as (_ & _ & -> & _).
    destruct (decide (n = p)) as [->|]; [by rewrite lookup_insert|]. rewrite lookup_insert_ne by done. congruence.
  + apply call_unlock_ok in E as (who & v & -> & -> & Hl & Hp' & ->). apply Hsame. by destruct (lock_removed_fields s who n v) as (_ & _ & _ & _ & ? & _).
Qed.

(** The vote, the poll and the lock as they were. *)
Definition vote_stands (s : cstate) (p : N) (t : tally) (g m : N) (v : vote) (who : N) : Prop :=
  c_votes s !! (p, m) = Some (v, who) /\ c_polls s !! p = Some (Ongoing t g) /\ c_locks s !! (who, p) = Some v.

Lemma former_step c s p t g m v who e k : vote_stands s p t g m v who -> no_member s g who ->
  vote_stands (cstep_run c s (StCall e (OSigned who) k)) p t g m v who.
Proof.
  intros (Hv & Hp & Hl) Hn. pose proof (call_ends_no_poll c e s (OSigned who) k p t g Hp) as Hend. revert Hend.
  set (x := StCall e (OSigned who) k).
  pose proof (step_kind_of c s x) as HS. revert HS. generalize (cstep_run c s x). intros s' HS Hend. unfold vote_stands.
  destruct HS as [(E1 & E2 & E3 & E4)|e' w m' q v' Hx Hv'|e' w m' q Hx Hv'|e' w q Hx Hv'|q g' Hq ->|q y Hq ->].
  - by rewrite E1, E2, E4.
  - injection Hx as <- <- ->. destruct Hv' as (g' & t' & s1 & Hc & _ & _ & Hs1 & Hp' & _ & ->).
    assert (q <> p) as Hqp.
    { intros ->. destruct Hs1 as [[_ ->]|(t0 & v0 & w0 & _ & Hp0 & _)]; [rewrite Hp in Hp'; injection Hp' as <- <-|rewrite Hp in Hp0; injection Hp0 as <- <-];
        by eapply check_no_member. }
    destruct (vote_recorded_fields s1 g' who m' q t' v') as (_ & EV & EP & EL & _). rewrite EV, EP, EL.
    rewrite lookup_insert_ne by congruence. rewrite (lookup_insert_ne (c_polls s1)) by congruence.
    rewrite locks_lock_added.
    assert (c_votes s1 !! (p, m) = Some (v, who) /\ c_polls s1 !! p = Some (Ongoing t g) /\ c_locks s1 !! (who, p) = Some v) as (B1 & B2 & B3).
    { destruct Hs1 as [[_ ->]|(t0 & v0 & w0 & _ & _ & ->)]; [done|].
      destruct (vote_removed_fields s g' m' q t0 v0 w0 (method_of s g')) as (_ & -> & -> & -> & _).
      rewrite lookup_delete_ne by congruence. rewrite lookup_insert_ne by congruence. rewrite locks_lock_removed.
      split_and!; try done. destruct (vote_lock v0); [rewrite lookup_delete_ne by congruence|]; done. }
    split_and!; try done. destruct (vote_lock v'); [rewrite lookup_insert_ne by congruence|]; done.
  - injection Hx as <- <- ->. destruct Hv' as (g' & t' & v0 & w0 & Hc & Hp' & Hv0 & ->).
    assert (q <> p) as Hqp. { intros ->. rewrite Hp in Hp'. injection Hp' as <- <-. by eapply check_no_member. }
    destruct (vote_removed_fields s g' m' q t' v0 w0 (method_of s g')) as (_ & -> & -> & -> & _).
    rewrite lookup_delete_ne by congruence. rewrite lookup_insert_ne by congruence. rewrite locks_lock_removed.
    split_and!; try done. destruct (vote_lock v0); [rewrite lookup_delete_ne by congruence|]; done.
  - injection Hx as <- <- ->. destruct Hv' as (v0 & Hl0 & Hq & ->). assert (q <> p) as Hqp by (intros ->; by eapply Hq).
    destruct (lock_removed_fields s who q v0) as (_ & _ & _ & E4 & E5 & _). rewrite E4, E5, locks_lock_removed.
    split_and!; try done. destruct (vote_lock v0); [rewrite lookup_delete_ne by congruence|]; done.
  - split_and!; try done. cbn. rewrite lookup_insert_ne by congruence. done.
  - split_and!; try done. cbn in *. destruct (decide (q = p)) as [->|]; [by rewrite lookup_insert in Hend|]. by rewrite lookup_insert_ne.
Qed.

Lemma former_stuck : forall c s p t g m v who, creachable c s -> c_polls s !! p = Some (Ongoing t g) ->
  c_votes s !! (p, m) = Some (v, who) -> c_locks s !! (who, p) = Some v ->
  forall l, all_along c (fun s1 x => no_member s1 g who /\ call_of who x) s l -> let s' := crun c s l in
  c_polls s' !! p = Some (Ongoing t g) /\ c_votes s' !! (p, m) = Some (v, who) /\ c_locks s' !! (who, p) = Some v /\
  forall k n, pledges v k n -> n <= frozen s' k who.
Proof.
  intros c s p t g m v who HR Hp Hv Hl l. assert (vote_stands s p t g m v who) as HS by done. clear Hp Hv Hl.
  revert s HR HS. induction l as [|x l IH]; intros s HR HS HA; cbn in *.
  - destruct HS as (? & ? & ?). split_and!; try done. intros k n Hpl. by eapply (locks_covered _ _ HR).
  - destruct HA as [[Hn (e & k & ->)] HA]. apply IH; try done.
    + destruct HR as [l0 ->]. exists (l0 ++ [StCall e (OSigned who) k]). by rewrite crun_app.
    + by apply former_step.
Qed.

(** Whoever holds the membership now takes the vote over or takes it back, and what it froze is free again. *)
Lemma removed_frees s g m p t v who dm : let s1 := vote_removed s g m p t v who dm in
  forall k n, pledges v k n -> c_locks s1 !! (who, p) = None /\ largest_lock s1 who k (frozen s1 k who).
Proof.
  intros s1 k n Hpl. apply pledges_lock in Hpl. destruct (vote_removed_fields s g m p t v who dm) as (_ & _ & _ & EL & EF). fold s1 in EL, EF.
  split.
  - rewrite EL, locks_lock_removed, Hpl. by rewrite lookup_delete.
  - unfold largest_lock, frozen. rewrite EL, EF. fold (frozen (lock_removed s who p v) k who). rewrite frozen_lock_removed, Hpl, decide_True by done.
    apply max_locked_spec.
Qed.
Lemma taken_back : forall c e s o m p s' evs v who, ccall_run c e s o (CRemoveVote m p) = COk (s', evs) -> c_votes s !! (p, m) = Some (v, who) ->
  c_votes s' = delete (p, m) (c_votes s) /\
  forall k n, pledges v k n -> c_locks s' !! (who, p) = None /\ largest_lock s' who k (frozen s' k who).
Proof.
  intros c e s o m p s' evs v who E Hv. cbn in E. apply call_remove_vote_ok in E as (w & g & t & v' & voter & -> & Hc & -> & Hp & Hv' & ->).
  rewrite Hv in Hv'. injection Hv' as <- <-. split; [by destruct (vote_removed_fields s g m p t v who (method_of s g)) as (_ & -> & _)|].
  by apply removed_frees.
Qed.
Lemma taken_over : forall c e s w m p v' s' evs v who, ccall_run c e s (OSigned w) (CVote m p v') = COk (s', evs) ->
  c_votes s !! (p, m) = Some (v, who) -> w <> who ->
  c_votes s' = <[(p, m) := (v', w)]> (c_votes s) /\
  forall k n, pledges v k n -> c_locks s' !! (who, p) = None /\ largest_lock s' who k (frozen s' k who).
Proof.
  intros c e s w m p v' s' evs v who E Hv Hne. cbn in E. apply call_vote_ok in E as (w' & g & t & s1 & Hw & Hc & _ & Hf & -> & Hs1 & Hp & Hl & ->).
  injection Hw as <-. destruct Hs1 as [[Hx _]|(t0 & v0 & w0 & Hv0 & Hp0 & ->)]; [congruence|]. rewrite Hv in Hv0. injection Hv0 as <- <-.
  pose proof (removed_frees s g m p t0 v who (method_of s g)) as HF. cbv zeta in HF.
  pose proof (vote_removed_fields s g m p t0 v who (method_of s g)) as (_ & EV1 & _).
  set (s1 := vote_removed s g m p t0 v who (method_of s g)) in *.
  destruct (vote_recorded_fields s1 g w m p t v') as (_ & EV & _ & EL & EF). split.
  - rewrite EV, EV1. by rewrite insert_delete_insert.
  - intros k n Hpl. destruct (HF k n Hpl) as [H1 H2].
    assert (forall q, c_locks (vote_recorded s1 g w m p t v') !! (who, q) = c_locks s1 !! (who, q)) as HL.
    { intros q. rewrite EL, locks_lock_added. destruct (vote_lock v'); [|done]. by rewrite lookup_insert_ne by congruence. }
    assert (frozen (vote_recorded s1 g w m p t v') k who = frozen s1 k who) as HFr.
    { unfold frozen at 1. rewrite EF. fold (frozen (lock_added s1 w p v') k who). rewrite frozen_lock_added.
      destruct (vote_lock v') as [[k0 n0]|]; [|done]. rewrite decide_False by congruence. done. }
    rewrite HL, HFr. split; [done|]. destruct H2 as [A B]. split.
    + intros q x a. rewrite HL. apply A.
    + destruct B as [B|(q & x & B1 & B2)]; [by left|right]. exists q, x. by rewrite HL.
Qed.

(** The rank goes with the removal, so that of a vote weighed by rank nothing is taken out. *)
Lemma weight_left : forall c e o a m s1 evs s p t g, ccall_run c e s o (CRemoveMember a m) = COk (s1, evs) ->
  c_polls s !! p = Some (Ongoing t g) -> method_of s g = ByRank ->
  forall e2 o2 a2 e3 w, let s2 := cdispatch c e2 s1 o2 (CAddMember a2) in let s3 := cdispatch c e3 s2 (OSigned w) (CRemoveVote m p) in
  exists b, c_polls s3 !! p = Some (Ongoing (Tally (ayes t) (nays t) b) g).
Proof.
  intros c e o a m s1 evs s p t g E Hp Hm e2 o2 a2 e3 w s2 s3.
  assert (c_polls s1 = c_polls s /\ c_method s1 = c_method s /\ exists g1 w1, c_members s1 !! m = Some (Membership g1 w1 0)) as (P1 & M1 & g1 & w1 & X1).
  { cbn in E. unfold call_remove_member in E. cinv E. injection E as <- <-. unfold release in H2. cinv H2. injection H2 as <-. cbn.
    split_and!; try done. rewrite lookup_insert. eauto. }
  assert (c_polls s2 = c_polls s /\ c_method s2 = c_method s /\ exists g1 w1, c_members s2 !! m = Some (Membership g1 w1 0)) as (P2 & M2 & g2 & w2 & X2).
  { unfold s2, cdispatch. destruct (ccall_run c e2 s1 o2 (CAddMember a2)) as [[s2' evs2]|] eqn:E2; [|eauto 10].
    cbn in E2. unfold call_add_member in E2. cinv E2. injection E2 as <- <-. unfold assign in H2. cinv H2. injection H2 as <-. cbn.
    split_and!; try done.
    match goal with H : c_members s1 !! ?m' = Some ?x |- context [<[?m' := _]> _] => destruct (decide (m' = m)) as [->|];
      [rewrite lookup_insert; rewrite X1 in H; injection H as <-; cbn; eauto | rewrite lookup_insert_ne by done; eauto] end. }
  unfold s3, cdispatch. destruct (ccall_run c e3 s2 (OSigned w) (CRemoveVote m p)) as [[s3' evs3]|] eqn:E3; [|exists (bare_ayes t); rewrite P2, Hp; by destruct t].
  cbn [ccall_run] in E3. apply call_remove_vote_ok in E3 as (w' & g' & t' & v & voter & _ & Hc & _ & Hp' & Hv & ->).
  rewrite P2, Hp in Hp'. injection Hp' as <- <-.
  destruct (vote_removed_fields s2 g m p t v voter (method_of s2 g)) as (_ & _ & -> & _). rewrite lookup_insert.
  assert (method_of s2 g = ByRank) as -> by (unfold method_of; rewrite M2; exact Hm).
  unfold vote_multiplier, rank_of. rewrite X2. cbn.
  assert ((default 0 (if g2 =? g then Some 0 else None)) = 0) as -> by (by destruct (g2 =? g)). rewrite N.mul_0_l. change (wrap32 0) with 0.
  unfold remove_vote_tally. rewrite !N.sub_0_r. destruct (vote_say v); eauto.
Qed.

Lemma unlocks_when_over : forall c s, creachable c s -> forall e who p, ~ is_ongoing s p -> c_locks s !! (who, p) <> None ->
  (forall k n, ce_freeze_ok e k who n = true) -> (forall k, frozen s k who <= ce_freezable e k who) ->
  exists s' evs v k n, ccall_run c e s (OSigned who) (CUnlock p) = COk (s', evs) /\ c_locks s !! (who, p) = Some v /\ pledges v k n /\
    c_locks s' = delete (who, p) (c_locks s) /\ largest_lock s' who k (frozen s' k who).
Proof.
  intros c s HR e who p Ho Hl Hf Hb. destruct (unlock_after_poll c s HR e who p) as (_ & HU & HE).
  destruct (HE Ho Hl Hf Hb) as (s' & evs & E). destruct (HU s' evs E) as (v & k & n & H1 & H2 & H3 & H4 & _). exists s', evs, v, k, n. done.
Qed.

(** ** The example *)
Definition no_member_b (s : cstate) (g who : N) : bool :=
  forallb (fun x => negb ((m_owner x.2 =? who) && (m_group x.2 =? g))) (map_to_list (c_members s)).
Lemma no_member_sound s g who : no_member_b s g who = true -> no_member s g who.
Proof.
  unfold no_member_b. rewrite forallb_forall. intros H m x Hm Hw Hg. specialize (H (m, x)). cbn [fst snd] in H.
  rewrite <- elem_of_list_In, elem_of_map_to_list in H. specialize (H Hm). subst. by rewrite !N.eqb_refl in H.
Qed.
Definition h_former : list cstep := community_one ByNativeToken ++
  [call_by 10 (CVote 101 7 (NativeBalance true 30)); call_by 1 (CRemoveMember (AddrId 10) 101)].
Lemma former_case : let s := crun kc c_empty h_former in let later := [call_by 10 (CRemoveVote 101 7); call_by 10 (CUnlock 7)] in
  no_member s 1 10 /\ c_polls s !! 7 = Some (Ongoing (Tally 30 0 30) 1) /\ c_votes s !! (7, 101) = Some (NativeBalance true 30, 10) /\
  c_locks s !! (10, 7) = Some (NativeBalance true 30) /\
  all_along kc (fun s1 x => no_member s1 1 10 /\ call_of 10 x) s later /\
  frozen (crun kc s later) None 10 = 30 /\
  let s' := crun kc s [call_by 1 (CAddMember (AddrId 12)); call_by 12 (CVote 101 7 (NativeBalance false 5))] in
  c_polls s' !! 7 = Some (Ongoing (Tally 0 5 0) 1) /\ c_votes s' !! (7, 101) = Some (NativeBalance false 5, 12) /\
  frozen s' None 10 = 0 /\ frozen s' None 12 = 5.
Proof.
  cbv zeta. split; [apply no_member_sound; vm_compute; reflexivity|].
  do 3 (split; [vm_compute; reflexivity|]). split.
  { cbn [all_along]. split_and!; try exact I; try (unfold call_of, call_by; eexists; eexists; reflexivity); apply no_member_sound; vm_compute; reflexivity. }
  split_and!; vm_compute; reflexivity.
Qed.

(** Voting: the lemmas behind the property theorems. *)
From stdpp Require Import gmap.
From Verif Require Import Base XcmTypes OriginTypes AccountsModel CommunitiesModel CommunitiesSpec CommunitiesProofs CommunitiesTally CommunitiesLocks
  CommunitiesRegistry.
Open Scope N_scope.

(* ------------------------------------------------------------------ *)
(** * Who votes, and with what *)

Ltac destruct_exists := match goal with H : exists _, _ |- _ => destruct H end.
Tactic Notation "destruct_exists" "?" := repeat destruct_exists.

Lemma vote_fits_allowed s g v : vote_fits v (method_of s g) <-> allowed_vote s g v.
Proof.
  unfold method_of, allowed_vote. destruct (c_method s !! g) as [[| |a mn|]|], v; cbn; split; intros H; destruct_and?; destruct_exists?;
    destruct_and?; simplify_eq; try done; eauto.
Qed.

Lemma weight_positive v : 0 < vote_weight v <-> 0 < put_in v.
Proof. rewrite weight_sat. unfold u32_max. lia. Qed.

Lemma vote_allowed : forall c e s o m p v s' evs,
  ccall_run c e s o (CVote m p v) = COk (s', evs) ->
  exists who, o = OSigned who /\ may_vote s who m p v /\
    c_votes s' = <[(p, m) := (v, who)]> (c_votes s) /\
    (forall k n, pledges v k n -> n <= ce_freezable e k who) /\
    evs = [EvVoteCasted who p v].
Proof.
  intros c e s o m p v s' evs H. cbn in H.
  apply call_vote_ok in H as (who & g & t & s1 & -> & Hc & Hw & Hf & -> & Hs1 & Hp & Hl & ->).
  exists who. unfold check_membership in Hc. destruct (c_members s !! m) as [x|] eqn:Hm; [|discriminate].
  destruct (N.eqb_spec (m_owner x) who) as [Ho|]; [|discriminate]. injection Hc as <-.
  assert (exists t', c_polls s !! p = Some (Ongoing t' (m_group x))) as [t' Hp'].
  { destruct Hs1 as [[_ ->]|(t0 & v0 & w0 & _ & Hp0 & _)]; eauto. }
  split_and!; try done.
  - exists x, t'. split_and!; try done; [by apply vote_fits_allowed | by apply weight_positive].
  - destruct (vote_recorded_fields s1 (m_group x) who m p t v) as (_ & -> & _).
    destruct Hs1 as [[_ ->]|(t0 & v0 & w0 & _ & _ & ->)]; [done|].
    destruct (vote_removed_fields s (m_group x) m p t0 v0 w0 (method_of s (m_group x))) as (_ & -> & _).
    by rewrite insert_delete_insert.
  - intros k n Hpl. apply pledges_lock in Hpl. eapply add_lock_freezable in Hl; [|exact Hpl]. lia.
Qed.

(** Every vote found in the records was put there by such a call. *)
Lemma vote_recorded_by : forall c s x p m v who,
  c_votes (cstep_run c s x) !! (p, m) = Some (v, who) -> c_votes s !! (p, m) <> Some (v, who) ->
  exists e, x = StCall e (OSigned who) (CVote m p v) /\ may_vote s who m p v.
Proof.
  intros c s x p m v who H Hn. destruct (step_kind_of c s x) as [Hs|e w m' p' v' Ex Hv|e w m' p' _ Hv|e w p' _ Hv|p' g Hp E|p' y Hp E].
  - destruct Hs as (E1 & _). rewrite E1 in H. done.
  - subst x. cbn [cstep_run] in *. unfold cdispatch in *.
    destruct (ccall_run c e s (OSigned w) (CVote m' p' v')) as [[s' evs]|er] eqn:E; [|done].
    apply vote_allowed in E as (w' & [= <-] & Hmay & EV & _). rewrite EV in H.
    apply lookup_insert_Some in H as [[[= -> ->] [= -> ->]]|[_ H]]; [eauto | done].
  - destruct Hv as (g & t & v0 & w0 & _ & _ & _ & E). rewrite E in H.
    destruct (vote_removed_fields s g m' p' t v0 w0 (method_of s g)) as (_ & EV & _). rewrite EV in H.
    by apply lookup_delete_Some in H as [_ H].
  - destruct Hv as (v0 & _ & _ & E). rewrite E in H. by destruct (lock_removed_fields s w p' v0) as (_ & _ & _ & EV & _); rewrite EV in H.
  - rewrite E in H. done.
  - rewrite E in H. done.
Qed.

(** A vote can be taken back by whoever holds the membership, only while the poll is running. *)
Lemma remove_vote_allowed : forall c e s o m p s' evs,
  ccall_run c e s o (CRemoveVote m p) = COk (s', evs) ->
  exists who x t v voter, o = OSigned who /\ c_members s !! m = Some x /\ m_owner x = who /\
    c_polls s !! p = Some (Ongoing t (m_group x)) /\ c_votes s !! (p, m) = Some (v, voter) /\
    c_votes s' = delete (p, m) (c_votes s) /\ evs = [EvVoteRemoved who p].
Proof.
  intros c e s o m p s' evs H. cbn in H.
  apply call_remove_vote_ok in H as (who & g & t & v & voter & -> & Hc & -> & Hp & Hv & ->).
  unfold check_membership in Hc. destruct (c_members s !! m) as [x|] eqn:Hm; [|discriminate].
  destruct (N.eqb_spec (m_owner x) who) as [Ho|]; [|discriminate]. injection Hc as <-.
  exists who, x, t, v, voter. split_and!; try done.
  by destruct (vote_removed_fields s (m_group x) m p t v voter (method_of s (m_group x))) as (_ & -> & _).
Qed.

(** Once a poll is over, the votes recorded for it never change. *)
Lemma ended_step c s x p m :
  c_polls s !! p = Some Completed ->
  c_polls (cstep_run c s x) !! p = Some Completed /\ c_votes (cstep_run c s x) !! (p, m) = c_votes s !! (p, m).
Proof.
  intros Hc. destruct (step_kind_of c s x) as [Hs|e w m' p' v' Ex Hv|e w m' p' _ Hv|e w p' _ Hv|p' g Hp E|p' y Hp E].
  - destruct Hs as (-> & _ & _ & ->). done.
  - destruct Hv as (g & t & s1 & _ & _ & _ & Hs1 & Hp & _ & ->).
    destruct (vote_recorded_fields s1 g w m' p' t v') as (_ & -> & -> & _).
    assert (p' <> p /\ c_polls s1 !! p = Some Completed /\ c_votes s1 !! (p, m) = c_votes s !! (p, m)) as (Hne & Hc1 & Hv1).
    { destruct Hs1 as [[Hv ->]|(t0 & v0 & w0 & Hv0 & Hp0 & ->)].
      - split_and!; try done. intros ->. congruence.
      - assert (p' <> p) by (intros ->; congruence).
        destruct (vote_removed_fields s g m' p' t0 v0 w0 (method_of s g)) as (_ & -> & -> & _).
        rewrite lookup_insert_ne, lookup_delete_ne by congruence. done. }
    rewrite !lookup_insert_ne by congruence. done.
  - destruct Hv as (g & t & v0 & w0 & _ & Hp & _ & ->). assert (p' <> p) by (intros ->; congruence).
    destruct (vote_removed_fields s g m' p' t v0 w0 (method_of s g)) as (_ & -> & -> & _).
    rewrite lookup_insert_ne, lookup_delete_ne by congruence. done.
  - destruct Hv as (v0 & _ & _ & ->). by destruct (lock_removed_fields s w p' v0) as (_ & _ & _ & -> & -> & _).
  - rewrite E. cbn. rewrite lookup_insert_ne by congruence. done.
  - rewrite E. cbn. destruct (decide (p' = p)) as [->|]; [rewrite lookup_insert | rewrite lookup_insert_ne by done]; done.
Qed.
Lemma ended_polls_final : forall c s l p,
  c_polls s !! p = Some Completed ->
  c_polls (crun c s l) !! p = Some Completed /\ forall m, c_votes (crun c s l) !! (p, m) = c_votes s !! (p, m).
Proof.
  intros c s l. revert s. induction l as [|x l IH]; intros s p Hc; [done|].
  cbn. destruct (IH (cstep_run c s x) p) as [H1 H2]; [by apply (ended_step c s x p 0)|].
  split; [done|]. intros m. rewrite H2. by apply ended_step.
Qed.

(** What a vote or its removal leaves alone. *)
Lemma vote_frame : forall c e s o m p v s' evs,
  ccall_run c e s o (CVote m p v) = COk (s', evs) \/ ccall_run c e s o (CRemoveVote m p) = COk (s', evs) ->
  (forall q m', (q, m') <> (p, m) -> c_votes s' !! (q, m') = c_votes s !! (q, m')) /\
  (forall q, q <> p -> c_polls s' !! q = c_polls s !! q) /\
  (forall w q, q <> p -> c_locks s' !! (w, q) = c_locks s !! (w, q)) /\
  (forall w q k, o <> OSigned w -> (forall v0, c_votes s !! (p, m) <> Some (v0, w)) ->
     c_locks s' !! (w, q) = c_locks s !! (w, q) /\ frozen s' k w = frozen s k w) /\
  same_registry s s'.
Proof.
  assert (forall s g m p t v w, 
    let s' := vote_removed s g m p t v w (method_of s g) in
    (forall q m', (q, m') <> (p, m) -> c_votes s' !! (q, m') = c_votes s !! (q, m')) /\
    (forall q, q <> p -> c_polls s' !! q = c_polls s !! q) /\
    (forall w q, q <> p -> c_locks s' !! (w, q) = c_locks s !! (w, q)) /\
    (forall w' q k, w' <> w -> c_locks s' !! (w', q) = c_locks s !! (w', q) /\ frozen s' k w' = frozen s k w') /\
    same_registry s s') as HR.
  { intros s g m p t v w. cbv zeta. set (s' := vote_removed _ _ _ _ _ _ _ _).
    destruct (vote_removed_fields s g m p t v w (method_of s g)) as (Hr & EV & EP & EL & EF). fold s' in Hr, EV, EP, EL, EF.
    split_and!; try done.
    - intros q m' Hne. rewrite EV. by rewrite lookup_delete_ne by congruence.
    - intros q Hne. rewrite EP. by rewrite lookup_insert_ne.
    - intros w' q Hne. rewrite EL, locks_lock_removed. destruct (vote_lock v); [by rewrite lookup_delete_ne by congruence | done].
    - intros w' q k Hne. split.
      + rewrite EL, locks_lock_removed. destruct (vote_lock v); [by rewrite lookup_delete_ne by congruence | done].
      + assert (frozen s' k w' = frozen (lock_removed s w p v) k w') as -> by (unfold frozen; by rewrite EF).
        rewrite frozen_lock_removed. destruct (vote_lock v) as [[]|]; [by rewrite decide_False by congruence | done]. }
  intros c e s o m p v s' evs [H|H]; cbn in H.
  - apply call_vote_ok in H as (who & g & t & s1 & -> & Hc & Hw & Hf & -> & Hs1 & Hp & Hl & ->).
    assert (
      (forall q m', (q, m') <> (p, m) -> c_votes s1 !! (q, m') = c_votes s !! (q, m')) /\
      (forall q, q <> p -> c_polls s1 !! q = c_polls s !! q) /\
      (forall w q, q <> p -> c_locks s1 !! (w, q) = c_locks s !! (w, q)) /\
      (forall w q k, OSigned who <> OSigned w -> (forall v0, c_votes s !! (p, m) <> Some (v0, w)) ->
        c_locks s1 !! (w, q) = c_locks s !! (w, q) /\ frozen s1 k w = frozen s k w) /\
      same_registry s s1) as (F1 & F2 & F3 & F4 & F5).
    { destruct Hs1 as [[_ ->]|(t0 & v0 & w0 & Hv0 & _ & ->)]; [done|].
      destruct (HR s g m p t0 v0 w0) as (G1 & G2 & G3 & G4 & G5). split_and!; try done.
      intros w q k _ Hno. apply G4. intros ->. by eapply Hno. }
    set (s' := vote_recorded s1 g who m p t v).
    destruct (vote_recorded_fields s1 g who m p t v) as (Hr & EV & EP & EL & EF). fold s' in Hr, EV, EP, EL, EF.
    split_and!.
    + intros q m' Hne. rewrite EV. rewrite lookup_insert_ne by congruence. by apply F1.
    + intros q Hne. rewrite EP. rewrite lookup_insert_ne by done. by apply F2.
    + intros w' q Hne. rewrite EL, locks_lock_added. destruct (vote_lock v); [rewrite lookup_insert_ne by congruence|]; by apply F3.
    + intros w' q k Hne Hno. destruct (F4 w' q k Hne Hno) as [<- <-]. split.
      * rewrite EL, locks_lock_added. destruct (vote_lock v); [by rewrite lookup_insert_ne by congruence | done].
      * assert (frozen s' k w' = frozen (lock_added s1 who p v) k w') as -> by (unfold frozen; by rewrite EF).
        rewrite frozen_lock_added. destruct (vote_lock v) as [[]|]; [by rewrite decide_False by congruence | done].
    + unfold same_registry in *. intuition congruence.
  - apply call_remove_vote_ok in H as (who & g & t & v0 & voter & -> & Hc & -> & Hp & Hv & ->).
    destruct (HR s g m p t v0 voter) as (G1 & G2 & G3 & G4 & G5). split_and!; try done.
    intros w q k _ Hno. apply G4. intros ->. by eapply Hno.
Qed.

(* ------------------------------------------------------------------ *)
(** * Voting and taking it back; voting again *)

Lemma vote_then_remove : forall c l, all_along c one_membership_each c_empty l ->
  forall s, s = crun c c_empty l ->
  forall e e' who m p v t g s1 evs1,
  c_polls s !! p = Some (Ongoing t g) -> (forall m' v', c_votes s !! (p, m') <> Some (v', who)) -> c_votes s !! (p, m) = None ->
  tally_within (tally_plus t (factor s g m) v) ->
  ccall_run c e s (OSigned who) (CVote m p v) = COk (s1, evs1) ->
  (forall s2 evs2, ccall_run c e' s1 (OSigned who) (CRemoveVote m p) = COk (s2, evs2) ->
     c_polls s2 = c_polls s /\ c_votes s2 = c_votes s /\ c_locks s2 = c_locks s /\ (forall k w, frozen s2 k w = frozen s k w) /\
     same_registry s s2) /\
  ((forall k n, ce_freeze_ok e' k who n = true) -> (forall k, frozen s k who <= ce_freezable e' k who) ->
   exists s2 evs2, ccall_run c e' s1 (OSigned who) (CRemoveVote m p) = COk (s2, evs2)).
Proof.
  intros c l Hl s -> e e' who m p v t g s1 evs1 Hp Hno Hv Hfit H. pose proof (tidy_history c l Hl) as HT.
  set (s := crun c c_empty l) in *. cbn [ccall_run] in H.
  pose proof H as H0. eapply vote_once in H0 as (EP1 & EV1 & Hr1); [|by left|done].
  apply call_vote_ok in H as (who' & g' & t' & s0 & [= <-] & Hc & Hw & Hf & _ & Hs0 & Hp' & _ & Hs1).
  destruct Hs0 as [[_ ->]|(t0 & v0 & w0 & Hv0 & _)]; [|congruence].
  assert (g' = g) as -> by congruence. assert (t' = t) as -> by congruence. clear Hp'.
  destruct (vote_recorded_fields s g who m p t v) as (_ & _ & _ & EL1 & EF1). rewrite <- Hs1 in EL1, EF1.
  assert (c_locks s !! (who, p) = None) as Hln.
  { destruct (c_locks s !! (who, p)) as [v'|] eqn:E; [|done].
    apply (tidy_lock _ HT) in E as [[m' Hm'] _]; [by apply Hno in Hm' | unfold is_ongoing; eauto]. }
  assert (check_membership s1 who m = Some g) as Hc1.
  { unfold check_membership in *. destruct Hr1 as (_ & _ & _ & -> & _). done. }
  assert (c_polls s1 !! p = Some (Ongoing (tally_plus t (factor s g m) v) g)) as Hp1 by (rewrite EP1; apply lookup_insert).
  assert (c_votes s1 !! (p, m) = Some (v, who)) as Hv1 by (rewrite EV1; apply lookup_insert).
  assert (forall k w, max_locked (lock_removed s1 who p v) k w = max_locked s k w) as HM.
  { intros k w. apply max_locked_ext. rewrite locks_lock_removed, EL1, locks_lock_added. destruct (vote_lock v); [by rewrite delete_insert | done]. }
  split.
  - intros s2 evs2 H2. cbn [ccall_run] in H2.
    apply call_remove_vote_ok in H2 as (who' & g' & t' & v' & voter & [= <-] & Hc' & -> & Hp' & Hv' & ->).
    rewrite Hc1 in Hc'. injection Hc' as <-. rewrite Hp1 in Hp'. injection Hp' as <-. rewrite Hv1 in Hv'. injection Hv' as <- <-.
    destruct (vote_removed_fields s1 g m p (tally_plus t (factor s g m) v) v who (method_of s1 g)) as (Hr2 & EV2 & EP2 & EL2 & EF2).
    split_and!.
    + rewrite EP2, factor_multiplier, (same_registry_factor _ _ _ _ Hr1), remove_vote_with by done.
      rewrite EP1, insert_insert. by apply insert_id.
    + rewrite EV2, EV1. by apply delete_insert.
    + rewrite EL2, locks_lock_removed, EL1, locks_lock_added. destruct (vote_lock v); [by apply delete_insert | done].
    + intros k w. unfold frozen at 1. rewrite EF2. fold (frozen (lock_removed s1 who p v) k w).
      rewrite frozen_lock_removed, HM. unfold frozen at 1 2. rewrite EF1. fold (frozen (lock_added s who p v) k w).
      rewrite frozen_lock_added. destruct (vote_lock v) as [[k0 n0]|]; [|done].
      destruct (decide _) as [[= -> ->]|]; [by rewrite (tidy_frozen _ HT) | done].
    + unfold same_registry in *. intuition congruence.
  - intros Hok Hfz. cbn. unfold call_remove_vote. cbn. rewrite Hc1. cbn. unfold try_remove_vote, ongoing. rewrite Hp1. cbn.
    rewrite N.eqb_refl. cbn. rewrite Hv1. cbn. unfold remove_lock.
    destruct (vote_lock v) as [[k n]|] eqn:Hvl; [|cbn; eauto].
    unfold set_frozen. rewrite Hok.
    replace (max_locked _ k who) with (max_locked s k who).
    + rewrite <- (tidy_frozen _ HT). specialize (Hfz k). apply N.leb_le in Hfz. rewrite Hfz. cbn. eauto.
    + rewrite <- HM. apply max_locked_ext. rewrite locks_lock_removed, Hvl. done.
Qed.

Lemma revote_replaces : forall c s who m p t g, c_polls s !! p = Some (Ongoing t g) -> c_votes s !! (p, m) = None ->
  forall l e v s', Forall (fun ev => tally_within (tally_plus t (factor s g m) ev.2)) (l ++ [(e, v)]) ->
  votes_in_turn c s who m p (l ++ [(e, v)]) = Some s' ->
  c_polls s' = <[p := Ongoing (tally_plus t (factor s g m) v) g]> (c_polls s) /\
  c_votes s' = <[(p, m) := (v, who)]> (c_votes s) /\
  (forall e1 s1 evs1, ccall_run c e1 s (OSigned who) (CVote m p v) = COk (s1, evs1) -> c_polls s1 = c_polls s' /\ c_votes s1 = c_votes s').
Proof.
  intros c s who m p t g Hp Hv.
  assert (forall l s0, same_registry s s0 ->
    ((c_votes s0 = c_votes s /\ c_polls s0 = c_polls s) \/
     exists v0 w0, tally_within (tally_plus t (factor s g m) v0) /\ c_votes s0 = <[(p, m) := (v0, w0)]> (c_votes s) /\
       c_polls s0 = <[p := Ongoing (tally_plus t (factor s g m) v0) g]> (c_polls s)) ->
    forall e v s', Forall (fun ev => tally_within (tally_plus t (factor s g m) ev.2)) (l ++ [(e, v)]) ->
    votes_in_turn c s0 who m p (l ++ [(e, v)]) = Some s' ->
    c_polls s' = <[p := Ongoing (tally_plus t (factor s g m) v) g]> (c_polls s) /\
    c_votes s' = <[(p, m) := (v, who)]> (c_votes s)) as HL.
  { assert (forall s0 e v s1 evs, same_registry s s0 ->
      ((c_votes s0 = c_votes s /\ c_polls s0 = c_polls s) \/
       exists v0 w0, tally_within (tally_plus t (factor s g m) v0) /\ c_votes s0 = <[(p, m) := (v0, w0)]> (c_votes s) /\
         c_polls s0 = <[p := Ongoing (tally_plus t (factor s g m) v0) g]> (c_polls s)) ->
      tally_within (tally_plus t (factor s g m) v) -> call_vote e s0 (OSigned who) m p v = COk (s1, evs) ->
      c_polls s1 = <[p := Ongoing (tally_plus t (factor s g m) v) g]> (c_polls s) /\
      c_votes s1 = <[(p, m) := (v, who)]> (c_votes s) /\ same_registry s s1) as H1.
    { intros s0 e v s1 evs Hr Hs Hf H. eapply (vote_once _ _ _ _ _ _ _ _ t g) in H.
      - destruct H as (-> & -> & Hr1). rewrite (same_registry_factor _ _ _ _ Hr).
        destruct Hs as [[-> ->]|(v0 & w0 & _ & -> & ->)]; rewrite ?insert_insert; split_and!; try done;
          unfold same_registry in *; intuition congruence.
      - rewrite (same_registry_factor _ _ _ _ Hr). destruct Hs as [[-> ->]|(v0 & w0 & Hf0 & -> & ->)]; [by left|].
        right. exists v0, w0. rewrite !lookup_insert. done.
      - by rewrite (same_registry_factor _ _ _ _ Hr). }
    induction l as [|[e0 v0] l IH]; intros s0 Hr Hs e v s' Hf H; cbn [votes_in_turn app ccall_run] in *.
    - apply Forall_cons in Hf as [Hf _]. destruct (call_vote e s0 (OSigned who) m p v) as [[s1 evs]|] eqn:E; [|done].
      injection H as <-. eapply H1 in E as (? & ? & _); done.
    - apply Forall_cons in Hf as [Hf0 Hf]. destruct (call_vote e0 s0 (OSigned who) m p v0) as [[s1 evs]|] eqn:E; [|done].
      eapply H1 in E as (EP & EV & Hr1); try done. eapply IH; try done. right. exists v0, who. done. }
  intros l e v s' Hf H. destruct (HL l s) with (e := e) (v := v) (s' := s') as [E1 E2]; try done.
  - by left.
  - split_and!; try done. intros e1 s1 evs1 H'. rewrite E1, E2. cbn [ccall_run] in H'.
    eapply (vote_once _ _ _ _ _ _ _ _ t g) in H' as (-> & -> & _); [done | by left |].
    apply Forall_app in Hf as [_ Hf]. by apply Forall_cons in Hf as [Hf _].
Qed.

(* ------------------------------------------------------------------ *)
(** * Locks *)

Lemma locks_covered : forall c s, creachable c s ->
  forall who p v k n, c_locks s !! (who, p) = Some v -> pledges v k n -> n <= frozen s k who.
Proof. intros c s Hs. exact (covered_reachable c s Hs). Qed.

Lemma votes_backed : forall c l, all_along c one_membership_each c_empty l ->
  forall s, s = crun c c_empty l ->
  forall p m v who k n, is_ongoing s p -> c_votes s !! (p, m) = Some (v, who) -> pledges v k n -> n <= frozen s k who.
Proof.
  intros c l Hl s -> p m v who k n Ho Hv Hp. pose proof (tidy_history c l Hl) as HT.
  assert (c_locks (crun c c_empty l) !! (who, p) = Some v) as Hlk.
  { apply (tidy_lock _ HT); [done|]. split; [eauto|]. apply pledges_lock in Hp. congruence. }
  eapply (covered_reachable c); [by exists l | done | done].
Qed.

Lemma frozen_is_largest_lock : forall c l, all_along c one_membership_each c_empty l ->
  forall s, s = crun c c_empty l -> forall k who, largest_lock s who k (frozen s k who).
Proof. intros c l Hl s -> k who. rewrite (tidy_frozen _ (tidy_history c l Hl)). apply max_locked_spec. Qed.

(** Locks are only ever taken by votes that pledge a balance. *)
Definition locks_pledge (s : cstate) : Prop := forall w p v, c_locks s !! (w, p) = Some v -> vote_lock v <> None.
Lemma locks_pledge_removed s w p v : locks_pledge s -> locks_pledge (lock_removed s w p v).
Proof.
  intros H w' q v'. rewrite locks_lock_removed. destruct (vote_lock v); [|apply H].
  intros Hl. apply lookup_delete_Some in Hl as [_ Hl]. by eapply H.
Qed.
Lemma locks_pledge_added s w p v : locks_pledge s -> locks_pledge (lock_added s w p v).
Proof.
  intros H w' q v'. rewrite locks_lock_added. destruct (vote_lock v) eqn:Hv; [|apply H].
  intros Hl. apply lookup_insert_Some in Hl as [[_ <-]|[_ Hl]]; [congruence | by eapply H].
Qed.
Lemma locks_pledge_ext s s' : c_locks s' = c_locks s -> locks_pledge s -> locks_pledge s'.
Proof. unfold locks_pledge. by intros ->. Qed.
Lemma locks_pledge_reachable c s : creachable c s -> locks_pledge s.
Proof.
  apply reachable_invariant; [intros w p v H; cbn in H; by rewrite lookup_empty in H|].
  clear s. intros s x HC. pose proof (step_kind_of c s x) as HS. generalize dependent (cstep_run c s x). intros s' HS.
  destruct HS as [Hs|e who m p v _ Hv|e who m p _ Hv|e who p _ Hv|p g Hp ->|p y Hp ->].
  - destruct Hs as (_ & E2 & _). by eapply locks_pledge_ext.
  - destruct Hv as (g & t & s1 & _ & _ & _ & Hs1 & Hp & _ & ->).
    destruct (vote_recorded_fields s1 g who m p t v) as (_ & _ & _ & EL & _).
    eapply locks_pledge_ext; [exact EL|]. apply locks_pledge_added.
    destruct Hs1 as [[Hv ->]|(t0 & v0 & w0 & Hv0 & Hp0 & ->)]; [done|].
    destruct (vote_removed_fields s g m p t0 v0 w0 (method_of s g)) as (_ & _ & _ & EL' & _).
    eapply locks_pledge_ext; [exact EL'|]. by apply locks_pledge_removed.
  - destruct Hv as (g & t & v & voter & _ & Hp & Hv & ->).
    destruct (vote_removed_fields s g m p t v voter (method_of s g)) as (_ & _ & _ & EL' & _).
    eapply locks_pledge_ext; [exact EL'|]. by apply locks_pledge_removed.
  - destruct Hv as (v & _ & _ & ->). by apply locks_pledge_removed.
  - done.
  - done.
Qed.

Lemma unlock_after_poll : forall c s, creachable c s -> forall e who p,
  (is_ongoing s p -> exists er, ccall_run c e s (OSigned who) (CUnlock p) = CErr er) /\
  (forall s' evs, ccall_run c e s (OSigned who) (CUnlock p) = COk (s', evs) ->
     exists v k n, c_locks s !! (who, p) = Some v /\ pledges v k n /\
       c_locks s' = delete (who, p) (c_locks s) /\ largest_lock s' who k (frozen s' k who) /\
       frozen s' k who <= frozen s k who /\
       (forall k' w, (k', w) <> (k, who) -> frozen s' k' w = frozen s k' w) /\
       c_votes s' = c_votes s /\ c_polls s' = c_polls s /\ same_registry s s') /\
  (~ is_ongoing s p -> c_locks s !! (who, p) <> None -> (forall k n, ce_freeze_ok e k who n = true) ->
   (forall k, frozen s k who <= ce_freezable e k who) ->
   exists s' evs, ccall_run c e s (OSigned who) (CUnlock p) = COk (s', evs)).
Proof.
  intros c s Hs e who p. pose proof (covered_reachable c s Hs) as HC. pose proof (locks_pledge_reachable c s Hs) as HP.
  assert (forall v k, largest_lock (lock_removed s who p v) who k (max_locked (lock_removed s who p v) k who)) as HM
    by (intros; apply max_locked_spec).
  assert (forall v k n, vote_lock v = Some (k, n) -> max_locked (lock_removed s who p v) k who <= frozen s k who) as Hle.
  { intros v k n Hvl. destruct (HM v k) as [_ [->|(q & v' & Hl & Hp)]]; [lia|].
    rewrite locks_lock_removed, Hvl in Hl. apply lookup_delete_Some in Hl as [_ Hl]. by eapply HC. }
  split_and!.
  - intros (t & g & Ho). cbn. unfold call_unlock. cbn. rewrite Ho. cbn. eauto.
  - intros s' evs H. cbn [ccall_run] in H. apply call_unlock_ok in H as (who' & v & [= <-] & -> & Hl & Hp & ->).
    destruct (vote_lock v) as [[k n]|] eqn:Hvl; [|by apply HP in Hl].
    exists v, k, n. destruct (lock_removed_fields s who p v) as (E1 & E2 & E3 & E4 & E5 & E6 & E7 & E8).
    split_and!; try done.
    + by apply pledges_lock.
    + by rewrite locks_lock_removed, Hvl.
    + rewrite frozen_lock_removed, Hvl, decide_True by done. apply HM.
    + rewrite frozen_lock_removed, Hvl, decide_True by done. by eapply Hle.
    + intros k' w Hne. by rewrite frozen_lock_removed, Hvl, decide_False.
  - intros Ho Hl Hok Hfz. cbn. unfold call_unlock. cbn. destruct (c_locks s !! (who, p)) as [v|] eqn:El; [|done].
    destruct (c_polls s !! p) as [[t g|]|] eqn:Ep; [exfalso; apply Ho; unfold is_ongoing; eauto| |];
      cbn; unfold remove_lock; (destruct (vote_lock v) as [[k n]|] eqn:Hvl; [|by apply HP in El]);
      unfold set_frozen; rewrite Hok;
      match goal with |- context [max_locked ?x k who] => replace (max_locked x k who) with (max_locked (lock_removed s who p v) k who)
        by (apply max_locked_ext; by rewrite locks_lock_removed, Hvl) end;
      pose proof (Hle v k n Hvl); specialize (Hfz k);
      replace (max_locked (lock_removed s who p v) k who <=? ce_freezable e k who) with true by (symmetry; apply N.leb_le; lia);
      cbn; eauto.
Qed.

(* ------------------------------------------------------------------ *)
(** * Fractions *)

Lemma perbill_bound p q : perbill_from_rational p q <= 1000000000.
Proof.
  unfold perbill_from_rational. destruct (N.eqb_spec q 0); cbn; [lia|]. destruct (N.leb_spec q p); [lia|].
  apply N.div_le_upper_bound; nia.
Qed.
Lemma perbill_exact p q : q <> 0 -> p <= q -> perbill_from_rational p q = parts_of p q.
Proof.
  intros Hq Hp. unfold perbill_from_rational, parts_of. destruct (N.eqb_spec q 0); cbn; [lia|]. destruct (N.leb_spec q p); [|done].
  assert (p = q) as -> by lia. rewrite N.mul_comm, N.div_mul by done. done.
Qed.

Lemma approval_bound : forall t, approval t <= 1000000000.
Proof. intros t. apply perbill_bound. Qed.
Lemma approval_exact : forall t, ayes t + nays t <= u32_max ->
  approval t = parts_of (ayes t) (N.max 1 (ayes t + nays t)).
Proof.
  intros t H. unfold approval, wrap32. rewrite N.mod_small by (unfold u32_max in H; lia). apply perbill_exact; lia.
Qed.
Lemma parts_mono a b q : q <> 0 -> a <= b -> parts_of a q <= parts_of b q.
Proof. intros Hq Hab. apply N.div_le_mono; [done|]. nia. Qed.
Lemma approval_mono : forall t t', ayes t + nays t <= u32_max -> ayes t' + nays t' <= u32_max ->
  ayes t <= ayes t' -> nays t' <= nays t -> approval t <= approval t'.
Proof.
  intros t t' H H' Ha Hn. rewrite !approval_exact by done. unfold parts_of.
  destruct (N.eq_dec (ayes t) 0) as [E|E].
  { rewrite E. rewrite N.mul_0_l, N.div_0_l by lia. apply N.le_0_l. }
  rewrite !N.max_r by lia.
  apply N.div_le_lower_bound; [lia|].
  apply N.le_trans with ((ayes t' + nays t') * (ayes t * 1000000000) / (ayes t + nays t)).
  - apply N.div_mul_le. lia.
  - apply N.div_le_upper_bound; [lia|].
    rewrite !N.mul_assoc. apply N.mul_le_mono_r.
    assert (ayes t * nays t' <= ayes t' * nays t) by (apply N.mul_le_mono; lia). lia.
Qed.

Lemma support_bound : forall s iss g t, support s iss g t <= 1000000000.
Proof. intros. apply perbill_bound. Qed.
Lemma fold_filter (f : membership -> N) (g : N) (M : gmap N membership) :
  map_fold (fun _ x acc => if m_group x =? g then acc + f x else acc) 0 M =
  map_fold (fun _ x acc => f x + acc) 0 (filter (fun mx => m_group mx.2 = g) M).
Proof.
  induction M as [|m x M Hm IH] using map_ind; [by rewrite map_filter_empty, !map_fold_empty|].
  rewrite map_fold_insert_L; [|intros; repeat (match goal with |- context [?a =? ?b] => destruct (a =? b) end); lia|done].
  rewrite IH. destruct (N.eqb_spec (m_group x) g) as [Hg|Hg].
  - rewrite map_filter_insert_True by done. rewrite map_fold_insert_L; [lia|intros; lia|]. apply map_filter_lookup_None. by left.
  - rewrite map_filter_insert_False by done. by rewrite delete_notin.
Qed.
Lemma fold_size (M : gmap N membership) : map_fold (fun _ _ acc => 1 + acc) 0 M = N.of_nat (size M).
Proof.
  induction M as [|m x M Hm IH] using map_ind; [by rewrite map_fold_empty|].
  rewrite map_fold_insert_L by (done || (intros; lia)). rewrite IH, map_size_insert_None by done. lia.
Qed.
Lemma max_support_electorate s iss g : max_support s iss g = electorate s iss g.
Proof.
  unfold max_support, electorate, method_of. destruct (c_method s !! g) as [[]|]; cbn [default]; try done.
  all: unfold members_total, ranks_total, members_of; rewrite <- ?fold_size.
  - apply (fold_filter (fun _ => 1)).
  - apply (fold_filter m_rank).
  - apply (fold_filter (fun _ => 1)).
Qed.
Lemma support_exact : forall s iss g t, 0 < electorate s iss g -> bare_ayes t <= electorate s iss g ->
  support s iss g t = parts_of (bare_ayes t) (electorate s iss g).
Proof. intros s iss g t. rewrite <- max_support_electorate. intros H1 H2. apply perbill_exact; lia. Qed.
Lemma perbill_mono p p' q : p <= p' -> perbill_from_rational p q <= perbill_from_rational p' q.
Proof.
  intros H. unfold perbill_from_rational. destruct (N.eqb_spec q 0); cbn; [lia|].
  destruct (N.leb_spec q p), (N.leb_spec q p'); try lia.
  - apply N.div_le_upper_bound; nia.
  - apply N.div_le_mono; nia.
Qed.
Lemma support_mono : forall s iss g t t', bare_ayes t <= bare_ayes t' -> support s iss g t <= support s iss g t'.
Proof. intros. by apply perbill_mono. Qed.

(* ------------------------------------------------------------------ *)
(** * Weights *)

Lemma weights_grow : forall v v', put_in v < put_in v' -> put_in v' <= u32_max -> vote_weight v < vote_weight v'.
Proof. intros v v' H H'. rewrite !weight_put_in by lia. done. Qed.
Lemma weights_never_shrink : forall v v', put_in v <= put_in v' -> vote_weight v <= vote_weight v'.
Proof. intros v v' H. rewrite !weight_sat. lia. Qed.

(* ------------------------------------------------------------------ *)
(** * The same funds twice *)

Lemma counted_of_le (V : gmap (N * N) (vote * N)) p who k n :
  (forall m m' v v', V !! (p, m) = Some (v, who) -> V !! (p, m') = Some (v', who) -> m = m') ->
  (forall m v a, V !! (p, m) = Some (v, who) -> pledges v k a -> a <= n) ->
  map_fold (fun pm vw acc => (if (pm.1 =? p) && (vw.2 =? who) then
     match vw.1 with
     | AssetBalance _ a n => if decide (k = Some a) then n else 0
     | NativeBalance _ n => if decide (k = None) then n else 0
     | Standard _ => 0
     end else 0) + acc) 0 V <= n.
Proof.
  set (F := fun (pm : N * N) (vw : vote * N) acc => _).
  assert (forall V' : gmap (N * N) (vote * N), (forall m v, V' !! (p, m) <> Some (v, who)) -> map_fold F 0 V' = 0) as H0.
  { intros V' H. induction V' as [|[q m] [v w] V' Hn IH] using map_ind; [done|].
    rewrite map_fold_insert_L; [|intros [] [] [] [] y _ _ _; unfold F; cbn; lia|done].
    rewrite IH.
    - unfold F. cbn. destruct (N.eqb_spec q p) as [->|]; [|done]. destruct (N.eqb_spec w who) as [->|]; [|done].
      exfalso. eapply H. apply lookup_insert.
    - intros m' v' H'. apply (H m' v'). rewrite lookup_insert_ne; [done|]. intros [= -> ->]. congruence. }
  intros Hone Hle.
  destruct (decide (map_Exists (fun pm vw => pm.1 = p /\ vw.2 = who) V)) as [([q m] & [v w] & Hl & Hq & Hw)|Hno].
  - cbn in Hq, Hw. subst q w. rewrite <- (insert_delete V (p, m) (v, who)) by done.
    rewrite map_fold_insert_L; [|intros [] [] [] [] y _ _ _; unfold F; cbn; lia|apply lookup_delete].
    rewrite H0.
    + unfold F. cbn. rewrite !N.eqb_refl. cbn. specialize (Hle m v).
      destruct v as [b a x|b x|b]; cbn in *.
      * destruct (decide (k = Some a)) as [->|]; [|lia]. rewrite N.add_0_r. by apply Hle.
      * destruct (decide (k = None)) as [->|]; [|lia]. rewrite N.add_0_r. by apply Hle.
      * lia.
    + intros m' v' H'. apply lookup_delete_Some in H' as [Hne H']. apply Hne. f_equal. by eapply Hone.
  - rewrite H0; [lia|]. intros m v Hl. apply Hno. exists (p, m), (v, who). done.
Qed.

Lemma funds_counted_once : forall c l, all_along c one_membership_each c_empty l ->
  forall s, s = crun c c_empty l -> forall p who k, is_ongoing s p -> counted_of s p who k <= frozen s k who.
Proof.
  intros c l Hl s Hs p who k Ho. unfold counted_of. apply counted_of_le.
  - intros m m' v v' Hm Hm'. subst s. by eapply (tidy_one _ (tidy_history c l Hl)).
  - intros m v a Hm Hp. by eapply votes_backed.
Qed.
Lemma dispatch_as_iff : forall c s o o', dispatch_as_account c s o = Some o' <->
  exists id, cc_mgmt_origin c s o = Some id /\ o' = OSigned (cc_account c id).
Proof.
  intros c s o o'. split; [exact (dispatch_as_own c s o o')|]. intros (id & H & ->). unfold dispatch_as_account. rewrite H. reflexivity.
Qed.

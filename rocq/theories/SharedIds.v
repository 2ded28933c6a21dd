(** Proofs about voting with membership ids that repeat. *)
From stdpp Require Import gmap.
From Verif Require Import Base XcmTypes OriginTypes AccountsModel CommunitiesModel CommunitiesSpec CommunitiesProofs CommunitiesTheorems SharedIdsModel.
Open Scope N_scope.

Lemma members_of_lookup g h m : members_of g h !! m = (fun x => Membership g x.1 x.2) <$> h !! (g, m).
Proof.
  unfold members_of. rewrite lookup_fmap, <- (lookup_gmap_curry h g m). destruct (gmap_curry h !! g) as [y|] eqn:E; cbn; [done|].
  by rewrite lookup_empty.
Qed.
Lemma found_holds order h who m g : found order h who m = Some g -> exists r, h !! (g, m) = Some (who, r).
Proof.
  intros H. apply List.find_some in H as [_ H]. unfold holds in H. destruct (h !! (g, m)) as [[w r]|]; [|discriminate H].
  cbn in H. apply N.eqb_eq in H as ->. by exists r.
Qed.
Lemma found_first order h who m g : found (g :: order) (<[(g, m) := (who, 0)]> h) who m = Some g.
Proof. unfold found. cbn. unfold holds. rewrite lookup_insert. cbn. by rewrite N.eqb_refl. Qed.

Lemma vote_in_ok order e s o m p v s' : vote_in order e s o m p v = COk s' ->
  exists who g r t evs, o = OSigned who /\ found order (is_h s) who m = Some g /\ is_h s !! (g, m) = Some (who, r) /\
    call_vote e (set_members (members_of g (is_h s)) (is_c s)) o m p v = COk (t, evs) /\ s' = IState (set_members (c_members (is_c s)) t) (is_h s).
Proof.
  unfold vote_in, seen. destruct (call_vote _ _ o m p v) as [[t evs]|] eqn:E; cbn; [|discriminate]. intros [= <-].
  pose proof E as E'. apply call_vote_ok in E' as (who & g' & t' & s1 & -> & Hc & _). cbn in *.
  destruct (found order (is_h s) who m) as [g|] eqn:F.
  - pose proof F as F'. apply found_holds in F' as [r Hr]. exists who, g, r, t, evs. by split_and!.
  - unfold check_membership in Hc. cbn in Hc. rewrite lookup_empty in Hc. discriminate Hc.
Qed.
Lemma remove_in_ok order e s o m p s' : remove_in order e s o m p = COk s' ->
  exists who g r t evs, o = OSigned who /\ found order (is_h s) who m = Some g /\ is_h s !! (g, m) = Some (who, r) /\
    call_remove_vote e (set_members (members_of g (is_h s)) (is_c s)) o m p = COk (t, evs) /\ s' = IState (set_members (c_members (is_c s)) t) (is_h s).
Proof.
  unfold remove_in, seen. destruct (call_remove_vote _ _ o m p) as [[t evs]|] eqn:E; cbn; [|discriminate]. intros [= <-].
  pose proof E as E'. apply call_remove_vote_ok in E' as (who & g' & t' & v & voter & -> & Hc & _). cbn in *.
  destruct (found order (is_h s) who m) as [g|] eqn:F.
  - pose proof F as F'. apply found_holds in F' as [r Hr]. exists who, g, r, t, evs. by split_and!.
  - unfold check_membership in Hc. cbn in Hc. rewrite lookup_empty in Hc. discriminate Hc.
Qed.

(** Whoever votes holds the membership in the poll's own community. *)
Lemma vote_own order e s o m p v s' : vote_in order e s o m p v = COk s' ->
  exists who g r t, o = OSigned who /\ c_polls (is_c s) !! p = Some (Ongoing t g) /\ is_h s !! (g, m) = Some (who, r) /\
    allowed_vote (is_c s) g v /\ 0 < put_in v /\ c_votes (is_c s') = <[(p, m) := (v, who)]> (c_votes (is_c s)) /\ is_h s' = is_h s.
Proof.
  intros H. apply vote_in_ok in H as (who & g & r & t & evs & -> & F & Hr & H & ->).
  eapply (vote_allowed kreivo_communities e _ (OSigned who) m p v t evs) in H as (w & [= <-] & (x & t0 & Hm & Ho & Hp & Ha & Hi) & Hv & _).
  cbn in Hm. rewrite members_of_lookup, Hr in Hm. injection Hm as <-. cbn in *. by exists who, g, r, t0.
Qed.
Lemma remove_own order e s o m p s' : remove_in order e s o m p = COk s' ->
  exists who g r t, o = OSigned who /\ c_polls (is_c s) !! p = Some (Ongoing t g) /\ is_h s !! (g, m) = Some (who, r) /\
    c_votes (is_c s') = delete (p, m) (c_votes (is_c s)) /\ is_h s' = is_h s.
Proof.
  intros H. apply remove_in_ok in H as (who & g & r & t & evs & -> & F & Hr & H & ->).
  eapply (remove_vote_allowed kreivo_communities e _ (OSigned who) m p t evs) in H as (w & x & t0 & v & voter & [= <-] & Hm & Ho & Hp & Hv & Hd & _).
  cbn in Hm. rewrite members_of_lookup, Hr in Hm. injection Hm as <-. cbn in *. by exists who, g, r, t0.
Qed.

(** Whoever was given a membership of another community with the same id is kept from voting and from taking the vote back. *)
Lemma found_other l1 l2 h who g g' m : g ∉ l1 -> g' <> g -> exists g2, g2 <> g /\ found (l1 ++ g' :: l2) (<[(g', m) := (who, 0)]> h) who m = Some g2.
Proof.
  intros Hl Hne. induction l1 as [|x l1 IH].
  - exists g'. split; [done|]. apply found_first.
  - apply not_elem_of_cons in Hl as [Hx Hl]. destruct (IH Hl) as (g2 & H2 & F). unfold found in *. cbn [app List.find].
    destruct (holds _ who x m); [|by exists g2]. by exists x.
Qed.
Lemma shut_out l1 l2 e s who g g' m p t r : let order := l1 ++ g' :: l2 in g ∉ l1 -> g' <> g ->
  is_h s !! (g, m) = Some (who, r) -> c_polls (is_c s) !! p = Some (Ongoing t g) ->
  let s' := istep_run kreivo_communities order s (IItem g' m (Some (who, 0))) in
  is_c s' = is_c s /\ is_h s' !! (g, m) = Some (who, r) /\
  (forall v, exists er, vote_in order e s' (OSigned who) m p v = CErr er) /\
  exists er, remove_in order e s' (OSigned who) m p = CErr er.
Proof.
  intros order Hl Hne Hr Hp s'. destruct (found_other l1 l2 (is_h s) who g g' m Hl Hne) as (g2 & Hne2 & F).
  change (<[(g', m) := (who, 0)]> (is_h s)) with (is_h s') in F. fold order in F. split_and!.
  - done.
  - cbn. rewrite lookup_insert_ne; [done|]. congruence.
  - intros v. destruct (vote_in order e s' (OSigned who) m p v) as [s2|er] eqn:E; [|by exists er].
    apply vote_in_ok in E as (w & g3 & r2 & t2 & evs & [= <-] & F2 & Hr2 & E & _). rewrite F in F2. injection F2 as <-.
    apply call_vote_ok in E as (w2 & g3 & t3 & s1 & [= <-] & Hc & _ & _ & _ & Hs1 & Hp1 & _).
    unfold check_membership in Hc. cbn [c_members set_members] in Hc. rewrite members_of_lookup, Hr2 in Hc. cbn in Hc. rewrite N.eqb_refl in Hc. injection Hc as <-.
    destruct Hs1 as [[_ ->]|(t0 & v0 & w0 & _ & Hp0 & _)]; [cbn in Hp1|cbn in Hp0]; congruence.
  - destruct (remove_in order e s' (OSigned who) m p) as [s2|er] eqn:E; [|by exists er].
    apply remove_in_ok in E as (w & g3 & r2 & t2 & evs & [= <-] & F2 & Hr2 & E & _). rewrite F in F2. injection F2 as <-.
    apply call_remove_vote_ok in E as (w2 & g3 & t3 & v & voter & [= <-] & Hc & _ & Hp1 & _).
    unfold check_membership in Hc. cbn [c_members set_members] in Hc. rewrite members_of_lookup, Hr2 in Hc. cbn in Hc. rewrite N.eqb_refl in Hc. injection Hc as <-.
    cbn in Hp1. congruence.
Qed.

(** Tallies where membership ids may repeat, by way of the history with ids told apart (SharedIdsTwin.v). *)
From stdpp Require Import gmap.
From Verif Require Import Base XcmTypes OriginTypes AccountsModel CommunitiesModel CommunitiesSpec CommunitiesProofs CommunitiesTally CommunitiesLocks
  CommunitiesTheorems SharedIdsModel SharedIdsSpec SharedIds SharedIdsTwin.
Open Scope N_scope.

Lemma vsum_code p g f f' : (forall m v, f' (code g m) v = f m v) -> forall V W : gmap (N * N) (vote * N),
  (forall m, W !! (p, code g m) = V !! (p, m)) -> (forall i x, W !! (p, i) = Some x -> exists m, i = code g m) -> vsum W p f' = vsum V p f.
Proof.
  intros Hf V. induction V as [|[q m] [v w] V Hn IH] using map_ind; intros W H1 H2.
  - rewrite !vsum_none; [done|done|]. intros i. destruct (W !! (p, i)) as [x|] eqn:E; [|done].
    pose proof (H2 _ _ E) as [m ->]. by rewrite H1, lookup_empty in E.
  - rewrite vsum_insert by done. destruct (N.eqb_spec q p) as [->|Hne].
    + pose proof (H1 m) as E. rewrite lookup_insert in E. rewrite (vsum_delete _ _ _ _ _ _ _ E), N.eqb_refl, Hf. f_equal. apply IH.
      * intros m0. destruct (decide (m0 = m)) as [->|Hm]; [by rewrite lookup_delete|].
        rewrite lookup_delete_ne; [rewrite H1; by rewrite lookup_insert_ne by congruence|].
        intros E0. assert (code g m = code g m0) as E1 by congruence. apply code_inj in E1 as [_ ->]. done.
      * intros i x Hi. apply lookup_delete_Some in Hi as [_ Hi]. by apply H2 in Hi.
    + cbn. apply IH; [|done]. intros m0. rewrite H1. by rewrite lookup_insert_ne by congruence.
Qed.

Section twin.
  Context (cls : gmap N N) (s : istate) (t : cstate) (T : twin cls s t).
  Lemma twin_polls : c_polls t = c_polls (is_c s). Proof. by rewrite (tw_same _ _ _ T). Qed.
  Lemma twin_factor g m : factor t g (code g m) = own_factor s g m.
  Proof.
    unfold factor, own_factor. rewrite (tw_members _ _ _ T). assert (c_method t = c_method (is_c s)) as -> by (by rewrite (tw_same _ _ _ T)).
    destruct (c_method (is_c s) !! g) as [[]|]; try done. destruct (is_h s !! (g, m)) as [[w r]|]; cbn; [by rewrite N.eqb_refl|done].
  Qed.
  Lemma twin_sum p y g f f' : c_polls (is_c s) !! p = Some (Ongoing y g) -> (forall m v, f' (code g m) v = f m v) ->
    vote_sum t p f' = vote_sum (is_c s) p f.
  Proof.
    intros Hp Hf. pose proof (tw_class _ _ _ T _ _ _ Hp) as Hc. rewrite !vote_sum_vsum. apply (vsum_code p g); [done| |].
    - intros m. by apply (tw_votes _ _ _ T).
    - intros i x H. apply (tw_only _ _ _ T) in H as (g0 & m & H & ->). rewrite Hc in H. injection H as <-. by exists m.
  Qed.
  Lemma twin_sums p y g : c_polls (is_c s) !! p = Some (Ongoing y g) ->
    aye_sum t p g = own_ayes s p g /\ nay_sum t p g = own_nays s p g /\ bare_sum t p = own_bare s p.
  Proof. intros Hp. split_and!; (eapply twin_sum; [exact Hp|]); intros m v; rewrite ?twin_factor; done. Qed.
  Lemma twin_right : all_right t <-> own_right s.
  Proof.
    split; intros H.
    - intros p y g Hp. rewrite <- twin_polls in Hp. pose proof (H p y g Hp) as (-> & -> & ->). rewrite twin_polls in Hp. by apply twin_sums in Hp.
    - intros p y g Hp. rewrite twin_polls in Hp. pose proof (H p y g Hp) as (-> & -> & ->). apply twin_sums in Hp as (-> & -> & ->). done.
  Qed.
  Lemma twin_fit : own_fit s -> sums_fit t.
  Proof. intros H p y g Hp. rewrite twin_polls in Hp. pose proof (H p y g Hp) as HF. apply twin_sums in Hp as (-> & -> & ->). done. Qed.
End twin.

Lemma twin_kept cls cls' s s' t t' : twin cls s t -> twin cls' s' t' -> own_kept s s' ->
  forall p i v w y g, c_votes t !! (p, i) = Some (v, w) -> c_polls t !! p = Some (Ongoing y g) -> factor t' g i = factor t g i.
Proof.
  intros T T' HK p i v w y g Hv Hp. rewrite (twin_polls _ _ _ T) in Hp. pose proof (tw_class _ _ _ T _ _ _ Hp) as Hc.
  pose proof (tw_only _ _ _ T _ _ _ Hv) as (g0 & m & H & ->). rewrite Hc in H. injection H as <-. rewrite (tw_votes _ _ _ T _ _ _ Hc) in Hv.
  rewrite (twin_factor _ _ _ T), (twin_factor _ _ _ T'). by eapply HK.
Qed.

Lemma own_history order l :
  (forall l1 x l2, l = l1 ++ x :: l2 -> let s := irun kreivo_communities order i_empty l1 in let s' := irun kreivo_communities order i_empty (l1 ++ [x]) in
     own_kept s s' /\ own_fit s') ->
  own_right (irun kreivo_communities order i_empty l).
Proof.
  intros H.
  assert (exists cls l', twin cls (irun kreivo_communities order i_empty l) (crun kreivo_communities c_empty l') /\
    all_along kreivo_communities (tally_ctx kreivo_communities) c_empty l') as (cls & l' & T & A).
  { induction l as [|x l IH] using rev_ind; [exists ∅, []; split; [exact twin_empty|exact I]|].
    destruct IH as (cls & l' & T & A).
    { intros l1 y l2 ->. apply (H l1 y (l2 ++ [x])). by rewrite <- app_assoc. }
    pose proof (H l x [] eq_refl) as [HK HF]. cbn zeta in *. rewrite irun_app in *.
    destruct (twin_step order _ _ _ x T) as [E|(cls' & y & T')]; cbn zeta in *.
    - rewrite E. by exists cls, l'.
    - exists cls', (l' ++ [y]). rewrite crun_app. split; [done|]. apply all_along_app. split; [done|]. split.
      + intros p m v w y0 g Hv Hp. by eapply (twin_kept _ _ _ _ _ _ T T').
      + by eapply twin_fit. }
  apply (twin_right _ _ _ T). by apply tally_history.
Qed.

(** Frozen funds cover the locks, as with ids told apart. *)
Lemma own_covered order l who p v k n : let s := is_c (irun kreivo_communities order i_empty l) in
  c_locks s !! (who, p) = Some v -> pledges v k n -> n <= frozen s k who.
Proof.
  cbv zeta. destruct (twin_run order l) as (cls & l' & T). intros Hl Hv.
  assert (creachable kreivo_communities (crun kreivo_communities c_empty l')) as R by (by exists l').
  pose proof (locks_covered _ _ R who p v k n) as HC. rewrite (tw_same _ _ _ T) in HC. by apply HC.
Qed.

(** The history with ids told apart. *)
Lemma told_apart order l : exists l', let s := irun kreivo_communities order i_empty l in let t := crun kreivo_communities c_empty l' in
  c_polls t = c_polls (is_c s) /\ c_locks t = c_locks (is_c s) /\ c_frozen t = c_frozen (is_c s) /\ c_method t = c_method (is_c s) /\
  c_info t = c_info (is_c s) /\ c_balance t = c_balance (is_c s) /\
  (forall g m, c_members t !! code g m = (fun x => Membership g x.1 x.2) <$> is_h s !! (g, m)) /\
  (forall p y g m, c_polls (is_c s) !! p = Some (Ongoing y g) -> c_votes t !! (p, code g m) = c_votes (is_c s) !! (p, m)).
Proof.
  destruct (twin_run order l) as (cls & l' & T). exists l'. cbv zeta. pose proof (tw_same _ _ _ T) as E.
  split_and!; try (rewrite E; done); [exact (tw_members _ _ _ T)|]. intros p y g m Hp. apply (tw_votes _ _ _ T). by eapply (tw_class _ _ _ T).
Qed.

(** Whoever holds the id in no other community votes as if there were only that community. *)
Lemma alone order e s who g m p v r : g ∈ order -> is_h s !! (g, m) = Some (who, r) ->
  (forall g' r', is_h s !! (g', m) = Some (who, r') -> g' = g) ->
  vote_in order e s (OSigned who) m p v =
    match call_vote e (set_members (members_of g (is_h s)) (is_c s)) (OSigned who) m p v with
    | COk (t, _) => COk (IState (set_members (c_members (is_c s)) t) (is_h s)) | CErr er => CErr er end.
Proof.
  intros Hg Hr Ho. unfold vote_in, seen. cbn [ensure_signed].
  assert (found order (is_h s) who m = Some g) as ->.
  { destruct (found order (is_h s) who m) as [g'|] eqn:F.
    - apply found_holds in F as [r' F]. by rewrite (Ho _ _ F).
    - exfalso. apply elem_of_list_In in Hg. pose proof (List.find_none _ _ F g Hg) as HF. unfold holds in HF. rewrite Hr in HF. cbn in HF.
      by rewrite N.eqb_refl in HF. }
  by destruct (call_vote _ _ _ _ _ _) as [[t evs]|].
Qed.

Lemma alone_votes order e s who g m p v r y : g ∈ order -> is_h s !! (g, m) = Some (who, r) ->
  (forall g' r', is_h s !! (g', m) = Some (who, r') -> g' = g) ->
  c_polls (is_c s) !! p = Some (Ongoing y g) -> c_votes (is_c s) !! (p, m) = None -> allowed_vote (is_c s) g v -> 0 < put_in v ->
  (forall k n, pledges v k n -> let a := N.max (frozen (is_c s) k who) n in a <= ce_freezable e k who /\ ce_freeze_ok e k who a = true) ->
  exists s', vote_in order e s (OSigned who) m p v = COk s' /\ c_votes (is_c s') !! (p, m) = Some (v, who).
Proof.
  intros Hg Hr Ho Hp Hv Ha Hi Hf. rewrite (alone _ _ _ _ _ _ _ _ _ Hg Hr Ho).
  destruct (call_vote e _ (OSigned who) m p v) as [[t evs]|er] eqn:E.
  - eexists. split; [reflexivity|]. eapply (vote_allowed kreivo_communities) in E as (w & [= <-] & _ & Hv' & _). cbn. rewrite Hv'. apply lookup_insert.
  - exfalso. revert E. unfold call_vote, censure. apply weight_positive in Hi. rewrite (proj2 (N.ltb_lt _ _) Hi). cbn.
    unfold check_membership. cbn. rewrite members_of_lookup, Hr. cbn. rewrite N.eqb_refl. cbn. rewrite Hv. cbn.
    unfold try_vote, ongoing. cbn. rewrite Hp. cbn. rewrite N.eqb_refl. cbn.
    apply vote_fits_allowed in Ha. change (method_of (set_members _ (is_c s)) g) with (method_of (is_c s) g).
    pose proof (proj2 (check_vote_type_ok v (method_of (is_c s) g) (vote_say v)) (conj eq_refl Ha)) as ->. cbn.
    unfold add_lock. destruct (vote_lock v) as [[k n]|] eqn:El; cbn; [|discriminate].
    apply pledges_lock in El. destruct (Hf k n El) as [H1 H2]. unfold set_frozen, get_frozen. cbn. rewrite frozen_get in H1, H2. unfold get_frozen in H1, H2.
    rewrite (proj2 (N.leb_le _ _) H1), H2. discriminate.
Qed.

(** A check of the conditions of [own_history], for examples. *)
Definition kept_check (s s' : istate) : bool :=
  forallb (fun x => match c_polls (is_c s) !! (x.1).1 with
                    | Some (Ongoing _ g) => own_factor s' g (x.1).2 =? own_factor s g (x.1).2 | _ => true end) (map_to_list (c_votes (is_c s))).
Definition fit_check (s : istate) : bool :=
  forallb (fun x => match x.2 with
                    | Ongoing _ g => (own_ayes s x.1 g <=? u32_max) && (own_nays s x.1 g <=? u32_max) && (own_bare s x.1 <=? u32_max)
                    | Completed => true end) (map_to_list (c_polls (is_c s))).
Fixpoint own_check (order : list N) (s : istate) (l : list istep) : bool :=
  match l with
  | [] => true
  | x :: l' => let s' := istep_run kreivo_communities order s x in kept_check s s' && fit_check s' && own_check order s' l'
  end.
Lemma kept_checked s s' : kept_check s s' = true -> own_kept s s'.
Proof.
  intros H p m v w t g Hv Hp. unfold kept_check in H. rewrite forallb_forall in H. apply elem_of_map_to_list in Hv. apply elem_of_list_In in Hv.
  specialize (H _ Hv). cbn in H. rewrite Hp in H. by apply N.eqb_eq in H.
Qed.
Lemma fit_checked s : fit_check s = true -> own_fit s.
Proof.
  intros H p t g Hp. unfold fit_check in H. rewrite forallb_forall in H. apply elem_of_map_to_list in Hp. apply elem_of_list_In in Hp.
  specialize (H _ Hp). cbn in H. rewrite !andb_true_iff, !N.leb_le in H. tauto.
Qed.
Lemma own_checked order l : own_check order i_empty l = true -> forall l1 x l2, l = l1 ++ x :: l2 ->
  let s := irun kreivo_communities order i_empty l1 in let s' := irun kreivo_communities order i_empty (l1 ++ [x]) in own_kept s s' /\ own_fit s'.
Proof.
  generalize i_empty. intros s H l1 x l2 ->. cbv zeta. rewrite irun_app. revert s H.
  induction l1 as [|y l1 IH]; intros s H; cbn [app own_check] in H; cbv zeta in H; rewrite !andb_true_iff in H; destruct H as [[H1 H2] H3].
  - split; [by apply kept_checked|by apply fit_checked].
  - exact (IH _ H3).
Qed.

(** Basic facts about the communities model: what each successful call does to the state. *)
From stdpp Require Import gmap.
From Verif Require Import Base XcmTypes OriginTypes AccountsModel CommunitiesModel CommunitiesSpec.
Open Scope N_scope.

(* ------------------------------------------------------------------ *)
(** * Inverting calls *)

Lemma cbind_ok {A B} (x : cresult A) (f : A -> cresult B) b :
  cbind x f = COk b -> exists a, x = COk a /\ f a = COk b.
Proof. destruct x; cbn; [eauto | discriminate]. Qed.
Lemma censure_ok b e u : censure b e = COk u -> b = true.
Proof. destruct b; [done | discriminate]. Qed.
Lemma from_option_ok {A} (x : option A) e a : from_option_err x e = COk a -> x = Some a.
Proof. destruct x; cbn; congruence. Qed.

Ltac cinv H :=
  repeat match type of H with
  | cbind ?x ?f = COk _ =>
      let a := fresh "a" in let H1 := fresh "H" in
      apply cbind_ok in H as (a & H1 & H);
      try (apply censure_ok in H1); try (apply from_option_ok in H1)
  end.

(** Setting the decision method touches the methods and, for a community's asset, the assets. *)
Lemma create_asset_shape c s a m : exists A, create_asset c s a m = set_assets A s.
Proof.
  unfold create_asset. destruct (c_assets s !! a); [|destruct (m =? 0)]; try (by eexists); by exists (c_assets s); destruct s.
Qed.
Lemma call_set_method_ok c s o id dm s' evs : call_set_method c s o id dm = COk (s', evs) ->
  exists A w, cc_admin_origin c s o = Some w /\ s' = set_methods (<[id := dm]> (c_method s)) (set_assets A s) /\ evs = [EvDecisionMethodSet id].
Proof.
  unfold call_set_method. intros H. cinv H.
  assert (exists A, match dm with ByCommunityAsset a m => create_asset c s a m | _ => s end = set_assets A s) as [A E].
  { destruct dm; try apply create_asset_shape; exists (c_assets s); by destruct s. }
  rewrite E in H. injection H as <- <-. by exists A, a.
Qed.

(** The state after a lock is added or removed, when the freeze is accepted. *)
Definition lock_added (s : cstate) (who p : N) (v : vote) : cstate :=
  match vote_lock v with
  | Some (k, n) =>
      set_frozen_map (<[(k, who) := N.max (get_frozen s k who) n]> (c_frozen s)) (set_locks (<[(who, p) := v]> (c_locks s)) s)
  | None => s
  end.
Definition lock_removed (s : cstate) (who p : N) (v : vote) : cstate :=
  match vote_lock v with
  | Some (k, _) =>
      let s1 := set_locks (delete (who, p) (c_locks s)) s in
      set_frozen_map (<[(k, who) := max_locked s1 k who]> (c_frozen s)) s1
  | None => s
  end.

Lemma add_lock_ok e s who p v s' : add_lock e s who p v = COk s' -> s' = lock_added s who p v.
Proof.
  unfold add_lock, lock_added. destruct (vote_lock v) as [[k n]|]; [|congruence].
  unfold set_frozen. intros H; cinv H. injection H as <-. reflexivity.
Qed.
Lemma add_lock_freezable e s who p v s' k n :
  add_lock e s who p v = COk s' -> vote_lock v = Some (k, n) ->
  N.max (get_frozen s k who) n <= ce_freezable e k who.
Proof.
  unfold add_lock. intros H Hv. rewrite Hv in H. unfold set_frozen in H. cinv H. cbn in *.
  apply andb_true_iff in H0 as [H0 _]. by apply N.leb_le in H0.
Qed.
Lemma remove_lock_ok e s who p v s' : remove_lock e s who p v = COk s' -> s' = lock_removed s who p v.
Proof.
  unfold remove_lock, lock_removed. destruct (vote_lock v) as [[k n]|]; [|congruence].
  unfold set_frozen. intros H; cinv H. injection H as <-. reflexivity.
Qed.

Lemma ongoing_ok s p t g : ongoing s p = COk (t, g) -> c_polls s !! p = Some (Ongoing t g).
Proof. unfold ongoing. destruct (c_polls s !! p) as [[]|]; congruence. Qed.

(** The whole effect of taking a vote back. *)
Definition vote_removed (s : cstate) (g m p : N) (t : tally) (v : vote) (voter : N) (dm : decision_method) : cstate :=
  put_tally (lock_removed (set_votes (delete (p, m) (c_votes s)) s) voter p v) p
    (remove_vote_tally t (vote_say v) (wrap32 (vote_multiplier s dm g m * vote_weight v)) (vote_weight v)) g.

Lemma try_remove_vote_ok e s g dm m p s' :
  try_remove_vote e s g dm m p = COk s' ->
  exists t v voter, c_polls s !! p = Some (Ongoing t g) /\ c_votes s !! (p, m) = Some (v, voter) /\
    s' = vote_removed s g m p t v voter dm.
Proof.
  unfold try_remove_vote. intros H. cinv H. destruct a as [t class]. cinv H.
  apply ongoing_ok in H0. apply N.eqb_eq in H1 as <-. destruct a0 as [v voter]. cinv H.
  injection H as <-. apply remove_lock_ok in H1 as ->. eauto 10.
Qed.

(** The whole effect of recording a vote. *)
Definition vote_recorded (s : cstate) (g who m p : N) (t : tally) (v : vote) : cstate :=
  put_tally (lock_added (set_votes (<[(p, m) := (v, who)]> (c_votes s)) s) who p v) p
    (add_vote t (vote_say v) (wrap32 (vote_multiplier s (method_of s g) g m * vote_weight v)) (vote_weight v)) g.

(** The vote fits the decision method. *)
Definition vote_fits (v : vote) (dm : decision_method) : Prop :=
  match v, dm with
  | AssetBalance _ a n, ByCommunityAsset a' min => a = a' /\ min <= n
  | NativeBalance _ _, ByNativeToken => True
  | Standard _, ByMembership => True
  | Standard _, ByRank => True
  | _, _ => False
  end.

Lemma check_vote_type_ok v dm b : check_vote_type v dm = COk b <-> b = vote_say v /\ vote_fits v dm.
Proof.
  destruct v as [y a n|y n|y], dm as [| |a' mn|]; cbn; try (intuition congruence);
    try (split; [intros [= <-]; done | intros [-> _]; done]).
  destruct (N.eqb_spec a a') as [->|Hn]; [|split; [discriminate | intuition congruence]].
  destruct (N.leb_spec mn n); cbn; split; try (intros [= <-]; done); try discriminate; intuition (try congruence); lia.
Qed.

Lemma try_vote_ok e s g dm who m p v s' :
  try_vote e s g dm who m p v = COk s' ->
  exists t, c_polls s !! p = Some (Ongoing t g) /\ vote_fits v dm /\
    add_lock e (set_votes (<[(p, m) := (v, who)]> (c_votes s)) s) who p v = COk (lock_added (set_votes (<[(p, m) := (v, who)]> (c_votes s)) s) who p v) /\
    s' = vote_recorded s g who m p t v.
Proof.
  unfold try_vote. intros H. cinv H. destruct a as [t class]. cinv H. injection H as <-.
  apply ongoing_ok in H0. apply N.eqb_eq in H1 as <-. apply check_vote_type_ok in H2 as [-> Hf].
  pose proof (add_lock_ok _ _ _ _ _ _ H3) as ->. eauto 10.
Qed.

(** After the removal that precedes a second vote. *)
Lemma call_vote_ok e s o m p v s' evs :
  call_vote e s o m p v = COk (s', evs) ->
  exists who g t s1,
    o = OSigned who /\ check_membership s who m = Some g /\ 0 < vote_weight v /\ vote_fits v (method_of s g) /\
    evs = [EvVoteCasted who p v] /\
    ((c_votes s !! (p, m) = None /\ s1 = s) \/
     (exists t0 v0 w0, c_votes s !! (p, m) = Some (v0, w0) /\ c_polls s !! p = Some (Ongoing t0 g) /\
        s1 = vote_removed s g m p t0 v0 w0 (method_of s g))) /\
    c_polls s1 !! p = Some (Ongoing t g) /\
    add_lock e (set_votes (<[(p, m) := (v, who)]> (c_votes s1)) s1) who p v =
      COk (lock_added (set_votes (<[(p, m) := (v, who)]> (c_votes s1)) s1) who p v) /\
    s' = vote_recorded s1 g who m p t v.
Proof.
  unfold call_vote. intros H. cinv H. injection H as <- <-.
  apply N.ltb_lt in H0. destruct o; try discriminate. injection H1 as <-.
  apply try_vote_ok in H4 as (t & Hp & Hf & Hl & ->).
  exists who, a1, t, a2. split_and!; try done.
  destruct (c_votes s !! (p, m)) as [[v0 w0]|] eqn:Hv.
  - right. apply try_remove_vote_ok in H3 as (t0 & v1 & w1 & Ht & Hv1 & ->). rewrite Hv in Hv1. injection Hv1 as <- <-. eauto 10.
  - left. injection H3 as <-. done.
Qed.

Lemma call_remove_vote_ok e s o m p s' evs :
  call_remove_vote e s o m p = COk (s', evs) ->
  exists who g t v voter, o = OSigned who /\ check_membership s who m = Some g /\ evs = [EvVoteRemoved who p] /\
    c_polls s !! p = Some (Ongoing t g) /\ c_votes s !! (p, m) = Some (v, voter) /\
    s' = vote_removed s g m p t v voter (method_of s g).
Proof.
  unfold call_remove_vote. intros H. cinv H. injection H as <- <-. destruct o; try discriminate. injection H0 as <-.
  apply try_remove_vote_ok in H2 as (t & v & w & Hp & Hv & ->). eauto 12.
Qed.

Lemma call_unlock_ok e s o p s' evs :
  call_unlock e s o p = COk (s', evs) ->
  exists who v, o = OSigned who /\ evs = [] /\ c_locks s !! (who, p) = Some v /\
    (forall t g, c_polls s !! p <> Some (Ongoing t g)) /\ s' = lock_removed s who p v.
Proof.
  unfold call_unlock. intros H. cinv H. injection H as <- <-. destruct o; try discriminate. injection H0 as <-.
  apply remove_lock_ok in H3 as ->. exists who, a1. split_and!; try done.
  intros t g Hp. rewrite Hp in H1. discriminate.
Qed.

(* ------------------------------------------------------------------ *)
(** * Fields of the effects *)

Lemma lock_added_fields s who p v :
  let s' := lock_added s who p v in
  c_info s' = c_info s /\ c_admin s' = c_admin s /\ c_method s' = c_method s /\ c_votes s' = c_votes s /\
  c_polls s' = c_polls s /\ c_members s' = c_members s /\ c_balance s' = c_balance s /\ c_providers s' = c_providers s.
Proof. unfold lock_added. destruct (vote_lock v) as [[]|]; done. Qed.
Lemma lock_removed_fields s who p v :
  let s' := lock_removed s who p v in
  c_info s' = c_info s /\ c_admin s' = c_admin s /\ c_method s' = c_method s /\ c_votes s' = c_votes s /\
  c_polls s' = c_polls s /\ c_members s' = c_members s /\ c_balance s' = c_balance s /\ c_providers s' = c_providers s /\
  c_assets s' = c_assets s.
Proof. unfold lock_removed. destruct (vote_lock v) as [[]|]; done. Qed.

Lemma vote_recorded_fields s g who m p t v :
  let s' := vote_recorded s g who m p t v in
  same_registry s s' /\
  c_votes s' = <[(p, m) := (v, who)]> (c_votes s) /\
  c_polls s' = <[p := Ongoing (add_vote t (vote_say v) (wrap32 (vote_multiplier s (method_of s g) g m * vote_weight v)) (vote_weight v)) g]> (c_polls s) /\
  c_locks s' = c_locks (lock_added s who p v) /\ c_frozen s' = c_frozen (lock_added s who p v).
Proof.
  cbv zeta. unfold vote_recorded, same_registry.
  set (s0 := set_votes _ s). destruct (lock_added_fields s0 who p v) as (E1 & E2 & E3 & E4 & E5 & E6 & E7 & E8).
  unfold put_tally, set_polls; cbn [c_info c_admin c_method c_votes c_polls c_members c_balance c_providers c_locks c_frozen].
  rewrite E1, E2, E3, E4, E5, E6, E7, E8. subst s0. split_and!; try done;
    unfold lock_added, get_frozen; destruct (vote_lock v) as [[]|]; done.
Qed.

Lemma max_locked_ext s s' k who : c_locks s' = c_locks s -> max_locked s' k who = max_locked s k who.
Proof. unfold max_locked. by intros ->. Qed.

Lemma vote_removed_fields s g m p t v voter dm :
  let s' := vote_removed s g m p t v voter dm in
  same_registry s s' /\
  c_votes s' = delete (p, m) (c_votes s) /\
  c_polls s' = <[p := Ongoing (remove_vote_tally t (vote_say v) (wrap32 (vote_multiplier s dm g m * vote_weight v)) (vote_weight v)) g]> (c_polls s) /\
  c_locks s' = c_locks (lock_removed s voter p v) /\ c_frozen s' = c_frozen (lock_removed s voter p v).
Proof.
  cbv zeta. unfold vote_removed, same_registry.
  set (s0 := set_votes _ s). destruct (lock_removed_fields s0 voter p v) as (E1 & E2 & E3 & E4 & E5 & E6 & E7 & E8 & E9).
  unfold put_tally, set_polls; cbn [c_info c_admin c_method c_votes c_polls c_members c_balance c_providers c_locks c_frozen].
  rewrite E1, E2, E3, E4, E5, E6, E7, E8. subst s0. split_and!; try done;
    unfold lock_removed; destruct (vote_lock v) as [[]|]; done.
Qed.

(* ------------------------------------------------------------------ *)
(** * Spec vocabulary and model functions *)

Lemma says_aye_say v : says_aye v = vote_say v.
Proof. by destruct v. Qed.
Lemma weight_put_in v : put_in v <= u32_max -> vote_weight v = put_in v.
Proof. destruct v; cbn; unfold sat32; lia. Qed.
Lemma weight_sat v : vote_weight v = N.min (put_in v) u32_max.
Proof. destruct v; cbn; unfold sat32, u32_max; lia. Qed.
Lemma factor_multiplier s g m : vote_multiplier s (method_of s g) g m = factor s g m.
Proof.
  unfold vote_multiplier, method_of, factor, rank_of.
  destruct (c_method s !! g) as [[]|]; cbn; try done.
  destruct (c_members s !! m) as [x|]; cbn; [|done]. by destruct (m_group x =? g).
Qed.
Lemma pledges_lock v k n : pledges v k n <-> vote_lock v = Some (k, n).
Proof. destruct v; cbn; intuition congruence. Qed.
Lemma frozen_get s k who : frozen s k who = get_frozen s k who.
Proof. unfold frozen, get_frozen. by destruct (_ !! _). Qed.
Lemma lock_amount_pledges v k n : pledges v k n -> lock_amount k v = n.
Proof. intros H. apply pledges_lock in H. unfold lock_amount. rewrite H. by rewrite decide_True. Qed.

(* ------------------------------------------------------------------ *)
(** * Sums over recorded votes *)

Definition vsum (V : gmap (N * N) (vote * N)) (p : N) (f : N -> vote -> N) : N :=
  map_fold (fun pm vw acc => (if pm.1 =? p then f pm.2 vw.1 else 0) + acc) 0 V.
Lemma vote_sum_vsum s p f : vote_sum s p f = vsum (c_votes s) p f.
Proof. done. Qed.
Lemma vsum_insert V p m v w q f :
  V !! (p, m) = None -> vsum (<[(p, m) := (v, w)]> V) q f = (if p =? q then f m v else 0) + vsum V q f.
Proof.
  intros Hn. unfold vsum. rewrite map_fold_insert_L; [done| |done].
  intros [p1 m1] [p2 m2] x1 x2 y _ _ _. cbn. lia.
Qed.
Lemma vsum_delete V p m v w q f :
  V !! (p, m) = Some (v, w) -> vsum V q f = (if p =? q then f m v else 0) + vsum (delete (p, m) V) q f.
Proof.
  intros Hs. rewrite <- (insert_delete V (p, m) (v, w)) at 1 by done. by rewrite vsum_insert by apply lookup_delete.
Qed.
Lemma vsum_ext V p f g : (forall m v w, V !! (p, m) = Some (v, w) -> f m v = g m v) -> vsum V p f = vsum V p g.
Proof.
  induction V as [|[q m] [v w] V Hn IH] using map_ind; [done|]. intros H.
  rewrite !vsum_insert by done. rewrite IH.
  - f_equal. destruct (N.eqb_spec q p) as [->|]; [|done]. eapply H. apply lookup_insert.
  - intros m' v' w' H'. eapply H. rewrite lookup_insert_ne; [exact H'|]. intros [= -> ->]. congruence.
Qed.
Lemma vsum_none V p f : (forall m, V !! (p, m) = None) -> vsum V p f = 0.
Proof.
  intros H. rewrite (vsum_ext V p f (fun _ _ => 0)).
  - induction V as [|[q m] [v w] V Hn IH] using map_ind; [done|].
    rewrite vsum_insert by done. rewrite IH; [by destruct (q =? p)|].
    intros m'. specialize (H m'). apply lookup_insert_None in H as [H _]. done.
  - intros m v w Hs. by rewrite H in Hs.
Qed.
Lemma vsum_elem V p m v w f : V !! (p, m) = Some (v, w) -> f m v <= vsum V p f.
Proof. intros H. rewrite (vsum_delete _ _ _ _ _ _ _ H), N.eqb_refl. lia. Qed.

(* ------------------------------------------------------------------ *)
(** * The largest lock *)

Lemma max_locked_insert (k : option N) (who w p : N) (v : vote) (L : gmap (N * N) vote) :
  L !! (w, p) = None ->
  map_fold (fun (wp : N * N) v acc => if wp.1 =? who then N.max acc (lock_amount k v) else acc) 0 (<[(w, p) := v]> L) =
  let r := map_fold (fun (wp : N * N) v acc => if wp.1 =? who then N.max acc (lock_amount k v) else acc) 0 L in
  if w =? who then N.max r (lock_amount k v) else r.
Proof.
  intros Hn. rewrite map_fold_insert_L; [done| |done].
  intros [w1 p1] [w2 p2] x1 x2 y _ _ _. cbn. destruct (w1 =? who), (w2 =? who); lia.
Qed.

Lemma max_locked_spec s k who : largest_lock s who k (max_locked s k who).
Proof.
  unfold largest_lock, max_locked. generalize (c_locks s) as L. intros L.
  induction L as [|[w p] v L Hn IH] using map_ind.
  - split; [intros p v a H; by rewrite lookup_empty in H | by left].
  - rewrite max_locked_insert by done. cbv zeta. destruct IH as [IH1 IH2]. split.
    + intros p' v' a H Hp. apply lookup_insert_Some in H as [[[= -> ->] ->]|[_ H]].
      * rewrite N.eqb_refl. rewrite (lock_amount_pledges _ _ _ Hp). lia.
      * specialize (IH1 _ _ _ H Hp). destruct (w =? who); lia.
    + destruct (N.eqb_spec w who) as [->|Hw].
      * set (r := map_fold _ _ _) in *.
        destruct (N.le_gt_cases (lock_amount k v) r) as [Hle|Hgt].
        -- rewrite N.max_l by lia. destruct IH2 as [->|(p' & v' & H & Hp)]; [by left|].
           right. exists p', v'. split; [|done]. rewrite lookup_insert_ne; [done|]. intros [= ->]. congruence.
        -- right. rewrite N.max_r by lia. exists p, v. rewrite lookup_insert. split; [done|].
           unfold lock_amount in *. destruct (vote_lock v) as [[k' n]|] eqn:Hv; [|lia].
           destruct (decide (k' = k)) as [->|]; [|lia]. by apply pledges_lock.
      * destruct IH2 as [->|(p' & v' & H & Hp)]; [by left|].
        right. exists p', v'. split; [|done]. rewrite lookup_insert_ne; [done|]. intros [= ? ?]. congruence.
Qed.

Lemma largest_lock_unique s who k n n' : largest_lock s who k n -> largest_lock s who k n' -> n = n'.
Proof.
  intros [H1 H2] [H1' H2'].
  destruct H2 as [->|(p & v & H & Hp)], H2' as [->|(p' & v' & H' & Hp')]; try done.
  - specialize (H1 _ _ _ H' Hp'). lia.
  - specialize (H1' _ _ _ H Hp). lia.
  - specialize (H1 _ _ _ H' Hp'). specialize (H1' _ _ _ H Hp). lia.
Qed.
Lemma max_locked_eq s k who n : largest_lock s who k n -> max_locked s k who = n.
Proof. intros H. eapply largest_lock_unique; [apply max_locked_spec | done]. Qed.

(* ------------------------------------------------------------------ *)
(** * Histories *)

Lemma all_along_app c P s l x :
  all_along c P s (l ++ [x]) <-> all_along c P s l /\ P (crun c s l) x.
Proof. revert s. induction l as [|y l IH]; intros s; cbn; [intuition|]. rewrite IH. cbn. tauto. Qed.
Lemma crun_app c s l x : crun c s (l ++ [x]) = cstep_run c (crun c s l) x.
Proof. unfold crun. by rewrite fold_left_app. Qed.
Lemma all_along_impl c (P Q : cstate -> cstep -> Prop) s l :
  (forall s x, P s x -> Q s x) -> all_along c P s l -> all_along c Q s l.
Proof. intros HPQ. revert s. induction l as [|y l IH]; intros s; cbn; [done|]. intros [? ?]. auto. Qed.
Lemma all_along_true c s l : all_along c (fun _ _ => True) s l.
Proof. revert s. induction l; cbn; auto. Qed.

(** Invariants by induction along a history. *)
Lemma history_invariant c (P : cstate -> cstep -> Prop) (I : cstate -> Prop) s l :
  I s -> (forall s x, I s -> P s x -> I (cstep_run c s x)) -> all_along c P s l -> I (crun c s l).
Proof.
  intros H0 Hs. revert s H0. induction l as [|x l IH]; intros s H0 H; cbn in *; [done|].
  destruct H as [Hx H]. apply IH; [by apply Hs | done].
Qed.
Lemma reachable_invariant c (I : cstate -> Prop) :
  I c_empty -> (forall s x, I s -> I (cstep_run c s x)) -> forall s, creachable c s -> I s.
Proof.
  intros H0 Hs s [l ->]. apply (history_invariant c (fun _ _ => True)); [done | | apply all_along_true].
  intros; by apply Hs.
Qed.

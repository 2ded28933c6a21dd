From stdpp Require Import gmap.
From Verif Require Import Base XcmTypes OriginTypes AccountsModel CommunitiesModel CommunitiesSpec CommunitiesProofs CommunitiesTally XcmConfigModel XcmInstrModel
  XcmWeightsModel CostModel CostSpec.
Open Scope N_scope.

(* ------------------------------------------------------------------ *)
(** * The locks read are those the loop goes over *)

Lemma length_locks_under s who : N.of_nat (length (locks_under s who)) = lock_count s who.
Proof.
  unfold locks_under, lock_count. rewrite fmap_length. f_equal.
  assert (map_to_list (filter (fun x : N * N * vote => x.1.1 = who) (c_locks s)) ≡ₚ
          filter (fun x : N * N * vote => x.1.1 = who) (map_to_list (c_locks s))) as H.
  { apply NoDup_Permutation.
    - apply NoDup_map_to_list.
    - apply NoDup_filter, NoDup_map_to_list.
    - intros [i x]. rewrite elem_of_map_to_list, elem_of_list_filter, elem_of_map_to_list, map_filter_lookup_Some. naive_solver. }
  rewrite <- H. done.
Qed.

Lemma max_locked_goes_over s k who : max_locked s k who = foldr (fun v acc => N.max acc (lock_amount k v)) 0 (locks_under s who).
Proof.
  unfold max_locked, locks_under, map_fold. cbn [compose]. induction (map_to_list (c_locks s)) as [|[[w p] v] l IH]; [done|].
  rewrite filter_cons. cbn [foldr uncurry fst snd]. destruct (N.eqb_spec w who) as [->|Hne].
  - rewrite decide_True by done. rewrite fmap_cons. cbn [foldr snd]. rewrite IH. simpl. by rewrite N.eqb_refl.
  - rewrite decide_False by done. rewrite IH. simpl. apply N.eqb_neq in Hne. by rewrite Hne.
Qed.

(* ------------------------------------------------------------------ *)
(** * Never more than the locks of one account *)

Lemma lock_count_delete s who p w : lock_count (set_locks (delete (who, p) (c_locks s)) s) w =
  lock_count s w - (if (w =? who) && bool_decide (is_Some (c_locks s !! (who, p))) then 1 else 0).
Proof.
  unfold lock_count. cbn [c_locks set_locks]. rewrite map_filter_delete, map_size_delete.
  destruct (filter (fun x : N * N * vote => x.1.1 = w) (c_locks s) !! (who, p)) as [v|] eqn:E.
  - apply map_filter_lookup_Some in E as [E Hw]. cbn in Hw. subst w. rewrite N.eqb_refl, E. rewrite bool_decide_eq_true_2 by eauto. cbn. lia.
  - rewrite map_filter_lookup_None in E. destruct (N.eqb_spec w who) as [->|Hne]; cbn [andb]; [|cbn; lia].
    rewrite bool_decide_eq_false_2; [cbn; lia|]. intros [v Hv]. destruct E as [E|E]; [congruence|]. by eapply E.
Qed.
Lemma remove_lock_reads_eq s who p v : remove_lock_reads s who p v =
  match vote_lock v with
  | Some _ => lock_count s who - (if bool_decide (is_Some (c_locks s !! (who, p))) then 1 else 0)
  | None => 0
  end.
Proof.
  unfold remove_lock_reads. destruct (vote_lock v); [|done]. by rewrite length_locks_under, lock_count_delete, N.eqb_refl.
Qed.

Lemma try_remove_vote_reads_le s g m p : try_remove_vote_reads s g m p <> 0 ->
  exists v who, c_votes s !! (p, m) = Some (v, who) /\ v <> Standard (vote_say v) /\ try_remove_vote_reads s g m p <= lock_count s who.
Proof.
  unfold try_remove_vote_reads. destruct (c_polls s !! p) as [[t class|]|]; try done. destruct (g =? class); [|done].
  destruct (c_votes s !! (p, m)) as [[v who]|]; [|done]. rewrite remove_lock_reads_eq. intros H. exists v, who. split; [done|].
  split; [by destruct v|]. destruct (vote_lock v); [|done]. lia.
Qed.

Lemma locks_read_bound : forall s o k, locks_read s o k <> 0 -> exists who, taken_back s o k who /\ locks_read s o k <= lock_count s who.
Proof.
  intros s o k. unfold locks_read. destruct (ensure_signed o) as [who|] eqn:Eo; [|done]. destruct k; try done; cbn [taken_back].
  - destruct (0 <? vote_weight v); [|done]. destruct (check_membership s who m); [|done].
    destruct (c_votes s !! (p, m)) eqn:E; [|done]. intros H. destruct (try_remove_vote_reads_le _ _ _ _ H) as (v' & w & H1 & H2 & H3).
    exists w. split; [|done]. exists v'. split; [congruence | done].
  - destruct (check_membership s who m); [|done]. intros H. destruct (try_remove_vote_reads_le _ _ _ _ H) as (v' & w & H1 & H2 & H3).
    exists w. split; [|done]. by exists v'.
  - assert (o = OSigned who) as -> by (destruct o; cbn in Eo; congruence).
    destruct (c_polls s !! p) as [[t class|]|]; try done;
      (destruct (c_locks s !! (who, p)) as [v|] eqn:E; [|done]; rewrite remove_lock_reads_eq; intros H; exists who; split; [eauto|];
       destruct (vote_lock v); [lia | done]).
Qed.

Lemma unlock_reads_rest : forall c e s who p s' evs, ccall_run c e s (OSigned who) (CUnlock p) = COk (s', evs) ->
  locks_read s (OSigned who) (CUnlock p) = lock_count s' who \/ locks_read s (OSigned who) (CUnlock p) = 0.
Proof.
  intros c e s who p s' evs H. cbn [ccall_run] in H. unfold call_unlock in H. cbn [ensure_signed from_option_err cbind] in H.
  unfold locks_read. cbn [ensure_signed].
  assert (forall v, c_locks s !! (who, p) = Some v -> remove_lock e s who p v = COk s' ->
    remove_lock_reads s who p v = lock_count s' who \/ remove_lock_reads s who p v = 0) as Hk.
  { intros v Hv Hr. apply remove_lock_ok in Hr as ->. unfold remove_lock_reads, lock_removed.
    destruct (vote_lock v) as [[k n]|]; [left|by right]. rewrite length_locks_under. done. }
  destruct (c_polls s !! p) as [[t class|]|]; cbn [censure cbind] in H; try done;
    (destruct (c_locks s !! (who, p)) as [v|] eqn:E; cbn [from_option_err cbind] in H; [|done];
     destruct (remove_lock e s who p v) as [s1|] eqn:Er; cbn [cbind] in H; [|done]; injection H as <- _; eauto).
Qed.

(* ------------------------------------------------------------------ *)
(** * No bound on the locks read *)

Notation kc := kreivo_communities.
(** Account 10 holds membership 101 of community 1, which votes with the native token. *)
Definition open_community : list cstep :=
  [StRegister easy_env (OSigned 1) 1 None; StMember 101 (Some (Membership 1 10 1)); StCall easy_env (OSigned 1) (CSetMethod 1 ByNativeToken)].
(** A referendum opens, account 10 votes with 5 units. *)
Definition open_and_vote (p : N) : list cstep := [StPollOpen p 1; StCall easy_env (OSigned 10) (CVote 101 p (NativeBalance true 5))].
(** So it goes for a number of referenda, each of which ends before the next one opens. *)
Fixpoint voted (n : nat) : list cstep :=
  match n with O => open_community | S m => voted m ++ open_and_vote (N.of_nat m) ++ [StPollEnd (N.of_nat m)] end.

Record voting (n : N) (s : cstate) : Prop := {
  v_method : c_method s !! 1 = Some ByNativeToken;
  v_member : c_members s !! 101 = Some (Membership 1 10 1);
  v_fresh : forall i, n <= i -> c_polls s !! i = None /\ c_votes s !! (i, 101) = None;
  v_past : forall i, i < n -> c_polls s !! i = Some Completed /\ c_locks s !! (10, i) = Some (NativeBalance true 5);
  v_count : lock_count s 10 = n;
  v_none : forall i, n <= i -> c_locks s !! (10, i) = None;
  v_frozen : get_frozen s None 10 <= 5
}.
Record in_poll (n : N) (s : cstate) : Prop := {
  p_method : c_method s !! 1 = Some ByNativeToken;
  p_member : c_members s !! 101 = Some (Membership 1 10 1);
  p_fresh : forall i, n < i -> c_polls s !! i = None /\ c_votes s !! (i, 101) = None;
  p_past : forall i, i < n -> c_polls s !! i = Some Completed /\ c_locks s !! (10, i) = Some (NativeBalance true 5);
  p_poll : exists t, c_polls s !! n = Some (Ongoing t 1);
  p_vote : c_votes s !! (n, 101) = Some (NativeBalance true 5, 10);
  p_lock : c_locks s !! (10, n) = Some (NativeBalance true 5);
  p_count : lock_count s 10 = n + 1;
  p_none : forall i, n < i -> c_locks s !! (10, i) = None;
  p_frozen : get_frozen s None 10 <= 5
}.

Lemma lock_count_insert s p v : c_locks s !! (10, p) = None -> forall s', c_locks s' = <[(10, p) := v]> (c_locks s) ->
  lock_count s' 10 = lock_count s 10 + 1.
Proof.
  intros H s' E. unfold lock_count. rewrite E, map_filter_insert_True by done. rewrite map_size_insert_None; [lia|].
  apply map_filter_lookup_None. by left.
Qed.
Lemma lock_count_same s s' who : c_locks s' = c_locks s -> lock_count s' who = lock_count s who.
Proof. intros E. unfold lock_count. by rewrite E. Qed.

Lemma vote_fresh s p t : c_method s !! 1 = Some ByNativeToken -> c_members s !! 101 = Some (Membership 1 10 1) ->
  c_polls s !! p = Some (Ongoing t 1) -> c_votes s !! (p, 101) = None -> get_frozen s None 10 <= 5 ->
  exists s' t' evs, call_vote easy_env s (OSigned 10) 101 p (NativeBalance true 5) = COk (s', evs) /\
    c_method s' = c_method s /\ c_members s' = c_members s /\ c_polls s' = <[p := Ongoing t' 1]> (c_polls s) /\
    c_votes s' = <[(p, 101) := (NativeBalance true 5, 10)]> (c_votes s) /\
    c_locks s' = <[(10, p) := NativeBalance true 5]> (c_locks s) /\ get_frozen s' None 10 <= 5.
Proof.
  intros Hd Hm Hp Hv Hf. unfold call_vote. cbn [vote_weight]. change (0 <? sat32 5) with true.
  cbn [censure cbind ensure_signed from_option_err]. unfold check_membership. rewrite Hm.
  cbn [m_owner m_group]. change (10 =? 10) with true. cbn [from_option_err cbind]. rewrite Hv. cbn [cbind].
  unfold try_vote, ongoing. rewrite Hp. cbn [cbind]. change (1 =? 1) with true. cbn [censure cbind].
  unfold method_of. rewrite Hd. cbn [default check_vote_type cbind]. unfold add_lock. cbn [vote_lock].
  set (s1 := set_locks _ _). unfold set_frozen.
  assert (get_frozen s1 None 10 = get_frozen s None 10) as -> by done.
  replace (N.max (get_frozen s None 10) 5) with 5 by lia.
  change (ce_freezable easy_env None 10) with (2 ^ 128). change (ce_freeze_ok easy_env None 10 5) with true.
  change ((5 <=? 2 ^ 128) && true) with true. cbn [censure cbind].
  eexists _, _, _. split; [reflexivity|]. split_and!; try done.
  unfold get_frozen, put_tally. cbn [c_frozen set_polls set_frozen_map]. rewrite lookup_insert. done.
Qed.

Lemma voting_open n s : voting n s -> in_poll n (crun kc s (open_and_vote n)).
Proof.
  intros [Hd Hm Hf Hpa Hc Hn Hz]. unfold open_and_vote, crun. cbn [fold_left cstep_run]. destruct (Hf n ltac:(lia)) as [Hp Hv]. rewrite Hp.
  set (s1 := set_polls (<[n := Ongoing empty_tally 1]> (c_polls s)) s).
  destruct (vote_fresh s1 n empty_tally) as (s' & t' & evs & Hr & E1 & E2 & E3 & E4 & E5 & E6); try done; [apply lookup_insert|].
  unfold cdispatch. cbn [ccall_run]. rewrite Hr.
  assert (c_polls s1 = <[n := Ongoing empty_tally 1]> (c_polls s)) as Es1 by done. rewrite Es1, insert_insert in E3.
  assert (c_votes s1 = c_votes s) as Es2 by done. rewrite Es2 in E4.
  assert (c_locks s1 = c_locks s) as Es3 by done. rewrite Es3 in E5.
  constructor.
  - by rewrite E1.
  - by rewrite E2.
  - intros i Hi. rewrite E3, E4, !lookup_insert_ne by (intros [=]; lia). apply Hf. lia.
  - intros i Hi. rewrite E3, E5, !lookup_insert_ne by (intros [=]; lia). by apply Hpa.
  - exists t'. by rewrite E3, lookup_insert.
  - by rewrite E4, lookup_insert.
  - by rewrite E5, lookup_insert.
  - rewrite (lock_count_insert s n _ (Hn n ltac:(lia)) s' E5). lia.
  - intros i Hi. rewrite E5, lookup_insert_ne by (intros [=]; lia). apply Hn. lia.
  - done.
Qed.
Lemma in_poll_end n s : in_poll n s -> voting (n + 1) (crun kc s [StPollEnd n]).
Proof.
  intros [Hd Hm Hf Hpa [t Hp] Hv Hl Hc Hn Hz]. unfold crun. cbn [fold_left cstep_run]. rewrite Hp. constructor; cbn [c_method c_members c_polls c_votes c_locks set_polls].
  - done.
  - done.
  - intros i Hi. rewrite lookup_insert_ne by lia. apply Hf. lia.
  - intros i Hi. destruct (decide (i = n)) as [->|]; [by rewrite lookup_insert|]. rewrite lookup_insert_ne by lia. apply Hpa. lia.
  - by rewrite (lock_count_same s).
  - intros i Hi. apply Hn. lia.
  - done.
Qed.

Lemma crun_more c s l1 l2 : crun c s (l1 ++ l2) = crun c (crun c s l1) l2.
Proof. apply fold_left_app. Qed.

Lemma voted_voting n : voting (N.of_nat n) (crun kc c_empty (voted n)).
Proof.
  induction n as [|n IH]; cbn [voted].
  - constructor; try (vm_compute; done); try (intros; vm_compute; done). intros i Hi. change (N.of_nat 0) with 0 in Hi. lia.
  - rewrite !crun_more. replace (N.of_nat (S n)) with (N.of_nat n + 1) by lia. by apply in_poll_end, voting_open.
Qed.

Lemma in_poll_locks n s p v : in_poll n s -> c_locks s !! (10, p) = Some v -> v = NativeBalance true 5.
Proof.
  intros H Hl. destruct (N.lt_trichotomy p n) as [Hlt|[->|Hgt]].
  - destruct (p_past _ _ H p Hlt) as [_ E]. congruence.
  - rewrite (p_lock _ _ H) in Hl. congruence.
  - rewrite (p_none _ _ H p Hgt) in Hl. done.
Qed.
(** Releasing locks of account 10 never asks for more than it can have frozen. *)
Lemma remove_lock_easy n s s0 p : in_poll n s -> c_locks s0 = c_locks s -> c_frozen s0 = c_frozen s ->
  exists s', remove_lock easy_env s0 10 p (NativeBalance true 5) = COk s' /\ get_frozen s' None 10 <= 5.
Proof.
  intros H El Ef. unfold remove_lock. cbn [vote_lock]. unfold set_frozen. set (s1 := set_locks _ s0).
  assert (max_locked s1 None 10 <= 5) as Hm.
  { destruct (max_locked_spec s1 None 10) as [_ [->|(q & v & Hq & Hv)]]; [lia|].
    unfold s1 in Hq. cbn [c_locks set_locks] in Hq. rewrite El in Hq. apply lookup_delete_Some in Hq as [_ Hq].
    apply (in_poll_locks _ _ _ _ H) in Hq as ->. cbn in Hv. lia. }
  change (ce_freezable easy_env None 10) with (2 ^ 128). change (ce_freeze_ok easy_env None 10 (max_locked s1 None 10)) with true.
  assert (max_locked s1 None 10 <=? 2 ^ 128 = true) as -> by (apply N.leb_le; change (2 ^ 128) with 340282366920938463463374607431768211456; lia).
  cbn [andb censure cbind]. eexists. split; [reflexivity|]. unfold get_frozen. cbn [c_frozen set_frozen_map]. by rewrite lookup_insert.
Qed.
(** Taking the vote in the running referendum back. *)
Lemma remove_vote_easy n s : in_poll n s ->
  exists s', try_remove_vote easy_env s 1 ByNativeToken 101 n = COk s' /\ get_frozen s' None 10 <= 5 /\
    c_method s' = c_method s /\ c_members s' = c_members s /\ (exists t, c_polls s' !! n = Some (Ongoing t 1)).
Proof.
  intros H. destruct (p_poll _ _ H) as [t Hp]. unfold try_remove_vote, ongoing. rewrite Hp. cbn [cbind]. change (1 =? 1) with true. cbn [censure cbind].
  rewrite (p_vote _ _ H). cbn [from_option_err cbind].
  destruct (remove_lock_easy n s (set_votes (delete (n, 101) (c_votes s)) s) n H eq_refl eq_refl) as (s' & E & Hf).
  rewrite E. cbn [cbind]. eexists. split; [reflexivity|]. apply remove_lock_ok in E as ->. split_and!; try done.
  eexists. unfold put_tally. cbn [c_polls set_polls]. apply lookup_insert.
Qed.

(** Whatever number of locks: unlocking one of a past referendum, voting again in the running one, taking the vote back. *)
Lemma no_bound_on_locks_read : forall n : N, exists l, let s := crun kreivo_communities c_empty l in
  forall k, k = CUnlock 0 \/ k = CVote 101 (n + 1) (NativeBalance false 7) \/ k = CRemoveVote 101 (n + 1) ->
  (exists s' evs, ccall_run kreivo_communities easy_env s (OSigned 10) k = COk (s', evs)) /\ n < locks_read s (OSigned 10) k.
Proof.
  intros n. exists (voted (N.to_nat (n + 1)) ++ open_and_vote (n + 1)). cbv zeta. rewrite crun_more.
  pose proof (voted_voting (N.to_nat (n + 1))) as H0. rewrite N2Nat.id in H0. apply voting_open in H0.
  set (s := crun kc (crun kc c_empty (voted (N.to_nat (n + 1)))) (open_and_vote (n + 1))) in *.
  pose proof H0 as [Hd Hm Hf Hpa [t Hp] Hv Hl Hc Hn Hz]. destruct (Hpa 0 ltac:(lia)) as [Hp0 Hl0].
  assert (check_membership s 10 101 = Some 1) as Hck by (unfold check_membership; by rewrite Hm).
  assert (method_of s 1 = ByNativeToken) as Hme by (unfold method_of; by rewrite Hd).
  assert (try_remove_vote_reads s 1 101 (n + 1) = n + 1) as Hrd.
  { unfold try_remove_vote_reads. rewrite Hp, Hv. change (1 =? 1) with true. cbn iota. rewrite remove_lock_reads_eq. cbn [vote_lock].
    rewrite bool_decide_eq_true_2 by eauto. lia. }
  destruct (remove_vote_easy _ _ H0) as (s' & E & Hfr & Ed & Em & [t' Ep]).
  intros k [-> | [-> | ->]]; cbn [ccall_run].
  - split.
    + unfold call_unlock. cbn [ensure_signed from_option_err cbind]. rewrite Hp0. cbn [censure cbind]. rewrite Hl0. cbn [from_option_err cbind].
      destruct (remove_lock_easy _ _ s 0 H0 eq_refl eq_refl) as (s2 & E2 & _). rewrite E2. cbn [cbind]. eauto.
    + unfold locks_read. cbn [ensure_signed]. rewrite Hp0, Hl0, remove_lock_reads_eq. cbn [vote_lock].
      rewrite bool_decide_eq_true_2 by eauto. lia.
  - split.
    + unfold call_vote. cbn [vote_weight]. change (0 <? sat32 7) with true. cbn [censure cbind ensure_signed from_option_err].
      rewrite Hck. cbn [from_option_err cbind]. rewrite Hv, Hme, E. cbn [cbind].
      unfold try_vote, ongoing. rewrite Ep. cbn [cbind]. change (1 =? 1) with true. cbn [censure cbind check_vote_type].
      unfold add_lock. cbn [vote_lock]. set (s1 := set_locks _ _). unfold set_frozen.
      assert (get_frozen s1 None 10 = get_frozen s' None 10) as -> by done.
      replace (N.max (get_frozen s' None 10) 7) with 7 by lia.
      change (ce_freezable easy_env None 10) with (2 ^ 128). change (ce_freeze_ok easy_env None 10 7) with true.
      change ((7 <=? 2 ^ 128) && true) with true. cbn [censure cbind]. eauto.
    + unfold locks_read. cbn [ensure_signed vote_weight]. change (0 <? sat32 7) with true. cbn iota. rewrite Hck, Hv, Hrd. lia.
  - split.
    + unfold call_remove_vote. cbn [ensure_signed from_option_err cbind]. rewrite Hck. cbn [from_option_err cbind]. rewrite Hme, E. cbn [cbind]. eauto.
    + unfold locks_read. cbn [ensure_signed]. rewrite Hck, Hrd. lia.
Qed.

(** Reading the locks alone, at the price the runtime puts on a read, takes longer than the call declares, and than a block may take. *)
Lemma locks_outweigh : exists l, let s := crun kreivo_communities c_empty l in
  exists s' evs, ccall_run kreivo_communities easy_env s (OSigned 10) (CUnlock 0) = COk (s', evs) /\
    fst (ccall_weight (CUnlock 0)) < 25000000 * locks_read s (OSigned 10) (CUnlock 0) /\
    block_time < 25000000 * locks_read s (OSigned 10) (CUnlock 0).
Proof.
  destruct (no_bound_on_locks_read 100000) as [l H]. exists l. cbv zeta in *. destruct (H (CUnlock 0) ltac:(by left)) as [(s' & evs & Hr) Hn].
  exists s', evs. split; [done|]. split; [change (fst (ccall_weight (CUnlock 0))) with 674360000; lia | unfold block_time; lia].
Qed.

(* ------------------------------------------------------------------ *)
(** * Calls dispatched as a community's account *)

Lemma weight_min_le a b : weight_le (weight_min a b) b.
Proof. split; cbn; lia. Qed.

Lemma as_account_at_most : forall c s o i r, weight_le (charged_weight (as_account_info i) (as_account_ran c s o r)) (ci_weight (as_account_info i)).
Proof.
  intros. unfold charged_weight. destruct (po_weight _); [apply weight_min_le | split; lia].
Qed.
Lemma as_account_at_least : forall c s o i r, dispatch_as_account c s o <> None ->
  fst (ci_weight i) <= u64_max -> snd (ci_weight i) <= u64_max ->
  weight_le (charged_weight i r) (charged_weight (as_account_info i) (as_account_ran c s o r)).
Proof.
  intros c s o i r Ho Ht Hp. unfold as_account_ran. destruct (dispatch_as_account c s o); [|done].
  assert (weight_le (ci_weight i) (ci_weight (as_account_info i))) as [Hw1 Hw2].
  { unfold as_account_info. set (d := weight_sat_add w_dispatch_as_account _). clearbody d. unfold weight_le, weight_sat_add, sat64. cbn [ci_weight fst snd]. lia. }
  destruct r as [[w f]|[w f]]; unfold charged_weight; cbn [as_account_result result_post po_weight default_post].
  - destruct w as [w|]; [|done]. split; cbn [weight_min fst snd]; lia.
  - split; destruct w as [w|]; cbn [weight_min fst snd]; lia.
Qed.
(** A call that says what it used is charged for just that: nothing for the dispatch itself. *)
Lemma as_account_not_charged : forall c s o i w f, dispatch_as_account c s o <> None -> weight_le w (ci_weight i) ->
  fst (ci_weight i) <= u64_max -> snd (ci_weight i) <= u64_max ->
  charged_weight (as_account_info i) (as_account_ran c s o (RanOk (PostInfo (Some w) f))) = w.
Proof.
  intros c s o i w f Ho [H1 H2] Ht Hp. unfold as_account_ran. destruct (dispatch_as_account c s o); [|done].
  unfold charged_weight. cbn [as_account_result result_post po_weight]. destruct w as [t p], i as [[wt wp] fr].
  unfold as_account_info. set (d := weight_sat_add w_dispatch_as_account _). clearbody d. unfold weight_sat_add, sat64, weight_min. cbn [ci_weight fst snd] in *. f_equal; lia.
Qed.
(** A call that fails, or whose origin is refused, is charged in full and never free. *)
Lemma as_account_failure : forall c s o i r, (forall p, as_account_ran c s o r <> RanOk p) ->
  charged_weight (as_account_info i) (as_account_ran c s o r) = ci_weight (as_account_info i) /\
  charged_free (as_account_info i) (as_account_ran c s o r) = false.
Proof.
  intros c s o i r H. unfold as_account_ran in *. destruct (dispatch_as_account c s o); [|done].
  destruct r as [p|p]; [by destruct (H p)|done].
Qed.
(** It is free only if the call it dispatches says so when it is done. *)
Lemma as_account_free : forall c s o i r, charged_free (as_account_info i) (as_account_ran c s o r) = true ->
  exists p, r = RanOk p /\ po_free p = true.
Proof.
  intros c s o i r H. unfold as_account_ran in *. destruct (dispatch_as_account c s o); [|done].
  destruct r as [p|p]; [eauto|done].
Qed.

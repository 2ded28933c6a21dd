(** Concrete histories on Kreivo: witnesses for what the code does not do, and cases that meet the theorems' hypotheses. The
    conditions on histories are checked by computation. *)
From stdpp Require Import gmap.
From Verif Require Import Base XcmTypes OriginTypes AccountsModel CommunitiesModel CommunitiesSpec CommunitiesProofs CommunitiesTally CommunitiesLocks
  CommunitiesRegistry CommunitiesTheorems.
Open Scope N_scope.

(* ------------------------------------------------------------------ *)
(** * Checking conditions by computation *)

Fixpoint along_b (c : cconfig) (P : cstate -> cstep -> bool) (s : cstate) (l : list cstep) : bool :=
  match l with [] => true | x :: l' => P s x && along_b c P (cstep_run c s x) l' end.
Lemma along_b_sound c P (Q : cstate -> cstep -> Prop) s l :
  (forall s x, P s x = true -> Q s x) -> along_b c P s l = true -> all_along c Q s l.
Proof.
  intros H. revert s. induction l as [|x l IH]; intros s; cbn; [done|]. rewrite andb_true_iff. intros [? ?]. auto.
Qed.

Definition sums_fit_b (s : cstate) : bool :=
  forallb (fun py => match py.2 with
    | Ongoing t g => (aye_sum s py.1 g <=? u32_max) && (nay_sum s py.1 g <=? u32_max) && (bare_sum s py.1 <=? u32_max)
    | Completed => true end) (map_to_list (c_polls s)).
Lemma sums_fit_b_sound s : sums_fit_b s = true -> sums_fit s.
Proof.
  unfold sums_fit_b. rewrite forallb_forall. intros H p t g Hp.
  specialize (H (p, Ongoing t g)). cbn [fst snd] in H.
  rewrite <- elem_of_list_In, elem_of_map_to_list in H. specialize (H Hp).
  apply andb_true_iff in H as [H H3]. apply andb_true_iff in H as [H1 H2].
  apply N.leb_le in H1, H2, H3. done.
Qed.
Definition factors_kept_b (c : cconfig) (s : cstate) (x : cstep) : bool :=
  let s' := cstep_run c s x in
  forallb (fun pv => match c_polls s !! pv.1.1 with Some (Ongoing _ g) => factor s' g pv.1.2 =? factor s g pv.1.2 | _ => true end)
    (map_to_list (c_votes s)).
Lemma factors_kept_b_sound c s x : factors_kept_b c s x = true -> factors_kept c s x.
Proof.
  unfold factors_kept_b. cbv zeta. rewrite forallb_forall. intros H p m v w t g Hv Hp.
  specialize (H ((p, m), (v, w))). cbn [fst snd] in H. rewrite Hp in H.
  rewrite <- elem_of_list_In, elem_of_map_to_list in H. by apply N.eqb_eq, H.
Qed.
Definition one_each_b (s : cstate) (x : cstep) : bool :=
  match x with
  | StCall _ (OSigned who) (CVote m p _) =>
      forallb (fun pv => negb ((pv.1.1 =? p) && (pv.2.2 =? who)) || (pv.1.2 =? m)) (map_to_list (c_votes s))
  | _ => true
  end.
Lemma one_each_b_sound s x : one_each_b s x = true -> one_membership_each s x.
Proof.
  destruct x as [e o k| | | | | | |]; cbn; try done. destruct o; try done. destruct k; try done.
  rewrite forallb_forall. intros H m' v' Hm. specialize (H ((p, m'), (v', who))). cbn [fst snd] in H.
  rewrite <- elem_of_list_In, elem_of_map_to_list, !N.eqb_refl in H. cbn in H. by apply N.eqb_eq, H.
Qed.

Lemma fits_along c l : along_b c (fun s x => sums_fit_b (cstep_run c s x)) c_empty l = true ->
  all_along c (fun s x => sums_fit (cstep_run c s x)) c_empty l.
Proof. apply along_b_sound. intros. by apply sums_fit_b_sound. Qed.
Lemma kept_along c l : along_b c (factors_kept_b c) c_empty l = true -> all_along c (factors_kept c) c_empty l.
Proof. apply along_b_sound. intros. by apply factors_kept_b_sound. Qed.
Lemma one_each_along c l : along_b c one_each_b c_empty l = true -> all_along c one_membership_each c_empty l.
Proof. apply along_b_sound. intros. by apply one_each_b_sound. Qed.
Lemma tally_ctx_along c l : along_b c (fun s x => factors_kept_b c s x && sums_fit_b (cstep_run c s x)) c_empty l = true ->
  all_along c (fun s x => factors_kept c s x /\ sums_fit (cstep_run c s x)) c_empty l.
Proof.
  apply along_b_sound. intros s x H. apply andb_true_iff in H as [? ?]. split; [by apply factors_kept_b_sound | by apply sums_fit_b_sound].
Qed.

(* ------------------------------------------------------------------ *)
(** * Scenarios *)

Notation kc := kreivo_communities.
Definition call_by (who : N) (k : ccall) : cstep := StCall easy_env (OSigned who) k.

(** Community 1, administered by account 1, with memberships 101 (account 10), 102 and 103 (account 11), all of rank 1, and poll 7. *)
Definition community_one (dm : decision_method) : list cstep :=
  [StRegister easy_env (OSigned 1) 1 None;
   StMember 101 (Some (Membership 1 10 1)); StMember 102 (Some (Membership 1 11 1)); StMember 103 (Some (Membership 1 11 1));
   call_by 1 (CSetMethod 1 dm); StPollOpen 7 1].

Definition poll_tally (s : cstate) (p : N) : option tally := match c_polls s !! p with Some (Ongoing t _) => Some t | _ => None end.

(** Two native votes of 2^32 each: the counter saturates, and taking one back empties it. *)
Definition h_saturate : list cstep := community_one ByNativeToken ++
  [call_by 10 (CVote 101 7 (NativeBalance true (2 ^ 32))); call_by 11 (CVote 102 7 (NativeBalance true (2 ^ 32))); call_by 11 (CRemoveVote 102 7)].
Lemma h_saturate_wrong : all_along kc (factors_kept kc) c_empty h_saturate /\
  let s := crun kc c_empty h_saturate in
  c_votes s !! (7, 101) = Some (NativeBalance true (2 ^ 32), 10) /\ c_polls s !! 7 = Some (Ongoing (Tally 0 0 0) 1).
Proof. split; [apply kept_along; vm_compute; reflexivity | split; vm_compute; reflexivity]. Qed.

(** A promotion between vote and removal takes another member's vote out of the tally. *)
Definition h_promote : list cstep := community_one ByRank ++
  [call_by 10 (CVote 101 7 (Standard true)); call_by 11 (CVote 102 7 (Standard true)); call_by 1 (CPromote 101); call_by 10 (CRemoveVote 101 7)].
Lemma h_promote_wrong : all_along kc (fun s x => sums_fit (cstep_run kc s x)) c_empty h_promote /\
  let s := crun kc c_empty h_promote in
  c_votes s !! (7, 102) = Some (Standard true, 11) /\ aye_sum s 7 1 = 1 /\ c_polls s !! 7 = Some (Ongoing (Tally 0 0 1) 1).
Proof. split; [apply fits_along; vm_compute; reflexivity | split_and!; vm_compute; reflexivity]. Qed.

(** Account 11 votes with two memberships, then takes the larger vote back. *)
Definition h_two : list cstep := community_one ByNativeToken ++
  [call_by 11 (CVote 102 7 (NativeBalance true 50)); call_by 11 (CVote 103 7 (NativeBalance true 40))].
Definition h_two_removed : list cstep := h_two ++ [call_by 11 (CRemoveVote 102 7)].
Lemma h_two_unbacked :
  let s := crun kc c_empty h_two_removed in
  is_ongoing s 7 /\ c_votes s !! (7, 103) = Some (NativeBalance true 40, 11) /\ frozen s None 11 = 0 /\
  c_polls s !! 7 = Some (Ongoing (Tally 40 0 40) 1).
Proof. cbv zeta. split_and!; [eexists _, _; vm_compute; reflexivity | vm_compute; reflexivity ..]. Qed.
Lemma h_two_counted :
  let s := crun kc c_empty h_two in
  is_ongoing s 7 /\ counted_of s 7 11 None = 90 /\ frozen s None 11 = 50 /\ c_polls s !! 7 = Some (Ongoing (Tally 90 0 90) 1).
Proof. cbv zeta. split_and!; [eexists _, _; vm_compute; reflexivity | vm_compute; reflexivity ..]. Qed.
(** With both votes in place 50 are frozen but the only lock is for 40; after the poll, nothing can be unlocked down to it. *)
Lemma h_two_frozen :
  let s := crun kc c_empty h_two in
  frozen s None 11 = 50 /\ c_locks s !! (11, 7) = Some (NativeBalance true 40) /\ max_locked s None 11 = 40.
Proof. cbv zeta. split_and!; vm_compute; reflexivity. Qed.

(** Voting and taking it back drops the lock of the other membership's vote. *)
Definition h_one : list cstep := community_one ByNativeToken ++ [call_by 11 (CVote 102 7 (NativeBalance true 50))].
Lemma h_undo_wrong :
  let s := crun kc c_empty h_one in
  let s1 := crun kc s [call_by 11 (CVote 103 7 (NativeBalance true 40))] in
  let s2 := crun kc s1 [call_by 11 (CRemoveVote 103 7)] in
  c_votes s1 !! (7, 103) <> None /\ c_votes s2 !! (7, 103) = None /\
  c_locks s !! (11, 7) = Some (NativeBalance true 50) /\ c_locks s2 !! (11, 7) = None /\ frozen s None 11 = 50 /\ frozen s2 None 11 = 0.
Proof. cbv zeta. split_and!; vm_compute; congruence. Qed.

(** Voting again after the counter saturated: the tally is not the one of the last vote alone. *)
Definition h_full : list cstep := community_one ByNativeToken ++ [call_by 10 (CVote 101 7 (NativeBalance true (2 ^ 32)))].
Lemma h_full_wrong :
  let s := crun kc c_empty h_full in
  poll_tally (crun kc s [call_by 11 (CVote 102 7 (NativeBalance true 5)); call_by 11 (CVote 102 7 (NativeBalance false 5))]) 7
    = Some (Tally (u32_max - 5) 5 (u32_max - 5)) /\
  poll_tally (crun kc s [call_by 11 (CVote 102 7 (NativeBalance false 5))]) 7 = Some (Tally u32_max 5 u32_max).
Proof. cbv zeta. split; vm_compute; reflexivity. Qed.

(** One aye and one nay of a large balance: approval is reported as 100%. *)
Definition h_wrap : list cstep := community_one ByNativeToken ++
  [call_by 10 (CVote 101 7 (NativeBalance true (2 ^ 32))); call_by 11 (CVote 102 7 (NativeBalance false (2 ^ 34)))].
Lemma h_wrap_wrong : let s := crun kc c_empty h_wrap in
  exists t, c_polls s !! 7 = Some (Ongoing t 1) /\ ayes t = u32_max /\ nays t = u32_max /\ approval t = 1000000000.
Proof. cbv zeta. exists (Tally u32_max u32_max u32_max). split_and!; vm_compute; reflexivity. Qed.

(** Admin of community 1 takes over the admin origin of community 2, which is left without one. *)
Definition h_orphan : list cstep :=
  [StRegister easy_env (OSigned 1) 1 None; StRegister easy_env (OSigned 2) 2 None; call_by 1 (CSetAdmin (OSigned 2))].
Lemma h_orphan_wrong : let s := crun kc c_empty h_orphan in
  c_info s !! 2 = Some Active /\ (forall o, c_admin s o <> Some 2) /\ kreivo_admin_origin s (OSigned 2) = Some 1.
Proof.
  cbv zeta. split_and!; [vm_compute; reflexivity | | vm_compute; reflexivity].
  intros o.
  assert (c_admin (crun kc c_empty h_orphan) =
    admin_insert (OSigned 2) 1 (admin_remove (OSigned 1) (admin_insert (OSigned 2) 2 (admin_insert (OSigned 1) 1 (fun _ => None))))) as ->
    by (vm_compute; reflexivity).
  unfold admin_insert, admin_remove. repeat case_decide; congruence.
Qed.

(** A blocked community still administers through its own account. *)
Definition h_blocked : list cstep := community_one ByRank ++ [StForceState 1 Blocked].
Lemma h_blocked_wrong : let s := crun kc c_empty h_blocked in
  c_info s !! 1 = Some Blocked /\
  match ccall_run kc easy_env s (OSigned (community_account 1)) (CPromote 101) with
  | COk (s', _) => rank_of s' 1 101 = Some 2
  | CErr _ => False
  end.
Proof. cbv zeta. split; vm_compute; reflexivity. Qed.

(** The admin of community 1, who administers nothing else, changes how community 2 decides. *)
Definition h_two_communities : list cstep := [StRegister easy_env (OSigned 1) 1 None; StRegister easy_env (OSigned 2) 2 None].
Lemma h_method_wrong : let s := crun kc c_empty h_two_communities in
  kreivo_admin_origin s (OSigned 1) = Some 1 /\ method_of s 2 = ByMembership /\
  match ccall_run kc easy_env s (OSigned 1) (CSetMethod 2 ByNativeToken) with
  | COk (s', _) => method_of s' 2 = ByNativeToken
  | CErr _ => False
  end.
Proof. cbv zeta. split_and!; vm_compute; reflexivity. Qed.

(** Removing account 10 as a member with membership 102 takes account 11's membership. *)
Lemma h_remove_wrong : let s := crun kc c_empty (community_one ByMembership) in
  match ccall_run kc easy_env s (OSigned 1) (CRemoveMember (AddrId 10) 102) with
  | COk (s', evs) => evs = [EvMemberRemoved 10 102] /\ m_owner <$> c_members s !! 102 = Some 11 /\
      m_owner <$> c_members s' !! 102 = Some (community_account 1) /\ is_member_of s' 1 10 = true
  | CErr _ => False
  end.
Proof. cbv zeta. vm_compute. repeat split; reflexivity. Qed.
Lemma h_demote_wrong : let s := crun kc c_empty (community_one ByMembership) in
  match ccall_run kc easy_env s (OSigned 1) (CDemote 101) with
  | COk (s', evs) => m_rank <$> c_members s' !! 101 = Some 0 /\ evs = [EvRankUpdated 101 1]
  | CErr _ => False
  end.
Proof. cbv zeta. vm_compute. repeat split; reflexivity. Qed.

(** A longer history in which everything fits: votes by rank and re-votes. *)
Definition h_good : list cstep := community_one ByRank ++
  [call_by 1 (CPromote 101); call_by 10 (CVote 101 7 (Standard true)); call_by 11 (CVote 102 7 (Standard true));
   call_by 11 (CVote 102 7 (Standard false))].
Lemma h_good_ok : along_b kc (fun s x => factors_kept_b kc s x && sums_fit_b (cstep_run kc s x)) c_empty h_good = true /\
  poll_tally (crun kc c_empty h_good) 7 = Some (Tally 2 1 1).
Proof. split; vm_compute; reflexivity. Qed.
Lemma h_one_ok : along_b kc one_each_b c_empty h_one = true /\ frozen (crun kc c_empty h_one) None 11 = 50.
Proof. split; vm_compute; reflexivity. Qed.

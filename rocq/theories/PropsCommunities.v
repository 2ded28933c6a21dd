(** Properties of communities: registry, administration, voting, vote locks. *)
From stdpp Require Import gmap.
From Verif Require Import Base XcmTypes OriginTypes AccountsModel CommunitiesModel CommunitiesSpec CommunitiesProofs CommunitiesTally
  CommunitiesLocks CommunitiesRegistry CommunitiesTheorems CommunitiesExamples.
Open Scope N_scope.

(* ------------------------------------------------------------------ *)
(** * Registry *)

(** C34: registering succeeds exactly for an unused id, an admin origin that administers nothing, and a payable deposit; afterwards
    the community is active and administered by that origin; nothing else changes but the deposit's transfer. *)
Theorem C34_registration :
  (forall c e s admin id deposit s',
     register c e s admin id deposit = COk s' ->
     c_info s !! id = None /\ c_admin s admin = None /\
     c_info s' !! id = Some Active /\ c_admin s' admin = Some id /\
     (forall id', id' <> id -> c_info s' !! id' = c_info s !! id') /\
     (forall o, o <> admin -> c_admin s' o = c_admin s o) /\
     c_method s' = c_method s /\ c_members s' = c_members s /\ same_voting_state s s' /\
     match deposit with
     | None => c_balance s' = c_balance s
     | Some (n, from, to) =>
         n <= balance s from /\
         (from <> to -> balance s' from = balance s from - n /\ balance s' to = balance s to + n) /\
         (from = to -> balance s' from = balance s from) /\
         (forall a, a <> from -> a <> to -> balance s' a = balance s a)
     end) /\
  (forall c e s admin id deposit,
     c_info s !! id = None -> c_admin s admin = None ->
     (forall n from to, deposit = Some (n, from, to) -> n <= balance s from /\ ce_transfer_ok e from to n = true) ->
     exists s', register c e s admin id deposit = COk s') /\
  (forall c e s o admin id s' evs,
     ccall_run c e s o (CCreate admin id) = COk (s', evs) ->
     exists deposit, cc_create_origin c o = Some deposit /\ register c e s admin id deposit = COk s' /\ evs = [EvCommunityCreated id admin]).
Proof. split_and!; [exact registration|exact registration_succeeds|exact create_registers]. Qed.
Print Assumptions C34_registration.

Example C34_case : c_info (crun kc c_empty h_two_communities) !! 3 = None /\ c_admin (crun kc c_empty h_two_communities) (OSigned 3) = None /\
  match register kc easy_env (crun kc (crun kc c_empty h_two_communities) [StBalance 9 100]) (OSigned 3) 3 (Some (40, 9, 8)) with
  | COk s => balance s 9 = 60 /\ balance s 8 = 40 /\ c_info s !! 3 = Some Active /\ c_admin s (OSigned 3) = Some 3 | CErr _ => False end.
Proof. split_and!; vm_compute; [reflexivity..|]. repeat split. Qed.

(** C35 is false of the code: setting an admin origin that administers another community takes it from that community. *)
Theorem C35_one_admin_refuted : exists l id, let s := crun kreivo_communities c_empty l in
  c_info s !! id = Some Active /\ forall o, c_admin s o <> Some id.
Proof. exists h_orphan, 2. split; apply h_orphan_wrong. Qed.
Print Assumptions C35_one_admin_refuted.

(** C35, what holds in every history: no community has two admin origins, and every admin origin administers an existing community.
    (That no origin administers two communities is the type of the map.) *)
Theorem C35_one_admin_partial : forall c s, creachable c s ->
  (forall o o' id, c_admin s o = Some id -> c_admin s o' = Some id -> o = o') /\
  (forall o id, c_admin s o = Some id -> c_info s !! id <> None).
Proof. exact one_admin. Qed.
Print Assumptions C35_one_admin_partial.

Example C35_case : c_admin (crun kc c_empty h_two_communities) (OSigned 1) = Some 1 /\ c_admin (crun kc c_empty h_two_communities) (OSigned 2) = Some 2.
Proof. split; vm_compute; reflexivity. Qed.

(** C36: exactly which origins pass as which community. *)
Theorem C36_live_communities : forall s o id,
  ensure_community s o = Some id <->
  c_info s !! id = Some Active /\
  ((exists sub, o = OCommunity id sub) \/
   (o <> ORoot /\ o <> ONone /\ (forall id' sub, o <> OCommunity id' sub) /\ c_admin s o = Some id)).
Proof. exact live_communities. Qed.
Print Assumptions C36_live_communities.
Theorem C36_communities_stay : forall c s x id, c_info s !! id <> None -> c_info (cstep_run c s x) !! id <> None.
Proof. exact communities_stay. Qed.
Print Assumptions C36_communities_stay.

Example C36_case : ensure_community (crun kc c_empty h_two_communities) (OSigned 2) = Some 2 /\
  ensure_community (crun kc c_empty h_two_communities) (OCommunity 2 None) = Some 2 /\
  ensure_community (crun kc c_empty h_two_communities) (OCommunity 3 None) = None /\
  ensure_community (crun kc c_empty h_two_communities) ORoot = None.
Proof. split_and!; vm_compute; reflexivity. Qed.

(** C37 is false of the code: the blocked community's account still promotes a member. *)
Theorem C37_blocked_refuted : exists l id who m, let s := crun kreivo_communities c_empty l in
  c_info s !! id = Some Blocked /\ rank_of s id m = Some 1 /\
  match ccall_run kreivo_communities easy_env s (OSigned who) (CPromote m) with
  | COk (s', _) => rank_of s' id m = Some 2
  | CErr _ => False
  end.
Proof. exists h_blocked, 1, (community_account 1), 101. split_and!; vm_compute; reflexivity. Qed.
Print Assumptions C37_blocked_refuted.

(** C37, what holds: apart from such accounts no origin is authorised as a blocked community, and the administrative calls need an
    origin authorised as some community. *)
Theorem C37_blocked_partial :
  (forall s o id, c_info s !! id = Some Blocked -> kreivo_admin_origin s o = Some id ->
     exists who, o = OSigned who /\ account_to_community who = Some id) /\
  (forall e s o k s' evs,
     ccall_run kreivo_communities e s o k = COk (s', evs) ->
     match k with
     | CCreate _ _ => False
     | CSetAdmin _ | CAddMember _ | CRemoveMember _ _ | CPromote _ | CDemote _ | CSetMethod _ _ =>
         exists id, kreivo_admin_origin s o = Some id
     | CVote _ _ _ | CRemoveVote _ _ | CUnlock _ => exists who, o = OSigned who
     end).
Proof. split; [exact blocked_authorises|exact kreivo_admin_calls]. Qed.
Print Assumptions C37_blocked_partial.

Example C37_case : c_info (crun kc c_empty h_blocked) !! 1 = Some Blocked /\
  match ccall_run kc easy_env (crun kc c_empty h_blocked) (OSigned 1) (CPromote 101) with COk _ => False | CErr e => True end /\
  match ccall_run kc easy_env (crun kc c_empty (community_one ByRank)) (OSigned 1) (CPromote 101) with COk _ => True | CErr e => False end.
Proof. split_and!; vm_compute; reflexivity. Qed.

(** C38 is false of the code: an origin that is authorised as community 1 only sets how community 2 decides. *)
Theorem C38_own_settings_refuted : exists l o g, let s := crun kreivo_communities c_empty l in
  kreivo_admin_origin s o = Some 1 /\ g <> 1 /\ method_of s g = ByMembership /\
  match ccall_run kreivo_communities easy_env s o (CSetMethod g ByNativeToken) with
  | COk (s', _) => method_of s' g = ByNativeToken
  | CErr _ => False
  end.
Proof. exists h_two_communities, (OSigned 1), 2. split_and!; vm_compute; congruence. Qed.
Print Assumptions C38_own_settings_refuted.

(** C38, what holds: set_admin_origin moves the admin of the caller's own community only (it may take over the new origin, see C35);
    decision methods change only by set_decision_method of an origin authorised as some community. *)
Theorem C38_own_settings_partial :
  (forall c e s o admin s' evs,
     ccall_run c e s o (CSetAdmin admin) = COk (s', evs) ->
     exists id, cc_admin_origin c s o = Some id /\ c_admin s o = Some id /\ c_admin s' admin = Some id /\
       (o <> admin -> c_admin s' o = None) /\
       (forall o', o' <> o -> o' <> admin -> c_admin s' o' = c_admin s o') /\
       evs = [EvAdminOriginSet id admin]) /\
  (forall c s x g,
     c_method (cstep_run c s x) !! g <> c_method s !! g ->
     exists e o dm id, x = StCall e o (CSetMethod g dm) /\ cc_admin_origin c s o = Some id /\ c_method (cstep_run c s x) !! g = Some dm).
Proof. split; [exact set_admin_own|exact method_changes]. Qed.
Print Assumptions C38_own_settings_partial.

Example C38_case : match ccall_run kc easy_env (crun kc c_empty h_two_communities) (OSigned 1) (CSetAdmin (OSigned 5)) with
  | COk (s, _) => c_admin s (OSigned 5) = Some 1 /\ c_admin s (OSigned 1) = None /\ c_admin s (OSigned 2) = Some 2 | CErr _ => False end.
Proof. vm_compute. repeat split. Qed.

(** C48 is false of the code: a membership of account 11 is taken away by removing the member 10. *)
Theorem C48_membership_admin_refuted : exists l o who m s' evs, let s := crun kreivo_communities c_empty l in
  ccall_run kreivo_communities easy_env s o (CRemoveMember (AddrId who) m) = COk (s', evs) /\
  m_owner <$> c_members s !! m = Some 11 /\ who <> 11 /\ m_owner <$> c_members s' !! m <> Some 11 /\ is_member_of s' 1 who = true.
Proof.
  exists (community_one ByMembership), (OSigned 1), 10, 102.
  destruct (ccall_run kc easy_env (crun kc c_empty (community_one ByMembership)) (OSigned 1) (CRemoveMember (AddrId 10) 102)) as [[s' evs]|] eqn:E.
  - exists s', evs. pose proof h_remove_wrong as H. cbv zeta in H. rewrite E in H. destruct H as (_ & H1 & H2 & H3).
    cbv zeta. split_and!; [done|exact H1|done| |exact H3]. rewrite H2. vm_compute. discriminate.
  - pose proof h_remove_wrong as H. cbv zeta in H. by rewrite E in H.
Qed.
Print Assumptions C48_membership_admin_refuted.

(** C48, what holds. add_member: one membership held by the community's account goes to the new member, in this community (whichever
    community it was minted for), its rank kept. remove_member: the named membership, of this community and whoever holds it, goes to
    the community's account with rank zero. promote and demote: the rank moves by one within 0 and 255. Nothing else changes. *)
Theorem C48_membership_admin_partial :
  (forall c e s o who s' evs,
     ccall_run c e s o (CAddMember who) = COk (s', evs) ->
     exists id w m x, cc_mgmt_origin c s o = Some id /\ cc_lookup c who = Some w /\
       c_members s !! m = Some x /\ m_owner x = cc_account c id /\
       c_members s' = <[m := Membership id w (m_rank x)]> (c_members s) /\ evs = [EvMemberAdded w m] /\
       s' = set_members (c_members s') s) /\
  (forall c e s o who id w,
     cc_mgmt_origin c s o = Some id -> cc_lookup c who = Some w ->
     (ccall_run c e s o (CAddMember who) = CErr ECommunityAtCapacity <-> forall m x, c_members s !! m = Some x -> m_owner x <> cc_account c id)) /\
  (forall c e s o who m s' evs,
     ccall_run c e s o (CRemoveMember who m) = COk (s', evs) ->
     exists id w x, cc_mgmt_origin c s o = Some id /\ cc_lookup c who = Some w /\
       (exists m0 x0, c_members s !! m0 = Some x0 /\ m_group x0 = id /\ m_owner x0 = w) /\
       c_members s !! m = Some x /\ m_group x = id /\
       c_members s' = <[m := Membership id (cc_account c id) 0]> (c_members s) /\ evs = [EvMemberRemoved w m] /\
       s' = set_members (c_members s') s) /\
  (forall c e s o m s' evs,
     ccall_run c e s o (CPromote m) = COk (s', evs) ->
     exists id x, cc_mgmt_origin c s o = Some id /\ c_members s !! m = Some x /\ m_group x = id /\
       let r := N.min (m_rank x + 1) 255 in
       c_members s' = <[m := Membership id (m_owner x) r]> (c_members s) /\ evs = [EvRankUpdated m r] /\
       s' = set_members (c_members s') s) /\
  (forall c e s o m s' evs,
     ccall_run c e s o (CDemote m) = COk (s', evs) ->
     exists id x, cc_mgmt_origin c s o = Some id /\ c_members s !! m = Some x /\ m_group x = id /\
       c_members s' = <[m := Membership id (m_owner x) (m_rank x - 1)]> (c_members s) /\ evs = [EvRankUpdated m (m_rank x)] /\
       s' = set_members (c_members s') s).
Proof. split_and!; [exact add_member_effect|exact add_member_capacity|exact remove_member_effect|exact promote_effect|exact demote_effect]. Qed.
Print Assumptions C48_membership_admin_partial.

(** demote reports the rank the membership had before. *)
Theorem C48_demote_event_refuted : exists l o m s' evs, let s := crun kreivo_communities c_empty l in
  ccall_run kreivo_communities easy_env s o (CDemote m) = COk (s', evs) /\
  m_rank <$> c_members s' !! m = Some 0 /\ evs = [EvRankUpdated m 1].
Proof.
  exists (community_one ByMembership), (OSigned 1), 101.
  destruct (ccall_run kc easy_env (crun kc c_empty (community_one ByMembership)) (OSigned 1) (CDemote 101)) as [[s' evs]|] eqn:E.
  - exists s', evs. pose proof h_demote_wrong as H. cbv zeta in H. rewrite E in H. destruct H as (H1 & H2). done.
  - pose proof h_demote_wrong as H. cbv zeta in H. by rewrite E in H.
Qed.
Print Assumptions C48_demote_event_refuted.

Example C48_case : let s := crun kc c_empty (community_one ByMembership ++ [StMember 104 (Some (Membership 1 (community_account 1) 0))]) in
  match ccall_run kc easy_env s (OSigned 1) (CAddMember (AddrId 12)) with
  | COk (s', evs) => evs = [EvMemberAdded 12 104] /\ m_owner <$> c_members s' !! 104 = Some 12 | CErr _ => False end.
Proof. vm_compute. repeat split. Qed.

(** C49 *)
Theorem C49_dispatch_as_account : forall c s o o', dispatch_as_account c s o = Some o' <->
  exists id, cc_mgmt_origin c s o = Some id /\ o' = OSigned (cc_account c id).
Proof. exact dispatch_as_iff. Qed.
Print Assumptions C49_dispatch_as_account.

Example C49_case : dispatch_as_account kc (crun kc c_empty h_two_communities) (OSigned 2) = Some (OSigned (community_account 2)) /\
  dispatch_as_account kc (crun kc c_empty h_two_communities) (OSigned 3) = None.
Proof. split; vm_compute; reflexivity. Qed.

(* ------------------------------------------------------------------ *)
(** * Voting *)

(** C39 *)
Theorem C39_only_members_vote :
  (forall c e s o m p v s' evs,
     ccall_run c e s o (CVote m p v) = COk (s', evs) ->
     exists who, o = OSigned who /\ may_vote s who m p v /\
       c_votes s' = <[(p, m) := (v, who)]> (c_votes s) /\
       (forall k n, pledges v k n -> n <= ce_freezable e k who) /\
       evs = [EvVoteCasted who p v]) /\
  (forall c s x p m v who,
     c_votes (cstep_run c s x) !! (p, m) = Some (v, who) -> c_votes s !! (p, m) <> Some (v, who) ->
     exists e, x = StCall e (OSigned who) (CVote m p v) /\ may_vote s who m p v) /\
  (forall c e s o m p s' evs,
     ccall_run c e s o (CRemoveVote m p) = COk (s', evs) ->
     exists who x t v voter, o = OSigned who /\ c_members s !! m = Some x /\ m_owner x = who /\
       c_polls s !! p = Some (Ongoing t (m_group x)) /\ c_votes s !! (p, m) = Some (v, voter) /\
       c_votes s' = delete (p, m) (c_votes s) /\ evs = [EvVoteRemoved who p]).
Proof. split_and!; [exact vote_allowed|exact vote_recorded_by|exact remove_vote_allowed]. Qed.
Print Assumptions C39_only_members_vote.

Example C39_case : may_vote (crun kc c_empty (community_one ByNativeToken)) 10 101 7 (NativeBalance true 50) /\
  match ccall_run kc easy_env (crun kc c_empty (community_one ByNativeToken)) (OSigned 10) (CVote 101 7 (NativeBalance true 50)) with
  | COk _ => True | CErr _ => False end /\
  match ccall_run kc easy_env (crun kc c_empty (community_one ByNativeToken)) (OSigned 10) (CVote 101 7 (Standard true)) with
  | COk _ => False | CErr _ => True end /\
  match ccall_run kc easy_env (crun kc c_empty (community_one ByNativeToken)) (OSigned 11) (CVote 101 7 (NativeBalance true 50)) with
  | COk _ => False | CErr _ => True end.
Proof.
  split_and!; [|vm_compute; exact I..].
  exists (Membership 1 10 1), empty_tally. split_and!; [vm_compute; reflexivity..| |vm_compute; reflexivity].
  unfold allowed_vote. replace (c_method _ !! _) with (Some ByNativeToken) by (vm_compute; reflexivity). eauto.
Qed.

(** C40 is false of the code: two votes of 2^32 planck saturate the 32-bit counter; removing one leaves a recorded vote and no ayes. *)
Theorem C40_tally_is_the_votes_refuted : exists l p, all_along kreivo_communities (factors_kept kreivo_communities) c_empty l /\
  ~ tally_right (crun kreivo_communities c_empty l) p.
Proof.
  exists h_saturate, 7. destruct h_saturate_wrong as (H & _ & Hp). split; [exact H|]. intros Hr.
  specialize (Hr _ _ Hp) as (Ha & _). vm_compute in Ha. discriminate.
Qed.
Print Assumptions C40_tally_is_the_votes_refuted.

(** C40 for histories in which the weighted sums stay below 2^32. *)
Theorem C40_tally_is_the_votes_partial : forall c l,
  all_along c (fun s x => factors_kept c s x /\ sums_fit (cstep_run c s x)) c_empty l -> forall p, tally_right (crun c c_empty l) p.
Proof. exact tally_history. Qed.
Print Assumptions C40_tally_is_the_votes_partial.

Example C40_case : all_along kc (fun s x => factors_kept kc s x /\ sums_fit (cstep_run kc s x)) c_empty h_good /\
  c_polls (crun kc c_empty h_good) !! 7 = Some (Ongoing (Tally 2 1 1) 1).
Proof. split; [apply tally_ctx_along; vm_compute; reflexivity | vm_compute; reflexivity]. Qed.

(** C41 is false of the code: a promoted membership takes more out than it put in. *)
Theorem C41_tally_after_changes_refuted : exists l p,
  all_along kreivo_communities (fun s x => sums_fit (cstep_run kreivo_communities s x)) c_empty l /\
  ~ tally_right (crun kreivo_communities c_empty l) p.
Proof.
  exists h_promote, 7. destruct h_promote_wrong as (H & _ & Hs & Hp). split; [exact H|]. intros Hr.
  specialize (Hr _ _ Hp) as (Ha & _). rewrite Hs in Ha. cbn in Ha. discriminate.
Qed.
Print Assumptions C41_tally_after_changes_refuted.

(** C41 for the unweighted count of ayes, whatever happens to ranks and decision methods, while it stays below 2^32. *)
Theorem C41_tally_after_changes_partial : forall c l,
  all_along c (fun s x => bare_fits (cstep_run c s x)) c_empty l ->
  forall p t g, c_polls (crun c c_empty l) !! p = Some (Ongoing t g) -> bare_ayes t = bare_sum (crun c c_empty l) p.
Proof. exact bare_history. Qed.
Print Assumptions C41_tally_after_changes_partial.

Example C41_case : all_along kc (fun s x => bare_fits (cstep_run kc s x)) c_empty h_promote /\
  c_polls (crun kc c_empty h_promote) !! 7 = Some (Ongoing (Tally 0 0 1) 1) /\ bare_sum (crun kc c_empty h_promote) 7 = 1.
Proof.
  split_and!; [|vm_compute; reflexivity..]. destruct h_promote_wrong as [H _]. revert H. apply all_along_impl.
  intros s x H p t g Hp. by destruct (H p t g Hp) as (_ & _ & ?).
Qed.

(** C42 is false of the code: voting with a second membership and taking that vote back drops the first vote's lock. *)
Theorem C42_remove_undoes_refuted : exists l who m p v v0, let s := crun kreivo_communities c_empty l in
  let s1 := crun kreivo_communities s [StCall easy_env (OSigned who) (CVote m p v)] in
  let s2 := crun kreivo_communities s1 [StCall easy_env (OSigned who) (CRemoveVote m p)] in
  c_votes s !! (p, m) = None /\ c_votes s1 !! (p, m) <> None /\ c_votes s2 !! (p, m) = None /\
  c_locks s !! (who, p) = Some v0 /\ c_locks s2 !! (who, p) = None /\ frozen s None who = 50 /\ frozen s2 None who = 0.
Proof. exists h_one, 11, 103, 7, (NativeBalance true 40), (NativeBalance true 50). cbv zeta. split_and!; vm_compute; congruence. Qed.
Print Assumptions C42_remove_undoes_refuted.

(** C42 where nobody votes in a poll with a second membership and the counters do not overflow: everything is as before, and the vote
    can be taken back whenever the account's freezes can be lowered. *)
Theorem C42_remove_undoes_partial : forall c l, all_along c one_membership_each c_empty l ->
  forall s, s = crun c c_empty l ->
  forall e e' who m p v t g s1 evs1,
  c_polls s !! p = Some (Ongoing t g) -> (forall m' v', c_votes s !! (p, m') <> Some (v', who)) -> c_votes s !! (p, m) = None ->
  tally_within (tally_plus t (factor s g m) v) ->
  ccall_run c e s (OSigned who) (CVote m p v) = COk (s1, evs1) ->
  (forall s2 evs2, ccall_run c e' s1 (OSigned who) (CRemoveVote m p) = COk (s2, evs2) ->
     c_polls s2 = c_polls s /\ c_votes s2 = c_votes s /\ c_locks s2 = c_locks s /\ (forall k w, frozen s2 k w = frozen s k w) /\
     same_registry s s2) /\
  ((forall k n, ce_freeze_ok e' k who n = true) -> (forall k, frozen s k who <= ce_freezable e' k who) ->
   exists s2 evs2, ccall_run c e' s1 (OSigned who) (CRemoveVote m p) = COk (s2, evs2)).
Proof. exact vote_then_remove. Qed.
Print Assumptions C42_remove_undoes_partial.

Example C42_case : let l := community_one ByNativeToken ++ [call_by 10 (CVote 101 7 (NativeBalance true 30))] in
  all_along kc one_membership_each c_empty l /\
  match ccall_run kc easy_env (crun kc c_empty l) (OSigned 11) (CVote 102 7 (NativeBalance false 50)) with
  | COk (s, _) => frozen s None 11 = 50 /\ c_polls s !! 7 = Some (Ongoing (Tally 30 50 30) 1) /\
      match ccall_run kc easy_env s (OSigned 11) (CRemoveVote 102 7) with
      | COk (s', _) => frozen s' None 11 = 0 /\ c_polls s' !! 7 = Some (Ongoing (Tally 30 0 30) 1) | CErr _ => False end
  | CErr _ => False end.
Proof. cbv zeta. split; [apply one_each_along; vm_compute; reflexivity|]. vm_compute. repeat split. Qed.

(** C43 is false of the code when the counter is full: voting aye and then nay does not leave the tally of voting nay. *)
Theorem C43_revote_refuted : exists l who m p v1 v2, let s := crun kreivo_communities c_empty l in
  let vote v := StCall easy_env (OSigned who) (CVote m p v) in
  c_votes (crun kreivo_communities s [vote v1; vote v2]) !! (p, m) = Some (v2, who) /\
  c_votes (crun kreivo_communities s [vote v2]) !! (p, m) = Some (v2, who) /\
  poll_tally (crun kreivo_communities s [vote v1; vote v2]) p <> poll_tally (crun kreivo_communities s [vote v2]) p.
Proof.
  exists h_full, 11, 102, 7, (NativeBalance true 5), (NativeBalance false 5). cbv zeta. split_and!; vm_compute; congruence.
Qed.
Print Assumptions C43_revote_refuted.

(** C43 where the counters do not overflow: after any number of votes with one membership the tally is that of the last vote alone. *)
Theorem C43_revote_partial : forall c s who m p t g, c_polls s !! p = Some (Ongoing t g) -> c_votes s !! (p, m) = None ->
  forall l e v s', Forall (fun ev => tally_within (tally_plus t (factor s g m) ev.2)) (l ++ [(e, v)]) ->
  votes_in_turn c s who m p (l ++ [(e, v)]) = Some s' ->
  c_polls s' = <[p := Ongoing (tally_plus t (factor s g m) v) g]> (c_polls s) /\
  c_votes s' = <[(p, m) := (v, who)]> (c_votes s) /\
  (forall e1 s1 evs1, ccall_run c e1 s (OSigned who) (CVote m p v) = COk (s1, evs1) -> c_polls s1 = c_polls s' /\ c_votes s1 = c_votes s').
Proof. exact revote_replaces. Qed.
Print Assumptions C43_revote_partial.

Example C43_case : let s := crun kc c_empty (community_one ByNativeToken) in
  let l := [(easy_env, NativeBalance true 30); (easy_env, NativeBalance false 20)] in
  Forall (fun ev => tally_within (tally_plus empty_tally (factor s 1 101) ev.2)) (l ++ [(easy_env, NativeBalance true 7)]) /\
  match votes_in_turn kc s 10 101 7 (l ++ [(easy_env, NativeBalance true 7)]) with
  | Some s' => c_polls s' !! 7 = Some (Ongoing (Tally 7 0 7) 1) | None => False end.
Proof.
  cbv zeta. split; [|vm_compute; reflexivity].
  repeat constructor; vm_compute; discriminate.
Qed.

(** C67: once a poll has ended it stays so, and no vote in it is added, changed or removed any more. *)
Theorem C67_ended_polls_final : forall c s l p,
  c_polls s !! p = Some Completed ->
  c_polls (crun c s l) !! p = Some Completed /\ forall m, c_votes (crun c s l) !! (p, m) = c_votes s !! (p, m).
Proof. exact ended_polls_final. Qed.
Print Assumptions C67_ended_polls_final.

Example C67_case : let s := crun kc c_empty (h_two ++ [StPollEnd 7]) in
  c_polls s !! 7 = Some Completed /\ c_votes s !! (7, 102) = Some (NativeBalance true 50, 11) /\
  match ccall_run kc easy_env s (OSigned 11) (CRemoveVote 102 7) with COk _ => False | CErr _ => True end.
Proof. cbv zeta. split_and!; vm_compute; reflexivity. Qed.

(** C66: a vote, or taking one back, leaves other memberships' votes, other polls, and other accounts' locks and frozen amounts alone
    (other than those of the account whose vote is replaced, if the membership changed hands). *)
Theorem C66_voting_frame : forall c e s o m p v s' evs,
  ccall_run c e s o (CVote m p v) = COk (s', evs) \/ ccall_run c e s o (CRemoveVote m p) = COk (s', evs) ->
  (forall q m', (q, m') <> (p, m) -> c_votes s' !! (q, m') = c_votes s !! (q, m')) /\
  (forall q, q <> p -> c_polls s' !! q = c_polls s !! q) /\
  (forall w q, q <> p -> c_locks s' !! (w, q) = c_locks s !! (w, q)) /\
  (forall w q k, o <> OSigned w -> (forall v0, c_votes s !! (p, m) <> Some (v0, w)) ->
     c_locks s' !! (w, q) = c_locks s !! (w, q) /\ frozen s' k w = frozen s k w) /\
  same_registry s s'.
Proof. exact vote_frame. Qed.
Print Assumptions C66_voting_frame.

Example C66_case : let s := crun kc c_empty (h_two ++ [StPollOpen 8 1]) in
  match ccall_run kc easy_env s (OSigned 10) (CVote 101 8 (NativeBalance false 9)) with
  | COk (s', _) => c_polls s' !! 8 = Some (Ongoing (Tally 0 9 0) 1) /\ c_polls s' !! 7 = c_polls s !! 7 /\ frozen s' None 10 = 9 /\ frozen s' None 11 = 50
  | CErr _ => False end.
Proof. vm_compute. repeat split. Qed.

(* ------------------------------------------------------------------ *)
(** * Locks *)

(** C44 *)
Theorem C44_locks_covered : forall c s, creachable c s ->
  forall who p v k n, c_locks s !! (who, p) = Some v -> pledges v k n -> n <= frozen s k who.
Proof. exact locks_covered. Qed.
Print Assumptions C44_locks_covered.

Example C44_case : c_locks (crun kc c_empty h_two) !! (11, 7) = Some (NativeBalance true 40) /\ frozen (crun kc c_empty h_two) None 11 = 50.
Proof. split; vm_compute; reflexivity. Qed.

(** C45 is false of the code: account 11 votes with two memberships in one poll and takes one vote back; the other is counted with
    nothing frozen. *)
Theorem C45_votes_backed_refuted : exists l p m who, let s := crun kreivo_communities c_empty l in
  c_votes s !! (p, m) = Some (NativeBalance true 40, who) /\ c_polls s !! p = Some (Ongoing (Tally 40 0 40) 1) /\ frozen s None who = 0.
Proof. exists h_two_removed, 7, 103, 11. cbv zeta. split_and!; vm_compute; reflexivity. Qed.
Print Assumptions C45_votes_backed_refuted.

(** C45 where nobody votes in a poll with a second membership. *)
Theorem C45_votes_backed_partial : forall c l, all_along c one_membership_each c_empty l ->
  forall s, s = crun c c_empty l ->
  forall p m v who k n, is_ongoing s p -> c_votes s !! (p, m) = Some (v, who) -> pledges v k n -> n <= frozen s k who.
Proof. exact votes_backed. Qed.
Print Assumptions C45_votes_backed_partial.

Example C45_case : all_along kc one_membership_each c_empty h_one /\ is_ongoing (crun kc c_empty h_one) 7 /\
  c_votes (crun kc c_empty h_one) !! (7, 102) = Some (NativeBalance true 50, 11) /\ frozen (crun kc c_empty h_one) None 11 = 50.
Proof. split_and!; [apply one_each_along; vm_compute; reflexivity | eexists _, _; vm_compute; reflexivity | vm_compute; reflexivity..]. Qed.

(** C46 *)
Theorem C46_unlock : forall c s, creachable c s -> forall e who p,
  (is_ongoing s p -> exists er, ccall_run c e s (OSigned who) (CUnlock p) = CErr er) /\
  (forall s' evs, ccall_run c e s (OSigned who) (CUnlock p) = COk (s', evs) ->
     exists v k n, c_locks s !! (who, p) = Some v /\ pledges v k n /\
       c_locks s' = delete (who, p) (c_locks s) /\ largest_lock s' who k (frozen s' k who) /\
       frozen s' k who <= frozen s k who /\
       (forall k' w, (k', w) <> (k, who) -> frozen s' k' w = frozen s k' w) /\
       c_votes s' = c_votes s /\ c_polls s' = c_polls s /\ same_registry s s') /\
  (~ is_ongoing s p -> c_locks s !! (who, p) <> None -> (forall k n, ce_freeze_ok e k who n = true) ->
   (forall k, frozen s k who <= ce_freezable e k who) ->
   exists s' evs, ccall_run c e s (OSigned who) (CUnlock p) = COk (s', evs)).
Proof. exact unlock_after_poll. Qed.
Print Assumptions C46_unlock.

Example C46_case : let s := crun kc c_empty (h_one ++ [StPollOpen 8 1; call_by 11 (CVote 102 8 (NativeBalance true 20)); StPollEnd 7]) in
  frozen s None 11 = 50 /\
  match ccall_run kc easy_env s (OSigned 11) (CUnlock 8) with COk _ => False | CErr _ => True end /\
  match ccall_run kc easy_env s (OSigned 11) (CUnlock 7) with COk (s', _) => frozen s' None 11 = 20 | CErr _ => False end.
Proof. cbv zeta. split_and!; vm_compute; reflexivity. Qed.

(** C64 is false of the code: account 11, with 50 frozen, counts for 90 in poll 7. *)
Theorem C64_counted_once_refuted : exists l p who, let s := crun kreivo_communities c_empty l in
  is_ongoing s p /\ frozen s None who = 50 /\ counted_of s p who None = 90.
Proof. exists h_two, 7, 11. cbv zeta. split_and!; [eexists _, _; vm_compute; reflexivity | vm_compute; reflexivity..]. Qed.
Print Assumptions C64_counted_once_refuted.

(** C64 where nobody votes in a poll with a second membership. *)
Theorem C64_counted_once_partial : forall c l, all_along c one_membership_each c_empty l ->
  forall s, s = crun c c_empty l -> forall p who k, is_ongoing s p -> counted_of s p who k <= frozen s k who.
Proof. exact funds_counted_once. Qed.
Print Assumptions C64_counted_once_partial.

Example C64_case : all_along kc one_membership_each c_empty h_one /\ counted_of (crun kc c_empty h_one) 7 11 None = 50.
Proof. split; [apply one_each_along; vm_compute; reflexivity | vm_compute; reflexivity]. Qed.

(** C65 is false of the code: the second vote overwrites the first's lock but not the larger freeze. *)
Theorem C65_frozen_is_locked_refuted : exists l who, let s := crun kreivo_communities c_empty l in
  frozen s None who = 50 /\ ~ largest_lock s who None (frozen s None who).
Proof.
  exists h_two, 11. destruct h_two_frozen as (H1 & H2 & H3). cbv zeta. split; [exact H1|]. rewrite H1. intros [_ [Hz|(p & v & Hv & Hp)]]; [discriminate|].
  destruct (max_locked_spec (crun kc c_empty h_two) None 11) as [Hm _]. rewrite H3 in Hm. specialize (Hm p v 50 Hv Hp). lia.
Qed.
Print Assumptions C65_frozen_is_locked_refuted.

(** C65 where nobody votes in a poll with a second membership. *)
Theorem C65_frozen_is_locked_partial : forall c l, all_along c one_membership_each c_empty l ->
  forall s, s = crun c c_empty l -> forall k who, largest_lock s who k (frozen s k who).
Proof. exact frozen_is_largest_lock. Qed.
Print Assumptions C65_frozen_is_locked_partial.

Example C65_case : all_along kc one_membership_each c_empty h_one /\ frozen (crun kc c_empty h_one) None 11 = 50 /\ frozen (crun kc c_empty h_one) None 10 = 0.
Proof. split_and!; [apply one_each_along; vm_compute; reflexivity | vm_compute; reflexivity..]. Qed.

(* ------------------------------------------------------------------ *)
(** * Approval and support *)

(** C47 is false of the code: with large ayes and larger nays the 32-bit sum wraps and approval is 100%. *)
Theorem C47_fractions_refuted : exists l p t, let s := crun kreivo_communities c_empty l in
  c_polls s !! p = Some (Ongoing t 1) /\ aye_sum s p 1 = 2 ^ 32 /\ nay_sum s p 1 = 2 ^ 34 /\ approval t = 1000000000.
Proof.
  exists h_wrap, 7, (Tally u32_max u32_max u32_max). cbv zeta. split_and!; vm_compute; reflexivity.
Qed.
Print Assumptions C47_fractions_refuted.
(** A community without members has full support for anything. *)
Theorem C47_support_refuted : exists l, let s := crun kreivo_communities c_empty l in
  c_info s !! 1 = Some Active /\ support s (fun _ => 0) 1 empty_tally = 1000000000.
Proof. exists h_two_communities. cbv zeta. split; vm_compute; reflexivity. Qed.
Print Assumptions C47_support_refuted.

(** C47 for tallies whose ayes and nays fit 32 bits together, and communities with something to support. *)
Theorem C47_fractions_partial :
  (forall t, approval t <= 1000000000) /\
  (forall t, ayes t + nays t <= u32_max ->
     approval t = parts_of (ayes t) (N.max 1 (ayes t + nays t))) /\
  (forall t t', ayes t + nays t <= u32_max -> ayes t' + nays t' <= u32_max ->
     ayes t <= ayes t' -> nays t' <= nays t -> approval t <= approval t') /\
  (forall s iss g t, support s iss g t <= 1000000000) /\
  (forall s iss g t, 0 < electorate s iss g -> bare_ayes t <= electorate s iss g ->
     support s iss g t = parts_of (bare_ayes t) (electorate s iss g)) /\
  (forall s iss g t t', bare_ayes t <= bare_ayes t' -> support s iss g t <= support s iss g t').
Proof. split_and!; [exact approval_bound|exact approval_exact|exact approval_mono|exact support_bound|exact support_exact|exact support_mono]. Qed.
Print Assumptions C47_fractions_partial.

Example C47_case : approval (Tally 3 1 3) = 750000000 /\ support (crun kc c_empty (community_one ByMembership)) (fun _ => 0) 1 (Tally 2 0 2) = 666666666.
Proof. split; vm_compute; reflexivity. Qed.

(** C63 is false of the code: balances of 2^32 and 2^33 planck weigh the same. *)
Theorem C63_more_weighs_more_refuted : exists v v', put_in v < put_in v' /\ vote_weight v = vote_weight v'.
Proof. exists (NativeBalance true (2 ^ 32)), (NativeBalance true (2 ^ 33)). split; vm_compute; reflexivity. Qed.
Print Assumptions C63_more_weighs_more_refuted.

(** C63 below 2^32 planck; above, weights at least do not shrink. *)
Theorem C63_more_weighs_more_partial :
  (forall v v', put_in v < put_in v' -> put_in v' <= u32_max -> vote_weight v < vote_weight v') /\
  (forall v v', put_in v <= put_in v' -> vote_weight v <= vote_weight v').
Proof. split; [exact weights_grow|exact weights_never_shrink]. Qed.
Print Assumptions C63_more_weighs_more_partial.

Example C63_case : put_in (NativeBalance true 5) < put_in (NativeBalance false 9) /\ put_in (NativeBalance false 9) <= u32_max.
Proof. split; vm_compute; congruence. Qed.

(** Property theorems C164: votes of those whose membership was taken away. The program is [ccall_run], [cdispatch] and [crun] of
    CommunitiesModel.v; the vocabulary is in CommunitiesSpec.v and FormerMembersSpec.v. *)
From stdpp Require Import gmap.
From Verif Require Import Base XcmTypes OriginTypes AccountsModel CommunitiesModel CommunitiesSpec CommunitiesTheorems CommunitiesExamples FormerMembersSpec FormerMembers.
Open Scope N_scope.

(* ------------------------------------------------------------------ *)
(** * C164: votes of former members stop counting *)

(** Refuted: a removal leaves every vote, every tally, every lock and everything frozen as it was. *)
Theorem C164_still_counts_refuted : forall c e s o a m s' evs, ccall_run c e s o (CRemoveMember a m) = COk (s', evs) ->
  c_votes s' = c_votes s /\ c_polls s' = c_polls s /\ c_locks s' = c_locks s /\ c_frozen s' = c_frozen s.
Proof. exact removal_keeps_votes. Qed.
Print Assumptions C164_still_counts_refuted.

(** Refuted: an account that voted and holds no membership of the community any more calls what it wants and as often as it wants: while
    it is not made a member again, its vote stays, the poll counts it as before, and the amount stays frozen. *)
Theorem C164_stuck_refuted : forall c s p t g m v who, creachable c s -> c_polls s !! p = Some (Ongoing t g) ->
  c_votes s !! (p, m) = Some (v, who) -> c_locks s !! (who, p) = Some v ->
  forall l, all_along c (fun s1 x => no_member s1 g who /\ call_of who x) s l -> let s' := crun c s l in
  c_polls s' !! p = Some (Ongoing t g) /\ c_votes s' !! (p, m) = Some (v, who) /\ c_locks s' !! (who, p) = Some v /\
  forall k n, pledges v k n -> n <= frozen s' k who.
Proof. exact former_stuck. Qed.
Print Assumptions C164_stuck_refuted.

(** Refuted: where votes weigh by rank, the removal sets the rank to zero, so that nobody can take the weight out of the tally: the
    membership may be given away again and its new holder take back the vote, the ayes and nays stay as the former member left them. *)
Theorem C164_weight_left_refuted : forall c e o a m s1 evs s p t g, ccall_run c e s o (CRemoveMember a m) = COk (s1, evs) ->
  c_polls s !! p = Some (Ongoing t g) -> method_of s g = ByRank ->
  forall e2 o2 a2 e3 w, let s2 := cdispatch c e2 s1 o2 (CAddMember a2) in let s3 := cdispatch c e3 s2 (OSigned w) (CRemoveVote m p) in
  exists b, c_polls s3 !! p = Some (Ongoing (Tally (ayes t) (nays t) b) g).
Proof. exact weight_left. Qed.
Print Assumptions C164_weight_left_refuted.

(** What holds: when the membership's new holder takes the vote back ... *)
Theorem C164_taken_back_partial : forall c e s o m p s' evs v who, ccall_run c e s o (CRemoveVote m p) = COk (s', evs) ->
  c_votes s !! (p, m) = Some (v, who) ->
  c_votes s' = delete (p, m) (c_votes s) /\
  forall k n, pledges v k n -> c_locks s' !! (who, p) = None /\ largest_lock s' who k (frozen s' k who).
Proof. exact taken_back. Qed.
Print Assumptions C164_taken_back_partial.

(** ... or votes in its place, the former holder's vote is gone and what it froze is free again, but for what other votes freeze. *)
Theorem C164_taken_over_partial : forall c e s w m p v' s' evs v who, ccall_run c e s (OSigned w) (CVote m p v') = COk (s', evs) ->
  c_votes s !! (p, m) = Some (v, who) -> w <> who ->
  c_votes s' = <[(p, m) := (v', w)]> (c_votes s) /\
  forall k n, pledges v k n -> c_locks s' !! (who, p) = None /\ largest_lock s' who k (frozen s' k who).
Proof. exact taken_over. Qed.
Print Assumptions C164_taken_over_partial.

(** Once the poll is over the former member unlocks by themselves. *)
Theorem C164_over_partial : forall c s, creachable c s -> forall e who p, ~ is_ongoing s p -> c_locks s !! (who, p) <> None ->
  (forall k n, ce_freeze_ok e k who n = true) -> (forall k, frozen s k who <= ce_freezable e k who) ->
  exists s' evs v k n, ccall_run c e s (OSigned who) (CUnlock p) = COk (s', evs) /\ c_locks s !! (who, p) = Some v /\ pledges v k n /\
    c_locks s' = delete (who, p) (c_locks s) /\ largest_lock s' who k (frozen s' k who).
Proof. exact unlocks_when_over. Qed.
Print Assumptions C164_over_partial.

(** Account 10 votes with 30 of its tokens and is removed: the vote counts on, nothing it calls changes that; account 12 gets the
    membership and votes against, and the 30 are free. *)
Example C164_case : let s := crun kc c_empty h_former in let later := [call_by 10 (CRemoveVote 101 7); call_by 10 (CUnlock 7)] in
  no_member s 1 10 /\ c_polls s !! 7 = Some (Ongoing (Tally 30 0 30) 1) /\ c_votes s !! (7, 101) = Some (NativeBalance true 30, 10) /\
  c_locks s !! (10, 7) = Some (NativeBalance true 30) /\
  all_along kc (fun s1 x => no_member s1 1 10 /\ call_of 10 x) s later /\
  frozen (crun kc s later) None 10 = 30 /\
  let s' := crun kc s [call_by 1 (CAddMember (AddrId 12)); call_by 12 (CVote 101 7 (NativeBalance false 5))] in
  c_polls s' !! 7 = Some (Ongoing (Tally 0 5 0) 1) /\ c_votes s' !! (7, 101) = Some (NativeBalance false 5, 12) /\
  frozen s' None 10 = 0 /\ frozen s' None 12 = 5.
Proof. exact former_case. Qed.
(** By rank: the aye of account 10 is in the tally for good. *)
Example C164_rank_case : let s := crun kc c_empty (community_one ByRank ++ [call_by 10 (CVote 101 7 (Standard true)); call_by 1 (CRemoveMember (AddrId 10) 101);
    call_by 1 (CAddMember (AddrId 12)); call_by 12 (CRemoveVote 101 7)]) in
  c_polls s !! 7 = Some (Ongoing (Tally 1 0 0) 1) /\ c_votes s !! (7, 101) = None.
Proof. cbv zeta. split; vm_compute; reflexivity. Qed.
(** And the poll over, account 10 unlocks. *)
Example C164_over_case : let s := crun kc c_empty (h_former ++ [StPollEnd 7]) in
  ~ is_ongoing s 7 /\ c_locks s !! (10, 7) = Some (NativeBalance true 30) /\ frozen s None 10 = 30 /\
  frozen (crun kc s [call_by 10 (CUnlock 7)]) None 10 = 0.
Proof. cbv zeta. split; [|split_and!; vm_compute; reflexivity]. intros (t & g & H). vm_compute in H. discriminate H. Qed.

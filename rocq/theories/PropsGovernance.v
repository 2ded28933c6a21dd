(** Property theorems C116 to C124 and C134: how Kreivo is governed. Words: GovernanceSpec.v and GovernanceEndsSpec.v. *)
From stdpp Require Import gmap.
From Verif Require Import Base XcmTypes OriginTypes AccountsModel CommunitiesModel CommunitiesSpec CommunitiesExamples TracksModel TracksSpec
  ManagerModel ManagerSpec TracksProofs XcmConfigModel PropsManager GovernanceModel GovernanceSpec GovernanceProofs GovernanceMore GovernanceRanks GovernanceVotes
  GovernanceTiming GovernanceLive GovernanceCount GovernanceEndsSpec GovernanceEnds.
Open Scope N_scope.

(** A chain whose collective has one member of rank 2, account 1, and one of rank 0, account 2. Account 1 has root promote account 2. *)
Definition g_env : genv := GEnv ok_env (fun _ => 0) true true true.
Definition two_members : gmap N N := {[1 := 2; 2 := 0]}.
Definition h_decision : list gstep :=
  [GTx g_env 5 (GSubmit Collective ORoot (GPromote 2) (MAfter 0)); GTx g_env 5 (GPlaceDeposit Collective 0)] ++ replicate 150 GBlock ++
  [GService g_env Collective 0; GTx g_env 1 (GVote 0 true); GService g_env Collective 0] ++ replicate 150 GBlock ++ [GService g_env Collective 0; GBlock].
Definition s_decision : gstate := grun (g_start two_members 0) h_decision.
Lemma two_members_fit : forall who r, two_members !! who = Some r -> r <= 65535.
Proof.
  intros who r. unfold two_members. rewrite lookup_insert_Some, lookup_singleton_Some. intros [[_ <-]|[_ [_ <-]]]; done.
Qed.
Lemma decision_scheduled : gv_agenda s_decision = [Task 301 ORoot (GPromote 2) (Some (Collective, 0))] /\ gv_now s_decision = 301.
Proof. by vm_compute. Qed.
Lemma decision_carried_out : carries_out s_decision (GFire g_env 0) Collective 0.
Proof.
  destruct decision_scheduled as [E1 E2]. eexists _, _, _. split; [reflexivity|]. rewrite E1, E2. by split_and!.
Qed.

(* ------------------------------------------------------------------ *)
(** * C116: the collective decides what is privileged *)

(** Whatever is dispatched as root or with a custom origin is, or was scheduled or dispatched by root in carrying out, a decision the
    collective approved. *)
Theorem C116_privileged_decided : forall ranks now l x s o k,
  happens (grun (g_start ranks now) l) x s o k -> privileged o ->
  exists p r, was_approved (g_start ranks now) l Collective p r /\ (rf_origin r = o \/ rf_origin r = ORoot) /\ leads (rf_origin r) (rf_call r) o k.
Proof. exact privileged_decided. Qed.
Print Assumptions C116_privileged_decided.

Example C116_case : happens s_decision (GFire g_env 0) (gset_agenda [] s_decision) ORoot (GPromote 2) /\
  collective_rank (gstep_run s_decision (GFire g_env 0)) 2 = Some 1.
Proof.
  split; [|by vm_compute]. destruct decision_scheduled as [E1 E2].
  replace (gset_agenda [] s_decision) with (gset_agenda (delete 0%nat (gv_agenda s_decision)) s_decision) by (by rewrite E1).
  eapply hap_fire; [by rewrite E1|by rewrite E2|apply ex_here].
Qed.

(* ------------------------------------------------------------------ *)
(** * C117: the chain stays governable *)

(** Refuted for the genesis the repository writes (no members of the collective): whatever happens, nothing is ever dispatched as root or
    with a custom origin, and nobody ever gets a rank with which to vote. *)
Theorem C117_governable_refuted : forall now l x s o k,
  (happens (grun (g_start ∅ now) l) x s o k -> ~ privileged o) /\
  (forall who, ~ votes_in_collective (grun (g_start ∅ now) l) who).
Proof. intros now l x s o k. apply (never_governed_again ∅ now [] l). apply unranked_start. done. Qed.
Print Assumptions C117_governable_refuted.
(** In general: once nobody has a rank to vote with. *)
Theorem C117_never_again_refuted : forall ranks now l l' x s o k,
  ungoverned (grun (g_start ranks now) l) ->
  (happens (grun (g_start ranks now) (l ++ l')) x s o k -> ~ privileged o) /\
  (forall who, ~ votes_in_collective (grun (g_start ranks now) (l ++ l')) who).
Proof. exact never_governed_again. Qed.
Print Assumptions C117_never_again_refuted.
(** Things do happen on such a chain; and the collective itself can bring it about, by demoting its last member. *)
Example C117_case : let l := [GTx g_env 5 (GSubmit Collective ORoot (GPromote 5) (MAfter 0)); GTx g_env 5 (GPlaceDeposit Collective 0); GTx g_env 5 (GVote 0 true)] in
  is_Some (gv_refs (grun (g_start ∅ 0) l) !! (Collective, 0)) /\ gv_tally (grun (g_start ∅ 0) l) !! 0 = Some empty_tally.
Proof. cbv zeta. split; [by vm_compute; eexists|by vm_compute]. Qed.

(** What holds: as long as anyone has rank 1 or more, they can have every call dispatched as root (deposits being payable, and the scheduler
    taking tasks). *)
Theorem C117_governable_partial : forall ranks now l who e k,
  (forall who r, ranks !! who = Some r -> r <= 65535) ->
  let s := grun (g_start ranks now) l in
  votes_in_collective s who -> ge_deposit_ok e = true -> ge_slot e = true -> ge_sched_ok e = true ->
  let l' := campaign e who k (gv_count s Collective) in
  exists n s', happens (grun s l') (GFire e n) s' ORoot k /\ carries_out (grun s l') (GFire e n) Collective (gv_count s Collective).
Proof. exact one_member_governs. Qed.
Print Assumptions C117_governable_partial.
Example C117_member_case : votes_in_collective (grun (g_start two_members 0) []) 1.
Proof. exists 2. split; [reflexivity|done]. Qed.

(* ------------------------------------------------------------------ *)
(** * C118: decisions are carried out at most once, and as proposed *)

Theorem C118_at_most_once_as_proposed :
  (forall ranks now l1 x l2 y i p,
     carries_out (grun (g_start ranks now) l1) x i p -> ~ carries_out (grun (g_start ranks now) (l1 ++ x :: l2)) y i p) /\
  (forall ranks now l x i p, carries_out (grun (g_start ranks now) l) x i p ->
     exists r, was_approved (g_start ranks now) l i p r /\ step_dispatch (grun (g_start ranks now) l) x = Some (rf_origin r, rf_call r)) /\
  (forall ranks now l x i p, carries_out (grun (g_start ranks now) l) x i p ->
     exists r o s, was_submitted (g_start ranks now) l i p o (rf_origin r) (rf_call r) (rf_enact r) s /\ was_approved (g_start ranks now) l i p r /\
       step_dispatch (grun (g_start ranks now) l) x = Some (rf_origin r, rf_call r) /\
       match i with
       | Collective => signed o
       | Community => o = ORoot \/ exists who, o = OSigned who /\ holds_membership (gv_m s) (rf_track r) who
       end).
Proof. split_and!; [exact carried_once|exact carried_approved|exact carried_proposed]. Qed.
Print Assumptions C118_at_most_once_as_proposed.
Example C118_case : carries_out s_decision (GFire g_env 0) Collective 0 /\ step_dispatch s_decision (GFire g_env 0) = Some (ORoot, GPromote 2) /\
  gv_agenda (gstep_run s_decision (GFire g_env 0)) = [].
Proof. split; [exact decision_carried_out|]. split; by vm_compute. Qed.

(* ------------------------------------------------------------------ *)
(** * C119: what ended stays ended; communities speak by their own decisions *)

Theorem C119_ended_for_good : forall ranks now l l' i p y, ended (grun (g_start ranks now) l) i p y -> ended (grun (g_start ranks now) (l ++ l')) i p y.
Proof. exact ended_for_good. Qed.
Print Assumptions C119_ended_for_good.
Theorem C119_community_origin : forall ranks now l x s g sub k,
  happens (grun (g_start ranks now) l) x s (OCommunity g sub) k ->
  (exists p r, was_approved (g_start ranks now) l Community p r /\ carries_out (grun (g_start ranks now) l) x Community p /\ sub = None /\
    rf_origin r = OCommunity g None /\ rf_track r = g /\ leads (OCommunity g None) (rf_call r) (OCommunity g None) k) \/
  (exists p r, was_approved (g_start ranks now) l Collective p r /\ rf_origin r = ORoot /\ leads ORoot (rf_call r) (OCommunity g sub) k).
Proof. exact community_decided. Qed.
Print Assumptions C119_community_origin.

(** Community 1 is registered by account 9, with track settings [ti]; account 10 holds a membership and proposes something. *)
Definition h_community (ti : option track_info) : list gstep :=
  [GOutside (StBalance 9 (2 * community_deposit)); GTx g_env 9 (GRegister 1 name_one (AddrId 1) (Some ByMembership) ti);
   GOutside (StMember 101 (Some (Membership 1 10 0))); GTx g_env 10 (GSubmit Community (OCommunity 1 None) (GUpdateTrack 1 (default_track [])) (MAfter 0));
   GTx g_env 10 (GPlaceDeposit Community 0)].
(** With the default settings: a block later it is decided about; the member votes; it is confirmed for a block, approved and due the next. *)
Definition h_agreed : list gstep := h_community None ++
  [GBlock; GService g_env Community 0; GTx g_env 10 (GCommunityCall (CVote 101 0 (Standard true))); GService g_env Community 0; GBlock].
Definition s_agreed : gstate := grun (g_start ∅ 0) h_agreed.
Definition s_due : gstate := gstep_run (gstep_run s_agreed (GService g_env Community 0)) GBlock.
Lemma agreed_scheduled : gv_agenda s_due = [Task 3 (OCommunity 1 None) (GUpdateTrack 1 (default_track [])) (Some (Community, 0))] /\ gv_now s_due = 3.
Proof. by vm_compute. Qed.
Example C119_case : ended s_due Community 0 (RApproved 2) /\
  happens s_due (GFire g_env 0) (gset_agenda [] s_due) (OCommunity 1 None) (GUpdateTrack 1 (default_track [])).
Proof.
  split; [split; [by vm_compute|done]|]. destruct agreed_scheduled as [E1 E2].
  replace (gset_agenda [] s_due) with (gset_agenda (delete 0%nat (gv_agenda s_due)) s_due) by (by rewrite E1).
  eapply hap_fire; [by rewrite E1|by rewrite E2|apply ex_here].
Qed.

(* ------------------------------------------------------------------ *)
(** * C120: a community decides by votes of its members *)

(** Refuted: whoever registers a community chooses its track settings, also such that proposals are approved without a vote. *)
Definition open_track : track_info := TrackInfo [] 1 0 0 1 0 1 (LinearDecreasing 1000000000 0 0) (LinearDecreasing 1000000000 0 0).
Theorem C120_member_ayes_refuted : exists l e p r, gets_approved (grun (g_start ∅ 0) l) e Community p r /\
  forall g who, ~ member_aye (g_start ∅ 0) l g p who.
Proof.
  exists (h_community (Some open_track)), g_env, 0.
  exists (Referendum 1 (OCommunity 1 None) (GUpdateTrack 1 (default_track [])) (MAfter 0) 0 true (Some (0, Some 0)) false).
  split_and!.
  - split; [by vm_compute|]. eexists. by vm_compute.
  - intros g who (l1 & x & l2 & s & m & v & y & E & Hh & _). assert (Hx : In x (h_community (Some open_track))) by (rewrite E; apply in_elt).
    clear E. repeat destruct Hx as [<-|Hx]; try done; inversion Hh as [e0 w0 k0 s1 o1 k1 Hex| |]; inversion Hex.
Qed.
Print Assumptions C120_member_ayes_refuted.

(** What holds: if the track wants any approval at all, somebody who held a membership of this community voted aye. *)
Theorem C120_member_ayes_partial : forall ranks now l e p r,
  let s := grun (g_start ranks now) l in
  gets_approved s e Community p r ->
  (forall ti x, track_info_of s Community (rf_track r) = Some ti -> 0 < threshold (ti_min_approval ti) x) ->
  exists who, member_aye (g_start ranks now) l (rf_track r) p who.
Proof. exact community_aye. Qed.
Print Assumptions C120_member_ayes_partial.
Lemma default_wants_approval ti x : track_info_of s_agreed Community 1 = Some ti -> 0 < threshold (ti_min_approval ti) x.
Proof.
  replace (track_info_of s_agreed Community 1) with (Some (default_track name_one)) by (by vm_compute). intros [= <-]. cbn [default_track ti_min_approval].
  pose proof (linear_bounds (perbill_percent 100) (perbill_percent 50) (perbill_percent 100) x ltac:(done)) as [B _].
  change (perbill_percent 50) with 500000000 in *. lia.
Qed.
Example C120_case : gets_approved s_agreed g_env Community 0
  (Referendum 1 (OCommunity 1 None) (GUpdateTrack 1 (default_track [])) (MAfter 0) 0 true (Some (1, Some 2)) false).
Proof.
  split; [by vm_compute|]. eexists. by vm_compute.
Qed.

(* ------------------------------------------------------------------ *)
(** * C121: the collective's votes are counted right, and enough of them *)

(** Refuted: counters are 32 bits wide and what they add up to wraps around. One vote of aye outweighs 4294967295 of nay. *)
Theorem C121_outvoted_refuted : exists ranks l e r, (forall who r, ranks !! who = Some r -> r <= 65535) /\
  let s := grun (g_start ranks 0) l in
  gets_approved s e Collective 0 r /\ rf_origin r = ORoot /\ cast_ayes s 0 = 1 /\ cast_nays s 0 = u32_max.
Proof. exact outvoted_approved. Qed.
Print Assumptions C121_outvoted_refuted.

(** What holds: while at most 65537 accounts vote. *)
Theorem C121_tallies_partial : forall ranks now l p t,
  (forall who r, ranks !! who = Some r -> r <= 65535) ->
  let s := grun (g_start ranks now) l in
  gv_tally s !! p = Some t ->
  (voters s p <= 65537 -> ayes t = cast_ayes s p /\ nays t = cast_nays s p /\ bare_ayes t = aye_voters s p) /\
  (forall who b n, gv_votes s !! (p, who) = Some (b, n) -> has_voted (g_start ranks now) l p who b n /\ 1 <= n) /\
  (forall e who b s', g_call e s (OSigned who) (GVote p b) = Some s' ->
    exists rank, collective_rank s who = Some rank /\ 1 <= rank /\ gv_votes s' = <[(p, who) := (b, rank)]> (gv_votes s)).
Proof. exact collective_tally. Qed.
Print Assumptions C121_tallies_partial.
Theorem C121_majority_partial : forall ranks now l e p r,
  (forall who r, ranks !! who = Some r -> r <= 65535) ->
  let s := grun (g_start ranks now) l in
  gets_approved s e Collective p r -> voters s p <= 65537 ->
  1 <= cast_ayes s p /\
  (rf_origin r <> OCustom CreateMemberships -> 9 * (cast_ayes s p + cast_nays s p) <= 10 * cast_ayes s p) /\
  (rf_origin r = OCustom CreateMemberships -> cast_ayes s p + cast_nays s p <= 2 * cast_ayes s p /\ ranked_members (gv_m s) <= 2 * aye_voters s p).
Proof. exact collective_majority. Qed.
Print Assumptions C121_majority_partial.
Definition h_voted : list gstep :=
  [GTx g_env 5 (GSubmit Collective ORoot (GPromote 2) (MAfter 0)); GTx g_env 5 (GPlaceDeposit Collective 0)] ++ replicate 150 GBlock ++
  [GService g_env Collective 0; GTx g_env 1 (GVote 0 false); GTx g_env 1 (GVote 0 true); GTx g_env 2 (GVote 0 false); GService g_env Collective 0] ++ replicate 150 GBlock.
Example C121_case : let s := grun (g_start two_members 0) h_voted in
  gv_tally s !! 0 = Some (Tally 2 0 1) /\ voters s 0 = 1 /\ cast_ayes s 0 = 2 /\ cast_nays s 0 = 0 /\
  gets_approved s g_env Collective 0 (Referendum 0 ORoot (GPromote 2) (MAfter 0) 0 true (Some (150, Some 300)) false).
Proof.
  cbv zeta. split_and!; [by vm_compute..|]. split; [by vm_compute|]. eexists. by vm_compute.
Qed.

(* ------------------------------------------------------------------ *)
(** * C122: only root changes ranks *)

Theorem C122_ranks_by_root : forall s x who,
  collective_rank (gstep_run s x) who <> collective_rank s who ->
  (exists s1 k, happens s x s1 ORoot k /\ ranks_call k who) \/
  (collective_rank s who = None /\ collective_rank (gstep_run s x) who = Some 0 /\
   exists s1 o id name a dm ti, happens s x s1 o (GRegister id name a dm ti) /\ who = community_account id).
Proof. exact ranks_by_root. Qed.
Print Assumptions C122_ranks_by_root.
Example C122_case : collective_rank (gstep_run s_decision (GFire g_env 0)) 2 <> collective_rank s_decision 2.
Proof. by vm_compute. Qed.
Example C122_join_case : collective_rank (grun (g_start ∅ 0) (h_community None)) (community_account 1) = Some 0.
Proof. by vm_compute. Qed.

(* ------------------------------------------------------------------ *)
(** * C123: how long decisions take *)

Theorem C123_in_time : forall ranks now l x i p,
  let s0 := g_start ranks now in
  carries_out (grun s0 l) x i p ->
  exists l1 e l2 r since until ti, l = l1 ++ GService e i p :: l2 /\ was_approved s0 l i p r /\ is_open (grun s0 l1) i p r /\
    track_info_of (grun s0 l1) i (rf_track r) = Some ti /\
    prepared s0 l1 i p (rf_track r) (rf_submitted r) since /\ confirmed s0 l1 i p r since until /\
    until <= gv_now (grun s0 l1) /\ reaches e (grun s0 l1) i p r (gv_now (grun s0 l1) - since) /\
    gv_now (grun s0 l1) + N.max (ti_enactment ti) 1 <= gv_now (grun s0 l) /\
    match rf_enact r with MAt n => n <= gv_now (grun s0 l) | MAfter n => gv_now (grun s0 l1) + n <= gv_now (grun s0 l) end.
Proof. exact carried_in_time. Qed.
Print Assumptions C123_in_time.
Theorem C123_collective_takes : forall ranks now l x p,
  let s0 := g_start ranks now in
  carries_out (grun s0 l) x Collective p ->
  exists r o s, was_approved s0 l Collective p r /\ was_submitted s0 l Collective p o (rf_origin r) (rf_call r) (rf_enact r) s /\
    gv_now s + 301 <= gv_now (grun s0 l).
Proof. exact collective_takes. Qed.
Print Assumptions C123_collective_takes.
Example C123_case : carries_out (grun (g_start two_members 0) h_decision) (GFire g_env 0) Collective 0 /\ gv_now (grun (g_start two_members 0) h_decision) = 301.
Proof. split; [exact decision_carried_out|by vm_compute]. Qed.

(* ------------------------------------------------------------------ *)
(** * C124: decisions as root have the support of a fixed share of the collective *)

(** Refuted: from every state, one member of rank 1 or more has any call dispatched as root without anybody else doing anything. *)
Theorem C124_share_refuted : forall ranks now l who e k,
  (forall who r, ranks !! who = Some r -> r <= 65535) ->
  let s := grun (g_start ranks now) l in
  votes_in_collective s who -> ge_deposit_ok e = true -> ge_slot e = true -> ge_sched_ok e = true ->
  exists l' n s', Forall (alone who) l' /\ happens (grun s l') (GFire e n) s' ORoot k.
Proof. exact one_member_decides. Qed.
Print Assumptions C124_share_refuted.
(** What holds: the share wanted falls evenly from all ranked members to none over the four days of the decision period. *)
Theorem C124_share_partial : forall ranks now l e p r,
  (forall who r, ranks !! who = Some r -> r <= 65535) ->
  let s := grun (g_start ranks now) l in
  gets_approved s e Collective p r -> voters s p <= 65537 -> rf_origin r <> OCustom CreateMemberships ->
  exists since c, rf_deciding r = Some (since, c) /\ (57600 - (gv_now s - since)) * ranked_members (gv_m s) <= 57600 * aye_voters s p.
Proof. exact collective_share. Qed.
Print Assumptions C124_share_partial.
Example C124_share_case : let s := grun (g_start two_members 0) h_voted in ranked_members (gv_m s) = 1 /\ aye_voters s 0 = 1 /\ gv_now s = 300.
Proof. cbv zeta. split_and!; by vm_compute. Qed.
Definition many_members : gmap N N := {[1 := 1; 2 := 5; 3 := 5; 4 := 5; 6 := 5]}.
Example C124_case : votes_in_collective (grun (g_start many_members 0) []) 1 /\ ranked_members (gv_m (g_start many_members 0)) = 5 /\
  (forall who r, many_members !! who = Some r -> r <= 65535).
Proof.
  split; [exists 1; split; [reflexivity|done]|]. split; [by vm_compute|]. intros who r. unfold many_members.
  rewrite !lookup_insert_Some, lookup_singleton_Some. intros H. decompose [or and] H; subst; done.
Qed.

(* ------------------------------------------------------------------ *)
(** * C134: referenda end for a reason *)

Theorem C134_ends_for_a_reason : forall ranks now l x i p y,
  let s := grun (g_start ranks now) l in
  ended (gstep_run s x) i p y -> ~ ended s i p y -> end_reason s x i p y.
Proof. exact ends_for_a_reason. Qed.
Print Assumptions C134_ends_for_a_reason.
(** One that nobody deposits for, after two days; one that nobody votes in, after preparation and the decision period; one that the collective decided to cancel. *)
Definition h_quiet : list gstep := [GTx g_env 5 (GSubmit Collective ORoot (GPromote 2) (MAfter 0))] ++ replicate (N.to_nat 28800) GBlock.
Definition h_silent : list gstep :=
  [GTx g_env 5 (GSubmit Collective ORoot (GPromote 2) (MAfter 0)); GTx g_env 5 (GPlaceDeposit Collective 0)] ++ replicate 150 GBlock ++
  [GService g_env Collective 0] ++ replicate (N.to_nat 57600) GBlock.
Definition h_cancelled : list gstep := [GTx g_env 5 (GSubmit Collective ORoot (GPromote 2) (MAfter 0))] ++
  [GTx g_env 5 (GSubmit Collective (OCustom ReferendumCanceller) (GCancel Collective 0) (MAfter 0)); GTx g_env 5 (GPlaceDeposit Collective 1)] ++ replicate 150 GBlock ++
  [GService g_env Collective 1; GTx g_env 1 (GVote 1 true); GService g_env Collective 1] ++ replicate 150 GBlock ++ [GService g_env Collective 1; GBlock].
Example C134_case :
  gv_refs (gstep_run (grun (g_start two_members 0) h_quiet) (GService g_env Collective 0)) !! (Collective, 0) = Some (RTimedOut 28800) /\
  gv_refs (gstep_run (grun (g_start two_members 0) h_silent) (GService g_env Collective 0)) !! (Collective, 0) = Some (RRejected 57750) /\
  gv_refs (gstep_run (grun (g_start two_members 0) h_cancelled) (GFire g_env 0)) !! (Collective, 0) = Some (RCancelled 301).
Proof. split_and!; by vm_compute. Qed.

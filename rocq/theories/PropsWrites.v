(** Property theorems C151, C152 and C157: calls do not write more than they are charged for, and fit into blocks. Words: WritesSpec.v, CallsFitSpec.v, BlocksSpec.v. *)
From stdpp Require Import gmap.
From Verif Require Import BlocksModel BlocksSpec CallsFitSpec CallsFitProofs.
From Verif Require Import Base XcmTypes OriginTypes FeesModel LedgerModel AccountsModel PaymentsModel PaymentsSpec PaymentsTheorems KreivoPaymentsModel KreivoPaymentsSpec
  CommunitiesModel CommunitiesSpec TracksModel ManagerModel XcmConfigModel XcmInstrModel XcmWeightsModel CostModel WritesModel WritesSpec WritesProofs PropsKreivoPayments.
Open Scope N_scope.

(** C151. Whatever happened on Kreivo before, a payments call changes no more entries of storage than its declared weight counts writes. *)
Theorem C151_payments_writes : forall st e o k st',
  kreivo_reachable st -> dispatch kreivo_payments e st o k = POk st' ->
  exists l, only (pdiffers st st') l /\ count pentries l <= bn_writes (pcall_benched k).
Proof. exact kreivo_writes. Qed.
Print Assumptions C151_payments_writes.

Example C151_case : kreivo_reachable kr_state /\
  (exists st', dispatch kreivo_payments (kr_env None) kr_state ORoot (CResolveDispute (default 0 kr_id) (DisputeResult 30 RBeneficiary)) = POk st' /\
    at_least (pdiffers kr_state st') [PRecord 10 (default 0 kr_id); PFree 1 10; PFree 1 20; PFree 1 treasury_account; PHeld 1 10; PHeld 1 20]).
Proof.
  split; [exact kr_state_reachable|].
  destruct (dispatch kreivo_payments (kr_env None) kr_state ORoot (CResolveDispute (default 0 kr_id) (DisputeResult 30 RBeneficiary))) as [st'|] eqn:E; [|vm_compute in E; discriminate].
  exists st'. split; [done|]. vm_compute in E. injection E as <-. split; [apply (bool_decide_eq_true_1 (NoDup _)); vm_compute; reflexivity|].
  repeat constructor; vm_compute; discriminate.
Qed.

(** C151 is a matter of Kreivo's fees: with a fee handler that names as many recipients as a payment can hold, [release] writes 42 entries more than it is charged
    for. *)
Theorem C151_release_refuted : exists st e id st', reachable kreivo_payments st /\ dispatch kreivo_payments e st (OSigned 10) (CRelease id) = POk st' /\
  exists l, at_least (pdiffers st st') l /\ bn_writes (pcall_benched (CRelease id)) + 42 <= count pentries l.
Proof. exact release_more_refuted. Qed.
Print Assumptions C151_release_refuted.

(** The weights are those of C84 (CostModel.v). *)
Lemma ccall_benched_weight k : benched_weight (ccall_benched k) = ccall_weight k.
Proof. by destruct k. Qed.

(** C152. Calls of pallet_communities that are not about memberships, except: taking back a vote cast with tokens, and voting anew where the vote there
    was cast by someone else with tokens, or with another token. *)
Theorem C152_community_writes_partial : forall e s o k s' evs,
  ccall_run kreivo_communities e s o k = COk (s', evs) ->
  match k with
  | CVote m p v => forall v' who', c_votes s !! (p, m) = Some (v', who') -> with_token v' = None \/ (o = OSigned who' /\ with_token v' = with_token v)
  | CRemoveVote m p => forall v' who', c_votes s !! (p, m) = Some (v', who') -> with_token v' = None
  | CAddMember _ | CRemoveMember _ _ | CPromote _ | CDemote _ => False
  | _ => True
  end ->
  exists l, only (cdiffers (alone s) (alone s')) l /\ count centries l <= bn_writes (ccall_benched k).
Proof. exact community_writes. Qed.
Print Assumptions C152_community_writes_partial.

Example C152_case : exists s' evs, ccall_run kreivo_communities easy_env token_state (OSigned 10) (CVote 101 7 (NativeBalance false 9)) = COk (s', evs) /\
  (forall v' who', c_votes token_state !! (7, 101) = Some (v', who') -> OSigned 10 = OSigned who' /\ with_token v' = with_token (NativeBalance false 9)).
Proof.
  destruct (ccall_run kreivo_communities easy_env token_state (OSigned 10) (CVote 101 7 (NativeBalance false 9))) as [[s' evs]|] eqn:E; [|vm_compute in E; discriminate].
  exists s', evs. split; [done|]. intros v' who' H. vm_compute in H. injection H as <- <-. done.
Qed.

(** Calls about memberships change one membership and nothing else; how many entries hold it is up to a library that is not here. *)
Theorem C152_one_membership_partial : forall e s o k s' evs,
  ccall_run kreivo_communities e s o k = COk (s', evs) ->
  match k with CAddMember _ | CRemoveMember _ _ | CPromote _ | CDemote _ => True | _ => False end ->
  exists m, only (cdiffers (alone s) (alone s')) [WMembership m].
Proof. exact one_membership. Qed.
Print Assumptions C152_one_membership_partial.

Example C152_membership_case : exists s' evs, ccall_run kreivo_communities easy_env token_state (OSigned 1) (CPromote 101) = COk (s', evs) /\
  rank_of s' 1 101 = Some 2.
Proof.
  destruct (ccall_run kreivo_communities easy_env token_state (OSigned 1) (CPromote 101)) as [[s' evs]|] eqn:E; [|vm_compute in E; discriminate].
  exists s', evs. split; [done|]. vm_compute in E. injection E as <- _. reflexivity.
Qed.

(** The two exceptions do happen: a vote with tokens is taken back, and a membership that voted with tokens has passed to someone else who votes. *)
Theorem C152_remove_vote_refuted : exists hist, let s := crun kreivo_communities c_empty hist in exists s' evs,
  ccall_run kreivo_communities easy_env s (OSigned 10) (CRemoveVote 101 7) = COk (s', evs) /\
  exists l, at_least (cdiffers (alone s) (alone s')) l /\ bn_writes (ccall_benched (CRemoveVote 101 7)) + 3 <= count centries l.
Proof. exact remove_vote_more_refuted. Qed.
Print Assumptions C152_remove_vote_refuted.

Theorem C152_vote_refuted : exists hist, let s := crun kreivo_communities c_empty hist in exists s' evs,
  ccall_run kreivo_communities easy_env s (OSigned 11) (CVote 101 7 (NativeBalance true 6)) = COk (s', evs) /\
  exists l, at_least (cdiffers (alone s) (alone s')) l /\ bn_writes (ccall_benched (CVote 101 7 (NativeBalance true 6))) + 2 <= count centries l.
Proof. exact vote_more_refuted. Qed.
Print Assumptions C152_vote_refuted.

(** C152 for the manager: registering a community as root without a decision method, and creating any number of memberships. *)
Theorem C152_register_partial : forall e s id name a ti s' evs,
  mg_register kreivo_manager e s ORoot id name a None ti = MOk (s', evs) ->
  exists l, only (cdiffers s s') l /\ count centries l <= bn_writes register_benched.
Proof. exact register_writes. Qed.
Print Assumptions C152_register_partial.

Theorem C152_create_memberships : forall e s o n at_ price s' evs,
  mg_create_memberships kreivo_manager e s o n at_ price = MOk (s', evs) ->
  exists l, only (cdiffers s s') l /\ count centries l <= bn_writes (create_memberships_benched n).
Proof. exact memberships_writes. Qed.
Print Assumptions C152_create_memberships.

Definition wr_env : menv := MEnv easy_env true true true (fun _ => true).
Example C152_manager_case :
  (exists s' evs, mg_register kreivo_manager wr_env m_empty ORoot 1 [] (AddrId 5) None None = MOk (s', evs)) /\
  exists s' evs, mg_create_memberships kreivo_manager wr_env m_empty ORoot 3 10 7 = MOk (s', evs) /\
    at_least (cdiffers m_empty s') [WItem 0 10; WItem 0 11; WItem 0 12].
Proof.
  split.
  - destruct (mg_register kreivo_manager wr_env m_empty ORoot 1 [] (AddrId 5) None None) as [[s' evs]|] eqn:E; [by eauto|]. vm_compute in E. discriminate.
  - destruct (mg_create_memberships kreivo_manager wr_env m_empty ORoot 3 10 7) as [[s' evs]|] eqn:E; [|vm_compute in E; discriminate].
    exists s', evs. split; [done|]. vm_compute in E. injection E as <- _. split.
    + repeat (apply NoDup_cons; split; [rewrite ?elem_of_cons, ?elem_of_nil; intros HH; repeat destruct HH as [HH|HH]; discriminate || done|]); apply NoDup_nil; done.
    + repeat constructor; vm_compute; discriminate.
Qed.

(** A community registered by a signed account that sets its decision method on the way writes 17 entries, without those of the account that pays: three more than
    are charged for. *)
Theorem C152_register_refuted : exists e s, let reg := mg_register kreivo_manager e s (OSigned 9) 1 [] (AddrId 5) (Some (ByCommunityAsset 3 1)) None in
  exists s' evs, reg = MOk (s', evs) /\
  exists l, at_least (cdiffers s s') l /\ WAccount 9 ∉ l /\ bn_writes register_benched + 3 <= count centries l.
Proof. exact register_more_refuted. Qed.
Print Assumptions C152_register_refuted.

(** C157. Every call about payments and communities, as large as its arguments may be, and also if dispatched as a community's account, fits into a block in which hooks used
    no more than 590 billion of time (29.5%) and, with the transaction itself, 1.5 MB of proof (30%); ... *)
Theorem C157_fits : forall k hooks len,
  within_limits k -> w_time hooks <= 590000000000 -> w_proof hooks + len <= 1572864 ->
  admitted (brun empty_block [BHook hooks]) Normal (declared k) len.
Proof. exact call_admitted. Qed.
Print Assumptions C157_fits.
(** ... it fits into the eighty percent the scheduler may use, with room left for the scheduler's own work; ... *)
Theorem C157_scheduled : forall k, within_limits k ->
  BlocksSpec.within (wadd (declared k) (BlocksModel.W 900000000000 700000)) (BlocksModel.W (2 * 10 ^ 12 * 80 / 100) (5 * 1024 * 1024 * 80 / 100)).
Proof. exact call_schedulable. Qed.
Print Assumptions C157_scheduled.
(** ... more than 1099 memberships at once would not. *)
Theorem C157_memberships : forall n len, len <= 3932160 -> (permitted Normal (declared (OwnMemberships n)) len <-> n <= 1099).
Proof. exact memberships_permitted. Qed.
Print Assumptions C157_memberships.
Example C157_case : within_limits (OwnAsAccount (OwnMemberships 1024)) /\ declared (OwnAsAccount (OwnMemberships 1024)) = BlocksModel.W 547406147144 3421047 /\
  within_limits (OwnPayment (CPay (AddrId 1) 1 1 (Some (repeat 0 50)))) /\ ~ within_limits (OwnPayment (CPay (AddrId 1) 1 1 (Some (repeat 0 51)))).
Proof. split_and!; [vm_compute; discriminate|vm_compute; reflexivity|vm_compute; lia|vm_compute; lia]. Qed.

(** Property theorems C113 to C115: what events tell. Words: PaymentsEventsSpec.v, CommunitiesEventsSpec.v. *)
From Verif Require Import Base XcmTypes OriginTypes PaymentIdModel FeesModel LedgerModel PaymentsModel PaymentsSpec PaymentsEventsModel PaymentsEventsSpec
  PaymentsEventsProofs PaymentsTheorems AccountsModel KreivoPaymentsModel KreivoPaymentsSpec KreivoPaymentsProofs PropsKreivoPayments.
From Verif Require Import CommunitiesModel CommunitiesSpec CommunitiesEventsSpec CommunitiesEvents CommunitiesExamples.
From stdpp Require Import gmap.
Open Scope N_scope.

(* ------------------------------------------------------------------ *)
(** * C113: events tell the state of payments *)

(** In histories in which ids are not repeated, the events tell the state of every payment, and of no other. *)
Theorem C113_events_tell_partial : forall c f now steps id x,
  NoDup (new_ids steps) ->
  told (event_log c (genesis f now) steps) !! id = Some x <-> exists s, state_of (run c (genesis f now) steps) (s, id) = Some x.
Proof. exact events_tell. Qed.
Print Assumptions C113_events_tell_partial.

(** A call that fails leaves no event and one that succeeds leaves one; the event of a new payment tells its asset and amount. *)
Theorem C113_one_event_partial :
  (forall c e st o call,
     call_event c e st o call = None <-> exists err, dispatch c e st o call = PErr err) /\
  (forall c e st o call id a amount remark,
     call_event c e st o call = Some (EvCreated id a amount remark) ->
     exists s d, cfg_sender_origin c o = Some s /\ st_pays (exec c e st o call) !! (s, id) = Some d /\
       st_parties (exec c e st o call) !! id = Some (s, d_beneficiary d) /\ d_state d = Created /\ d_asset d = a /\ d_amount d = amount).
Proof. split; [exact one_event|exact created_event]. Qed.
Print Assumptions C113_one_event_partial.

Definition ev_steps : list pstep :=
  [SCall (OSigned 10) (CPay (AddrId 20) 1 200 None) (ex_env 7); SCall (OSigned 20) (CRequestPayment (AddrId 10) 1 50) (ex_env 8);
   SCall (OSigned 10) (CRequestRefund 7) (ex_env 0); SCall (OSigned 10) (CAcceptAndPay 8) (ex_env 0); SCall (OSigned 20) (CDisputeRefund 7) (ex_env 0)].
Example C113_case : NoDup (new_ids ev_steps) /\
  event_log ex_cfg ex0 ev_steps = [EvCreated 7 1 200 None; EvRequestCreated 8; EvRefundRequested 7 105; EvRequestCompleted 8; EvRefundDisputed 7] /\
  told (event_log ex_cfg ex0 ev_steps) !! 7 = Some NeedsReview /\ told (event_log ex_cfg ex0 ev_steps) !! 8 = Some Finished.
Proof.
  split; [|repeat split; vm_compute; reflexivity]. replace (new_ids ev_steps) with [7; 8] by (vm_compute; reflexivity).
  apply NoDup_cons. split; [|apply NoDup_singleton]. rewrite elem_of_list_singleton. discriminate.
Qed.

(** Refuted on Kreivo when two payments get one id (two senders paying the same beneficiary within one transaction): two histories with
    the same events after which a payment is in different states, so nobody can know it from the events. *)
Definition two_payments : list pstep :=
  [SCall (OSigned 10) (CPay (AddrId 20) 1 200 None) (kr_env kr_id); SCall (OSigned 20) (CPay (AddrId 20) 1 200 None) (kr_env kr_id)].
Theorem C113_events_tell_refuted : exists steps1 steps2 k, let st1 := run kreivo_payments (genesis ex_free 100) steps1 in
  let st2 := run kreivo_payments (genesis ex_free 100) steps2 in
  Forall kreivo_fee_step steps1 /\ Forall kreivo_fee_step steps2 /\
  event_log kreivo_payments (genesis ex_free 100) steps1 = event_log kreivo_payments (genesis ex_free 100) steps2 /\
  state_of st1 k = Some Created /\ state_of st2 k = Some Finished.
Proof.
  exists (two_payments ++ [SCall (OSigned 20) (CRelease (default 0 kr_id)) (kr_env None)]),
         (two_payments ++ [SCall (OSigned 10) (CRelease (default 0 kr_id)) (kr_env None)]), (10, default 0 kr_id). cbv zeta.
  split; [repeat constructor; intros; vm_compute; discriminate|]. split; [repeat constructor; intros; vm_compute; discriminate|].
  split; [vm_compute; reflexivity|]. split; vm_compute; reflexivity.
Qed.
Print Assumptions C113_events_tell_refuted.

(* ------------------------------------------------------------------ *)
(** * C114: events tell the votes *)

(** Refuted: the events name the account and not the membership. Two histories with the same events, after which different votes count. *)
Theorem C114_events_tell_votes_refuted : exists l1 l2 p m, let s1 := crun kreivo_communities c_empty l1 in let s2 := crun kreivo_communities c_empty l2 in
  clog kreivo_communities c_empty l1 = clog kreivo_communities c_empty l2 /\ c_members s1 = c_members s2 /\
  c_votes s1 !! (p, m) = None /\ c_votes s2 !! (p, m) <> None /\ poll_tally s1 p <> poll_tally s2 p.
Proof.
  exists (h_two ++ [call_by 11 (CRemoveVote 102 7)]), (h_two ++ [call_by 11 (CRemoveVote 103 7)]), 7, 102. cbv zeta.
  split_and!; [vm_compute; reflexivity|vm_compute; reflexivity|vm_compute; reflexivity|vm_compute; discriminate|vm_compute; discriminate].
Qed.
Print Assumptions C114_events_tell_votes_refuted.

(** What holds: as long as nobody votes in a poll with two memberships, and nobody replaces or takes back a vote cast by somebody else,
    the events tell exactly the votes recorded. *)
Theorem C114_events_tell_votes_partial : forall c l,
  all_along c (fun s x => one_membership_each s x /\ own_votes_only s x) c_empty l ->
  forall p who v, votes_told (clog c c_empty l) !! (p, who) = Some v <-> exists m, c_votes (crun c c_empty l) !! (p, m) = Some (v, who).
Proof. exact events_tell_votes. Qed.
Print Assumptions C114_events_tell_votes_partial.

Definition own_votes_b (s : cstate) (x : cstep) : bool :=
  match x with
  | StCall _ (OSigned who) (CVote m p _) | StCall _ (OSigned who) (CRemoveVote m p) =>
      match c_votes s !! (p, m) with Some (_, w) => w =? who | None => true end
  | _ => true
  end.
Lemma own_votes_b_sound s x : own_votes_b s x = true -> own_votes_only s x.
Proof.
  destruct x as [e o k| | | | | | |]; cbn; try done. destruct o; try done. destruct k; try done; intros H v' w Hv; rewrite Hv in H; by apply N.eqb_eq in H.
Qed.
Definition ev_votes : list cstep := h_good ++ [call_by 10 (CRemoveVote 101 7)].
Example C114_case : all_along kc (fun s x => one_membership_each s x /\ own_votes_only s x) c_empty ev_votes /\
  votes_told (clog kc c_empty ev_votes) !! (7, 11) = Some (Standard false) /\ votes_told (clog kc c_empty ev_votes) !! (7, 10) = None.
Proof.
  split; [|split; vm_compute; reflexivity].
  apply (along_b_sound kc (fun s x => one_each_b s x && own_votes_b s x)); [|vm_compute; reflexivity].
  intros s x H. apply andb_true_iff in H as [? ?]. split; [by apply one_each_b_sound|by apply own_votes_b_sound].
Qed.

(* ------------------------------------------------------------------ *)
(** * C115: events of communities are true *)

(** Refuted twice: [remove_member] names an account that never held the membership taken away, and [demote] (C48) the old rank. *)
Theorem C115_events_true_refuted : exists l o k s' ev, let s := crun kreivo_communities c_empty l in
  ccall_run kreivo_communities easy_env s o k = COk (s', [ev]) /\ ~ event_true s s' ev.
Proof.
  exists (community_one ByMembership), (OSigned 1), (CRemoveMember (AddrId 10) 102).
  destruct (ccall_run kc easy_env (crun kc c_empty (community_one ByMembership)) (OSigned 1) (CRemoveMember (AddrId 10) 102)) as [[s' evs]|] eqn:E;
    [|vm_compute in E; discriminate].
  exists s', (EvMemberRemoved 10 102). cbv zeta. assert (evs = [EvMemberRemoved 10 102]) as ->.
  { assert (K : match ccall_run kc easy_env (crun kc c_empty (community_one ByMembership)) (OSigned 1) (CRemoveMember (AddrId 10) 102) with
                | COk (_, evs) => evs | CErr _ => [] end = [EvMemberRemoved 10 102]) by (vm_compute; reflexivity).
    rewrite E in K. exact K. }
  split; [exact E|]. cbn [event_true]. intros (x & Hx & Ho).
  assert (K : m_owner <$> c_members (crun kc c_empty (community_one ByMembership)) !! 102 = Some 11) by (vm_compute; reflexivity).
  rewrite Hx in K. cbn in K. rewrite Ho in K. discriminate.
Qed.
Print Assumptions C115_events_true_refuted.

(** What holds: the events of all other calls are true of the states before and after; each deposits one, [unlock] none. *)
Theorem C115_events_true_partial :
  (forall c e s o k s' evs,
     ccall_run c e s o k = COk (s', evs) ->
     (forall w m, k <> CRemoveMember w m) -> (forall m, k <> CDemote m) -> Forall (event_true s s') evs) /\
  (forall c e s o k s' evs,
     ccall_run c e s o k = COk (s', evs) -> (forall p, k <> CUnlock p) -> exists ev, evs = [ev]).
Proof. split; [exact events_true|exact one_cevent]. Qed.
Print Assumptions C115_events_true_partial.

Example C115_case : match ccall_run kc easy_env (crun kc c_empty (community_one ByMembership)) (OSigned 10) (CVote 101 7 (Standard true)) with
  | COk (_, evs) => evs = [EvVoteCasted 10 7 (Standard true)] | CErr _ => False end.
Proof. vm_compute. reflexivity. Qed.

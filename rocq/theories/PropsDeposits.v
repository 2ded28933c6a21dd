(** Property theorems C167: what is deposited for referenda. The program is DepositsModel.v; the words are in DepositsSpec.v. *)
From stdpp Require Import gmap.
From Verif Require Import Base XcmTypes OriginTypes TracksModel GovernanceModel DepositsModel DepositsSpec Deposits.
Open Scope N_scope.

(* ------------------------------------------------------------------ *)
(** * C167: what is deposited for a referendum comes back *)

(** Submitting to the collective sets aside one unit of who submits, submitting to a community nothing, and the referendum records whose it is. *)
Theorem C167_submitting : forall ok tr free l i who t,
  let s := drun tr (d_start free) l in let s' := dstep_run tr s (DSubmit ok i who t) in
  s' = s \/ exists n, sets_aside s s' who n /\ n = match i with Collective => 1000000000000 | Community => 0 end /\
    d_refs s !! (i, d_count s i) = None /\ d_refs s' !! (i, d_count s i) = Some (DRef DOngoing t (Some (Deposit who n)) None) /\ d_count s' i = d_count s i + 1.
Proof. exact submit_sets. Qed.
Print Assumptions C167_submitting.

(** Placing the decision deposit sets aside exactly the price of the track, of who places it, for an ongoing referendum without one. *)
Theorem C167_placing : forall ok tr s i who p, let s' := dstep_run tr s (DPlace ok i who p) in
  s' = s \/ exists t sub n, d_refs s !! (i, p) = Some (DRef DOngoing t sub None) /\ sets_aside s s' who n /\
    d_refs s' !! (i, p) = Some (DRef DOngoing t sub (Some (Deposit who n))) /\
    match i with Collective => t <= 3 /\ n = collective_price t | Community => d_tracks s !! t = Some n end.
Proof. exact place_sets. Qed.
Print Assumptions C167_placing.

(** At any time what is reserved of an account is what other pallets reserved and what is held of it for referenda, nothing else. *)
Theorem C167_set_aside : forall tr free l a, let s := drun tr (d_start free) l in bal (d_reserved s) a = bal (d_others s) a + held s a.
Proof. exact set_aside. Qed.
Print Assumptions C167_set_aside.

(** The decision deposit of a referendum that is over and was not killed comes back in full to who placed it, at anyone's call, and once. *)
Theorem C167_decision_back : forall tr free l i p r who n, let s := drun tr (d_start free) l in
  d_refs s !! (i, p) = Some r -> over (dr_status r) -> dr_decision r = Some (Deposit who n) ->
  let s' := dstep_run tr s (DRefundDecision i p) in
  gets s s' who n /\ bal (d_reserved s') who + n = bal (d_reserved s) who /\
  d_refs s' !! (i, p) = Some (DRef (dr_status r) (dr_track r) (dr_submission r) None) /\ dstep_run tr s' (DRefundDecision i p) = s'.
Proof. exact decision_back. Qed.
Print Assumptions C167_decision_back.

(** Until then it stays: the only way it goes is back to who placed it, or to the treasury because the referendum is killed. *)
Theorem C167_decision_until : forall tr free l l' i p r who n, let s := drun tr (d_start free) l in
  d_refs s !! (i, p) = Some r -> dr_decision r = Some (Deposit who n) ->
  (exists r', d_refs (drun tr s l') !! (i, p) = Some r' /\ dr_decision r' = Some (Deposit who n)) \/
  exists l1 x l2, l' = l1 ++ x :: l2 /\
    ((x = DRefundDecision i p /\ gets (drun tr s l1) (drun tr s (l1 ++ [x])) who n) \/
     (x = DKill i p /\ exists m, n <= m /\ gets (drun tr s l1) (drun tr s (l1 ++ [x])) tr m)).
Proof. exact decision_until. Qed.
Print Assumptions C167_decision_until.

(** A kill gives the treasury exactly both deposits, and takes from nobody more than they deposited. *)
Theorem C167_killed : forall tr free l i p r, let s := drun tr (d_start free) l in
  d_refs s !! (i, p) = Some r -> dr_status r = DOngoing ->
  let s' := dstep_run tr s (DKill i p) in
  gets s s' tr (amount (dr_submission r) + amount (dr_decision r)) /\
  (forall a, bal (d_reserved s') a + held_for a r = bal (d_reserved s) a) /\ d_refs s' !! (i, p) = Some (DRef DKilled (dr_track r) None None).
Proof. exact kill_takes. Qed.
Print Assumptions C167_killed.

(** No referendum makes anyone's free balance fall who does not submit it or place its deposit. *)
Theorem C167_by_own : forall tr free l x a, let s := drun tr (d_start free) l in bal (d_free (dstep_run tr s x)) a < bal (d_free s) a ->
  (exists ok i t, x = DSubmit ok i a t) \/ (exists ok i p, x = DPlace ok i a p) \/ (exists n, x = DReserve a n) \/ (exists n, x = DBalance a n).
Proof. exact falls_by_own. Qed.
Print Assumptions C167_by_own.

(** The submission deposit comes back too if the referendum was approved or cancelled. *)
Theorem C167_submission_back_partial : forall tr free l i p r who n, let s := drun tr (d_start free) l in
  d_refs s !! (i, p) = Some r -> dr_status r = DApproved \/ dr_status r = DCancelled -> dr_submission r = Some (Deposit who n) ->
  let s' := dstep_run tr s (DRefundSubmission i p) in
  gets s s' who n /\ bal (d_reserved s') who + n = bal (d_reserved s) who /\
  d_refs s' !! (i, p) = Some (DRef (dr_status r) (dr_track r) None (dr_decision r)) /\ dstep_run tr s' (DRefundSubmission i p) = s'.
Proof. exact submission_back. Qed.
Print Assumptions C167_submission_back_partial.

(** It does not if the referendum was rejected or timed out: whatever happens afterwards, it stays reserved. It is not the treasury's either. *)
Theorem C167_submission_back_refuted : forall tr free l l' i p r who n, let s := drun tr (d_start free) l in
  d_refs s !! (i, p) = Some r -> dr_status r = DRejected \/ dr_status r = DTimedOut -> dr_submission r = Some (Deposit who n) ->
  (exists r', d_refs (drun tr s l') !! (i, p) = Some r' /\ dr_status r' = dr_status r /\ dr_submission r' = Some (Deposit who n)) /\
  n <= bal (d_reserved (drun tr s l')) who.
Proof. exact rejected_lost. Qed.
Print Assumptions C167_submission_back_refuted.

(** Account 5 submits three referenda of the collective on the root track and account 6 places the deposits. The first is rejected: account 6 has
    its ten units back, account 5's unit stays. The second is approved: both have everything back. The third is killed: the treasury, account 9,
    has eleven units. In a community account 5 submits for nothing and account 6 places what the track says. *)
Definition rich : gmap N N := <[5 := 20 * units]> (<[6 := 50 * units]> ∅).
Definition three : list dstep :=
  [DSubmit true Collective 5 0; DSubmit true Collective 5 0; DSubmit true Collective 5 0; DReserve 5 units;
   DPlace true Collective 6 0; DPlace true Collective 6 1; DPlace true Collective 6 2;
   DEnd Collective 0 DRejected; DEnd Collective 1 DApproved; DTrack 7 3; DSubmit true Community 5 7; DPlace true Community 6 0].
Definition afterwards : list dstep :=
  [DRefundDecision Collective 0; DRefundSubmission Collective 0; DRefundDecision Collective 1; DRefundSubmission Collective 1; DKill Collective 2;
   DRefundDecision Collective 2; DRefundDecision Community 0].
Definition before_state : dstate := drun 9 (d_start rich) three.
Definition after_state : dstate := drun 9 before_state afterwards.
Example C167_case :
  (exists r, d_refs before_state !! (Collective, 0) = Some r /\ dr_status r = DRejected /\ dr_submission r = Some (Deposit 5 units) /\
    dr_decision r = Some (Deposit 6 (10 * units))) /\
  (exists r, d_refs before_state !! (Collective, 1) = Some r /\ dr_status r = DApproved /\ dr_submission r = Some (Deposit 5 units) /\
    dr_decision r = Some (Deposit 6 (10 * units))) /\
  (exists r, d_refs before_state !! (Collective, 2) = Some r /\ dr_status r = DOngoing) /\
  (exists r, d_refs before_state !! (Community, 0) = Some r /\ dr_decision r = Some (Deposit 6 3)) /\
  map (bal (d_free before_state)) [5; 6; 9] = [16 * units; 20 * units - 3; 0] /\ map (bal (d_reserved before_state)) [5; 6; 9] = [4 * units; 30 * units + 3; 0] /\
  map (bal (d_free after_state)) [5; 6; 9] = [17 * units; 40 * units - 3; 11 * units] /\ map (bal (d_reserved after_state)) [5; 6; 9] = [2 * units; 3; 0] /\
  map (bal (d_others after_state)) [5; 6; 9] = [units; 0; 0] /\ map (held after_state) [5; 6; 9] = [units; 3; 0].
Proof.
  split; [eexists; split_and!; vm_compute; reflexivity|]. split; [eexists; split_and!; vm_compute; reflexivity|].
  split; [eexists; split_and!; vm_compute; reflexivity|]. split; [eexists; split_and!; vm_compute; reflexivity|].
  split_and!; vm_compute; reflexivity.
Qed.

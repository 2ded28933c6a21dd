(** Property theorems C109 to C112: how payments end. Words: PaymentsSpec.v, PaymentsEndsSpec.v, KreivoPaymentsSpec.v. *)
From Verif Require Import Base XcmTypes OriginTypes PaymentIdModel FeesModel LedgerModel PaymentsModel PaymentsSpec PaymentsEndsSpec
  AccountsModel KreivoPaymentsModel KreivoPaymentsSpec PaymentsTheorems PaymentsHistories KreivoPaymentsProofs PropsKreivoPayments PaymentsEnds.
From stdpp Require Import gmap.
Open Scope N_scope.

Local Notation kid := (default 0 kr_id).

(* ------------------------------------------------------------------ *)
(** * C109: a resolver's decision can be carried out *)

(** In the dispute of [kr_state] the beneficiary moves their free funds away. *)
Definition kr_poor : pstate := run kreivo_payments (genesis ex_free 100) (map fst kr_steps ++ [SOutside ∅ ∅]).
Lemma kr_poor_reachable : kreivo_reachable kr_poor.
Proof.
  exists ex_free, 100, (map fst kr_steps ++ [SOutside ∅ ∅]). split; [|done].
  cbn [map fst kr_steps app]. repeat constructor; try (intros; vm_compute; discriminate).
Qed.
Lemma treasury_not_20 : 20 <> treasury_account.
Proof. intros H. apply (f_equal (N.eqb 20)) in H. rewrite N.eqb_refl in H. vm_compute in H. discriminate. Qed.
Lemma kr_poor_record : exists d, st_pays kr_poor !! (10, kid) = Some d /\ d_state d = NeedsReview /\ d_beneficiary d = 20 /\ d_amount d = 200 /\
  d_incentive d = 20 /\ d_asset d = 1 /\
  fee_sum (sender_pays (d_fees d)) = 2 /\ fee_sum (beneficiary_pays (d_fees d)) = 6 /\ free (st_ledger kr_poor) 1 20 = 0 /\
  st_parties kr_poor !! kid = Some (10, 20).
Proof. vm_compute. eexists. split; [reflexivity|]. done. Qed.

(** Refuted on Kreivo: a dispute in which the resolver cannot give the whole amount back to the sender, whatever the environment: the
    beneficiary's 3% would have to come from the amount, which is all given away, or from free funds, which the beneficiary has removed. *)
Theorem C109_carried_out_refuted : exists st id, kreivo_reachable st /\ state_of st (10, id) = Some NeedsReview /\
  forall e, call_ok (dispatch kreivo_payments e st ORoot (CResolveDispute id (DisputeResult 100 RSender))) = false.
Proof.
  exists kr_poor, kid. destruct kr_poor_record as (d & Hp & Hs & Hb & Ham & _ & Has & _ & HB & Hf & Hpa).
  split; [exact kr_poor_reachable|]. split; [unfold state_of; rewrite Hp; cbn; by rewrite Hs|]. intros e.
  apply (kreivo_resolve_stuck e kr_poor 10 kid d (DisputeResult 100 RSender) kr_poor_reachable Hp).
  - rewrite Hb. exact Hpa.
  - rewrite Hb. discriminate.
  - rewrite Hb. exact treasury_not_20.
  - rewrite Hb, Ham, Has, HB, Hf. reflexivity.
  - reflexivity.
Qed.
Print Assumptions C109_carried_out_refuted.

(** Exactly when a decision can be carried out, if the ledger refuses nothing beyond its own checks: the beneficiary's mandatory fees and
    the sender's part fit in what the beneficiary has free, the amount and (if they won) the incentive. Missing for the full property: the
    condition itself, and fees paid to the beneficiary or a beneficiary who is the resolver or the sender. *)
Theorem C109_when_carried_out_partial : forall c e st o s id d r resolver,
  reachable c st -> st_pays st !! (s, id) = Some d -> d_state d = NeedsReview ->
  st_parties st !! id = Some (s, d_beneficiary d) -> cfg_resolver_origin c o = Some resolver ->
  permissive e -> issuance (st_ledger st) (d_asset d) <= u128_max -> s <> d_beneficiary d -> resolver <> d_beneficiary d ->
  let S := sender_pays (d_fees d) in let B := beneficiary_pays (d_fees d) in
  fee_sum S + d_incentive d <= u128_max -> fee_sum B <= u128_max -> consistent_flags S -> consistent_flags B ->
  fees_to (d_beneficiary d) (mandatory_fees S) = 0 -> fees_to (d_beneficiary d) (mandatory_fees B) = 0 ->
  let to_sender := decided_to_sender r d in
  (to_sender = 0 \/ ext_min_balance (env_ext e) (d_asset d) <= to_sender) ->
  ((exists st', dispatch c e st o (CResolveDispute id r) = POk st') <->
   fee_sum (mandatory_fees B) + to_sender <=
     free (st_ledger st) (d_asset d) (d_beneficiary d) + d_amount d + match in_favor_of r with RSender => 0 | RBeneficiary => d_incentive d end).
Proof. exact resolve_iff. Qed.
Print Assumptions C109_when_carried_out_partial.

(** On Kreivo, where all fees are mandatory and go to the treasury. *)
Theorem C109_when_carried_out_kreivo_partial : forall e st s id d r,
  kreivo_reachable st -> st_pays st !! (s, id) = Some d -> d_state d = NeedsReview ->
  st_parties st !! id = Some (s, d_beneficiary d) -> s <> d_beneficiary d -> d_beneficiary d <> treasury_account ->
  permissive e -> issuance (st_ledger st) (d_asset d) <= u128_max -> fee_sum (sender_pays (d_fees d)) + d_incentive d <= u128_max ->
  let to_sender := decided_to_sender r d in
  (to_sender = 0 \/ ext_min_balance (env_ext e) (d_asset d) <= to_sender) ->
  ((exists st', dispatch kreivo_payments e st ORoot (CResolveDispute id r) = POk st') <->
   fee_sum (beneficiary_pays (d_fees d)) + to_sender <=
     free (st_ledger st) (d_asset d) (d_beneficiary d) + d_amount d + match in_favor_of r with RSender => 0 | RBeneficiary => d_incentive d end).
Proof. exact kreivo_resolve_iff. Qed.
Print Assumptions C109_when_carried_out_kreivo_partial.

(** In the poor state 97% can be given to the sender and 98% cannot. *)
Example C109_case : exists d, st_pays kr_poor !! (10, kid) = Some d /\ d_state d = NeedsReview /\
  st_parties kr_poor !! kid = Some (10, d_beneficiary d) /\ permissive (kr_env None) /\
  issuance (st_ledger kr_poor) (d_asset d) = 242 /\
  call_ok (dispatch kreivo_payments (kr_env None) kr_poor ORoot (CResolveDispute kid (DisputeResult 97 RSender))) = true /\
  call_ok (dispatch kreivo_payments (kr_env None) kr_poor ORoot (CResolveDispute kid (DisputeResult 98 RSender))) = false.
Proof. eexists. split; [vm_compute; reflexivity|]. repeat split; vm_compute; reflexivity. Qed.

(* ------------------------------------------------------------------ *)
(** * C110: an undisputed refund is paid *)

(** The ledger refuses a transfer out of account 20, for example because its funds are frozen by a vote. *)
Definition frozen_env : penv :=
  PEnv (Ext (fun _ op => match op with LTransfer _ s _ _ _ => negb (s =? 20) | _ => true end) (fun _ _ => true) (fun _ => 2))
       (kreivo_fees (fun _ => 2)) None true.
Definition kr_lost_steps : list pstep :=
  [SCall (OSigned 10) (CPay (AddrId 20) 1 200 None) (kr_env kr_id); SCall (OSigned 10) (CRequestRefund kid) (kr_env None)]
  ++ replicate 14400 SBlock ++ [SFire kid frozen_env].
Definition kr_lost : pstate := run kreivo_payments (genesis ex_free 100) kr_lost_steps.
Lemma kr_lost_record : exists d, st_pays kr_lost !! (10, kid) = Some d /\ d_state d = RefundRequested 14500 /\ d_beneficiary d = 20 /\
  st_now kr_lost = 14500 /\ st_agenda kr_lost !! kid = None.
Proof. eexists. split; [vm_compute; reflexivity|]. repeat split; vm_compute; reflexivity. Qed.
Lemma kr_lost_ids : new_ids kr_lost_steps = [kid].
Proof. vm_compute. reflexivity. Qed.

Lemma shape_of_steps (p q r x : pstep) k : x ∈ [p; q] ++ replicate k SBlock ++ [r] -> x = p \/ x = q \/ x = SBlock \/ x = r.
Proof.
  rewrite !elem_of_app, !elem_of_cons, elem_of_nil, elem_of_replicate. tauto.
Qed.

(** Refuted on Kreivo: nobody disputes, the block of the refund comes, the scheduler does its work, and the refund is not paid because the
    ledger refuses one transfer in that block. From then on, whatever happens and whatever the ledger accepts, the payment stays as it is
    unless the beneficiary cancels it or the sender gives up the amount a second time. *)
Theorem C110_refund_paid_refuted : exists steps st s id d n,
  Forall kreivo_fee_step steps /\ NoDup (new_ids steps) /\ no_drop steps /\ (forall o e, SCall o (CDisputeRefund id) e ∉ steps) /\
  st = run kreivo_payments (genesis ex_free 100) steps /\
  st_pays st !! (s, id) = Some d /\ d_state d = RefundRequested n /\ n <= st_now st /\ (exists e, SFire id e ∈ steps) /\
  forall later, id ∉ new_ids later -> Forall (fun x => ~ gives_up kreivo_payments s (d_beneficiary d) id x) later ->
    st_pays (run kreivo_payments st later) !! (s, id) = Some d.
Proof.
  destruct kr_lost_record as (d & Hp & Hs & Hb & Hn & Ha).
  assert (Hfresh : NoDup (new_ids kr_lost_steps)) by (rewrite kr_lost_ids; apply NoDup_singleton).
  assert (Hle : 14500 <= st_now kr_lost) by (rewrite Hn; reflexivity).
  exists kr_lost_steps, kr_lost, 10, kid, d, 14500.
  split; [|split; [exact Hfresh|split; [|split; [|split; [reflexivity|split; [exact Hp|split; [exact Hs|split; [exact Hle|split]]]]]]]].
  - unfold kr_lost_steps. apply Forall_app. split.
    + repeat constructor; try (intros; vm_compute; discriminate).
    + apply Forall_app. split; [apply Forall_replicate; exact I|]. repeat constructor; try (intros; vm_compute; discriminate).
  - intros id Hx. apply shape_of_steps in Hx as [Hx|[Hx|[Hx|Hx]]]; discriminate Hx.
  - intros o e Hx. apply shape_of_steps in Hx as [Hx|[Hx|[Hx|Hx]]]; discriminate Hx.
  - exists frozen_env. unfold kr_lost_steps. rewrite !elem_of_app. right. right. apply elem_of_list_here.
  - intros later Hid Hg. refine (refund_lost kreivo_payments kr_lost 10 kid d 14500 later _ Hp Hs Hle Ha Hid Hg).
    exists ex_free, 100, kr_lost_steps. split; [exact Hfresh|reflexivity].
Qed.
Print Assumptions C110_refund_paid_refuted.

(** The general form: once a refund's task is gone and its time is over, the sender's refund is lost. *)
Theorem C110_lost_for_good_partial : forall c st s id d n later,
  reachable_fresh c st -> st_pays st !! (s, id) = Some d -> d_state d = RefundRequested n -> n <= st_now st -> st_agenda st !! id = None ->
  id ∉ new_ids later -> Forall (fun x => ~ gives_up c s (d_beneficiary d) id x) later ->
  st_pays (run c st later) !! (s, id) = Some d.
Proof. exact refund_lost. Qed.
Print Assumptions C110_lost_for_good_partial.

(** What holds: if ids are not repeated, no task was dropped and the ledger refuses nothing when the time comes, the sender gets exactly the
    escrow and the amount back, in the announced block. *)
Theorem C110_refund_paid_partial : forall c f now0 steps s id d n e,
  NoDup (new_ids steps) -> no_drop steps ->
  let st := run c (genesis f now0) steps in
  st_pays st !! (s, id) = Some d -> d_state d = RefundRequested n -> st_now st < n ->
  cfg_beneficiary_origin c (OSigned (d_beneficiary d)) = Some (d_beneficiary d) ->
  permissive e -> issuance (st_ledger st) (d_asset d) <= u128_max ->
  let st' := run c st (replicate (N.to_nat (n - st_now st)) SBlock ++ [SFire id e]) in
  st_pays st' = delete (s, id) (st_pays st) /\ st_parties st' = delete id (st_parties st) /\ st_now st' = n /\
  exists burnt, (burnt = 0 \/ burnt < ext_min_balance (env_ext e) (d_asset d)) /\
    (forall x, free (st_ledger st') (d_asset d) x + ind (x =? d_beneficiary d) burnt =
               free (st_ledger st) (d_asset d) x + ind (x =? s) (sender_escrow d + d_amount d)) /\
    (forall x, held (st_ledger st') (d_asset d) x + ind (x =? s) (sender_escrow d) + ind (x =? d_beneficiary d) (d_amount d) =
               held (st_ledger st) (d_asset d) x).
Proof. exact refund_fires. Qed.
Print Assumptions C110_refund_paid_partial.

Definition kr_refund_steps : list pstep :=
  [SCall (OSigned 10) (CPay (AddrId 20) 1 200 None) (kr_env kr_id); SCall (OSigned 10) (CRequestRefund kid) (kr_env None)].
Example C110_case : let st := run kreivo_payments (genesis ex_free 100) kr_refund_steps in
  NoDup (new_ids kr_refund_steps) /\ no_drop kr_refund_steps /\ state_of st (10, kid) = Some (RefundRequested 14500) /\ st_now st = 100 /\
  cfg_beneficiary_origin kreivo_payments (OSigned 20) = Some 20 /\ permissive (kr_env None) /\ free (st_ledger st) 1 10 = 778 /\
  free (st_ledger (run kreivo_payments st (replicate 14400 SBlock ++ [SFire kid (kr_env None)]))) 1 10 = 1000.
Proof.
  cbv zeta. split; [|split].
  - replace (new_ids kr_refund_steps) with [kid] by (vm_compute; reflexivity). apply NoDup_singleton.
  - intros id Hx. unfold kr_refund_steps in Hx. rewrite !elem_of_cons in Hx. destruct Hx as [?|[?|Hx]]; [discriminate|discriminate|].
    by apply elem_of_nil in Hx.
  - repeat split; vm_compute; reflexivity.
Qed.

(* ------------------------------------------------------------------ *)
(** * C111: ended payments leave no record *)

(** Refuted: a payment that was released stays in storage in every later history, unchanged, for every configuration. *)
Theorem C111_no_record_refuted :
  (exists st, reachable ex_cfg st /\ state_of st (10, 7) = Some Finished) /\
  forall c st steps s id d, st_pays st !! (s, id) = Some d -> d_state d = Finished -> st_pays (run c st steps) !! (s, id) = Some d.
Proof.
  split; [|exact finished_stays]. exists ex_finished. split; [|vm_compute; reflexivity]. by eexists ex_free, 100, _.
Qed.
Print Assumptions C111_no_record_refuted.

(** What holds: a cancelled or refunded payment is gone. *)
Theorem C111_cancelled_gone_partial : forall c e st o id st' s ben,
  dispatch c e st o (CCancel id) = POk st' -> st_parties st !! id = Some (s, ben) ->
  st_pays st' !! (s, id) = None /\ st_parties st' !! id = None.
Proof. exact cancelled_gone. Qed.
Print Assumptions C111_cancelled_gone_partial.
Example C111_case : st_parties ex_created !! 7 = Some (10, 20) /\
  call_ok (dispatch ex_cfg (ex_env 0) ex_created (OSigned 20) (CCancel 7)) = true.
Proof. split; vm_compute; reflexivity. Qed.

(* ------------------------------------------------------------------ *)
(** * C112: a payment request is only changed by being accepted *)

(** As long as the generator does not hand out the request's id again. *)
Theorem C112_only_accepted_partial : forall c st x s id d,
  st_pays st !! (s, id) = Some d -> d_state d = PaymentRequested -> id ∉ step_new_id x ->
  st_pays (run_step c st x) !! (s, id) = Some d \/
  (exists o e, x = SCall o (CAcceptAndPay id) e /\ cfg_sender_origin c o = Some s /\
     st_pays (run_step c st x) !! (s, id) = Some (set_state d Finished)).
Proof. exact request_step. Qed.
Print Assumptions C112_only_accepted_partial.
Example C112_case : state_of ex_requested (10, 7) = Some PaymentRequested /\
  state_of (run ex_cfg ex_requested [SCall (OSigned 20) (CCancel 7) (ex_env 0); SCall (OSigned 10) (CRelease 7) (ex_env 0);
    SCall (OSigned 10) (CRequestRefund 7) (ex_env 0); SCall (OSigned 11) (CAcceptAndPay 7) (ex_env 0)]) (10, 7) = Some PaymentRequested /\
  state_of (run ex_cfg ex_requested [SCall (OSigned 10) (CAcceptAndPay 7) (ex_env 0)]) (10, 7) = Some Finished.
Proof. repeat split; vm_compute; reflexivity. Qed.

(** Refuted when the id comes again: a payment to somebody else replaces the request. *)
Theorem C112_only_accepted_refuted : exists st x d, reachable ex_cfg st /\ st_pays st !! (10, 7) = Some d /\ d_state d = PaymentRequested /\
  d_beneficiary d = 20 /\ (forall o e, x <> SCall o (CAcceptAndPay 7) e) /\
  exists d', st_pays (run_step ex_cfg st x) !! (10, 7) = Some d' /\ d_beneficiary d' = 30.
Proof.
  exists ex_requested, (SCall (OSigned 10) (CPay (AddrId 30) 1 200 None) (ex_env 7)). eexists.
  split; [by eexists ex_free, 100, _|]. split; [vm_compute; reflexivity|]. split; [done|]. split; [done|]. split; [done|].
  eexists. split; [vm_compute; reflexivity|done].
Qed.
Print Assumptions C112_only_accepted_refuted.

(** Property theorems C153 to C156: the scheduler, which carries out refunds and decisions. Words: SchedulerSpec.v, SchedulerRefundsSpec.v, BlocksSpec.v. *)
From Verif Require Import BlocksModel BlocksSpec SchedulerModel SchedulerSpec SchedulerProofs SchedulerLeft SchedulerRefundsSpec SchedulerRefunds.
From Verif Require Import Base XcmTypes OriginTypes PaymentIdModel FeesModel LedgerModel AccountsModel PaymentsModel PaymentsSpec KreivoPaymentsModel KreivoPaymentsSpec PaymentsTheorems PropsKreivoPayments WritesModel.
From stdpp Require Import gmap.
Open Scope N_scope.

(** C153. The sender of a payment can ask for a refund if fewer than fifty tasks are waiting for the block it would be due in, ... *)
Theorem C153_asked_partial : forall c e st o sender id d s x,
  s_reachable s -> sd_now s = st_now st ->
  cfg_sender_origin c o = Some sender -> st_pays st !! (sender, id) = Some d -> d_state d = Created ->
  0 < cfg_cancel_buffer c -> st_now st + cfg_cancel_buffer c <= 2 ^ 32 - 1 ->
  st_agenda st !! id = None -> (forall w i t, stands s w i t -> sk_name t <> Some (0, id)) ->
  (waiting anything (st_now st + cfg_cancel_buffer c) s < 50)%nat ->
  env_sched_ok e = (if schedule s (st_now st + cfg_cancel_buffer c) (STask (Some (0, id)) 63 x) then true else false) ->
  exists st', request_refund c e st o id = POk st'.
Proof. exact refund_taken. Qed.
Print Assumptions C153_asked_partial.
(** ... which is so if fewer than fifty were scheduled for it; ... *)
Theorem C153_few_partial : forall s w, s_reachable s -> (placed anything w s < 50)%nat -> (waiting anything w s < 50)%nat.
Proof. exact few_placed. Qed.
Print Assumptions C153_few_partial.
(** ... the transactions of one block, whose refunds are due in one block, ask for at most 24 of them; ... *)
Theorem C153_block_partial : forall l, Forall asks l -> refunds_in empty_block l <= 24.
Proof. exact refunds_few. Qed.
Print Assumptions C153_block_partial.
(** ... but others can schedule for that block too: here fifty decisions are due in it, and the sender of a payment just made cannot ask for a refund. *)
Definition kr_paid : pstate := run kreivo_payments (genesis ex_free 100) [SCall (OSigned 10) (CPay (AddrId 20) 1 200 None) (kr_env kr_id)].
Theorem C153_asked_refuted : exists st s id, kreivo_reachable st /\ s_reachable s /\ sd_now s = st_now st /\ state_of st (10, id) = Some Created /\
  forall e x, env_sched_ok e = (if schedule s (st_now st + 14400) (STask (Some (0, id)) 63 x) then true else false) ->
  forall st', request_refund kreivo_payments e st (OSigned 10) id <> POk st'.
Proof.
  exists kr_paid, (crowd 100 14500), (default 0 kr_id). split_and!.
  - exists ex_free, 100, [SCall (OSigned 10) (CPay (AddrId 20) 1 200 None) (kr_env kr_id)]. split; [|reflexivity]. repeat constructor; try (intros; vm_compute; discriminate).
  - apply crowd_reachable.
  - vm_compute. reflexivity.
  - vm_compute. reflexivity.
  - intros e x He. apply (refund_refused kreivo_payments e kr_paid (OSigned 10) (default 0 kr_id) (crowd 100 14500) x); [apply crowd_reachable|vm_compute; reflexivity|exact He].
Qed.
Print Assumptions C153_asked_refuted.
(** Refunds of two payments of one block can be asked for, and stand beside each other. *)
Example C153_case : let s := srun (s_start 100) [SAct (SPlace 14500 (STask (Some (0, 7)) 63 1))] in
  s_reachable s /\ waiting anything 14500 s = 1%nat /\ (exists s', schedule s 14500 (STask (Some (0, 8)) 63 2) = Some s' /\ waiting anything 14500 s' = 2%nat) /\
  schedule s 14500 (STask (Some (0, 7)) 63 2) = None.
Proof. cbv zeta. split; [eexists _, _; reflexivity|]. split; [vm_compute; reflexivity|]. split; [eexists; split; vm_compute; reflexivity|vm_compute; reflexivity]. Qed.
Example C153_block_case : let tx := BTx Normal (W 455807000 159279) 150 (W 455807000 159279) in
  Forall asks (replicate 30 (tx, 1)) /\ refunds_in empty_block (replicate 30 (tx, 1)) = 24.
Proof. cbv zeta. split; [|vm_compute; reflexivity]. apply Forall_replicate. right. split_and!; [reflexivity|vm_compute; discriminate|vm_compute; discriminate]. Qed.

(** C154. No block has more than fifty tasks; ... *)
Theorem C154_fifty : forall s w, s_reachable s -> (waiting anything w s <= 50)%nat.
Proof. exact at_most_fifty. Qed.
Print Assumptions C154_fifty.
(** ... what is scheduled is carried out at most once, and not if it was withdrawn before its block; ... *)
Theorem C154_once : forall s w P, s_reachable s -> (carried_out P w s + waiting P w s + withdrawn_in_time P w s <= placed P w s)%nat.
Proof. exact never_twice. Qed.
Print Assumptions C154_once.
(** ... it is not lost; ... *)
Theorem C154_kept : forall s w P, s_reachable s -> (placed P w s <= carried_out P w s + waiting P w s + withdrawn P w s)%nat.
Proof. exact never_lost. Qed.
Print Assumptions C154_kept.
(** ... and it is not carried out before its block, ... *)
Theorem C154_not_early : forall s at_ w t, s_reachable s -> In (ERan at_ w t) (sd_log s) -> w <= at_.
Proof. exact never_early. Qed.
Print Assumptions C154_not_early.
(** ... or without having been scheduled for it. *)
Theorem C154_as_scheduled : forall s at_ w t, s_reachable s -> In (ERan at_ w t) (sd_log s) -> In (EPlaced w t) (sd_log s).
Proof. exact as_scheduled. Qed.
Print Assumptions C154_as_scheduled.
Example C154_case : let s := next_block (cheap true false) two_due in
  s_reachable s /\ placed anything 11 s = 2%nat /\ carried_out anything 11 s = 1%nat /\ waiting anything 11 s = 1%nat /\ withdrawn anything 11 s = 0%nat.
Proof. cbv zeta. split; [apply block_reachable, two_due_reachable|]. split_and!; vm_compute; reflexivity. Qed.

(** C155. Withdrawing a task in the block it is due in, from another task of that block, does not keep it from being carried out; ... *)
Theorem C155_same_block_refuted : exists s t, s_reachable s /\ exists l, sd_log s = ERan 11 11 t :: ECancelled 11 11 t :: l /\ placed (fun u => sk_what u =? sk_what t) 11 s = 1%nat.
Proof. exact withdrawn_yet_run. Qed.
Print Assumptions C155_same_block_refuted.
(** ... and a task that had to wait can no longer be withdrawn by its name. *)
Theorem C155_by_name_refuted : exists s w i t k, s_reachable s /\ stands s w i t /\ sk_name t = Some k /\ cancel_named s k = None.
Proof. exact not_by_name. Qed.
Print Assumptions C155_by_name_refuted.
(** Withdrawn before its block, it is not carried out: of [n] alike scheduled for a block, at most those not withdrawn are. *)
Theorem C155_in_time_partial : forall s w P, s_reachable s -> withdrawn_in_time P w s = placed P w s -> carried_out P w s = 0%nat /\ waiting P w s = 0%nat.
Proof. exact in_time. Qed.
Print Assumptions C155_in_time_partial.
Example C155_case : let s := srun two_due [SAct (SCancelNamed (1, 5)); SNext (cheap false false)] in
  s_reachable s /\ withdrawn_in_time (fun t => sk_what t =? 2) 11 s = 1%nat /\ placed (fun t => sk_what t =? 2) 11 s = 1%nat /\ carried_out (fun t => sk_what t =? 2) 11 s = 0%nat /\ carried_out anything 11 s = 1%nat.
Proof. cbv zeta. split; [eexists _, _; unfold two_due, srun; rewrite <- fold_left_app; reflexivity|]. split_and!; vm_compute; reflexivity. Qed.

(** C156. A task is not always carried out in its block, though it would fit into it; ... *)
Theorem C156_on_time_refuted : exists s i t e, s_reachable s /\ oldest s = sd_now s + 1 /\ stands s (sd_now s + 1) i t /\ can_run t e /\
  forall at_ w, ~ In (ERan at_ w t) (sd_log (next_block e s)).
Proof. exact comes_late. Qed.
Print Assumptions C156_on_time_refuted.
(** ... it can even be left for good, alone in its block, with nobody withdrawing anything and every task fitting into what the scheduler may use in a block: if
    nothing is carried out before it because older blocks have no tasks left, but looking at them used too much of it; ... *)
Theorem C156_left_refuted : exists s i t e, s_reachable s /\ stands s (sd_now s + 1) i t /\ (forall u, can_run u e) /\ (forall c, se_acts e c = []) /\
  waiting anything (sd_now s + 1) s = 1%nat /\ forall l at_, ~ In (ERan at_ (sd_now s + 1) t) (sd_log (srun s (SNext e :: l))).
Proof. exact left_for_good. Qed.
Print Assumptions C156_left_refuted.
(** ... what is scheduled for blocks older than the oldest with tasks the scheduler has not got to is not carried out any more; ... *)
Theorem C156_passed_partial : forall s w t l at_, s_reachable s -> w < oldest s -> In (ERan at_ w t) (sd_log (srun s l)) -> In (ERan at_ w t) (sd_log s).
Proof. exact passed. Qed.
Print Assumptions C156_passed_partial.
Example C156_passed_case : let s := next_block laden laden_state in s_reachable s /\ 11 < oldest s /\ stands s 11 0 late_comer.
Proof. cbv zeta. split_and!; [apply block_reachable; eexists _, _; reflexivity|vm_compute; reflexivity|vm_compute; reflexivity]. Qed.
(** ... but once its block is the oldest with tasks waiting, it is by the time as many blocks have passed as tasks are waiting there, whatever the others do,
    if it fits into what the scheduler may use in a block. *)
Theorem C156_in_turn_partial : forall s e l i t, s_reachable s -> stands s (oldest s) i t ->
  Forall (spared (oldest s) i t) (SNext e :: l) -> Forall (can_run_in t) (SNext e :: l) -> (waiting anything (oldest s) s <= blocks (SNext e :: l))%nat ->
  exists at_, In (ERan at_ (oldest s) t) (sd_log (srun s (SNext e :: l))).
Proof. exact in_turn. Qed.
Print Assumptions C156_in_turn_partial.
Example C156_case : let e := cheap true false in let t := STask (Some (1, 5)) 63 2 in
  s_reachable two_due /\ oldest two_due = 11 /\ stands two_due 11 1 t /\ Forall (spared 11 1 t) [SNext e; SNext e] /\
  Forall (can_run_in t) [SNext e; SNext e] /\ waiting anything 11 two_due = 2%nat /\
  In (ERan 12 11 t) (sd_log (srun two_due [SNext e; SNext e])).
Proof.
  cbv zeta. split_and!; [exact two_due_reachable|vm_compute; reflexivity|vm_compute; reflexivity| | |vm_compute; reflexivity|vm_compute; tauto].
  - repeat constructor; intros c a H; destruct H.
  - repeat constructor; apply cheap_runs.
Qed.

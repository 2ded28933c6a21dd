(** C155, more: withdrawing a task by its name. *)
From Verif Require Import Base BlocksModel SchedulerModel SchedulerSpec WithdrawSpec SchedulerProofs SchedulerNames.
From Coq Require Import Lia.
From stdpp Require Import gmap.
Open Scope N_scope.

(** C155. Until its block comes a task can be withdrawn by its name, which leaves all others where they are, and is then never carried out, if no other task
    was or will be scheduled by that name; ... *)
Theorem C155_by_name_partial : forall s w i t k, s_reachable s -> stands s w i t -> sk_name t = Some k -> sd_now s < w -> (times_named k s <= 1)%nat ->
  exists s', cancel_named s k = Some s' /\ (forall u, ~ stands s' w i u) /\ (forall w' j u, (w', j) <> (w, i) -> stands s w' j u -> stands s' w' j u) /\
    forall l, (times_named k (srun s' l) <= 1)%nat -> forall at_ w' u, In (ERan at_ w' u) (sd_log (srun s' l)) -> sk_name u <> Some k.
Proof. exact by_name. Qed.
Print Assumptions C155_by_name_partial.

(** ... but a name is free again once its task had to wait, and who uses it again loses it as that task comes up the next time. *)
Definition heavy_two : senv := SEnv (fun _ => true) (fun c => if (c =? 1) || (c =? 2) then W (10 ^ 12) 0 else W 0 0) (fun c => if (c =? 1) || (c =? 2) then W (10 ^ 12) 0 else W 0 0) (fun _ => []) (W 0 0) (fun _ => W 0 0) (fun _ => W 0 0) (W 0 0).
Definition heavy_three : senv := SEnv (fun c => negb (c =? 2)) (fun _ => W 0 0) (fun _ => W 0 0) (fun _ => []) (W 0 0) (fun _ => W 0 0) (fun _ => W 0 0) (W 0 0).
Definition reused : sched := srun two_due [SNext heavy_two; SAct (SPlace 20 (STask (Some (1, 5)) 63 3)); SNext heavy_three].
Theorem C155_reused_refuted : exists s w i t k, s_reachable s /\ stands s w i t /\ sk_name t = Some k /\ sd_now s < w /\ cancel_named s k = None.
Proof.
  exists reused, 20, 0%nat, (STask (Some (1, 5)) 63 3), (1, 5). split; [apply reachable_run, two_due_reachable|]. split; [vm_compute; reflexivity|]. split; [reflexivity|].
  split; vm_compute; reflexivity.
Qed.
Print Assumptions C155_reused_refuted.

Example C155_by_name_case : let t := STask (Some (1, 5)) 63 2 in s_reachable two_due /\ stands two_due 11 1 t /\ sd_now two_due < 11 /\ times_named (1, 5) two_due = 1%nat.
Proof. cbv zeta. split; [exact two_due_reachable|]. split; [vm_compute; reflexivity|]. split; vm_compute; reflexivity. Qed.

(** Words about refunds and the scheduler: a block for which enough is scheduled already, and refunds asked for by a block's transactions. *)
From Verif Require Import BlocksModel BlocksSpec SchedulerModel SchedulerSpec.
From Verif Require Import Base XcmTypes OriginTypes FeesModel LedgerModel PaymentsModel WritesModel.
From stdpp Require Import gmap.
Open Scope N_scope.

(** Fifty decisions, say, taken for the same block. *)
Definition crowd (now w : N) : sched := srun (s_start now) (map (fun k => SAct (SPlace w (STask (Some (2, N.of_nat k)) 63 (N.of_nat k)))) (seq 0 50)).

(** What the transactions of a block ask for, counted from those let in; [r] refunds are asked for by a transaction, directly or in a batch. *)
Fixpoint refunds_in (b : BlocksModel.block) (l : list (bstep * N)) : N :=
  match l with
  | [] => 0
  | (x, r) :: l' => match x with BTx c w len _ => match check_weight b c w len with Some _ => r | None => 0 end | BHook _ => 0 end + refunds_in (do_bstep b x) l'
  end.
Definition asks (x : bstep * N) : Prop :=
  match x with
  | (BHook _, r) => r = 0
  | (BTx c w _ used, r) => r = 0 \/ (c = Normal /\ r * snd (benched_weight (pcall_benched (CRequestRefund 0))) <= w_proof w /\ w_proof w <= w_proof used)
  end.

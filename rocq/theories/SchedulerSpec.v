(** Words for what users of the scheduler rely on, in terms of what is seen: tasks scheduled for a block, withdrawn, carried out and waiting. *)
From Verif Require Import Base BlocksModel BlocksSpec SchedulerModel.
From stdpp Require Import gmap.
Open Scope N_scope.

(** How many tasks of a kind [P] are in an agenda; the agenda of block [w] holds those scheduled for it that wait. *)
Fixpoint how_many (P : stask -> bool) (a : list (option stask)) : nat :=
  match a with [] => 0 | None :: a' => how_many P a' | Some t :: a' => (if P t then 1 else 0) + how_many P a' end%nat.
Definition waiting (P : stask -> bool) (w : N) (s : sched) : nat := how_many P (agenda_of s w).
Definition anything (t : stask) : bool := true.

(** How many tasks of a kind have been scheduled for block [w], withdrawn, carried out, by what was seen. *)
Definition seen (f : sevent -> bool) (s : sched) : nat := length (List.filter f (sd_log s)).
Definition placed (P : stask -> bool) (w : N) : sched -> nat := seen (fun ev => match ev with EPlaced w' t => (w' =? w) && P t | _ => false end).
Definition withdrawn (P : stask -> bool) (w : N) : sched -> nat := seen (fun ev => match ev with ECancelled _ w' t => (w' =? w) && P t | _ => false end).
(** ... withdrawn before the block it is scheduled for: *)
Definition withdrawn_in_time (P : stask -> bool) (w : N) : sched -> nat :=
  seen (fun ev => match ev with ECancelled at_ w' t => (at_ <? w) && (w' =? w) && P t | _ => false end).
Definition carried_out (P : stask -> bool) (w : N) : sched -> nat := seen (fun ev => match ev with ERan _ w' t => (w' =? w) && P t | _ => false end).

(** States the chain gets into, from a start with nothing scheduled. *)
Definition s_reachable (s : sched) : Prop := exists now l, s = srun (s_start now) l.

(** Task [t], scheduled for [w], is in place [i]. *)
Definition stands (s : sched) (w : N) (i : nat) (t : stask) : Prop := agenda_of s w !! i = Some (Some t).

(** What does not withdraw it: *)
Definition spares (w : N) (i : nat) (t : stask) (a : sact) : Prop :=
  match a with SCancel w' i' => (w', i') <> (w, i) | SCancelNamed k => sk_name t <> Some k | SPlace _ _ => True end.
Definition spared (w : N) (i : nat) (t : stask) (x : sstep) : Prop :=
  match x with SAct a => spares w i t a | SNext e => forall c a, In a (se_acts e c) -> spares w i t a end.

(** The call is known in the block, and would fit into what the scheduler may use if it came first, after the scheduler's own work on a full agenda. *)
Definition times (n : N) (a : weight) : weight := W (n * w_time a) (n * w_proof a).
Definition can_run (t : stask) (e : senv) : Prop :=
  se_known e (sk_what t) = true /\
  exists task, (forall t', within (se_task e t') task) /\ (forall n, (n <= 50)%nat -> within (se_agenda e n) (se_agenda e 50)) /\
    within (wadd (wadd (se_walk e) (se_agenda e 50)) (wadd (times 50 task) (wadd (se_exec e) (se_weight e (sk_what t))))) (W (2 * 10 ^ 12 * 80 / 100) (5 * 1024 * 1024 * 80 / 100)).
Definition can_run_in (t : stask) (x : sstep) : Prop := match x with SAct _ => True | SNext e => can_run t e end.
Definition is_block (x : sstep) : bool := match x with SNext _ => true | SAct _ => false end.
Definition blocks (l : list sstep) : nat := length (List.filter is_block l).

(** The oldest block with tasks the scheduler has not got to. *)
Definition oldest (s : sched) : N := default (sd_now s + 1) (sd_since s).

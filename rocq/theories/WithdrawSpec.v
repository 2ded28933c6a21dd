(** A word of C155. *)
From Verif Require Import Base SchedulerModel SchedulerSpec.
From stdpp Require Import gmap.
Open Scope N_scope.

(** How often a task was scheduled by the name [k]. *)
Definition is_named (k : N * N) (t : stask) : bool := bool_decide (sk_name t = Some k).
Definition named_so (k : N * N) (ev : sevent) : bool := match ev with EPlaced _ t => is_named k t | _ => false end.
Definition times_named (k : N * N) (s : sched) : nat := seen (named_so k) s.

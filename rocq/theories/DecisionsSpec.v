(** Words about approved decisions and the scheduler that is to carry them out. *)
From Verif Require Import BlocksModel BlocksSpec SchedulerModel SchedulerSpec.
From stdpp Require Import gmap.
From Verif Require Import Base XcmTypes OriginTypes CommunitiesModel TracksModel ManagerModel GovernanceModel GovernanceSpec.
Open Scope N_scope.

(** The block an approved decision is due in: the one asked for when it was submitted, but at least the enactment period of its track from now. *)
Definition decision_block (now : N) (enactment : N) (m : moment) : N :=
  let earliest := now + N.max enactment 1 in
  match m with MAt n => if n <? earliest then earliest else n | MAfter n => if now + n <? earliest then earliest else now + n end.

(** The name a decision is scheduled under ([schedule_enactment] of pallet_referenda, dependency: the hash of "assembly", "enactment" and the number of the
    referendum). It does not say whose referendum it is, and both kinds are numbered from 0: runtime/kreivo/src/collective/governance.rs:14 and
    runtime/kreivo/src/communities/governance.rs:96 name the same scheduler. *)
Definition decision_task (p what : N) : stask := STask (Some (1, p)) 63 what.

(** The scheduler in state [sd] takes decision [p], approved in [s] as [r], whose track wants [enactment]. *)
Definition taken (sd : sched) (s : gstate) (enactment : N) (r : referendum) (p what : N) : bool :=
  match schedule sd (decision_block (gv_now s) enactment (rf_enact r)) (decision_task p what) with Some _ => true | None => false end.

(** Decision [p], approved as [r], waits for block [w]. *)
Definition decision_waits (s : gstate) (i : inst) (p : N) (r : referendum) (w : N) : Prop :=
  In (Task w (rf_origin r) (rf_call r) (Some (i, p))) (gv_agenda s).
(** In history [l] from [s], decision [p] is carried out; the scheduler gives it up, or somebody has it withdrawn there. *)
Definition gets_carried_out (s : gstate) (l : list gstep) (i : inst) (p : N) : Prop :=
  exists l1 x l2, l = l1 ++ x :: l2 /\ carries_out (grun s l1) x i p.
Definition given_up (s : gstate) (l : list gstep) (i : inst) (p : N) : Prop :=
  exists l1 n l2 t, l = l1 ++ GGiveUp n :: l2 /\ gv_agenda (grun s l1) !! n = Some t /\ tk_source t = Some (i, p).

(** The scheduler has for every block as many tasks as governance has scheduled. *)
Definition same_tasks (s : gstate) (sd : sched) : Prop :=
  forall w, waiting anything w sd = length (List.filter (fun t => tk_due t =? w) (gv_agenda s)).
Definition new_blocks (l : list gstep) : nat := length (List.filter (fun x => match x with GBlock => true | _ => false end) l).

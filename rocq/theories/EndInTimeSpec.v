(** Vocabulary for when referenda of the collective end. *)
From stdpp Require Import gmap.
From Verif Require Import Base XcmTypes OriginTypes GovernanceModel GovernanceSpec.
Open Scope N_scope.

(** The block in which the period a referendum of the collective is in ends: two days after its submission while it is not decided about; four
    days after deciding began; or when its confirmation is over. None while it waits for others of its track to be decided. *)
Definition period_end (r : referendum) : option N :=
  match rf_deciding r with
  | None => if rf_queued r then None else Some (rf_submitted r + 28800)
  | Some (since, None) => Some (since + 57600)
  | Some (_, Some until) => Some until
  end.
(** In history [l], the scheduler looked at referendum [p] in every block at the beginning of which it was in a period that ends with that block. *)
Definition attended (s0 : gstate) (l : list gstep) (p : N) : Prop :=
  forall l1 mid l2 r, l = l1 ++ mid ++ GBlock :: l2 -> (l1 = [] \/ exists l0, l1 = l0 ++ [GBlock]) -> GBlock ∉ mid ->
    is_open (grun s0 l1) Collective p r -> period_end r = Some (gv_now (grun s0 l1)) -> exists e, GService e Collective p ∈ mid.
(** In history [l], it had to wait for others of its track. *)
Definition waited (s0 : gstate) (l : list gstep) (p : N) : Prop :=
  exists l1 l2 r, l = l1 ++ l2 /\ is_open (grun s0 l1) Collective p r /\ rf_deciding r = None /\ rf_queued r = true.

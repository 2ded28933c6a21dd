(** The words of C177 to C179. *)
From stdpp Require Import gmap.
From Verif Require Import Base RuntimeModel VestingModel.
Open Scope N_scope.

(** How a history ends that starts at block [n] with nothing vested, and the schedules given in it, with whom they were given to. *)
Definition v_end (n : N) (l : list vstep) : vst := fst (vrun (v_genesis n) l).
Definition v_given (n : N) (l : list vstep) : list (N * vest) := snd (vrun (v_genesis n) l).

(** What of a schedule has not vested at block [n]: all of it until it starts, then so much less with every block. *)
Definition unvested (v : vest) (n : N) : N :=
  if n <=? v_start v then v_locked v
  else if v_locked v <=? (n - v_start v) * v_per_block v then 0 else v_locked v - (n - v_start v) * v_per_block v.
(** ... of all given to [a]. *)
Fixpoint unvested_of (g : list (N * vest)) (a n : N) : N :=
  match g with
  | [] => 0
  | (b, v) :: r => (if b =? a then unvested v n else 0) + unvested_of r a n
  end.

(** What [a] owns in all, and what of it can be transferred. *)
Definition owns (s : vst) (a : N) : N := default 0 (vs_free s !! a) + default 0 (vs_held s !! a).
Definition can_use (s : vst) (a n : N) : Prop := forall b, b <> a -> exists s', transfer true a b n s = Some s'.

(** Steps: a schedule [a] gives to themself, root taking one of [a]'s away, [a] merging two. *)
Definition to_self (a : N) (x : vstep) : Prop := exists ok v, x = VGrant ok a a v.
Definition taken (a : N) (x : vstep) : Prop := exists i, x = VForceRemove a i.
Definition merges (a : N) (x : vstep) : Prop := exists i j, x = VMerge a i j.
(** [a] spends, gives or has something reserved or held. *)
Definition spends (a : N) (x : vstep) : Prop :=
  (exists ok b n, x = VTransfer ok a b n) \/ (exists ok b v, x = VGrant ok a b v) \/ (exists n, x = VHold a n).

(** The words of C180 to C182. *)
From stdpp Require Import gmap.
From Verif Require Import Base RuntimeModel PreimageModel.
Open Scope N_scope.

(** Different texts have different hashes. *)
Definition no_collisions (hash : list N -> N) : Prop := forall t u, hash t = hash u -> t = u.
(** How a history ends. *)
Definition p_end (hash : list N -> N) (l : list pstep) : pst := prun hash p_start l.
(** The text of a hash as the chain has it, whether a step is carried out, what is on hold of [a] for texts. *)
Definition text_of (s : pst) (h : N) : option (list N) := p_bytes s !! h.
Definition succeeds (hash : list N -> N) (s : pst) (x : pstep) : Prop := exists s', pstep_try hash s x = Some s'.
Definition on_hold (s : pst) (a : N) : N := default 0 (p_held s !! a).
Definition has_free (s : pst) (a : N) : N := default 0 (p_free s !! a).

(** [a] pays for the text of [h]. *)
Definition pays (s : pst) (a h : N) : Prop :=
  exists n, (exists l, p_status s !! h = Some (Unrequested (a, n) l)) \/ (exists c l, p_status s !! h = Some (Requested (Some (a, n)) c l)).
(** What a text costs: two items, and 64 bytes more than the text. *)
Definition costs (t : list N) : N := 2 * (20 * CENTS) + (64 + N.of_nat (length t)) * MILLICENTS.

(** Requests for [h] in [l], beginning with [n] of them, never all withdrawn. *)
Fixpoint wanted (h n : N) (l : list pstep) : Prop :=
  match l with
  | [] => True
  | x :: r =>
      let n' := match x with
                | PRequest h' => if h' =? h then n + 1 else n
                | PUnrequest h' | PUnnote None h' => if h' =? h then n - 1 else n
                | _ => n
                end in
      0 < n' /\ wanted h n' r
  end.

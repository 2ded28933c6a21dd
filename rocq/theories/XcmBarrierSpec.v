(** When the weight limit a message names covers what it needs. *)
From Verif Require Import Base XcmTypes.
Open Scope N_scope.

(** The weight needed (time and proof) is within the limit, if there is one. *)
Definition limit_covers (need : N * N) (limit : option (N * N)) : Prop := forall w, limit = Some w -> fst need <= fst w /\ snd need <= snd w.

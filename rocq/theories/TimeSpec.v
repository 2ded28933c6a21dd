(** Words used in the claims about time. *)
From Coq Require Import NArith List.
From Verif Require Import TimeModel.
Import ListNotations.
Open Scope N_scope.

(** A day, in milliseconds. *)
Definition day : N := 24 * 60 * 60 * 1000.

(** [c] is what a chain of blocks, at least one, has come to. *)
Definition begun (c : clock) : Prop := exists l h, grow genesis_clock (l ++ [h]) = Some c.

(** After [c] the chain goes on with the blocks [l] and comes to [c']. *)
Definition goes_on (c : clock) (l : list header) (c' : clock) : Prop := grow c l = Some c'.

(** The blocks the relay chain reports as included. *)
Definition included (l : list header) : N := fold_right (fun h n => h_included h + n) 0 l.

(** The relay chain gives this chain one core: it includes at most one block in each of its own blocks, hence at most one in each slot. *)
Definition one_core (c : clock) (l : list header) (c' : clock) : Prop := included l <= c_slot c' - c_slot c.

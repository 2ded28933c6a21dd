(** Words used in the claims about the fee multiplier. *)
From Coq Require Import NArith List.
From Verif Require Import BlocksModel.
Import ListNotations.
Open Scope N_scope.

(** Normal transactions take a quarter or more of what a block leaves to them, in time or in proof. *)
Definition busy (b : block) : Prop :=
  w_time normal_share <= 4 * w_time (b_normal b) \/ w_proof normal_share <= 4 * w_proof (b_normal b).

(** They take all of it, in time or in proof. *)
Definition full (b : block) : Prop := w_time normal_share <= w_time (b_normal b) \/ w_proof normal_share <= w_proof (b_normal b).

(** There are none. *)
Definition idle (b : block) : Prop := b_normal b = W 0 0.

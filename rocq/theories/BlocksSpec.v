(** Words used in the claims about blocks. *)
From Coq Require Import NArith List.
From Verif Require Import BlocksModel.
Import ListNotations.
Open Scope N_scope.

(** At most this weight, in time and in proof. *)
Definition within (a b : weight) : Prop := w_time a <= w_time b /\ w_proof a <= w_proof b.

(** A transaction is let into a block. *)
Definition admitted (b : block) (c : class) (w : weight) (len : N) : Prop := exists b', check_weight b c w len = Some b'.

(** A block as hooks leave it: the scheduler and the message queue within their limits, nothing else having run. *)
Definition begun (scheduler queue : weight) : block := brun empty_block [BHook scheduler; BHook queue].

(** A call may be submitted at all: it is no larger than what its class allows for one call. *)
Definition permitted (c : class) (w : weight) (len : N) : Prop := 
  match max_extrinsic c with Some m => within w m | None => True end /\ len <= max_length c.

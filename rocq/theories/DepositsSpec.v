(** The words of C167, apart from the program: what is held of an account for referenda. *)
From stdpp Require Import gmap.
From Verif Require Import Base XcmTypes OriginTypes TracksModel GovernanceModel DepositsModel.
Open Scope N_scope.

(** How much of a deposit is [a]'s. *)
Definition part (a : N) (d : option deposit) : N := match d with Some (Deposit who n) => if who =? a then n else 0 | None => 0 end.
(** How much is held of [a] for one referendum, and for all of them. *)
Definition held_for (a : N) (r : dref) : N := part a (dr_submission r) + part a (dr_decision r).
Definition held (s : dstate) (a : N) : N := map_fold (fun _ r acc => held_for a r + acc) 0 (d_refs s).

(** A referendum that is over without having been killed. *)
Definition over (st : dstatus) : Prop := st <> DOngoing /\ st <> DKilled.
(** The amount of a deposit. *)
Definition amount (d : option deposit) : N := match d with Some x => dp_amount x | None => 0 end.

(** From [s] to [s'], account [a] gets [n] and no other free balance changes. *)
Definition gets (s s' : dstate) (a n : N) : Prop :=
  bal (d_free s') a = bal (d_free s) a + n /\ forall b, b <> a -> bal (d_free s') b = bal (d_free s) b.
(** From [s] to [s'], account [a], which has it, pays [n] and no other free balance changes; [n] more is reserved of [a]. *)
Definition sets_aside (s s' : dstate) (a n : N) : Prop :=
  n <= bal (d_free s) a /\ bal (d_free s') a = bal (d_free s) a - n /\ bal (d_reserved s') a = bal (d_reserved s) a + n /\
  forall b, b <> a -> bal (d_free s') b = bal (d_free s) b /\ bal (d_reserved s') b = bal (d_reserved s) b.
(** What has to be placed for a referendum of the collective to be decided, by track: ten units for the root track, one for the three others. *)
Definition collective_price (t : N) : N := if t =? 0 then 10000000000000 else 1000000000000.

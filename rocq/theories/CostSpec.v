(** Vocabulary for what calls cost. *)
From stdpp Require Import gmap.
From Verif Require Import Base XcmTypes OriginTypes AccountsModel CommunitiesModel XcmConfigModel XcmInstrModel XcmWeightsModel CostModel.
Open Scope N_scope.

(** How many vote locks an account has. *)
Definition lock_count (s : cstate) (who : N) : N := N.of_nat (size (filter (fun x : N * N * vote => x.1.1 = who) (c_locks s))).

(** The account whose vote a call takes out of the polls, or out of the locks. *)
Definition taken_back (s : cstate) (o : origin) (k : ccall) (who : N) : Prop :=
  match k with
  | CVote m p _ | CRemoveVote m p => exists v, c_votes s !! (p, m) = Some (v, who) /\ v <> Standard (vote_say v)
  | CUnlock p => o = OSigned who /\ exists v, c_locks s !! (who, p) = Some v
  | _ => False
  end.

(** Both parts of a weight are at most those of another. *)
Definition weight_le (a b : weight) : Prop := fst a <= fst b /\ snd a <= snd b.

(** The longest a block may take, in picoseconds: runtime/kreivo/src/lib.rs:110-113. *)
Definition block_time : N := 2000000000000.

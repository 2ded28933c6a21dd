(** Vocabulary for what users of cross-chain messages rely on. *)
From Verif Require Import Base XcmTypes OriginTypes.
Open Scope N_scope.

(** [l] lies at or below [prefix]. *)
Definition extends (prefix l : location) : Prop := exists suffix, l = Location (loc_parents prefix) (loc_interior prefix ++ suffix).

(** The chain an asset lives on: this chain's parent, one of its parachains, another network. *)
Definition home_chain (asset chain : location) : Prop :=
  match asset with
  | Location 1 (Parachain n :: _) => chain = Location 1 [Parachain n]
  | Location 1 _ => chain = Location 1 []
  | Location 2 (GlobalConsensus n :: Parachain p :: _) => chain = Location 2 [GlobalConsensus n; Parachain p]
  | Location 2 (GlobalConsensus n :: _) => chain = Location 2 [GlobalConsensus n]
  | _ => False
  end.

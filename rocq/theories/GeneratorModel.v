(** Model of the program that writes chain specifications (chain-spec-generator/src/main.rs). *)
From stdpp Require Import prelude strings.
From Verif Require Import Base.
Open Scope string_scope.

(** Where a specification comes from: the one of the live chain, the one of a local chain, or a file (main.rs:25-30, 41-44). *)
Inductive source := Live | Local | File (path : string).

(** main.rs:25-30 [supported_chains] *)
Definition supported_chains : list (string * source) := [("kreivo", Live); ("live", Live); ("kreivo-local", Local); ("local", Local)].

(** [HashMap::get] *)
Fixpoint find_chain (l : list (string * source)) (chain : string) : option source :=
  match l with
  | [] => None
  | (k, v) :: r => if String.eqb k chain then Some v else find_chain r chain
  end.

(** [str::ends_with] *)
Fixpoint ends_with (s suffix : string) : bool :=
  String.eqb s suffix || match s with String _ r => ends_with r suffix | EmptyString => false end.

(** main.rs:37-40: the names in the order in which the map happens to give them, [n] counting up; after all but the last there is a comma. *)
Fixpoint listing (len n : nat) (c : string) (keys : list string) : string :=
  match keys with
  | [] => c
  | k :: r =>
      let extra := if (S n <? len)%nat then ", " else "" in
      listing len (S n) (c ++ k ++ extra) r
  end.

(** main.rs:22-49 [main], after the arguments are parsed (clap, dependency): what is printed, or the error. [keys] is the order of the map's
    keys; [spec] is what building the specification and writing it as JSON gives (sc_chain_spec, dependency), raw or not. *)
Definition generate (keys : list string) (spec : source -> bool -> string + string) (chain : string) (raw : bool) : string + string :=
  match find_chain supported_chains chain with
  | Some f => spec f raw
  | None =>
      let supported := listing (length supported_chains) 0 "" keys in
      if ends_with chain ".json" then spec (File chain) raw
      else inr ("Unknown chain, only supported: " ++ supported ++ " or a json file")
  end.

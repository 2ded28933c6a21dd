(** Property theorem C169: the program that writes chain specifications. The program is GeneratorModel.v. *)
From stdpp Require Import prelude strings.
From Verif Require Import Base GeneratorModel Generator.
Open Scope string_scope.

(* ------------------------------------------------------------------ *)
(** * C169: a chain's specification is the one its name says *)

(** Whatever is asked for, raw or not, and in whatever order the program's map has its keys. *)
Theorem C169_named : forall keys spec chain raw, keys ≡ₚ ["kreivo"; "live"; "kreivo-local"; "local"] ->
  ((chain = "kreivo" \/ chain = "live") -> generate keys spec chain raw = spec Live raw) /\
  ((chain = "kreivo-local" \/ chain = "local") -> generate keys spec chain raw = spec Local raw) /\
  (forall p, chain = p ++ ".json" -> generate keys spec chain raw = spec (File chain) raw) /\
  (chain <> "kreivo" -> chain <> "live" -> chain <> "kreivo-local" -> chain <> "local" -> (forall p, chain <> p ++ ".json") ->
   generate keys spec chain raw = inr ("Unknown chain, only supported: " ++ String.concat ", " keys ++ " or a json file")).
Proof. exact generated. Qed.
Print Assumptions C169_named.

Example C169_case :
  let spec := fun (f : source) (raw : bool) => match f with Live => inl "L" | Local => inl (if raw then "R" else "l") | File p => inl p end in
  let keys := ["local"; "kreivo"; "kreivo-local"; "live"] in
  generate keys spec "kreivo" false = inl "L" /\ generate keys spec "local" true = inl "R" /\ generate keys spec "a/b.json" false = inl "a/b.json" /\
  generate keys spec "kreivo.jso" false = inr "Unknown chain, only supported: local, kreivo, kreivo-local, live or a json file" /\
  keys ≡ₚ ["kreivo"; "live"; "kreivo-local"; "local"].
Proof.
  split_and!; try reflexivity. apply (bool_decide_eq_true_1 _). vm_compute. reflexivity.
Qed.

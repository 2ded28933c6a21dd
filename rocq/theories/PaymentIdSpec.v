(** Words for the text form of payment ids, independent of the model: what a base58 text is and which number it stands for. *)
From Verif Require Import Base.
Open Scope N_scope.

(** The value of a base58 character given as its ASCII code: '1'..'9', then 'A'..'Z' without 'I' and 'O', then 'a'..'z' without 'l'. *)
Definition char_value (c : N) : option N :=
  if (49 <=? c) && (c <=? 57) then Some (c - 49)        (* '1' .. '9' :  0 ..  8 *)
  else if (65 <=? c) && (c <=? 72) then Some (c - 56)   (* 'A' .. 'H' :  9 .. 16 *)
  else if (74 <=? c) && (c <=? 78) then Some (c - 57)   (* 'J' .. 'N' : 17 .. 21 *)
  else if (80 <=? c) && (c <=? 90) then Some (c - 58)   (* 'P' .. 'Z' : 22 .. 32 *)
  else if (97 <=? c) && (c <=? 107) then Some (c - 64)  (* 'a' .. 'k' : 33 .. 43 *)
  else if (109 <=? c) && (c <=? 122) then Some (c - 65) (* 'm' .. 'z' : 44 .. 57 *)
  else None.

(** The number a text stands for, most significant character first. *)
Fixpoint text_number (acc : N) (s : list N) : option N :=
  match s with
  | [] => Some acc
  | c :: s' => match char_value c with Some v => text_number (acc * 58 + v) s' | None => None end
  end.

(** The number bytes stand for, most significant byte first. *)
Fixpoint bytes_number (acc : N) (s : list N) : N :=
  match s with [] => acc | b :: s' => bytes_number (acc * 256 + b) s' end.

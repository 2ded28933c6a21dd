(** Shared vocabulary: machine widths, byte strings, outcomes. *)
From stdpp Require Export prelude numbers list.
From Coq Require Export NArith Lia.
Open Scope N_scope.

(** Result of Rust code that may return a value, return an error, or panic. *)
Inductive outcome (A : Type) : Type :=
| Val (a : A)
| Fail
| Panic.
Arguments Val {A} _.
Arguments Fail {A}.
Arguments Panic {A}.

(** A byte string as Rust sees it. *)
Notation byte := N (only parsing).
Notation bytes := (list N) (only parsing).
Definition is_byte (b : N) : Prop := b < 256.
Definition is_bytes (l : list N) : Prop := Forall is_byte l.

Definition u8_max : N := 255.
Definition u16_max : N := 65535.
Definition u32_max : N := 4294967295.
Definition u64_max : N := 18446744073709551615.
Definition u128_max : N := 340282366920938463463374607431768211455.

(** [x as u16] and friends, and the release-mode result of an overflowing [+], [*]. *)
Definition wrap16 (x : N) : N := x mod 65536.
Definition wrap32 (x : N) : N := x mod 4294967296.
(** [saturating_add], [saturated_into] and friends. *)
Definition sat16 (x : N) : N := N.min x u16_max.
Definition sat32 (x : N) : N := N.min x u32_max.
Definition sat64 (x : N) : N := N.min x u64_max.
Definition sat128 (x : N) : N := N.min x u128_max.
(** [saturating_sub] is [N.sub], which truncates at zero. *)

(** [uN::to_le_bytes] *)
Fixpoint le_bytes (n : nat) (v : N) : list N :=
  match n with
  | O => []
  | S n' => v mod 256 :: le_bytes n' (v / 256)
  end.

(** [uN::from_le_bytes] *)
Fixpoint le_val (l : list N) : N :=
  match l with
  | [] => 0
  | b :: l' => b + 256 * le_val l'
  end.

Fixpoint all_zero (l : list N) : bool :=
  match l with [] => true | b :: l' => (b =? 0) && all_zero l' end.

(** Abstract model of the multi-asset ledger behind [T::Assets] (pallet_assets of the runtime, through the
    fungibles traits used in pallets/payments/src/lib.rs:563-596, 621-643, 656-682, 700). It is a dependency,
    not part of /repo: this file states what is assumed about it. *)
From Verif Require Import Base.
From stdpp Require Import gmap.
Open Scope N_scope.

Notation asset := N (only parsing).

(** Free and held (reason [TransferPayment], pallets/payments/src/lib.rs:251-255) balances per
    (asset, account). [dusted] is bookkeeping for the specification only: amounts burnt as dust. *)
Record ledger := Ledger {
  l_free : gmap (N * N) N;
  l_held : gmap (N * N) N;
  l_dusted : gmap N N;
}.

Definition free (l : ledger) (a x : N) : N := default 0 (l_free l !! (a, x)).
Definition held (l : ledger) (a x : N) : N := default 0 (l_held l !! (a, x)).
Definition dusted (l : ledger) (a : N) : N := default 0 (l_dusted l !! a).

Definition set_free (l : ledger) (a x v : N) : ledger := Ledger (<[(a, x) := v]> (l_free l)) (l_held l) (l_dusted l).
Definition set_held (l : ledger) (a x v : N) : ledger := Ledger (l_free l) (<[(a, x) := v]> (l_held l)) (l_dusted l).
Definition add_dust (l : ledger) (a v : N) : ledger := Ledger (l_free l) (l_held l) (<[a := dusted l a + v]> (l_dusted l)).

(** Preservation of the source account in a transfer. *)
Inductive preservation := Expendable | Preserve.

Inductive lop :=
| LHold (a who amt : N)
| LRelease (a who amt : N)
| LTransfer (a src dst amt : N) (p : preservation)
| LTransferHold (a src dst amt : N).

(** What the outside world decides: whether an operation is refused for any reason beyond the checks below
    (frozen or blocked account, minimum balance, provider references, hold limits, ...), whether a remainder
    smaller than the minimum balance is burnt, and the minimum balance. Theorems hold for every choice. *)
Record ext := Ext {
  ext_ok : ledger -> lop -> bool;
  ext_dust : ledger -> lop -> bool;
  ext_min_balance : N -> N;
}.

(** Balances are u128: an operation whose result would not fit is refused. *)
Definition fits (v : N) : bool := v <=? u128_max.

(** fungibles::hold::Mutate::hold *)
Definition ledger_hold (e : ext) (l : ledger) (a who amt : N) : option ledger :=
  if ext_ok e l (LHold a who amt) && (amt <=? free l a who) && fits (held l a who + amt) then
    Some (set_held (set_free l a who (free l a who - amt)) a who (held l a who + amt))
  else None.

(** fungibles::hold::Mutate::release with [Precision::Exact] *)
Definition ledger_release (e : ext) (l : ledger) (a who amt : N) : option ledger :=
  if ext_ok e l (LRelease a who amt) && (amt <=? held l a who) && fits (free l a who + amt) then
    Some (set_held (set_free l a who (free l a who + amt)) a who (held l a who - amt))
  else None.

(** fungibles::Mutate::transfer. A transfer to oneself changes nothing. After an expendable transfer the rest of the
    source account may be burnt if it is below the minimum balance. *)
Definition ledger_transfer (e : ext) (l : ledger) (a src dst amt : N) (p : preservation) : option ledger :=
  let op := LTransfer a src dst amt p in
  if ext_ok e l op && (amt <=? free l a src) then
    if src =? dst then Some l
    else if fits (free l a dst + amt) then
      let rest := free l a src - amt in
      let l1 := set_free (set_free l a src rest) a dst (free l a dst + amt) in
      match p with
      | Expendable =>
          if (rest <? ext_min_balance e a) && ext_dust e l op then Some (add_dust (set_free l1 a src 0) a rest)
          else Some l1
      | Preserve => Some l1
      end
    else None
  else None.

(** fungibles::hold::Mutate::transfer_and_hold with [Exact], [Preserve], [Polite]: the amount leaves the source's free balance and
    becomes the destination's held balance. *)
Definition ledger_transfer_hold (e : ext) (l : ledger) (a src dst amt : N) : option ledger :=
  if ext_ok e l (LTransferHold a src dst amt) && (amt <=? free l a src) && fits (held l a dst + amt) then
    Some (set_held (set_free l a src (free l a src - amt)) a dst (held l a dst + amt))
  else None.

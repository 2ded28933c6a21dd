(** The words of C187 to C189. *)
From stdpp Require Import gmap.
From Verif Require Import Base RuntimeModel NativeModel.
Open Scope N_scope.

Definition b_end (l : list (borac * bstep)) : bst := brun b_start l.
Definition succeeds (s : bst) (x : borac * bstep) : Prop := exists s', bstep_try s x = Some s'.
(** What an account has free, set aside, in all, and how much of it is frozen. *)
Definition free_of (s : bst) (a : N) : N := match b_accs s !! a with Some c => ba_free c | None => 0 end.
Definition aside_of (s : bst) (a : N) : N := match b_accs s !! a with Some c => ba_res c | None => 0 end.
Definition total_of (s : bst) (a : N) : N := free_of s a + aside_of s a.
Definition frozen_of (s : bst) (a : N) : N := match b_accs s !! a with Some c => ba_frozen c | None => 0 end.
Definition is_account (s : bst) (a : N) : Prop := b_accs s !! a <> None.
(** What there is of the token. *)
Definition issued (s : bst) : N := b_issued s.
(** Nobody else provides for [a]; nobody else depends on it. *)
Definition alone (x : borac * bstep) (a : N) : Prop := bo_elsewhere (fst x) a = false.
Definition unused (x : borac * bstep) (a : N) : Prop := bo_used (fst x) a = false.

(** Asked for [n], [m] is gone: just that, or all, and then less than the minimum more than asked for. *)
Definition costs (s s' : bst) (a n m : N) : Prop := m = n \/ (total_of s' a = 0 /\ n < m /\ m < n + EXISTENTIAL_DEPOSIT).
(** Step [x] may take [m] from [a]: it is [a]'s own, root's, or another pallet's. *)
Definition may_cost (s : bst) (x : borac * bstep) (a m : N) : Prop :=
  let s' := bstep_run s x in
  match snd x with
  | BCall (Some b) (BTransfer to n keep) => b = a /\ a <> to /\ costs s s' a n m /\ (keep = true -> m = n)
  | BCall (Some b) (BTransferAll to keep) => b = a /\ a <> to /\ (keep = true -> EXISTENTIAL_DEPOSIT <= free_of s' a)
  | BCall (Some b) (BBurn n keep) => b = a /\ costs s s' a n m /\ (keep = true -> m = n)
  | BCall None (BForceTransfer from to n) => from = a /\ a <> to /\ costs s s' a n m
  | BCall None (BForceSet b _) => b = a
  | BTake b n keep => b = a /\ costs s s' a n m /\ (keep = true -> m = n)
  | BSlash b n => b = a /\ (m <= n \/ (total_of s' a = 0 /\ m < n + EXISTENTIAL_DEPOSIT))
  | BRelease b _ | BCall None (BForceUnreserve b _) => b = a /\ total_of s' a = 0 /\ m < EXISTENTIAL_DEPOSIT
  | _ => False
  end.
(** Whose tokens a step sends to whom, and how many. *)
Definition sends (s : bst) (x : borac * bstep) : option (N * N * N) :=
  match snd x with
  | BCall (Some b) (BTransfer to n _) => Some (b, to, n)
  | BCall (Some b) (BTransferAll to keep) => Some (b, to, breducible (fst x) b keep s)
  | BCall None (BForceTransfer from to n) => Some (from, to, n)
  | _ => None
  end.
(** Root says how much there is of the token. *)
Definition sets_issuance (x : borac * bstep) : Prop := exists n, snd x = BCall None (BForceIssuance n).
(** Steps that use what is free. *)
Definition uses_free (x : borac * bstep) : Prop :=
  match snd x with BCall (Some _) _ | BCall None (BForceTransfer _ _ _) | BTake _ _ _ => True | _ => False end.
(** Step [x] may give [m] to [a]: it is sent, given by a pallet, or set by root. *)
Definition may_gain (x : borac * bstep) (a m : N) : Prop :=
  match snd x with
  | BCall (Some b) (BTransfer to n _) => to = a /\ b <> a /\ m = n
  | BCall (Some b) (BTransferAll to _) => to = a /\ b <> a
  | BCall None (BForceTransfer from to n) => to = a /\ from <> a /\ m = n
  | BCall None (BForceSet b _) => b = a
  | BGive b n => b = a /\ m = n
  | _ => False
  end.

(** The native token on Kreivo (runtime/kreivo/src/configuration/monetary_stuff.rs:10-32; pallet_balances, a dependency, from memory). *)
From stdpp Require Import gmap.
From Verif Require Import Base RuntimeModel.
Open Scope N_scope.

(** pallet_balances [AccountData]: free, reserved (all reserves and holds), frozen (the largest of locks and freezes) *)
Record bacc := BAcc { ba_free : N; ba_res : N; ba_frozen : N }.
(** Accounts and [TotalIssuance]. *)
Record bst := Bst { b_accs : gmap N bacc; b_issued : N }.
Definition b_start : bst := Bst ∅ 0.
Definition bget (s : bst) (a : N) : bacc := default (BAcc 0 0 0) (b_accs s !! a).
(** What frame_system counts of others for an account: whether others provide for it, and whether others depend on it. *)
Record borac := BOrac { bo_elsewhere : N -> bool; bo_used : N -> bool }.
(** frame_system [can_dec_provider] *)
Definition consumes (c : bacc) : bool := negb ((ba_res c =? 0) && (ba_frozen c =? 0)).
Definition can_die (o : borac) (a : N) (c : bacc) : bool := bo_elsewhere o a || (negb (consumes c) && negb (bo_used o a)).

(** [try_mutate_account_handling_dust]: an account below the minimum with nothing reserved goes, with what it has ([DustRemoval = ()],
    monetary_stuff.rs:22); it needs someone to provide for it while others depend on it. That there are too many who do is left out. *)
Definition bput (o : borac) (a : N) (c : bacc) (s : bst) : option bst :=
  let old := bget s a in
  let provides := EXISTENTIAL_DEPOSIT <=? ba_free c in
  if negb (consumes old) && consumes c && negb (provides || bo_elsewhere o a) then None
  else if (EXISTENTIAL_DEPOSIT <=? ba_free old) && negb provides && negb (can_die o a c) then None
  else if negb provides && (ba_res c =? 0) then Some (Bst (delete a (b_accs s)) (b_issued s - ba_free c))
  else Some (Bst (<[a := c]> (b_accs s)) (b_issued s)).

(** [reducible_balance], politely; [keep]: [Preserve], otherwise [Expendable] *)
Definition breducible (o : borac) (a : N) (keep : bool) (s : bst) : N :=
  let c := bget s a in
  let kept := ba_frozen c - ba_res c in
  ba_free c - (if keep || (negb (ba_free c =? 0) && negb (can_die o a c)) then N.max kept EXISTENTIAL_DEPOSIT else kept).
(** [can_withdraw] *)
Definition can_withdraw (o : borac) (a n : N) (keep : bool) (s : bst) : bool :=
  let c := bget s a in
  (n <=? b_issued s) && (n <=? ba_free c) && (n <=? breducible o a false s) &&
  (if ba_free c - n <? EXISTENTIAL_DEPOSIT then can_die o a c && negb keep else true) && (ba_frozen c <=? ba_free c - n + ba_res c).
(** [can_deposit] of what exists already *)
Definition can_deposit (a n : N) (s : bst) : bool :=
  let c := bget s a in (ba_free c + n <=? u128_max) && (EXISTENTIAL_DEPOSIT <=? ba_free c + n).
Definition add_free (n : N) (c : bacc) : bacc := BAcc (ba_free c + n) (ba_res c) (ba_frozen c).
Definition sub_free (n : N) (c : bacc) : bacc := BAcc (ba_free c - n) (ba_res c) (ba_frozen c).
(** [fungible::Mutate::transfer] *)
Definition btransfer (o : borac) (from to n : N) (keep : bool) (s : bst) : option bst :=
  if n =? 0 then Some s
  else if can_withdraw o from n keep s && can_deposit to n s then
    if from =? to then Some s
    else if n <=? breducible o from keep s then
      match bput o from (sub_free n (bget s from)) s with Some s1 => bput o to (add_free n (bget s1 to)) s1 | None => None end
    else None
  else None.
(** [burn_from], exactly *)
Definition issue (n : N) (s : bst) : bst := Bst (b_accs s) n.
Definition bburn (o : borac) (a n : N) (keep : bool) (s : bst) : option bst :=
  if (n <=? breducible o a keep s) && (n <=? b_issued s) then bput o a (sub_free n (bget s a)) (issue (b_issued s - n) s) else None.
(** [unreserve] *)
Definition brelease (o : borac) (a n : N) (s : bst) : option bst :=
  let c := bget s a in let m := N.min n (ba_res c) in bput o a (BAcc (ba_free c + m) (ba_res c - m) (ba_frozen c)) s.

(** The calls of pallet_balances but [upgrade_accounts]; only root can force. *)
Inductive bcall :=
| BTransfer (to n : N) (keep : bool)
| BTransferAll (to : N) (keep : bool)
| BBurn (n : N) (keep : bool)
| BForceTransfer (from to n : N)
| BForceUnreserve (a n : N)
| BForceSet (a n : N)
| BForceIssuance (n : N).
Definition bcall_run (o : borac) (by_ : option N) (k : bcall) (s : bst) : option bst :=
  match k, by_ with
  | BTransfer to n keep, Some a => btransfer o a to n keep s
  | BTransferAll to keep, Some a => btransfer o a to (breducible o a keep s) keep s
  | BBurn n keep, Some a => bburn o a n keep s
  | BForceTransfer from to n, None => btransfer o from to n false s
  | BForceUnreserve a n, None => brelease o a n s
  | BForceSet a n, None =>
      let c := bget s a in let n' := if n <? EXISTENTIAL_DEPOSIT then 0 else n in
      bput o a (BAcc n' (ba_res c) (ba_frozen c)) (issue (b_issued s + n' - ba_free c) s)
  | BForceIssuance n, None => Some (issue n s)
  | _, _ => None
  end.

(** What happens: calls; other pallets give what they issue, take (fees), set aside and give back, slash what is set aside, and freeze. *)
Inductive bstep :=
| BCall (by_ : option N) (k : bcall)
| BGive (a n : N)
| BTake (a n : N) (keep : bool)
| BHold (a n : N)
| BRelease (a n : N)
| BSlash (a n : N)
| BFreeze (a n : N).
Definition bstep_try (s : bst) (x : borac * bstep) : option bst :=
  let o := fst x in
  match snd x with
  | BCall by_ k => bcall_run o by_ k s
  | BGive a n => if (0 <? n) && can_deposit a n s && (b_issued s + n <=? u128_max) then bput o a (add_free n (bget s a)) (issue (b_issued s + n) s) else None
  | BTake a n keep => bburn o a n keep s
  | BHold a n =>
      let c := bget s a in
      if n + (if bo_elsewhere o a then 0 else EXISTENTIAL_DEPOSIT) <=? ba_free c then bput o a (BAcc (ba_free c - n) (ba_res c + n) (ba_frozen c)) s else None
  | BRelease a n => brelease o a n s
  | BSlash a n =>
      let c := bget s a in let m := N.min n (ba_res c) in bput o a (BAcc (ba_free c) (ba_res c - m) (ba_frozen c)) (issue (b_issued s - m) s)
  | BFreeze a n => let c := bget s a in bput o a (BAcc (ba_free c) (ba_res c) n) s
  end.
Definition bstep_run (s : bst) (x : borac * bstep) : bst := default s (bstep_try s x).
Definition brun (s : bst) (l : list (borac * bstep)) : bst := fold_left bstep_run l s.

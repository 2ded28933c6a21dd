(** Accounts of several signatories on Kreivo (runtime/kreivo/src/lib.rs:477-492; pallet_multisig, dependency, from memory). *)
From stdpp Require Import gmap.
From Verif Require Import Base RuntimeModel DelayedModel.
Open Scope N_scope.

(** lib.rs:478-481, 490: [DepositBase], [DepositFactor], [MaxSignatories] *)
Definition multi_deposit (threshold : N) : N := deposit 1 88 + deposit 0 32 * threshold.
Definition max_signatories : nat := 100.

(** The calls: those of pallet_multisig, batches, and all others. A time point is a block and the index of a transaction in it. *)
Inductive mcall :=
| MOther (k : N)
| MBatch (m : batch_mode) (l : list mcall)
| MThreshold1 (others : list N) (c : mcall)
| MAsMulti (threshold : N) (others : list N) (tp : option (N * N)) (c : mcall)
| MApprove (threshold : N) (others : list N) (tp : option (N * N)) (h : N)
| MCancel (threshold : N) (others : list N) (tp : N * N) (h : N).

(** What happened, for the record of a history (not part of the program). What closes an operation says to whom which deposit went back. *)
Inductive mentry :=
| MDid (who k : N)
| MOpened (who id h deposit_ : N)
| MApproved (who id h : N)
| MCancelled (who id h deposit_ : N)
| MExecuted (who id h : N) (depositor deposit_ : N)
| MExecuted1 (who id : N).

(** pallet_multisig [Multisig]: an operation that is open. *)
Record mop := MOp { o_when : N * N; o_deposit : N; o_depositor : N; o_approvals : list N }.
(** [Multisigs], by account and hash of the call; and where the chain is. *)
Record mst := Mst { m_now : N * N; m_ops : gmap (N * N) mop }.
Definition put_op (k : N * N) (o : mop) (s : mst) : mst := Mst (m_now s) (<[k := o]> (m_ops s)).
Definition drop_op (k : N * N) (s : mst) : mst := Mst (m_now s) (delete k (m_ops s)).

(** The environment of one transaction: whether deposits can be made, calls of other pallets succeed, calls are within the weight given. *)
Record menv := MEnv { w_deposit : N -> bool; w_ok : N -> N -> bool; w_fits : mcall -> bool }.

(** pallet_multisig [ensure_sorted_and_insert] *)
Fixpoint strictly_sorted (l : list N) : bool :=
  match l with
  | [] => true
  | a :: r => match r with [] => true | b :: _ => (a <? b) && strictly_sorted r end
  end.
Fixpoint insert_at (who : N) (l : list N) : list N :=
  match l with [] => [who] | a :: r => if a <? who then a :: insert_at who r else who :: a :: r end.
Definition signatories (who : N) (others : list N) : option (list N) :=
  if strictly_sorted others && negb (bool_decide (who ∈ others)) then Some (insert_at who others) else None.

Section run.
  (** [acct] is pallet_multisig's [multi_account_id], a hash; [hash] the hash of a call. *)
  Context (acct : list N -> N -> N) (hash : mcall -> N) (e : menv).

  (** What every call but that for a threshold of one checks, with the account. *)
  Definition checked (who threshold : N) (others : list N) : option N :=
    if (2 <=? threshold) && negb (length others =? 0)%nat && (length others <? max_signatories)%nat then
      match signatories who others with Some l => Some (acct l threshold) | None => None end
    else None.

  (** pallet_multisig [operate]: an error, done, or a call to be dispatched now. The search for [who] among the approvals is a membership
      test (they are sorted). *)
  Inductive outcome := OErr | ODone (s : mst) (x : mentry) | ORun (id : N) (s : mst) (x : mentry).
  Definition operate (s : mst) (who threshold : N) (others : list N) (tp : option (N * N)) (h : N) (has_call fits : bool) : outcome :=
    match checked who threshold others with
    | None => OErr
    | Some id =>
        match m_ops s !! (id, h) with
        | Some m =>
            match tp with
            | None => OErr
            | Some t =>
                if bool_decide (o_when m = t) then
                  let n := N.of_nat (length (o_approvals m)) in
                  let fresh := negb (bool_decide (who ∈ o_approvals m)) && (n <? threshold) in
                  let n' := if fresh then n + 1 else n in
                  if has_call && (threshold <=? n') then
                    if fits then ORun id (drop_op (id, h) s) (MExecuted who id h (o_depositor m) (o_deposit m)) else OErr
                  else if fresh then
                    ODone (put_op (id, h) (MOp (o_when m) (o_deposit m) (o_depositor m) (insert_at who (o_approvals m))) s) (MApproved who id h)
                  else OErr
                else OErr
            end
        | None =>
            match tp with
            | Some _ => OErr
            | None =>
                if w_deposit e who then
                  ODone (put_op (id, h) (MOp (m_now s) (multi_deposit threshold) who [who]) s) (MOpened who id h (multi_deposit threshold))
                else OErr
            end
        end
    end.

  (** Going through a batch (pallet_utility). *)
  Definition mrun_batch (run : mst -> mcall -> option (mst * list mentry)) (m : batch_mode) : mst -> list mcall -> option (mst * list mentry) :=
    fix go s l :=
      match l with
      | [] => Some (s, [])
      | c :: r =>
          match run s c with
          | Some (s1, e1) => match go s1 r with Some (s2, e2) => Some (s2, e1 ++ e2) | None => None end
          | None => match m with BStop => Some (s, []) | BAll => None | BForce => go s r end
          end
      end.

  (** Dispatching [c] signed by [who]; [None] is an error, which changes nothing. *)
  Fixpoint mrun (who : N) (c : mcall) (s : mst) : option (mst * list mentry) :=
    match c with
    | MOther k => if w_ok e who k then Some (s, [MDid who k]) else None
    | MBatch m l => mrun_batch (fun s c => mrun who c s) m s l
    (* [as_multi_threshold_1] *)
    | MThreshold1 others c' =>
        if negb (length others =? 0)%nat && (length others <? max_signatories)%nat then
          match signatories who others with
          | Some l => match mrun (acct l 1) c' s with Some (s', x) => Some (s', MExecuted1 who (acct l 1) :: x) | None => None end
          | None => None
          end
        else None
    (* [as_multi]: an error of the call does not make it one *)
    | MAsMulti t others tp c' =>
        match operate s who t others tp (hash c') true (w_fits e c') with
        | OErr => None
        | ODone s' x => Some (s', [x])
        | ORun id s1 x => match mrun id c' s1 with Some (s', l) => Some (s', x :: l) | None => Some (s1, [x]) end
        end
    (* [approve_as_multi] *)
    | MApprove t others tp h =>
        match operate s who t others tp h false false with
        | ODone s' x => Some (s', [x])
        | _ => None
        end
    (* [cancel_as_multi] *)
    | MCancel t others tp h =>
        match checked who t others with
        | None => None
        | Some id =>
            match m_ops s !! (id, h) with
            | Some m =>
                if bool_decide (o_when m = tp) && (o_depositor m =? who) then Some (drop_op (id, h) s, [MCancelled who id h (o_deposit m)]) else None
            | None => None
            end
        end
    end.
End run.

(** A history: transactions, each with its block and index. *)
Inductive mstep := MTx (at_ : N * N) (e : menv) (who : N) (c : mcall).
Definition mstep_run (acct : list N -> N -> N) (hash : mcall -> N) (s : mst) (x : mstep) : mst * list mentry :=
  match x with
  | MTx at_ e who c => match mrun acct hash e who c (Mst at_ (m_ops s)) with Some r => r | None => (Mst at_ (m_ops s), []) end
  end.
Fixpoint mrun_all (acct : list N -> N -> N) (hash : mcall -> N) (s : mst) (l : list mstep) : mst * list mentry :=
  match l with
  | [] => (s, [])
  | x :: r => let '(s1, l1) := mstep_run acct hash s x in let '(s2, l2) := mrun_all acct hash s1 r in (s2, l1 ++ l2)
  end.
Definition m_start : mst := Mst (0, 0) ∅.

(** The words of C172 and C173. *)
From stdpp Require Import gmap.
From Verif Require Import Base RuntimeModel MultiModel.
Open Scope N_scope.

(** The accounts of several signatories are told apart by who the signatories are and how many have to agree. *)
Definition accounts_differ (acct : list N -> N -> N) : Prop := forall l t l' t', acct l t = acct l' t' -> l = l' /\ t = t'.

(** The record of a history that starts with no open operations. *)
Definition m_record (acct : list N -> N -> N) (hash : mcall -> N) (l : list mstep) : list mentry := snd (mrun_all acct hash m_start l).

(** The operation on the call with hash [h] is over: done or cancelled. *)
Definition closes (id h : N) (x : mentry) : Prop := (exists w d n, x = MExecuted w id h d n) \/ (exists w n, x = MCancelled w id h n).
(** In record [log] the operation was opened by [w0] against deposit [n], and is not over since; [rest] is what happened since. *)
Definition opened (log : list mentry) (id h w0 n : N) (rest : list mentry) : Prop :=
  exists l1, log = l1 ++ MOpened w0 id h n :: rest /\ forall x, x ∈ rest -> ~ closes id h x.

(** The operation that is open on the call with hash [h] of account [id]. *)
Definition op_of (s : mst) (id h : N) : option mop := m_ops s !! (id, h).
(** The others, for a signatory. *)
Definition without (who : N) (l : list N) : list N := List.filter (fun x => negb (x =? who)) l.
(** A group of at least two and at most a hundred accounts, in order. *)
Definition group (l : list N) : Prop := strictly_sorted l = true /\ (2 <= length l <= 100)%nat.

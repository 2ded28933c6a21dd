(** Words used in the claims about signed transactions. *)
From stdpp Require Import gmap.
From Verif Require Import TransactionsModel.
Open Scope N_scope.

(** A transaction is included when it is submitted in this state. *)
Definition included (e : tenv) (c : chain) (t : tx) : Prop := is_Some (apply_tx e c t).

(** The nonces of the transactions of [who] that a history includes and that are not feeless, in the order of inclusion. *)
Fixpoint nonces_of (e : tenv) (c : chain) (l : list tstep) (who : N) : list N :=
  match l with
  | [] => []
  | s :: l' =>
      match s with
      | TxApply t =>
          match apply_tx e c t with
          | Some _ => if (tx_who t =? who) && negb (te_feeless e c t) then [tx_nonce t] else []
          | None => []
          end
      | _ => []
      end ++ nonces_of e (do_tstep e c s) l' who
  end.

(** The signer's view of what was signed: on the chain of this genesis, by a runtime of these versions, and, for a mortal era, after the block with
    this hash and for less than a period. *)
Definition in_scope (e : tenv) (n spec txv : N) (t : tx) : Prop :=
  tx_genesis t = te_hash e 0 /\ tx_spec t = spec /\ tx_txv t = txv /\
  match tx_era t with
  | Immortal => tx_birth_hash t = te_hash e 0
  | Mortal period _ => exists b, tx_birth_hash t = te_hash e b /\ b < n /\ n < b + period /\ (b = 0 \/ n <= b + 4097)
  end.

(** Blocks have different hashes. *)
Definition distinct_hashes (e : tenv) : Prop := forall m n, te_hash e m = te_hash e n -> m = n.

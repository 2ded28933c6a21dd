(** Lemmas about byte strings and fixed-width integers. *)
From Verif Require Export Base.
From Coq Require Export ZifyBool ZifyNat ZifyN.
Ltac Zify.zify_post_hook ::= Z.div_mod_to_equations.

Global Arguments N.add : simpl never.
Global Arguments N.mul : simpl never.
Global Arguments N.sub : simpl never.
Global Arguments N.div : simpl never.
Global Arguments N.modulo : simpl never.
Global Arguments N.min : simpl never.
Global Arguments N.max : simpl never.
Global Arguments N.ltb : simpl never.
Global Arguments N.leb : simpl never.
Global Arguments N.eqb : simpl never.
Global Arguments N.pow : simpl never.

Lemma le_bytes_length n v : length (le_bytes n v) = n.
Proof. revert v; induction n as [|n IH]; intros v; cbn [le_bytes length]; [done|]. by rewrite IH. Qed.

Lemma le_bytes_is_bytes n v : is_bytes (le_bytes n v).
Proof.
  revert v; induction n as [|n IH]; intros v; cbn [le_bytes]; [constructor|].
  constructor; [|apply IH]. unfold is_byte. apply N.mod_lt; lia.
Qed.

Lemma pow256_succ n : 256 ^ N.of_nat (S n) = 256 * 256 ^ N.of_nat n.
Proof. rewrite Nat2N.inj_succ, N.pow_succ_r'. done. Qed.

Lemma le_val_bytes n v : v < 256 ^ N.of_nat n -> le_val (le_bytes n v) = v.
Proof.
  revert v; induction n as [|n IH]; intros v Hv; cbn [le_bytes le_val].
  - change (256 ^ N.of_nat 0) with 1 in Hv. lia.
  - rewrite pow256_succ in Hv. rewrite IH.
    + pose proof (N.div_mod v 256 ltac:(lia)). lia.
    + apply N.div_lt_upper_bound; lia.
Qed.

Lemma le_val_mod n v : le_val (le_bytes n v) = v mod 256 ^ N.of_nat n.
Proof.
  revert v; induction n as [|n IH]; intros v; cbn [le_bytes le_val].
  - change (256 ^ N.of_nat 0) with 1. by rewrite N.mod_1_r.
  - rewrite IH, pow256_succ.
    rewrite (N.mod_mul_r v 256 (256 ^ N.of_nat n)); [lia|lia|].
    apply N.pow_nonzero; lia.
Qed.

Lemma le_val_bound l : is_bytes l -> le_val l < 256 ^ N.of_nat (length l).
Proof.
  induction 1 as [|b l Hb Hl IH]; cbn [le_val length].
  - vm_compute. done.
  - rewrite pow256_succ. unfold is_byte in Hb. lia.
Qed.

Lemma le_bytes_val l : is_bytes l -> le_bytes (length l) (le_val l) = l.
Proof.
  induction 1 as [|b l Hb Hl IH]; cbn [le_val length le_bytes]; [done|].
  unfold is_byte in Hb.
  replace ((b + 256 * le_val l) mod 256) with b.
  - replace ((b + 256 * le_val l) / 256) with (le_val l); [by rewrite IH|].
    replace (b + 256 * le_val l) with (b + le_val l * 256) by lia.
    rewrite N.div_add, (N.div_small b) by lia. lia.
  - replace (b + 256 * le_val l) with (b + le_val l * 256) by lia.
    rewrite N.mod_add, N.mod_small; lia.
Qed.

Lemma le_val_inj l1 l2 :
  is_bytes l1 -> is_bytes l2 -> length l1 = length l2 -> le_val l1 = le_val l2 -> l1 = l2.
Proof.
  intros H1 H2 Hl Hv. rewrite <- (le_bytes_val l1 H1), <- (le_bytes_val l2 H2), Hl, Hv. done.
Qed.

Lemma le_bytes_inj n v w :
  v < 256 ^ N.of_nat n -> w < 256 ^ N.of_nat n -> le_bytes n v = le_bytes n w -> v = w.
Proof.
  intros Hv Hw E. rewrite <- (le_val_bytes n v Hv), <- (le_val_bytes n w Hw), E. done.
Qed.

Lemma le_val_app l1 l2 : le_val (l1 ++ l2) = le_val l1 + 256 ^ N.of_nat (length l1) * le_val l2.
Proof.
  induction l1 as [|b l1 IH]; cbn [le_val app length].
  - change (256 ^ N.of_nat 0) with 1. lia.
  - rewrite IH, pow256_succ. lia.
Qed.

Lemma all_zero_spec l : all_zero l = true <-> l = replicate (length l) 0.
Proof.
  induction l as [|b l IH]; cbn [all_zero length replicate]; [done|].
  rewrite andb_true_iff, IH, N.eqb_eq. split.
  - intros [-> <-]. done.
  - intros E. injection E as -> E. done.
Qed.

Lemma all_zero_replicate n : all_zero (replicate n 0) = true.
Proof. induction n; [done|]. done. Qed.

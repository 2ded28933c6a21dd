(** Proofs about signed transactions. *)
From stdpp Require Import gmap.
From Coq Require Import Lia.
From Verif Require Import TransactionsModel TransactionsSpec.
Open Scope N_scope.

Definition no_reap (who : N) (l : list tstep) : Prop := forall s, In s l -> s <> TxReap who.

Lemma run_cons e c s l : trun e c (s :: l) = trun e (do_tstep e c s) l.
Proof. reflexivity. Qed.

(** What including a transaction does to the nonces. *)
Lemma apply_inv e c t c' : apply_tx e c t = Some c' ->
  signature_holds c t = true /\ tx_who t <> 0 /\ ch_number c' = ch_number c /\ ch_hashes c' = ch_hashes c /\
  (te_feeless e c t = true /\ c' = c \/
   te_feeless e c t = false /\ ch_nonces c !! tx_who t = Some (tx_nonce t) /\
     ch_nonces c' = <[tx_who t := (tx_nonce t + 1) mod 2 ^ 32]> (ch_nonces c)).
Proof.
  unfold apply_tx. destruct (signature_holds c t) eqn:Es; cbn [negb orb]; [|discriminate].
  destruct (N.eqb_spec (tx_who t) 0); [discriminate|]. intros H. unfold check_nonce in H.
  destruct (te_feeless e c t) eqn:Ef; cbn in H.
  - destruct (te_admitted e c t); [|discriminate]. injection H as <-. split_and!; auto.
  - destruct (ch_nonces c !! tx_who t) as [n1|] eqn:En; cbn in H; [|discriminate].
    destruct (N.eqb_spec (tx_nonce t) n1) as [->|]; [|discriminate]. cbn in H.
    destruct (te_admitted e c t); [|discriminate]. injection H as <-. split_and!; auto.
Qed.

(** Without being reaped, an account keeps its record; its nonce counts its transactions. *)
Lemma nonces_run e who : forall l c n, no_reap who l -> ch_nonces c !! who = Some n -> n < 2 ^ 32 ->
  nonces_of e c l who = map (fun k => (n + N.of_nat k) mod 2 ^ 32) (seq 0 (length (nonces_of e c l who))) /\
  ch_nonces (trun e c l) !! who = Some ((n + N.of_nat (length (nonces_of e c l who))) mod 2 ^ 32).
Proof.
  induction l as [|s l IH]; intros c n Hnr Hn Hlt.
  - cbn. split; [reflexivity|]. rewrite N.add_0_r, N.mod_small; auto.
  - rewrite run_cons. cbn [nonces_of].
    assert (Hnr' : no_reap who l) by (intros x Hx; apply Hnr; right; exact Hx).
    assert (Hs : s <> TxReap who) by (apply Hnr; left; reflexivity).
    assert (Hsame : forall c', ch_nonces c' !! who = Some n ->
      nonces_of e c' l who = map (fun k => (n + N.of_nat k) mod 2 ^ 32) (seq 0 (length (nonces_of e c' l who))) /\
      ch_nonces (trun e c' l) !! who = Some ((n + N.of_nat (length (nonces_of e c' l who))) mod 2 ^ 32)).
    { intros c' Hc'. apply IH; auto. }
    destruct s as [t| |a|a|sp tv]; cbn [app].
    + cbn [do_tstep]. destruct (apply_tx e c t) as [c'|] eqn:Ea; cbn [default from_option id app]; [|apply Hsame, Hn].
      destruct (apply_inv _ _ _ _ Ea) as (_ & _ & _ & _ & [[Ef ->]|(Ef & Hw & Hc')]).
      * unfold id. rewrite Ef. cbn [negb]. rewrite andb_false_r. cbn [app]. apply Hsame, Hn.
      * rewrite Ef. cbn [negb]. rewrite andb_true_r. unfold id. destruct (N.eqb_spec (tx_who t) who) as [<-|Hne].
        -- rewrite Hn in Hw. injection Hw as Hw. subst n.
           assert (H1 : ch_nonces c' !! tx_who t = Some ((tx_nonce t + 1) mod 2 ^ 32)) by (rewrite Hc'; apply lookup_insert).
           destruct (IH c' _ Hnr' H1 ltac:(apply N.mod_lt; lia)) as [IHa IHb]. cbn [app length].
           split.
           ++ rewrite IHa at 1. cbn [seq map]. f_equal.
              ** rewrite N.add_0_r, N.mod_small; auto.
              ** rewrite <- seq_shift, map_map. apply map_ext. intros k. rewrite N.add_mod_idemp_l by lia. f_equal. lia.
           ++ rewrite IHb. f_equal. rewrite N.add_mod_idemp_l by lia. f_equal. lia.
        -- cbn [app]. apply Hsame. rewrite Hc', lookup_insert_ne; auto.
    + apply Hsame. exact Hn.
    + apply Hsame. cbn [do_tstep]. destruct (ch_nonces c !! a) eqn:Ea; [exact Hn|]. cbn. rewrite lookup_insert_ne; [exact Hn|]. congruence.
    + apply Hsame. cbn. rewrite lookup_delete_ne; [exact Hn|]. intros <-. apply Hs. reflexivity.
    + apply Hsame. exact Hn.
Qed.

(** Between two inclusions of a transaction that is not feeless its signer's account was reaped, or 2^32 transactions of the signer were included. *)
Lemma included_again e c t c1 l : apply_tx e c t = Some c1 -> te_feeless e c t = false ->
  included e (trun e c1 l) t -> te_feeless e (trun e c1 l) t = false ->
  In (TxReap (tx_who t)) l \/ 2 ^ 32 <= 1 + N.of_nat (length (nonces_of e c1 l (tx_who t))).
Proof.
  intros Ha Hf [c2 Ha2] Hf2.
  assert (Hdec : {In (TxReap (tx_who t)) l} + {~ In (TxReap (tx_who t)) l}).
  { assert (D : forall x y : tstep, {x = y} + {x <> y}) by (repeat decide equality; apply N.eq_dec).
    apply (in_dec D). }
  destruct Hdec as [|Hno]; [auto|right].
  destruct (apply_inv _ _ _ _ Ha) as (_ & _ & _ & _ & [[E _]|(_ & Hw & Hc)]); [congruence|].
  destruct (apply_inv _ _ _ _ Ha2) as (_ & _ & _ & _ & [[E _]|(_ & Hw2 & _)]); [congruence|].
  assert (H1 : ch_nonces c1 !! tx_who t = Some ((tx_nonce t + 1) mod 2 ^ 32)) by (rewrite Hc; apply lookup_insert).
  destruct (nonces_run e (tx_who t) l c1 _ ltac:(intros s Hs ->; auto) H1 ltac:(apply N.mod_lt; lia)) as [_ H2].
  rewrite Hw2 in H2. injection H2 as H2. rewrite N.add_mod_idemp_l in H2 by lia.
  set (k := N.of_nat (length (nonces_of e c1 l (tx_who t)))) in *.
  assert (Hlt : tx_nonce t < 2 ^ 32) by (rewrite H2; apply N.mod_lt; lia).
  destruct (N.lt_ge_cases (1 + k) (2 ^ 32)) as [Hk|]; [exfalso|assumption].
  destruct (N.lt_ge_cases (tx_nonce t + 1 + k) (2 ^ 32)).
  - rewrite N.mod_small in H2 by assumption. lia.
  - assert (Hm : (tx_nonce t + 1 + k) mod 2 ^ 32 = tx_nonce t + 1 + k - 2 ^ 32).
    { replace (tx_nonce t + 1 + k) with (tx_nonce t + 1 + k - 2 ^ 32 + 1 * 2 ^ 32) at 1 by lia.
      rewrite N.mod_add by lia. apply N.mod_small. lia. }
    lia.
Qed.

(** Transactions of an account are included in the order of their nonces. *)
Lemma in_order e c l who n : ch_nonces c !! who = Some n -> n < 2 ^ 32 -> ~ In (TxReap who) l ->
  nonces_of e c l who = map (fun k => (n + N.of_nat k) mod 2 ^ 32) (seq 0 (length (nonces_of e c l who))).
Proof. intros Hn Hlt Hno. apply (nonces_run e who l c n); auto. intros s Hs ->. auto. Qed.

(** Hashes stored are those of earlier blocks, and only recent ones. *)
Definition hashes_ok (e : tenv) (c : chain) : Prop :=
  1 <= ch_number c /\ ch_hashes c !! 0 = Some (te_hash e 0) /\
  forall b h, ch_hashes c !! b = Some h -> h = te_hash e b /\ b < ch_number c /\ (b = 0 \/ ch_number c <= b + 4097).

Lemma hashes_step e c s : hashes_ok e c -> hashes_ok e (do_tstep e c s).
Proof.
  intros (H1 & H0 & H). destruct s as [t| |a|a|sp tv]; cbn [do_tstep].
  - destruct (apply_tx e c t) as [c'|] eqn:E; cbn [default from_option id]; [|unfold hashes_ok; auto].
    destruct (apply_inv _ _ _ _ E) as (_ & _ & En & Eh & _). unfold id, hashes_ok. rewrite En, Eh. auto.
  - unfold hashes_ok, next_block. cbn [ch_number ch_hashes].
    set (h := if _ =? 0 then _ else _).
    assert (Hh0 : h !! 0 = Some (te_hash e 0)).
    { unfold h. destruct (N.eqb_spec (ch_number c - block_hash_count - 1) 0); [auto|]. rewrite lookup_delete_ne; auto. }
    assert (Hh : forall b x, h !! b = Some x -> x = te_hash e b /\ b < ch_number c /\ (b = 0 \/ ch_number c + 1 <= b + 4097)).
    { intros b x Hb. unfold h in Hb. unfold block_hash_count in *.
      destruct (N.eqb_spec (ch_number c - 4096 - 1) 0) as [Hz|Hz].
      - destruct (H b x Hb) as (-> & Hlt & Hr). split_and!; auto. lia.
      - destruct (N.eq_dec b (ch_number c - 4096 - 1)) as [->|Hne].
        + rewrite lookup_delete in Hb. discriminate.
        + rewrite lookup_delete_ne in Hb by auto. destruct (H b x Hb) as (-> & Hlt & Hr). split_and!; auto. lia. }
    split_and!.
    + lia.
    + rewrite lookup_insert_ne by lia. exact Hh0.
    + intros b x Hb. destruct (N.eq_dec b (ch_number c)) as [->|Hne].
      * rewrite lookup_insert in Hb. injection Hb as <-. split_and!; auto; lia.
      * rewrite lookup_insert_ne in Hb by auto. destruct (Hh b x Hb) as (-> & Hlt & Hr). split_and!; auto. lia.
  - destruct (ch_nonces c !! a); unfold hashes_ok; cbn; auto.
  - unfold hashes_ok; cbn; auto.
  - unfold hashes_ok; cbn; auto.
Qed.

Lemma hashes_run e : forall l c, hashes_ok e c -> hashes_ok e (trun e c l).
Proof. induction l as [|s l IH]; intros c H; [exact H|]. rewrite run_cons. apply IH, hashes_step, H. Qed.

Lemma genesis_hashes e : hashes_ok e (tgenesis e).
Proof.
  unfold hashes_ok, tgenesis. cbn [ch_number ch_hashes]. split_and!.
  - lia.
  - apply lookup_insert.
  - intros b h Hb. apply lookup_singleton_Some in Hb as [<- <-]. split_and!; auto. lia.
Qed.

Lemma birth_bound period phase n : 0 < period -> era_birth (Mortal period phase) n <= N.max n phase /\ N.max n phase < era_birth (Mortal period phase) n + period.
Proof.
  intros Hp. cbn [era_birth].
  pose proof (N.mul_div_le (N.max n phase - phase) period ltac:(lia)).
  pose proof (N.mul_succ_div_gt (N.max n phase - phase) period ltac:(lia)).
  rewrite (N.mul_comm _ period). lia.
Qed.

(** What is included was signed for this chain, these versions and this time. *)
Lemma only_as_signed e l t : let c := trun e (tgenesis e) l in
  (forall p f, tx_era t = Mortal p f -> 0 < p) -> included e c t ->
  in_scope e (ch_number c) (ch_spec c) (ch_txv c) t.
Proof.
  cbn zeta. intros Hp [c' Ha].
  pose proof (hashes_run e l _ (genesis_hashes e)) as (H1 & H0 & H).
  set (c := trun e (tgenesis e) l) in *.
  apply apply_inv in Ha as (Hs & _). unfold signature_holds in Hs. rewrite H0 in Hs.
  destruct (ch_hashes c !! era_birth (tx_era t) (ch_number c)) as [h|] eqn:Eh; [|discriminate].
  repeat (apply andb_prop in Hs as [Hs ?]).
  repeat match goal with X : (_ =? _) = true |- _ => apply N.eqb_eq in X end.
  destruct (H _ _ Eh) as (Eh' & Hb & Hr).
  unfold in_scope. split_and!; auto.
  destruct (tx_era t) as [|p f] eqn:Ee.
  - cbn [era_birth] in Eh'. congruence.
  - exists (era_birth (Mortal p f) (ch_number c)).
    destruct (birth_bound p f (ch_number c) (Hp _ _ eq_refl)). split_and!; auto; [congruence|lia].
Qed.

(** Eras that can be sent have a period. *)
Lemma decoded_era enc p f : decode_era enc = Some (Mortal p f) -> 4 <= p <= 65536 /\ f < p.
Proof.
  unfold decode_era. cbv zeta.
  assert (Hq : 2 * 2 ^ (enc mod 16) <= 65536).
  { assert (enc mod 16 <= 15) by (pose proof (N.mod_lt enc 16 ltac:(lia)); lia).
    assert (Hm : 2 ^ (enc mod 16) <= 2 ^ 15) by (apply N.pow_le_mono_r; lia). change (2 ^ 15) with 32768 in Hm. lia. }
  revert Hq. generalize (2 * 2 ^ (enc mod 16)). intros q Hq H.
  destruct ((4 <=? q) && (enc / 16 * N.max (q / 4096) 1 <? q)) eqn:E; [|discriminate].
  injection H as <- <-. apply andb_prop in E as [E1 E2]. apply N.leb_le in E1. apply N.ltb_lt in E2. auto.
Qed.

(** A mortal transaction and its time are fixed by its hash: inclusions lie less than a period, and never more than 4096 blocks, apart. *)
Lemma mortal_window e l1 l2 t p f : distinct_hashes e -> tx_era t = Mortal p f -> 0 < p ->
  included e (trun e (tgenesis e) l1) t -> included e (trun e (tgenesis e) (l1 ++ l2)) t ->
  ch_number (trun e (tgenesis e) (l1 ++ l2)) < ch_number (trun e (tgenesis e) l1) + p.
Proof.
  intros Hd Ee Hp H1 H2.
  pose proof (only_as_signed e l1 t ltac:(intros ? ? E; congruence) H1) as (_ & _ & _ & S1).
  pose proof (only_as_signed e (l1 ++ l2) t ltac:(intros ? ? E; congruence) H2) as (_ & _ & _ & S2).
  rewrite Ee in S1, S2. destruct S1 as (b1 & E1 & L1 & U1 & _), S2 as (b2 & E2 & L2 & U2 & _).
  rewrite E1 in E2. apply Hd in E2. subst b2. lia.
Qed.

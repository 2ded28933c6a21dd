(** What each successful payment call does: inversion lemmas and ledger effects. *)
From Verif Require Import BaseProofs XcmTypes OriginTypes FeesModel LedgerModel PaymentsModel PaymentsSpec LedgerProofs FeesProofs.
From stdpp Require Import gmap.
Open Scope N_scope.

Lemma pbind_ok {A B} (r : presult A) (f : A -> presult B) x : pbind r f = POk x -> exists a, r = POk a /\ f a = POk x.
Proof. destruct r; cbn; [eauto|done]. Qed.
Lemma ok_or_ok {A} (o : option A) er a : ok_or o er = POk a -> o = Some a.
Proof. destruct o; cbn; congruence. Qed.
Lemma ensure_ok b er u : ensure b er = POk u -> b = true.
Proof. destruct b; done. Qed.

Ltac pinv H :=
  let a := fresh "v" in let Ha := fresh "Hv" in
  apply pbind_ok in H as (a & Ha & H);
  first [ apply ok_or_ok in Ha | apply ensure_ok in Ha | idtac ].

Record created (c : pconfig) (e : penv) (st : pstate) (s ben id a amount : N) (ps : pay_state) (remark : option (list N)) (d : detail) : Prop := {
  cr_id : env_next_id e = Some id;
  cr_old : forall d0, st_pays st !! (s, id) = Some d0 -> d_state d0 = PaymentRequested;
  cr_d : d = Detail a amount ben (percent_mul_floor (cfg_incentive_pct c) amount) ps (env_fees e a s ben amount remark);
}.

Lemma create_payment_inv c e st s ben a amount ps remark st' id d :
  create_payment c e st s ben a amount ps remark = POk (st', id, d) ->
  created c e st s ben id a amount ps remark d /\
  st' = PState (st_ledger st) (<[(s, id) := d]> (st_pays st)) (<[id := (s, ben)]> (st_parties st)) (st_agenda st) (st_now st).
Proof.
  unfold create_payment. intros H. pinv H. pinv H. injection H as <- <- <-.
  split; [|done]. constructor; [done| |done].
  intros d0 H0. rewrite H0 in Hv0. by apply bool_decide_eq_true in Hv0.
Qed.

Lemma pay_inv c e st o b a amount remark st' :
  pay c e st o b a amount remark = POk st' ->
  exists s ben id d l1 l2, cfg_sender_origin c o = Some s /\ cfg_lookup c b = Some ben /\
    created c e st s ben id a amount Created remark d /\
    ledger_hold (env_ext e) (st_ledger st) a s (total_hold d false) = Some l1 /\
    ledger_transfer_hold (env_ext e) l1 a s ben amount = Some l2 /\
    st' = PState l2 (<[(s, id) := d]> (st_pays st)) (<[id := (s, ben)]> (st_parties st)) (st_agenda st) (st_now st).
Proof.
  unfold pay. intros H. pinv H. pinv H. pinv H. destruct v1 as [[st1 id] d].
  apply create_payment_inv in Hv1 as [Hc ->]. pinv H. injection H as <-.
  unfold reserve_payment_amount in Hv1. cbn [st_ledger] in Hv1. pinv Hv1. apply ok_or_ok in Hv1.
  pose proof (cr_d _ _ _ _ _ _ _ _ _ _ _ Hc) as Hd. rewrite Hd in Hv2, Hv1. cbn [d_asset d_beneficiary d_amount] in Hv2, Hv1.
  rewrite <-Hd in Hv2. exists v, v0, id, d, v2, v1. done.
Qed.

Lemma request_payment_inv c e st o b a amount st' :
  request_payment c e st o b a amount = POk st' ->
  exists s ben id d, cfg_beneficiary_origin c o = Some ben /\ cfg_lookup c b = Some s /\
    created c e st s ben id a amount PaymentRequested None d /\
    st' = PState (st_ledger st) (<[(s, id) := d]> (st_pays st)) (<[id := (s, ben)]> (st_parties st)) (st_agenda st) (st_now st).
Proof.
  unfold request_payment. intros H. pinv H. pinv H. pinv H. destruct v1 as [[st1 id] d].
  apply create_payment_inv in Hv1 as [Hc ->]. injection H as <-. naive_solver.
Qed.

Lemma settle_inv e st s ben id md st' :
  settle_payment e st s ben id md = POk st' ->
  exists d l1 l2 l3 l4 l5, st_pays st !! (s, id) = Some d /\
    let dis := match md with Some _ => true | None => false end in
    ledger_release (env_ext e) (st_ledger st) (d_asset d) s (total_hold d dis) = Some l1 /\
    ledger_release (env_ext e) l1 (d_asset d) ben (if dis then sat128 (d_amount d + d_incentive d) else d_amount d) = Some l2 /\
    try_transfer_fees e l2 s (d_asset d) (fmerge (sender_pays (d_fees d))) dis = POk l3 /\
    try_transfer_fees e l3 ben (d_asset d) (fmerge (beneficiary_pays (d_fees d))) dis = POk l4 /\
    match md with None => l5 = l4 | Some (r, resolver) => split_dispute e l4 s ben d r resolver = POk l5 end /\
    st' = with_pay (with_ledger st l5) (s, id) (set_state d Finished).
Proof.
  unfold settle_payment. intros H. pinv H.
  assert (Hm : forall r b, fst (fst (summary_for (d_fees v) r b)) =
    fmerge (match r with RSender => sender_pays (d_fees v) | RBeneficiary => beneficiary_pays (d_fees v) end)).
  { intros r b. unfold summary_for. destruct b; [rewrite get_summary_true|rewrite get_summary_false]; done. }
  pose proof (Hm RSender (match md with Some _ => true | None => false end)) as Hs.
  pose proof (Hm RBeneficiary (match md with Some _ => true | None => false end)) as Hb.
  destruct (summary_for (d_fees v) RSender _) as [[fs x1] x2]. cbn [fst] in Hs. subst fs.
  pinv H. destruct (summary_for (d_fees v) RBeneficiary _) as [[fb x3] x4]. cbn [fst] in Hb. subst fb.
  pinv H. pinv H. pinv H. pinv H. injection H as <-.
  exists v, v0, v1, v2, v3, v4. cbn zeta. split_and!; try done.
  destruct md as [[r rs]|]; [done|]. by injection Hv4.
Qed.

Lemma release_inv c e st o id st' :
  release c e st o id = POk st' ->
  exists s d, cfg_sender_origin c o = Some s /\ st_pays st !! (s, id) = Some d /\ d_state d = Created /\
    settle_payment e st s (d_beneficiary d) id None = POk st'.
Proof.
  unfold release. intros H. pinv H. pinv H. pinv H. apply bool_decide_eq_true in Hv1. eauto 10.
Qed.

Lemma request_refund_inv c e st o id st' :
  request_refund c e st o id = POk st' ->
  exists s d, cfg_sender_origin c o = Some s /\ st_pays st !! (s, id) = Some d /\ d_state d = Created /\
    st_now st < st_now st + cfg_cancel_buffer c /\ st_now st + cfg_cancel_buffer c <= u32_max /\ st_agenda st !! id = None /\
    env_sched_ok e = true /\
    st' = PState (st_ledger st) (<[(s, id) := set_state d (RefundRequested (st_now st + cfg_cancel_buffer c))]> (st_pays st))
            (st_parties st) (<[id := (st_now st + cfg_cancel_buffer c, d_beneficiary d)]> (st_agenda st)) (st_now st).
Proof.
  unfold request_refund. intros H. pinv H. pinv H. pinv H. pinv H. pinv H. injection H as <-.
  apply bool_decide_eq_true in Hv1. apply N.leb_le in Hv2.
  apply andb_true_iff in Hv3 as [Hv3 Hv4]. apply andb_true_iff in Hv3 as [Hv3 Hv5]. apply N.ltb_lt in Hv5.
  destruct (st_agenda st !! id) eqn:E; [done|]. exists v, v0. done.
Qed.

Lemma accept_and_pay_inv c e st o id st' :
  accept_and_pay c e st o id = POk st' ->
  exists s p ben d l1 l2 l3, cfg_sender_origin c o = Some s /\ st_parties st !! id = Some (p, ben) /\ st_pays st !! (s, id) = Some d /\
    try_transfer_fees e (st_ledger st) s (d_asset d) (fmerge (sender_pays (d_fees d))) false = POk l1 /\
    ledger_transfer (env_ext e) l1 (d_asset d) s ben (d_amount d) Expendable = Some l2 /\
    try_transfer_fees e l2 ben (d_asset d) (fmerge (beneficiary_pays (d_fees d))) false = POk l3 /\
    st' = with_pay (with_ledger st l3) (s, id) (set_state d Finished).
Proof.
  unfold accept_and_pay. intros H. pinv H. pinv H. pinv H.
  unfold summary_for in H. rewrite !get_summary_false in H.
  pinv H. pinv H. pinv H. injection H as <-. destruct v0 as [p ben].
  exists v, p, ben, v1, v2, v3, v4. done.
Qed.

Lemma cancel_inv c e st o id st' :
  cancel_call c e st o id = POk st' ->
  exists s ben d l, cfg_beneficiary_origin c o = Some ben /\ st_parties st !! id = Some (s, ben) /\ st_pays st !! (s, id) = Some d /\
    (d_state d = Created \/ exists cb, d_state d = RefundRequested cb) /\
    cancel_payment e (st_ledger st) s d = POk l /\
    st' = PState l (delete (s, id) (st_pays st)) (delete id (st_parties st)) (st_agenda st) (st_now st).
Proof.
  unfold cancel_call. intros H. pinv H. pinv H. destruct v0 as [s b]. pinv H. pinv H.
  apply N.eqb_eq in Hv1. subst b. pinv H. injection H as <-.
  destruct (d_state v1) eqn:E; try done; exists s, v, v1, v2; split_and!; eauto.
Qed.

Lemma cancel_payment_inv e l s d l' :
  cancel_payment e l s d = POk l' ->
  exists l1 l2, ledger_release (env_ext e) l (d_asset d) s (total_hold d false) = Some l1 /\
    ledger_release (env_ext e) l1 (d_asset d) (d_beneficiary d) (d_amount d) = Some l2 /\
    ledger_transfer (env_ext e) l2 (d_asset d) (d_beneficiary d) s (d_amount d) Expendable = Some l'.
Proof. unfold cancel_payment. intros H. pinv H. pinv H. apply ok_or_ok in H. eauto. Qed.

Lemma dispute_refund_inv c e st o id st' :
  dispute_refund c e st o id = POk st' ->
  exists s ben d cb l due, cfg_beneficiary_origin c o = Some ben /\ st_parties st !! id = Some (s, ben) /\ st_pays st !! (s, id) = Some d /\
    d_state d = RefundRequested cb /\ st_now st < cb /\ st_agenda st !! id = Some due /\
    ledger_hold (env_ext e) (st_ledger st) (d_asset d) ben (d_incentive d) = Some l /\
    st' = PState l (<[(s, id) := set_state d NeedsReview]> (st_pays st)) (st_parties st) (delete id (st_agenda st)) (st_now st).
Proof.
  unfold dispute_refund. intros H. pinv H. pinv H. destruct v0 as [s b]. pinv H. pinv H.
  apply N.eqb_eq in Hv1. subst b. pinv H. destruct (d_state v1) eqn:E; try done. injection Hv1 as <-.
  pinv H. apply N.ltb_lt in Hv1. pinv H. pinv H. injection H as <-.
  destruct (st_agenda st !! id) as [due|] eqn:E2; [|done].
  exists s, v, v1, cancel_block, v3, due. done.
Qed.

Lemma resolve_dispute_inv c e st o id r st' :
  resolve_dispute c e st o id r = POk st' ->
  exists resolver s ben d, cfg_resolver_origin c o = Some resolver /\ st_parties st !! id = Some (s, ben) /\ st_pays st !! (s, id) = Some d /\
    d_state d = NeedsReview /\ settle_payment e st s ben id (Some (r, resolver)) = POk st'.
Proof.
  unfold resolve_dispute. intros H. pinv H. pinv H. destruct v0 as [s b]. pinv H. pinv H.
  apply bool_decide_eq_true in Hv2. eauto 10.
Qed.

(* ------------------------------------------------------------------ *)
(** * Effects on the ledger *)

(** The fees that are charged from a merged list. *)
Definition charged (dis : bool) (m : list fee) : list fee := if dis then mandatory_fees m else m.

Definition fees_in (a : N) (l : list fee) : N -> N -> N := fun a' x => ind (a =? a') (fees_to x l).

Lemma effect_eq l l' fo fi ho hi du fo' fi' ho' hi' du' :
  effect l l' fo fi ho hi du ->
  (forall a x, fo a x = fo' a x) -> (forall a x, fi a x = fi' a x) ->
  (forall a x, ho a x = ho' a x) -> (forall a x, hi a x = hi' a x) -> (forall a, du a = du' a) ->
  effect l l' fo' fi' ho' hi' du'.
Proof.
  intros (A1 & A2 & A3 & A4) E1 E2 E3 E4 E5. unfold effect. split_and!; intros.
  - rewrite <-E1, <-E2. apply A1.
  - rewrite <-E3, <-E4. apply A2.
  - rewrite <-E5. apply A3.
  - rewrite <-E5. apply A4.
Qed.

Ltac fin := intros; unfold plus2, plus1, at2, at1, none2, none1, fees_in in *; cases_ind; try lia.

Lemma try_transfer_fees_effect e l from a m dis l' :
  try_transfer_fees e l from a m dis = POk l' ->
  effect l l' (at2 a from (fee_sum (charged dis m))) (fees_in a (charged dis m)) none2 none2 none1.
Proof.
  revert l. induction m as [|f m IH]; intros l; cbn [try_transfer_fees].
  - intros [= <-]. destruct dis; eapply effect_eq; try apply effect_refl; fin;
      unfold charged, mandatory_fees; rewrite ?filter_nil, ?fee_sum_nil, ?fees_to_nil; lia.
  - destruct (negb dis || fee_mandatory f) eqn:E.
    + intros H. pinv H. apply transfer_effect in Hv as (b & He & Hb1 & Hb2 & Hb3 & Hb4).
      specialize (Hb3 eq_refl). subst b. apply IH in H.
      pose proof (effect_trans _ _ _ _ _ _ _ _ _ _ _ _ _ He H) as Ht.
      assert (Hc : charged dis (f :: m) = f :: charged dis m).
      { unfold charged. destruct dis; [|done]. rewrite mandatory_cons. cbn [negb orb] in E. by rewrite E. }
      rewrite Hc. eapply effect_eq; [exact Ht|..]; intros; unfold plus2, plus1, at2, at1, none2, none1, fees_in;
        rewrite ?fee_sum_cons, ?fees_to_cons; cases_ind; lia.
    + intros H. apply IH in H.
      assert (Hc : charged dis (f :: m) = charged dis m).
      { unfold charged. destruct dis; [|done]. rewrite mandatory_cons. cbn [negb orb] in E. by rewrite E. }
      by rewrite Hc.
Qed.

Lemma pay_effect c e st o b a amount remark st' :
  pay c e st o b a amount remark = POk st' ->
  exists s ben id d, cfg_sender_origin c o = Some s /\ cfg_lookup c b = Some ben /\
    created c e st s ben id a amount Created remark d /\
    st_pays st' = <[(s, id) := d]> (st_pays st) /\ st_parties st' = <[id := (s, ben)]> (st_parties st) /\
    st_agenda st' = st_agenda st /\ st_now st' = st_now st /\
    effect (st_ledger st) (st_ledger st') (plus2 (at2 a s (total_hold d false)) (at2 a s amount)) none2
      none2 (plus2 (at2 a s (total_hold d false)) (at2 a ben amount)) none1 /\
    (forall a' x, held (st_ledger st) a' x <= u128_max -> held (st_ledger st') a' x <= u128_max).
Proof.
  intros H. apply pay_inv in H as (s & ben & id & d & l1 & l2 & Hs & Hb & Hc & H1 & H2 & ->).
  apply hold_effect in H1 as (E1 & B1 & B2). apply transfer_hold_effect in H2 as (E2 & B3 & B4).
  exists s, ben, id, d. split_and!; try done; cbn [st_ledger].
  - eapply effect_eq; [exact (effect_trans _ _ _ _ _ _ _ _ _ _ _ _ _ E1 E2)|..]; fin.
  - intros a' x Hx. destruct E1 as (_ & E1 & _), E2 as (_ & E2 & _).
    pose proof (E1 a' x) as F1. pose proof (E2 a' x) as F2. pose proof (E1 a ben) as F3. pose proof (E2 a ben) as F4.
    unfold at2, none2 in *. rewrite !N.eqb_refl in *. cbn [andb] in *.
    cases_ind; lia.
Qed.

Lemma release_call_effect c e st o id st' :
  release c e st o id = POk st' ->
  exists s d, cfg_sender_origin c o = Some s /\ st_pays st !! (s, id) = Some d /\ d_state d = Created /\
    st_pays st' = <[(s, id) := set_state d Finished]> (st_pays st) /\ st_parties st' = st_parties st /\
    st_agenda st' = st_agenda st /\ st_now st' = st_now st /\
    effect (st_ledger st) (st_ledger st')
      (plus2 (at2 (d_asset d) s (fee_sum (fmerge (sender_pays (d_fees d)))))
             (at2 (d_asset d) (d_beneficiary d) (fee_sum (fmerge (beneficiary_pays (d_fees d))))))
      (plus2 (plus2 (at2 (d_asset d) s (total_hold d false)) (at2 (d_asset d) (d_beneficiary d) (d_amount d)))
             (plus2 (fees_in (d_asset d) (fmerge (sender_pays (d_fees d)))) (fees_in (d_asset d) (fmerge (beneficiary_pays (d_fees d))))))
      (plus2 (at2 (d_asset d) s (total_hold d false)) (at2 (d_asset d) (d_beneficiary d) (d_amount d))) none2 none1.
Proof.
  intros H. apply release_inv in H as (s & d & Hs & Hp & Hst & H).
  apply settle_inv in H as (d' & l1 & l2 & l3 & l4 & l5 & Hp' & H). rewrite Hp in Hp'. injection Hp' as <-. cbn zeta in H.
  destruct H as (H1 & H2 & H3 & H4 & -> & ->).
  apply release_effect in H1 as (E1 & _). apply release_effect in H2 as (E2 & _).
  apply try_transfer_fees_effect in H3 as E3. apply try_transfer_fees_effect in H4 as E4. cbn [charged] in *.
  exists s, d. split_and!; try done. cbn.
  pose proof (effect_trans _ _ _ _ _ _ _ _ _ _ _ _ _ (effect_trans _ _ _ _ _ _ _ _ _ _ _ _ _ (effect_trans _ _ _ _ _ _ _ _ _ _ _ _ _ E1 E2) E3) E4) as E.
  eapply effect_eq; [exact E|..]; intros; unfold plus2, plus1, none2, none1; lia.
Qed.

(** [b] is burnt from the beneficiary's remaining free balance. *)
Lemma cancel_effect c e st o id st' :
  cancel_call c e st o id = POk st' ->
  exists s d ben b, cfg_beneficiary_origin c o = Some ben /\ st_parties st !! id = Some (s, ben) /\ st_pays st !! (s, id) = Some d /\
    (d_state d = Created \/ exists cb, d_state d = RefundRequested cb) /\
    st_pays st' = delete (s, id) (st_pays st) /\ st_parties st' = delete id (st_parties st) /\
    st_agenda st' = st_agenda st /\ st_now st' = st_now st /\
    effect (st_ledger st) (st_ledger st')
      (at2 (d_asset d) (d_beneficiary d) b)
      (plus2 (at2 (d_asset d) s (total_hold d false)) (at2 (d_asset d) s (d_amount d)))
      (plus2 (at2 (d_asset d) s (total_hold d false)) (at2 (d_asset d) (d_beneficiary d) (d_amount d))) none2 (at1 (d_asset d) b) /\
    (b = 0 \/ b < ext_min_balance (env_ext e) (d_asset d)).
Proof.
  intros H. apply cancel_inv in H as (s & ben & d & l & Ho & Hpa & Hp & Hst & H & ->).
  apply cancel_payment_inv in H as (l1 & l2 & H1 & H2 & H3).
  apply release_effect in H1 as (E1 & _). apply release_effect in H2 as (E2 & _).
  apply transfer_effect in H3 as (b & E3 & _ & Hb & _ & Hbs & _).
  exists s, d, ben, b. split_and!; try done. cbn [st_ledger].
  destruct (effect_trans _ _ _ _ _ _ _ _ _ _ _ _ _ (effect_trans _ _ _ _ _ _ _ _ _ _ _ _ _ E1 E2) E3) as (A1 & A2 & A3 & A4).
  unfold effect, plus2, plus1, none2, none1 in *. split_and!; intros.
  - specialize (A1 a x). lia.
  - specialize (A2 a x). lia.
  - specialize (A3 a). lia.
  - specialize (A4 a). lia.
Qed.

Lemma dispute_effect c e st o id st' :
  dispute_refund c e st o id = POk st' ->
  exists s ben d cb due, cfg_beneficiary_origin c o = Some ben /\ st_parties st !! id = Some (s, ben) /\ st_pays st !! (s, id) = Some d /\
    d_state d = RefundRequested cb /\ st_now st < cb /\ st_agenda st !! id = Some due /\
    st_pays st' = <[(s, id) := set_state d NeedsReview]> (st_pays st) /\ st_parties st' = st_parties st /\
    st_agenda st' = delete id (st_agenda st) /\ st_now st' = st_now st /\
    effect (st_ledger st) (st_ledger st') (at2 (d_asset d) ben (d_incentive d)) none2 none2 (at2 (d_asset d) ben (d_incentive d)) none1 /\
    (forall a' x, held (st_ledger st) a' x <= u128_max -> held (st_ledger st') a' x <= u128_max).
Proof.
  intros H. apply dispute_refund_inv in H as (s & ben & d & cb & l & due & Ho & Hpa & Hp & Hst & Hn & Hag & H & ->).
  apply hold_effect in H as (E1 & B1 & B2).
  exists s, ben, d, cb, due. split_and!; try done. cbn [st_ledger].
  intros a' x Hx. destruct E1 as (_ & E1 & _). pose proof (E1 a' x) as F1.
  unfold at2, none2 in *. cases_ind; lia.
Qed.

(** [b1], [b2] are burnt by the two expendable transfers of the split. *)
Definition dispute_loser (r : dispute_result) (s ben : N) : N := match in_favor_of r with RSender => ben | RBeneficiary => s end.
Definition dispute_to_sender (r : dispute_result) (d : detail) : N :=
  match in_favor_of r with
  | RSender => percent_mul_floor (percent_beneficiary r) (d_amount d)
  | RBeneficiary => d_amount d - percent_mul_floor (percent_beneficiary r) (d_amount d)
  end.

Lemma resolve_effect c e st o id r st' :
  resolve_dispute c e st o id r = POk st' ->
  exists resolver s ben d b1 b2, cfg_resolver_origin c o = Some resolver /\ st_parties st !! id = Some (s, ben) /\ st_pays st !! (s, id) = Some d /\
    d_state d = NeedsReview /\
    st_pays st' = <[(s, id) := set_state d Finished]> (st_pays st) /\ st_parties st' = st_parties st /\
    st_agenda st' = st_agenda st /\ st_now st' = st_now st /\
    effect (st_ledger st) (st_ledger st')
      (plus2 (plus2 (plus2 (at2 (d_asset d) s (fee_sum (mandatory_fees (fmerge (sender_pays (d_fees d))))))
                           (at2 (d_asset d) ben (fee_sum (mandatory_fees (fmerge (beneficiary_pays (d_fees d)))))))
                    (plus2 (at2 (d_asset d) (dispute_loser r s ben) (d_incentive d)) (at2 (d_asset d) ben (dispute_to_sender r d))))
             (plus2 (at2 (d_asset d) (dispute_loser r s ben) b1) (at2 (d_asset d) ben b2)))
      (plus2 (plus2 (plus2 (at2 (d_asset d) s (total_hold d true)) (at2 (d_asset d) ben (sat128 (d_amount d + d_incentive d))))
                    (plus2 (at2 (d_asset d) resolver (d_incentive d)) (at2 (d_asset d) s (dispute_to_sender r d))))
             (plus2 (fees_in (d_asset d) (mandatory_fees (fmerge (sender_pays (d_fees d)))))
                    (fees_in (d_asset d) (mandatory_fees (fmerge (beneficiary_pays (d_fees d)))))))
      (plus2 (at2 (d_asset d) s (total_hold d true)) (at2 (d_asset d) ben (sat128 (d_amount d + d_incentive d)))) none2
      (plus1 (at1 (d_asset d) b1) (at1 (d_asset d) b2)) /\
    (b1 = 0 \/ b1 < ext_min_balance (env_ext e) (d_asset d)) /\ (b2 = 0 \/ b2 < ext_min_balance (env_ext e) (d_asset d)) /\
    total_hold d true <= held (st_ledger st) (d_asset d) s.
Proof.
  intros H. apply resolve_dispute_inv in H as (resolver & s & ben & d & Ho & Hpa & Hp & Hst & H).
  apply settle_inv in H as (d' & l1 & l2 & l3 & l4 & l5 & Hp' & H). rewrite Hp in Hp'. injection Hp' as <-. cbn zeta in H.
  destruct H as (H1 & H2 & H3 & H4 & H5 & ->).
  apply release_effect in H1 as (E1 & Hh). apply release_effect in H2 as (E2 & _).
  apply try_transfer_fees_effect in H3 as E3. apply try_transfer_fees_effect in H4 as E4. cbn [charged] in *.
  assert (H6 : exists l6, ledger_transfer (env_ext e) l4 (d_asset d) (dispute_loser r s ben) resolver (d_incentive d) Expendable = Some l6 /\
     ledger_transfer (env_ext e) l6 (d_asset d) ben s (dispute_to_sender r d) Expendable = Some l5).
  { unfold split_dispute, dispute_loser, dispute_to_sender in *. destruct (in_favor_of r).
    - pinv H5. apply ok_or_ok in H5. eauto.
    - pinv H5. apply ok_or_ok in H5. eauto. }
  destruct H6 as (l6 & H6 & H7).
  apply transfer_effect in H6 as (b1 & E6 & _ & Hb1 & _). apply transfer_effect in H7 as (b2 & E7 & _ & Hb2 & _).
  exists resolver, s, ben, d, b1, b2. split_and!; try done. cbn.
  pose proof (effect_trans _ _ _ _ _ _ _ _ _ _ _ _ _ (effect_trans _ _ _ _ _ _ _ _ _ _ _ _ _ (effect_trans _ _ _ _ _ _ _ _ _ _ _ _ _ (effect_trans _ _ _ _ _ _ _ _ _ _ _ _ _ (effect_trans _ _ _ _ _ _ _ _ _ _ _ _ _ E1 E2) E3) E4) E6) E7) as E.
  eapply effect_eq; [exact E|..]; intros; unfold plus2, plus1, none2, none1; lia.
Qed.

(** [b] is burnt from the sender's remaining free balance. *)
Lemma accept_effect c e st o id st' :
  accept_and_pay c e st o id = POk st' ->
  exists s p ben d b, cfg_sender_origin c o = Some s /\ st_parties st !! id = Some (p, ben) /\ st_pays st !! (s, id) = Some d /\
    st_pays st' = <[(s, id) := set_state d Finished]> (st_pays st) /\ st_parties st' = st_parties st /\
    st_agenda st' = st_agenda st /\ st_now st' = st_now st /\
    effect (st_ledger st) (st_ledger st')
      (plus2 (plus2 (at2 (d_asset d) s (fee_sum (fmerge (sender_pays (d_fees d)))))
                    (at2 (d_asset d) ben (fee_sum (fmerge (beneficiary_pays (d_fees d))))))
             (plus2 (at2 (d_asset d) s (d_amount d)) (at2 (d_asset d) s b)))
      (plus2 (at2 (d_asset d) ben (d_amount d))
             (plus2 (fees_in (d_asset d) (fmerge (sender_pays (d_fees d)))) (fees_in (d_asset d) (fmerge (beneficiary_pays (d_fees d))))))
      none2 none2 (at1 (d_asset d) b) /\
    (b = 0 \/ b < ext_min_balance (env_ext e) (d_asset d)).
Proof.
  intros H. apply accept_and_pay_inv in H as (s & p & ben & d & l1 & l2 & l3 & Ho & Hpa & Hp & H1 & H2 & H3 & ->).
  apply try_transfer_fees_effect in H1 as E1. apply try_transfer_fees_effect in H3 as E3. cbn [charged] in *.
  apply transfer_effect in H2 as (b & E2 & _ & Hb & _).
  exists s, p, ben, d, b. split_and!; try done. cbn.
  pose proof (effect_trans _ _ _ _ _ _ _ _ _ _ _ _ _ (effect_trans _ _ _ _ _ _ _ _ _ _ _ _ _ E1 E2) E3) as E.
  eapply effect_eq; [exact E|..]; intros; unfold plus2, plus1, none2, none1; lia.
Qed.

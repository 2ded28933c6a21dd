(** Exact balance equations of the payment calls, refund timing and winding up. *)
From Verif Require Import BaseProofs XcmTypes OriginTypes FeesModel LedgerModel PaymentsModel PaymentsSpec LedgerProofs FeesProofs
  PaymentsProofs PaymentsInvariants PaymentsHistories PaymentsTheorems.
From stdpp Require Import gmap sorting.
Open Scope N_scope.

Lemma total_hold_escrow d b : is_open (d_state d) = true -> total_hold d b = sender_escrow d.
Proof. intros H. unfold sender_escrow. by rewrite H, total_hold_eq. Qed.

Lemma at2_asset a x n y : at2 a x n a y = ind (x =? y) n.
Proof. unfold at2. by rewrite N.eqb_refl. Qed.
Lemma at2_other a x n a' y : a <> a' -> at2 a x n a' y = 0.
Proof. intros H. unfold at2. by destruct (N.eqb_spec a a'). Qed.
Lemma fees_in_asset a l y : fees_in a l a y = fees_to y l.
Proof. unfold fees_in. by rewrite N.eqb_refl. Qed.
Lemma fees_in_other a l a' y : a <> a' -> fees_in a l a' y = 0.
Proof. intros H. unfold fees_in. by destruct (N.eqb_spec a a'). Qed.

Ltac other_asset :=
  repeat match goal with
         | H : context[at2 ?b ?y ?n ?a ?x] |- _ => rewrite (at2_other b y n a x) in H by congruence
         | H : context[fees_in ?b ?l ?a ?x] |- _ => rewrite (fees_in_other b l a x) in H by congruence
         end.

(** Paying: exact effect. *)
Lemma pay_exact c e st o b a amount remark st' :
  dispatch c e st o (CPay b a amount remark) = POk st' ->
  exists s ben id d, cfg_sender_origin c o = Some s /\ cfg_lookup c b = Some ben /\ env_next_id e = Some id /\
    st_pays st' !! (s, id) = Some d /\ d_state d = Created /\ d_asset d = a /\ d_amount d = amount /\ d_beneficiary d = ben /\
    d_incentive d = share (cfg_incentive_pct c) amount /\ d_fees d = env_fees e a s ben amount remark /\
    st_parties st' !! id = Some (s, ben) /\
    (forall x, free (st_ledger st') a x + ind (x =? s) (sender_escrow d + amount) = free (st_ledger st) a x) /\
    (forall x, held (st_ledger st') a x = held (st_ledger st) a x + ind (x =? s) (sender_escrow d) + ind (x =? ben) amount) /\
    (forall a' x, a' <> a -> free (st_ledger st') a' x = free (st_ledger st) a' x /\ held (st_ledger st') a' x = held (st_ledger st) a' x).
Proof.
  cbn. intros H. apply pay_effect in H as (s & ben & id & d & Hs & Hb & Hc & Hp & Hpa & _ & _ & (Ef & Eh & _ & _) & _).
  pose proof (cr_d _ _ _ _ _ _ _ _ _ _ _ Hc) as Hd.
  exists s, ben, id, d. rewrite Hp, Hpa, !lookup_insert.
  assert (Ho : total_hold d false = sender_escrow d) by (apply total_hold_escrow; by rewrite Hd).
  rewrite Ho in *.
  split_and!; try done; try (by rewrite Hd).
  - by eapply cr_id.
  - rewrite Hd; cbn. unfold percent_mul_floor, share. f_equal. lia.
  - intros x. specialize (Ef a x). unfold plus2, none2 in Ef. rewrite !at2_asset in Ef. rewrite (N.eqb_sym x s).
    destruct (s =? x); cbn [ind] in *; lia.
  - intros x. specialize (Eh a x). unfold plus2, none2 in Eh. rewrite !at2_asset in Eh. rewrite (N.eqb_sym x s), (N.eqb_sym x ben). lia.
  - intros a' x Hne. specialize (Ef a' x). specialize (Eh a' x). unfold plus2, none2 in Ef, Eh.
    other_asset. lia.
Qed.

(** Cancelling: exact effect; [burnt] is dust of the beneficiary. *)
Lemma cancel_exact c e st o id st' :
  reachable c st -> dispatch c e st o (CCancel id) = POk st' ->
  exists s ben d burnt, cfg_beneficiary_origin c o = Some ben /\ st_parties st !! id = Some (s, ben) /\ st_pays st !! (s, id) = Some d /\
    d_beneficiary d = ben /\ (d_state d = Created \/ exists n, d_state d = RefundRequested n) /\
    st_pays st' = delete (s, id) (st_pays st) /\ st_parties st' = delete id (st_parties st) /\
    (burnt = 0 \/ burnt < ext_min_balance (env_ext e) (d_asset d)) /\
    (forall x, free (st_ledger st') (d_asset d) x + ind (x =? ben) burnt =
               free (st_ledger st) (d_asset d) x + ind (x =? s) (sender_escrow d + d_amount d)) /\
    (forall x, held (st_ledger st') (d_asset d) x + ind (x =? s) (sender_escrow d) + ind (x =? ben) (d_amount d) =
               held (st_ledger st) (d_asset d) x) /\
    (forall a x, a <> d_asset d -> free (st_ledger st') a x = free (st_ledger st) a x /\ held (st_ledger st') a x = held (st_ledger st) a x).
Proof.
  cbn. intros Hr H. apply cancel_effect in H as (s & d & ben & b & Ho & Hpa & Hp & Hst & Hps & Hpa' & _ & _ & (Ef & Eh & _ & _) & Hb).
  destruct (reachable_inv c st Hr) as [Hpo _]. destruct (Hpo _ _ _ Hpa) as (d' & Hp' & Hben). rewrite Hp in Hp'. injection Hp' as <-.
  rewrite Hben in *.
  assert (He : total_hold d false = sender_escrow d).
  { apply total_hold_escrow. destruct Hst as [->|[? ->]]; done. }
  rewrite He in *. exists s, ben, d, b. split_and!; try done.
  - intros x. specialize (Ef (d_asset d) x). unfold plus2 in Ef. rewrite !at2_asset in Ef.
    rewrite (N.eqb_sym x s), (N.eqb_sym x ben). destruct (s =? x); cbn [ind] in *; lia.
  - intros x. specialize (Eh (d_asset d) x). unfold plus2, none2 in Eh. rewrite !at2_asset in Eh.
    rewrite (N.eqb_sym x s), (N.eqb_sym x ben). lia.
  - intros a x Hne. specialize (Ef a x). specialize (Eh a x). unfold plus2, none2 in Ef, Eh.
    other_asset. lia.
Qed.

Lemma pay_then_cancel c e1 e2 st o1 o2 b a amount remark id st1 st2 :
  reachable c st ->
  dispatch c e1 st o1 (CPay b a amount remark) = POk st1 -> env_next_id e1 = Some id ->
  dispatch c e2 st1 o2 (CCancel id) = POk st2 ->
  exists s ben burnt, cfg_sender_origin c o1 = Some s /\ cfg_lookup c b = Some ben /\ cfg_beneficiary_origin c o2 = Some ben /\
    (burnt = 0 \/ burnt < ext_min_balance (env_ext e2) a) /\
    (forall a' x, held (st_ledger st2) a' x = held (st_ledger st) a' x) /\
    (forall a' x, free (st_ledger st2) a' x + ind ((a' =? a) && (x =? ben)) burnt = free (st_ledger st) a' x) /\
    st_pays st2 !! (s, id) = None /\ st_parties st2 !! id = None /\
    (forall k, k <> (s, id) -> st_pays st2 !! k = st_pays st !! k).
Proof.
  intros Hr H1 Hid H2.
  assert (Hr1 : reachable c st1).
  { pose proof (reachable_exec c st o1 (CPay b a amount remark) e1 Hr) as Hx. unfold exec in Hx. by rewrite H1 in Hx. }
  pose proof H1 as H1'. cbn in H1'. apply pay_inv in H1' as (s0 & ben0 & id0 & d0 & l1 & l2 & Hs0 & Hb0 & Hc0 & _ & _ & Est1).
  apply pay_exact in H1 as (s & ben & id' & d & Hs & Hb & Hid' & Hp & Hst & Ha & Ham & Hben & _ & _ & Hpa & F1 & G1 & O1).
  rewrite Hid in Hid'. injection Hid' as <-.
  apply cancel_exact in H2 as (s' & ben' & d' & burnt & Ho & Hpa' & Hp' & _ & _ & Hps & Hpas & Hbu & F2 & G2 & O2); [|done].
  rewrite Hpa in Hpa'. injection Hpa' as <- <-. rewrite Hp in Hp'. injection Hp' as <-. rewrite Ha, Ham in *.
  pose proof (cr_id _ _ _ _ _ _ _ _ _ _ _ Hc0) as Hid0. rewrite Hid in Hid0. injection Hid0 as <-.
  rewrite Hs in Hs0. injection Hs0 as <-. rewrite Hb in Hb0. injection Hb0 as <-.
  exists s, ben, burnt. split_and!; try done.
  - intros a' x. destruct (decide (a' = a)) as [->|Hne].
    + specialize (G1 x). specialize (G2 x). lia.
    + destruct (O1 a' x Hne) as [_ ->] || idtac. destruct (O2 a' x Hne) as [_ E2]. destruct (O1 a' x Hne) as [_ E1]. lia.
  - intros a' x. destruct (N.eqb_spec a' a) as [->|Hne]; cbn [andb].
    + specialize (F1 x). specialize (F2 x). destruct (x =? s); cbn [ind] in *; lia.
    + cbn [ind]. destruct (O2 a' x Hne) as [E2 _]. destruct (O1 a' x Hne) as [E1 _]. lia.
  - rewrite Hps. apply lookup_delete.
  - rewrite Hpas. apply lookup_delete.
  - intros k Hk. rewrite Hps, lookup_delete_ne by congruence. rewrite Est1. cbn. by rewrite lookup_insert_ne by congruence.
Qed.

(** Releasing: exact effect. *)
Lemma release_exact c e st o id st' :
  dispatch c e st o (CRelease id) = POk st' ->
  exists s d, cfg_sender_origin c o = Some s /\ st_pays st !! (s, id) = Some d /\ d_state d = Created /\
    st_pays st' = <[(s, id) := set_state d Finished]> (st_pays st) /\
    let ben := d_beneficiary d in let S := sender_pays (d_fees d) in let B := beneficiary_pays (d_fees d) in
    (forall x, held (st_ledger st') (d_asset d) x + ind (x =? s) (sender_escrow d) + ind (x =? ben) (d_amount d) =
               held (st_ledger st) (d_asset d) x) /\
    (fee_sum S <= u128_max -> fee_sum B <= u128_max ->
     forall x, free (st_ledger st') (d_asset d) x + ind (x =? s) (fee_sum S) + ind (x =? ben) (fee_sum B) =
               free (st_ledger st) (d_asset d) x + ind (x =? s) (sender_escrow d) + ind (x =? ben) (d_amount d)
               + fees_to x S + fees_to x B) /\
    (forall a x, a <> d_asset d -> free (st_ledger st') a x = free (st_ledger st) a x /\ held (st_ledger st') a x = held (st_ledger st) a x).
Proof.
  cbn [dispatch]. intros H. apply release_call_effect in H as (s & d & Hs & Hp & Hst & Hps & _ & _ & _ & (Ef & Eh & _ & _)).
  assert (He : total_hold d false = sender_escrow d) by (apply total_hold_escrow; by rewrite Hst).
  rewrite He in *. exists s, d. cbn zeta. split_and!; try done.
  - intros x. specialize (Eh (d_asset d) x). unfold plus2, none2 in Eh. rewrite !at2_asset in Eh.
    rewrite (N.eqb_sym x s), (N.eqb_sym x (d_beneficiary d)). lia.
  - intros HS HB x. specialize (Ef (d_asset d) x). unfold plus2 in Ef. rewrite !at2_asset, !fees_in_asset, !merge_sum, !merge_fees_to in Ef by done.
    pose proof (fees_to_le x (sender_pays (d_fees d))). pose proof (fees_to_le x (beneficiary_pays (d_fees d))).
    assert (Hsat : forall y, y <= u128_max -> sat128 y = y) by (intros; unfold sat128; lia).
    rewrite !Hsat in Ef by lia.
    rewrite (N.eqb_sym x s), (N.eqb_sym x (d_beneficiary d)). lia.
  - intros a x Hne. specialize (Ef a x). specialize (Eh a x). unfold plus2, none2 in Ef, Eh.
    other_asset. lia.
Qed.

(** Accepting: exact effect, when parties and record agree. *)
Lemma accept_exact c e st o id st' s d :
  cfg_sender_origin c o = Some s -> st_pays st !! (s, id) = Some d -> st_parties st !! id = Some (s, d_beneficiary d) ->
  dispatch c e st o (CAcceptAndPay id) = POk st' ->
  exists burnt, (burnt = 0 \/ burnt < ext_min_balance (env_ext e) (d_asset d)) /\
    st_pays st' = <[(s, id) := set_state d Finished]> (st_pays st) /\
    let ben := d_beneficiary d in let S := sender_pays (d_fees d) in let B := beneficiary_pays (d_fees d) in
    (fee_sum S <= u128_max -> fee_sum B <= u128_max ->
     forall x, free (st_ledger st') (d_asset d) x + ind (x =? s) (d_amount d + fee_sum S + burnt) + ind (x =? ben) (fee_sum B) =
               free (st_ledger st) (d_asset d) x + ind (x =? ben) (d_amount d) + fees_to x S + fees_to x B) /\
    (forall a x, held (st_ledger st') a x = held (st_ledger st) a x) /\
    (forall a x, a <> d_asset d -> free (st_ledger st') a x = free (st_ledger st) a x).
Proof.
  cbn [dispatch]. intros Hs Hp Hpa H.
  apply accept_effect in H as (s' & p & ben & d' & b & Hs' & Hpa' & Hp' & Hps & _ & _ & _ & (Ef & Eh & _ & _) & Hb).
  rewrite Hs in Hs'. injection Hs' as <-. rewrite Hp in Hp'. injection Hp' as <-. rewrite Hpa in Hpa'. injection Hpa' as <- <-.
  exists b. cbn zeta. split_and!; try done.
  - intros HS HB x. specialize (Ef (d_asset d) x). unfold plus2 in Ef. rewrite !at2_asset, !fees_in_asset, !merge_sum, !merge_fees_to in Ef by done.
    pose proof (fees_to_le x (sender_pays (d_fees d))). pose proof (fees_to_le x (beneficiary_pays (d_fees d))).
    assert (Hsat : forall y, y <= u128_max -> sat128 y = y) by (intros; unfold sat128; lia).
    rewrite !Hsat in Ef by lia.
    rewrite (N.eqb_sym x s), (N.eqb_sym x (d_beneficiary d)). destruct (s =? x); cbn [ind] in *; lia.
  - intros a x. specialize (Eh a x). unfold none2 in Eh. lia.
  - intros a x Hne. specialize (Ef a x). unfold plus2 in Ef.
    other_asset. lia.
Qed.

(** Resolving: exact effect. *)
Lemma mandatory_sum_le l : fee_sum (mandatory_fees l) <= fee_sum l.
Proof. rewrite <-(fee_sum_split l). lia. Qed.

Lemma resolve_exact c e st o id r st' :
  reachable c st -> dispatch c e st o (CResolveDispute id r) = POk st' ->
  exists resolver s d b1 b2, cfg_resolver_origin c o = Some resolver /\ st_pays st !! (s, id) = Some d /\ d_state d = NeedsReview /\
    st_parties st !! id = Some (s, d_beneficiary d) /\
    st_pays st' = <[(s, id) := set_state d Finished]> (st_pays st) /\
    (b1 = 0 \/ b1 < ext_min_balance (env_ext e) (d_asset d)) /\ (b2 = 0 \/ b2 < ext_min_balance (env_ext e) (d_asset d)) /\
    let ben := d_beneficiary d in let S := sender_pays (d_fees d) in let B := beneficiary_pays (d_fees d) in
    let loser := match in_favor_of r with RSender => ben | RBeneficiary => s end in
    let to_sender := match in_favor_of r with
                     | RSender => share (percent_beneficiary r) (d_amount d)
                     | RBeneficiary => d_amount d - share (percent_beneficiary r) (d_amount d)
                     end in
    (forall x, held (st_ledger st') (d_asset d) x + ind (x =? s) (sender_escrow d) + ind (x =? ben) (d_amount d + d_incentive d) =
               held (st_ledger st) (d_asset d) x) /\
    (fee_sum S <= u128_max -> fee_sum B <= u128_max -> consistent_flags S -> consistent_flags B ->
     forall x, free (st_ledger st') (d_asset d) x
               + ind (x =? s) (fee_sum (mandatory_fees S)) + ind (x =? ben) (fee_sum (mandatory_fees B))
               + ind (x =? loser) (d_incentive d + b1) + ind (x =? ben) (to_sender + b2) =
               free (st_ledger st) (d_asset d) x
               + ind (x =? s) (sender_escrow d) + ind (x =? ben) (d_amount d + d_incentive d)
               + ind (x =? resolver) (d_incentive d) + ind (x =? s) to_sender
               + fees_to x (mandatory_fees S) + fees_to x (mandatory_fees B)) /\
    (forall a x, a <> d_asset d -> free (st_ledger st') a x = free (st_ledger st) a x /\ held (st_ledger st') a x = held (st_ledger st) a x).
Proof.
  cbn [dispatch]. intros Hr H.
  apply resolve_effect in H as (rs & s & ben & d & b1 & b2 & Ho & Hpa & Hp & Hst & Hps & _ & _ & _ & (Ef & Eh & _ & _) & Hb1 & Hb2 & _).
  destruct (reachable_inv c st Hr) as [Hpo Hbk]. destruct (Hpo _ _ _ Hpa) as (d' & Hp' & Hben). rewrite Hp in Hp'. injection Hp' as <-.
  assert (Hfit : d_amount d + d_incentive d <= u128_max).
  { pose proof (gsum_ge (escrow_of (d_asset d) ben) (s, id) d (st_pays st) Hp) as Hg.
    destruct (Hbk (d_asset d) ben) as [H1 H2]. unfold escrow in H1.
    rewrite (escrow_of_review _ _ s id d true Hst), Hben, !at2_asset, !N.eqb_refl in Hg. cbn [ind] in Hg. lia. }
  assert (He : total_hold d true = sender_escrow d) by (apply total_hold_escrow; by rewrite Hst).
  assert (Hsat : forall y, y <= u128_max -> sat128 y = y) by (intros; unfold sat128; lia).
  rewrite He, (Hsat _ Hfit) in *. subst ben.
  exists rs, s, d, b1, b2. cbn zeta. split_and!; try done.
  - intros x. specialize (Eh (d_asset d) x). unfold plus2, none2 in Eh. rewrite !at2_asset in Eh.
    rewrite (N.eqb_sym x s), (N.eqb_sym x (d_beneficiary d)). lia.
  - intros HS HB CS CB x. specialize (Ef (d_asset d) x). unfold plus2 in Ef. rewrite !at2_asset, !fees_in_asset, !mandatory_merge in Ef by done.
    pose proof (mandatory_sum_le (sender_pays (d_fees d))). pose proof (mandatory_sum_le (beneficiary_pays (d_fees d))).
    rewrite !merge_sum, !merge_fees_to in Ef by lia.
    pose proof (fees_to_le x (mandatory_fees (sender_pays (d_fees d)))). pose proof (fees_to_le x (mandatory_fees (beneficiary_pays (d_fees d)))).
    rewrite !Hsat in Ef by lia.
    assert (Hts : dispute_to_sender r d = match in_favor_of r with
                     | RSender => share (percent_beneficiary r) (d_amount d)
                     | RBeneficiary => d_amount d - share (percent_beneficiary r) (d_amount d)
                     end).
    { unfold dispute_to_sender, percent_mul_floor, share. by rewrite N.mul_comm. }
    rewrite Hts in Ef. unfold dispute_loser in Ef.
    set (loser := match in_favor_of r with RSender => d_beneficiary d | RBeneficiary => s end) in *.
    set (ts := match in_favor_of r with RSender => _ | RBeneficiary => _ end) in *.
    rewrite (N.eqb_sym x s), (N.eqb_sym x (d_beneficiary d)), (N.eqb_sym x loser), (N.eqb_sym x rs).
    destruct (d_beneficiary d =? x), (loser =? x); cbn [ind] in *; lia.
  - intros a x Hne. specialize (Ef a x). specialize (Eh a x). unfold plus2, none2 in Ef, Eh.
    other_asset. lia.
Qed.

(* ------------------------------------------------------------------ *)
(** * Refund timing *)

Lemma refund_not_early c st s id d n e :
  reachable c st -> st_pays st !! (s, id) = Some d -> d_state d = RefundRequested n ->
  st_pays (run_step c st (SFire id e)) !! (s, id) <> Some d -> n <= st_now st.
Proof.
  intros Hr Hp Hs Hch. cbn [run_step] in Hch. destruct (st_agenda st !! id) as [[due who]|] eqn:E; [|done].
  destruct (due <=? st_now st) eqn:Ed; [|done]. apply N.leb_le in Ed.
  destruct (timing_reachable c st Hr) as [_ T]. specialize (T _ _ _ _ _ _ Hp Hs E). lia.
Qed.

Lemma refund_block c e st o id st' :
  dispatch c e st o (CRequestRefund id) = POk st' ->
  exists s d, cfg_sender_origin c o = Some s /\ st_pays st !! (s, id) = Some d /\ d_state d = Created /\
    st_pays st' !! (s, id) = Some (set_state d (RefundRequested (st_now st + cfg_cancel_buffer c))) /\
    st_ledger st' = st_ledger st.
Proof.
  cbn. intros H. apply request_refund_inv in H as (s & d & Hs & Hp & Hst & _ & _ & _ & _ & ->).
  exists s, d. cbn. by rewrite lookup_insert.
Qed.

Lemma dispute_window c f now steps st s id d n o e :
  NoDup (new_ids steps) -> no_drop steps -> st = run c (genesis f now) steps ->
  st_pays st !! (s, id) = Some d -> d_state d = RefundRequested n ->
  cfg_beneficiary_origin c o = Some (d_beneficiary d) ->
  (exists l, ledger_hold (env_ext e) (st_ledger st) (d_asset d) (d_beneficiary d) (d_incentive d) = Some l) ->
  ((exists st', dispatch c e st o (CDisputeRefund id) = POk st') <-> st_now st < n).
Proof.
  intros Hnd Hdr -> Hp Hs Ho (l & Hl). set (st := run c (genesis f now) steps) in *.
  assert (F : finv st) by (apply (reachable_fresh_finv c); by exists f, now, steps).
  assert (S : scheduled_ok st).
  { apply scheduled_run; [apply finv_genesis|done| |done|].
    - intros i _. split; cbn; apply lookup_empty.
    - intros ? ? ? ?. cbn. by rewrite lookup_empty. }
  pose proof (f_one _ F _ _ _ Hp) as Hpa. split.
  - intros (st' & H). cbn in H. apply dispute_refund_inv in H as (s' & ben & d' & cb & l' & due & Ho' & Hpa' & Hp' & Hs' & Hlt & _).
    rewrite Hpa in Hpa'. injection Hpa' as <- <-. rewrite Hp in Hp'. injection Hp' as <-. congruence.
  - intros Hlt. destruct (S _ _ _ _ Hp Hs) as [Ha|Ha]; [|lia].
    eexists. cbn. unfold dispute_refund. rewrite Ho. cbn [ok_or pbind]. rewrite Hpa. cbn [ok_or pbind].
    rewrite N.eqb_refl. cbn [ensure pbind]. rewrite Hp. cbn [ok_or pbind]. rewrite Hs. cbn [pbind].
    destruct (N.ltb_spec (st_now st) n); [|lia]. cbn [ensure pbind]. rewrite Hl. cbn [ok_or pbind].
    rewrite Ha. cbn [ensure pbind]. reflexivity.
Qed.

Lemma dispute_unschedules c e st o id st' :
  dispatch c e st o (CDisputeRefund id) = POk st' ->
  st_agenda st' !! id = None /\ exists s d, st_pays st' !! (s, id) = Some d /\ d_state d = NeedsReview.
Proof.
  cbn. intros H. apply dispute_refund_inv in H as (s & ben & d & cb & l & due & _ & _ & _ & _ & _ & _ & _ & ->).
  cbn. split; [apply lookup_delete|]. exists s, (set_state d NeedsReview). by rewrite lookup_insert.
Qed.

Lemma review_ended_by c st s id d step :
  st_pays st !! (s, id) = Some d -> d_state d = NeedsReview ->
  st_pays (run_step c st step) !! (s, id) <> Some d ->
  (exists o r e w, step = SCall o (CResolveDispute id r) e /\ cfg_resolver_origin c o = Some w) \/
  (exists o e, step = SCall o (CAcceptAndPay id) e /\ cfg_sender_origin c o = Some s).
Proof.
  intros Hp Hs Hch.
  assert (Hrec : forall st0 o call e st', st_pays st0 !! (s, id) = Some d -> record_change c e st0 o call st' -> st_pays st' !! (s, id) <> Some d ->
    (exists r w, call = CResolveDispute id r /\ cfg_resolver_origin c o = Some w) \/
    (call = CAcceptAndPay id /\ cfg_sender_origin c o = Some s)).
  { clear Hch. intros st0 o call e st' Hx H Hc.
    destruct H; cbn in Hc;
      match type of Hc with (<[(?s1, ?id1) := _]> _ !! _ <> _) => destruct (decide ((s1, id1) = (s, id))) as [[= -> ->]|Hne]
                       | (delete (?s1, ?id1) _ !! _ <> _) => destruct (decide ((s1, id1) = (s, id))) as [[= -> ->]|Hne] end;
      try by (rewrite ?lookup_insert_ne, ?lookup_delete_ne in Hc by done).
    all: try (match goal with H : created _ _ _ _ _ _ _ _ _ _ _ |- _ => pose proof (cr_old _ _ _ _ _ _ _ _ _ _ _ H _ Hx) end; congruence).
    all: try congruence.
    all: eauto.
    all: match goal with H : _ \/ _ |- _ => destruct H as [?|[? ?]]; congruence end. }
  destruct step; cbn [run_step] in Hch; try done.
  - unfold exec in Hch. destruct (dispatch c e st o call) as [st'|] eqn:E; [|done].
    destruct (Hrec st o call e st' Hp (dispatch_record _ _ _ _ _ _ E) Hch) as [(r & w & -> & Hw)|[-> Hw]]; [left|right]; eauto 10.
  - destruct (st_agenda st !! id0) as [[due who]|] eqn:Ea; [|done]. destruct (due <=? st_now st); [|done].
    unfold exec in Hch. destruct (dispatch c e _ (OSigned who) _) as [st'|] eqn:E; [|done].
    destruct (Hrec (with_agenda st (delete id0 (st_agenda st))) _ _ e st' Hp (dispatch_record _ _ _ _ _ _ E) Hch) as [(r & w & ? & Hw)|[? Hw]]; done.
Qed.

Lemma stale_refund_harmless c st id e :
  reachable_fresh c st ->
  (forall s d n, st_pays st !! (s, id) = Some d -> d_state d <> RefundRequested n) ->
  let st' := run_step c st (SFire id e) in
  st_ledger st' = st_ledger st /\ st_pays st' = st_pays st /\ st_parties st' = st_parties st /\
  (forall i, i <> id -> st_agenda st' !! i = st_agenda st !! i).
Proof.
  intros Hr Hno. pose proof (reachable_fresh_finv c st Hr) as F. cbn [run_step].
  destruct (st_agenda st !! id) as [[due who]|] eqn:Ea; [|done]. destruct (due <=? st_now st); [|done].
  assert (Hx : forall i, i <> id -> delete id (st_agenda st) !! i = st_agenda st !! i) by (intros; by rewrite lookup_delete_ne).
  unfold exec. destruct (dispatch c e _ (OSigned who) _) as [st'|] eqn:E; [|done].
  exfalso. cbn in E. apply cancel_inv in E as (s & ben & d & l & _ & Hpa & Hp & Hst & _ & _). cbn in Hpa, Hp.
  destruct (f_task _ F _ _ _ Ea _ _ Hp) as [[Hs _]|Hs]; [by eapply Hno|]. destruct Hst as [?|[? ?]]; congruence.
Qed.

(* ------------------------------------------------------------------ *)
(** * Winding up *)

Lemma escrow_available c st s id d :
  reachable c st -> st_pays st !! (s, id) = Some d -> (d_state d = Created \/ exists n, d_state d = RefundRequested n) ->
  forall x, ind (x =? s) (sender_escrow d) + ind (x =? d_beneficiary d) (d_amount d) <= held (st_ledger st) (d_asset d) x.
Proof.
  intros Hr Hp Hs x. pose proof (escrow_backed c st Hr (d_asset d) x) as H. unfold escrow in H.
  pose proof (gsum_ge (escrow_of (d_asset d) x) (s, id) d (st_pays st) Hp) as Hg.
  rewrite (escrow_of_created _ _ s id d false Hs), !at2_asset in Hg.
  rewrite total_hold_escrow in Hg by (destruct Hs as [->|[? ->]]; done).
  rewrite (N.eqb_sym x s), (N.eqb_sym x (d_beneficiary d)). lia.
Qed.

Lemma ledger_release_ok e l a w n :
  (forall l op, ext_ok e l op = true) -> n <= held l a w -> issuance l a <= u128_max ->
  exists l', ledger_release e l a w n = Some l'.
Proof.
  intros Hok Hn Hi. unfold ledger_release. rewrite Hok. cbn [andb].
  destruct (N.leb_spec n (held l a w)); [|lia]. cbn [andb]. unfold fits.
  pose proof (issuance_ge_free_held l a w w). destruct (N.leb_spec (free l a w + n) u128_max); [|lia]. eauto.
Qed.

Lemma ledger_transfer_ok e l a s d n p :
  (forall l op, ext_ok e l op = true) -> n <= free l a s -> issuance l a <= u128_max ->
  exists l', ledger_transfer e l a s d n p = Some l'.
Proof.
  intros Hok Hn Hi. unfold ledger_transfer. rewrite Hok. cbn [andb].
  destruct (N.leb_spec n (free l a s)); [|lia]. destruct (N.eqb_spec s d); [eauto|].
  pose proof (issuance_ge_free2 l a s d ltac:(done)). unfold fits.
  destruct (N.leb_spec (free l a d + n) u128_max); [|lia].
  destruct p; [destruct (_ && _)|]; eauto.
Qed.

Lemma cancel_possible c e st o s id d :
  reachable c st -> st_pays st !! (s, id) = Some d -> (d_state d = Created \/ exists n, d_state d = RefundRequested n) ->
  st_parties st !! id = Some (s, d_beneficiary d) -> cfg_beneficiary_origin c o = Some (d_beneficiary d) ->
  permissive e -> issuance (st_ledger st) (d_asset d) <= u128_max ->
  exists st', dispatch c e st o (CCancel id) = POk st'.
Proof.
  intros Hr Hp Hs Hpa Ho Hok Hi.
  pose proof (escrow_available c st s id d Hr Hp Hs) as Hav.
  assert (He : total_hold d false = sender_escrow d).
  { apply total_hold_escrow. destruct Hs as [->|[? ->]]; done. }
  assert (H1 : exists l1, ledger_release (env_ext e) (st_ledger st) (d_asset d) s (total_hold d false) = Some l1).
  { apply ledger_release_ok; [done| |done]. specialize (Hav s). rewrite N.eqb_refl in Hav. cbn [ind] in Hav. lia. }
  destruct H1 as [l1 H1]. pose proof (release_effect _ _ _ _ _ _ H1) as ((Ef1 & Eh1 & _ & Ei1) & _).
  assert (H2 : exists l2, ledger_release (env_ext e) l1 (d_asset d) (d_beneficiary d) (d_amount d) = Some l2).
  { apply ledger_release_ok; [done| |].
    - specialize (Hav (d_beneficiary d)). rewrite N.eqb_refl in Hav. cbn [ind] in Hav.
      specialize (Eh1 (d_asset d) (d_beneficiary d)). unfold none2 in Eh1. rewrite at2_asset in Eh1.
      rewrite (N.eqb_sym s) in Eh1. rewrite He in Eh1. lia.
    - specialize (Ei1 (d_asset d)). unfold none1 in Ei1. lia. }
  destruct H2 as [l2 H2]. pose proof (release_effect _ _ _ _ _ _ H2) as ((Ef2 & Eh2 & _ & Ei2) & _).
  assert (H3 : exists l3, ledger_transfer (env_ext e) l2 (d_asset d) (d_beneficiary d) s (d_amount d) Expendable = Some l3).
  { apply ledger_transfer_ok; [done| |].
    - specialize (Ef2 (d_asset d) (d_beneficiary d)). unfold none2 in Ef2. rewrite at2_asset, N.eqb_refl in Ef2. cbn [ind] in Ef2. lia.
    - specialize (Ei1 (d_asset d)). specialize (Ei2 (d_asset d)). unfold none1 in *. lia. }
  destruct H3 as [l3 H3].
  eexists. cbn. unfold cancel_call. rewrite Ho. cbn [ok_or pbind]. rewrite Hpa. cbn [ok_or pbind]. rewrite N.eqb_refl. cbn [ensure pbind].
  rewrite Hp. cbn [ok_or pbind].
  assert (Hc : cancel_payment e (st_ledger st) s d = POk l3).
  { unfold cancel_payment. rewrite H1. cbn [ok_or pbind]. rewrite H2. cbn [ok_or pbind]. by rewrite H3. }
  destruct Hs as [Hs|[n Hs]]; rewrite Hs, Hc; cbn [pbind]; reflexivity.
Qed.

Lemma fees_possible e a from m l :
  permissive e -> fee_sum m <= free l a from -> issuance l a <= u128_max ->
  exists l', try_transfer_fees e l from a m false = POk l'.
Proof.
  intros Hok. revert l. induction m as [|f m IH]; intros l Hs Hi; cbn [try_transfer_fees]; [eauto|].
  rewrite fee_sum_cons in Hs. cbn [negb orb].
  destruct (ledger_transfer_ok (env_ext e) l a from (fee_to f) (fee_amount f) Preserve Hok) as [l1 H1]; [lia|done|].
  rewrite H1. cbn [ok_or pbind].
  apply transfer_effect in H1 as (b & (Ef & _ & _ & Ei) & _ & _ & Hb & _). specialize (Hb eq_refl). subst b.
  apply IH.
  - specialize (Ef a from). unfold plus2 in Ef. rewrite !at2_asset, !N.eqb_refl in Ef. cbn [ind] in Ef. lia.
  - specialize (Ei a). unfold at1 in Ei. rewrite N.eqb_refl in Ei. cbn [ind] in Ei. lia.
Qed.

Lemma release_possible c e st o s id d :
  reachable c st -> st_pays st !! (s, id) = Some d -> d_state d = Created ->
  cfg_sender_origin c o = Some s -> permissive e -> issuance (st_ledger st) (d_asset d) <= u128_max ->
  fee_sum (sender_pays (d_fees d)) + d_incentive d <= u128_max ->
  fee_sum (beneficiary_pays (d_fees d)) <= d_amount d ->
  (s = d_beneficiary d -> fee_sum (sender_pays (d_fees d)) + fee_sum (beneficiary_pays (d_fees d)) <= d_amount d) ->
  exists st', dispatch c e st o (CRelease id) = POk st'.
Proof.
  intros Hr Hp Hs Ho Hok Hi HfS HfB Hself.
  pose proof (escrow_available c st s id d Hr Hp (or_introl Hs)) as Hav.
  assert (He : total_hold d false = sender_escrow d) by (apply total_hold_escrow; by rewrite Hs).
  assert (Hse : sender_escrow d = fee_sum (sender_pays (d_fees d)) + d_incentive d).
  { unfold sender_escrow. rewrite Hs. cbn [is_open]. lia. }
  assert (H1 : exists l1, ledger_release (env_ext e) (st_ledger st) (d_asset d) s (total_hold d false) = Some l1).
  { apply ledger_release_ok; [done| |done]. specialize (Hav s). rewrite N.eqb_refl in Hav. cbn [ind] in Hav. lia. }
  destruct H1 as [l1 H1]. pose proof (release_effect _ _ _ _ _ _ H1) as ((Ef1 & Eh1 & _ & Ei1) & _).
  assert (H2 : exists l2, ledger_release (env_ext e) l1 (d_asset d) (d_beneficiary d) (d_amount d) = Some l2).
  { apply ledger_release_ok; [done| |].
    - specialize (Hav (d_beneficiary d)). rewrite N.eqb_refl in Hav. cbn [ind] in Hav.
      specialize (Eh1 (d_asset d) (d_beneficiary d)). unfold none2 in Eh1. rewrite at2_asset in Eh1.
      rewrite (N.eqb_sym s) in Eh1. rewrite He in Eh1. lia.
    - specialize (Ei1 (d_asset d)). unfold none1 in Ei1. lia. }
  destruct H2 as [l2 H2]. pose proof (release_effect _ _ _ _ _ _ H2) as ((Ef2 & Eh2 & _ & Ei2) & _).
  assert (HmS : fee_sum (fmerge (sender_pays (d_fees d))) = fee_sum (sender_pays (d_fees d))) by (apply merge_sum; lia).
  assert (Hi2 : issuance l2 (d_asset d) <= u128_max).
  { specialize (Ei1 (d_asset d)). specialize (Ei2 (d_asset d)). unfold none1 in *. lia. }
  assert (H3 : exists l3, try_transfer_fees e l2 s (d_asset d) (fmerge (sender_pays (d_fees d))) false = POk l3).
  { apply fees_possible; [done| |done].
    specialize (Ef1 (d_asset d) s). specialize (Ef2 (d_asset d) s). unfold none2 in *. rewrite at2_asset, ?N.eqb_refl in Ef1.
    cbn [ind] in Ef1. lia. }
  destruct H3 as [l3 H3]. pose proof (try_transfer_fees_effect _ _ _ _ _ _ _ H3) as (Ef3 & _ & _ & Ei3). cbn [charged] in *.
  assert (HBm : d_amount d <= u128_max).
  { specialize (Hav (d_beneficiary d)). rewrite N.eqb_refl in Hav. cbn [ind] in Hav.
    destruct (reachable_inv c st Hr) as [_ Hbk]. destruct (Hbk (d_asset d) (d_beneficiary d)). lia. }
  assert (HmB : fee_sum (fmerge (beneficiary_pays (d_fees d))) = fee_sum (beneficiary_pays (d_fees d))) by (apply merge_sum; lia).
  assert (H4 : exists l4, try_transfer_fees e l3 (d_beneficiary d) (d_asset d) (fmerge (beneficiary_pays (d_fees d))) false = POk l4).
  { apply fees_possible; [done| |].
    - specialize (Ef2 (d_asset d) (d_beneficiary d)). specialize (Ef3 (d_asset d) (d_beneficiary d)). unfold none2 in *.
      rewrite at2_asset in Ef2, Ef3. rewrite fees_in_asset in Ef3. rewrite N.eqb_refl in Ef2.
      destruct (N.eqb_spec s (d_beneficiary d)) as [E|E]; cbn [ind] in *; [specialize (Hself E)|]; lia.
    - specialize (Ei3 (d_asset d)). unfold none1 in Ei3. lia. }
  destruct H4 as [l4 H4].
  eexists. cbn [dispatch]. unfold release. rewrite Ho. cbn [ok_or pbind]. rewrite Hp. cbn [ok_or pbind].
  rewrite bool_decide_eq_true_2 by done. cbn [ensure pbind].
  unfold settle_payment. rewrite Hp. cbn [ok_or pbind]. unfold summary_for. rewrite !get_summary_false. rewrite H1. cbn [ok_or pbind].
  rewrite H2. cbn [ok_or pbind]. rewrite H3. cbn [pbind]. rewrite H4. cbn [pbind]. reflexivity.
Qed.

(** Proofs about the relay chain's token when messages are executed: what is refunded may be more than what was paid, by how much at most. *)
From Verif Require Import Base XcmTypes AssetLocationModel AssetLocationProofs OriginTypes AccountsModel PaymentsSpec XcmConfigModel XcmConfigSpec XcmConfigProofs XcmCountable RuntimeModel RuntimeProofs
  XcmExecModel XcmExecSpec XcmTraderProofs XcmExecProofs XcmRunProofs XcmMessageProofs XcmWeightsSpec XcmWeightsProofs.
From stdpp Require Import gmap.
Open Scope N_scope.

(** * Linear fees add up, but for one unit *)

Lemma perbill_sub parts a b : perbill_of parts (a + b) <= perbill_of parts a + perbill_of parts b + 1.
Proof.
  pose proof (perbill_of_near parts a) as [_ H2]. pose proof (perbill_of_near parts b) as [_ H4]. pose proof (perbill_of_near parts (a + b)) as [H5 _]. cbv zeta in *.
  rewrite N.mul_add_distr_r in H5. lia.
Qed.
Lemma perbill_super parts a b : perbill_of parts a + perbill_of parts b <= perbill_of parts (a + b) + 1.
Proof.
  pose proof (perbill_of_near parts a) as [H1 _]. pose proof (perbill_of_near parts b) as [H3 _]. pose proof (perbill_of_near parts (a + b)) as [_ H6]. cbv zeta in *.
  rewrite N.mul_add_distr_r in H6. lia.
Qed.
Lemma linear_sub f i a b : linear_fee f i (a + b) <= linear_fee f i a + linear_fee f i b + 1.
Proof. unfold linear_fee, sat128. pose proof (perbill_sub f a b). rewrite N.mul_add_distr_l. lia. Qed.
Lemma linear_super f i a b : f <= 1000000000 -> i <= u32_max -> a + b <= u64_max -> linear_fee f i a + linear_fee f i b <= linear_fee f i (a + b) + 1.
Proof.
  intros Hf Hi Hab. unfold linear_fee, sat128. pose proof (perbill_super f a b). rewrite N.mul_add_distr_l.
  pose proof (perbill_of_near f (a + b)) as [H5 _]. cbv zeta in *. assert ((a + b) * f <= u64_max * 1000000000) by (by apply N.mul_le_mono).
  assert (i * (a + b) <= u32_max * u64_max) as Hm by (by apply N.mul_le_mono). rewrite N.mul_add_distr_l in Hm. set (x := i * a) in *. set (y := i * b) in *. clearbody x y.
  set (z := (a + b) * f) in *. clearbody z. assert (perbill_of f (a + b) <= u64_max) by (unfold u64_max in *; lia). clear H5. set (u := perbill_of f (a + b)) in *. set (v := perbill_of f a) in *. set (w := perbill_of f b) in *. clearbody u v w.
  assert (u + (x + y) <= u128_max) by (unfold u32_max, u64_max, u128_max in *; lia). assert (1 <= u128_max) by (by unfold u128_max). lia.
Qed.
Lemma ratio_small p q : ratio_parts p q <= 1000000000.
Proof.
  unfold ratio_parts. destruct (N.eqb_spec q 0); cbn [orb]; [lia|]. destruct (N.leb_spec q p); [lia|]. apply N.div_le_upper_bound; [done|]. nia.
Qed.
Lemma cents_div q : CENTS / q <= u32_max.
Proof. destruct (decide (q = 0)) as [->|]; [vm_compute; discriminate|]. transitivity CENTS; [|vm_compute; discriminate]. apply N.div_le_upper_bound; [done|]. nia. Qed.

Section native.
  Context (e : xenv).
  Notation base := (xe_base e).
  Notation tfee := (ref_time_fee base).
  Notation pfee := proof_size_fee.
  Notation fee := (weight_to_fee base).

  Lemma tfee_sub a b : tfee (a + b) <= tfee a + tfee b + 1.
  Proof. apply linear_sub. Qed.
  Lemma pfee_sub a b : pfee (a + b) <= pfee a + pfee b + 1.
  Proof. apply linear_sub. Qed.
  Lemma tfee_super a b : a + b <= u64_max -> tfee a + tfee b <= tfee (a + b) + 1.
  Proof. apply linear_super; [apply ratio_small|apply cents_div]. Qed.
  Lemma pfee_super a b : a + b <= u64_max -> pfee a + pfee b <= pfee (a + b) + 1.
  Proof. apply linear_super; [apply ratio_small|apply cents_div]. Qed.
  Lemma tfee_mono a b : a <= b -> tfee a <= tfee b.
  Proof. apply linear_fee_mono. Qed.
  Lemma pfee_mono a b : a <= b -> pfee a <= pfee b.
  Proof. apply linear_fee_mono. Qed.

  (** The fees for both parts of a weight. *)
  Definition both (w : weight) : N := tfee (fst w) + pfee (snd w).
  Definition fits (w : weight) : Prop := fst w <= u64_max /\ snd w <= u64_max.
  Lemma fits_add a b : fits (weight_sat_add a b).
  Proof. unfold fits, weight_sat_add, sat64. cbn [fst snd]. lia. Qed.
  Lemma sat_zero a b : weight_sat_add a b = (0, 0) -> a = (0, 0).
  Proof.
    intros H. pose proof (f_equal fst H) as H1. pose proof (f_equal snd H) as H2. destruct a as [x y]. unfold weight_sat_add, sat64 in H1, H2. cbn [fst snd] in *.
    assert (0 < u64_max) by done. assert (x = 0) as -> by lia. by assert (y = 0) as -> by lia.
  Qed.
  Lemma both_add a b : both (weight_sat_add a b) <= both a + both b + 2.
  Proof.
    unfold both, weight_sat_add. cbn [fst snd]. pose proof (tfee_sub (fst a) (fst b)). pose proof (pfee_sub (snd a) (snd b)).
    pose proof (tfee_mono (sat64 (fst a + fst b)) (fst a + fst b)). pose proof (pfee_mono (sat64 (snd a + snd b)) (snd a + snd b)). unfold sat64 in *. lia.
  Qed.
  Lemma both_fee w : both w + 2 = fee w + other_fee base w.
  Proof. unfold both, weight_to_fee, other_fee. lia. Qed.
  Lemma both_refund w r : fits w -> both (weight_sub w (weight_min r w)) + fee (weight_min r w) <= both w + 1.
  Proof.
    intros [F1 F2]. unfold both, weight_to_fee, weight_sub, weight_min. cbn [fst snd].
    pose proof (tfee_super (fst w - N.min (fst r) (fst w)) (N.min (fst r) (fst w)) ltac:(lia)) as T. pose proof (pfee_super (snd w - N.min (snd r) (snd w)) (N.min (snd r) (snd w)) ltac:(lia)) as P.
    replace (fst w - N.min (fst r) (fst w) + N.min (fst r) (fst w)) with (fst w) in T by lia. replace (snd w - N.min (snd r) (snd w) + N.min (snd r) (snd w)) with (snd w) in P by lia.
    pose proof (tfee_mono (fst w - N.min (fst r) (fst w)) (fst w) ltac:(lia)). pose proof (pfee_mono (snd w - N.min (snd r) (snd w)) (snd w) ltac:(lia)). lia.
  Qed.
  Lemma fee_mono a b : fst a <= fst b -> snd a <= snd b -> fee a <= fee b.
  Proof. intros H1 H2. unfold weight_to_fee. pose proof (tfee_mono _ _ H1). pose proof (pfee_mono _ _ H2). lia. Qed.
  Lemma fee_add a b : fee (weight_sat_add a b) <= fee a + fee b + 1.
  Proof.
    unfold weight_to_fee, weight_sat_add. cbn [fst snd]. pose proof (tfee_sub (fst a) (fst b)). pose proof (pfee_sub (snd a) (snd b)).
    pose proof (tfee_mono (sat64 (fst a + fst b)) (fst a + fst b)). pose proof (pfee_mono (sat64 (snd a + snd b)) (snd a + snd b)). unfold sat64 in *. lia.
  Qed.

  (** * Steps *)

  Definition rem (f : xinstr -> N) (m : machine) : N := total_of f (m_prog m) + total_of f (m_handler m) + total_of f (m_appendix m).
  Definition idle (m m' : machine) : Prop := m_chain m' = m_chain m /\ m_origin m' = m_origin m /\ m_hold m' = m_hold m /\ m_trader m' = m_trader m /\ forall f, rem f m' <= rem f m.
  Lemma step_cases m m' : xstep e m = XOk m' -> idle m m' \/
    exists i p, m_prog m = i :: p /\ exec_instr e (xset_prog p m) i = XOk m' /\ forall f, rem f m' + f i <= rem f m.
  Proof.
    unfold xstep. destruct (m_prog m) as [|i p] eqn:Ep.
    - intros [= <-]. left. destruct (halted m); [by split_and!|]. split_and!; try done. intros f. unfold rem. rewrite Ep.
      unfold to_appendix, credit. cbn [m_prog m_handler m_appendix xset_prog xset_handler xset_appendix xset_hweight xset_aweight xset_surplus]. change (total_of f []) with 0. lia.
    - destruct (exec_instr e (xset_prog p m) i) as [m1| |] eqn:E; [|..|done].
      + intros [= <-]. right. exists i, p. split_and!; [done|done|]. intros f. unfold rem. rewrite Ep, total_step.
        apply exec_progs in E as (E1 & [(E2 & E3)|[(q & -> & E2 & E3)|(q & -> & E2 & E3)]]); cbn in E1, E2, E3; rewrite E1, E2, E3; cbn [inner]; lia.
      + intros H. left. assert (forall f, total_of f p <= total_of f (i :: p)) as Hp by (intros f; rewrite total_step; lia).
        destruct (m_handler m) as [|j q] eqn:Eh; injection H as <-; split_and!; try done; intros f; unfold rem, to_handler, to_appendix, credit;
          cbn [m_prog m_handler m_appendix xset_prog xset_handler xset_appendix xset_hweight xset_aweight xset_surplus]; rewrite ?Eh, ?Ep; change (total_of f []) with 0; lia.
  Qed.

  (** Native tokens outside the traders. *)
  Definition out (m : machine) : N := around m None relay_location.
  (** What one instruction does to them. *)
  Definition same_native (m m' : machine) : Prop := tr_weight (m_trader m') = tr_weight (m_trader m) /\ tr_native (m_trader m') = tr_native (m_trader m) /\ out m' <= out m.
  Definition bought_native (i : xinstr) (m m' : machine) : Prop := exists w a, i = XBuy a (Some w) /\
    tr_weight (m_trader m') = weight_sat_add (tr_weight (m_trader m)) w /\ tr_native (m_trader m') = sat128 (tr_native (m_trader m) + fee w) /\ out m' + fee w <= out m.
  Definition refunded_native (m m' : machine) : Prop := exists r, let w := weight_min r (tr_weight (m_trader m)) in
    tr_weight (m_trader m') = weight_sub (tr_weight (m_trader m)) w /\ tr_native (m_trader m') = tr_native (m_trader m) - fee w /\ out m' <= out m + fee w.
  Lemma exec_native m i m' : trader_ok (xe_asset e) (m_trader m) -> (forall o, m_origin m = Some o -> is_reserve relay_location o = false) ->
    exec_instr e m i = XOk m' -> same_native m m' \/ bought_native i m m' \/ i = XRefund /\ refunded_native m m'.
  Proof.
    intros Ht Hr H. apply exec_allowed in H as [_ _ A _ _]. destruct (A None relay_location eq_refl Hr) as [[B1 B2]|[(a & w & p & -> & B1 & B2)|(-> & w & B1 & B2)]].
    - left. unfold same_native. rewrite B1. by split_and!.
    - apply buy_cases in B1 as (_ & _ & [(Hn & _ & _ & B1)|(Hn & -> & B1)]).
      + left. unfold same_native. rewrite B1. cbn [tr_weight tr_native]. split_and!; [done|done|]. rewrite bool_decide_eq_false_2 in B2 by done. cbn [ind] in B2. unfold out. lia.
      + right. left. exists w, a. rewrite B1. cbn [tr_weight tr_native]. split_and!; [done|done|done|]. rewrite bool_decide_eq_true_2 in B2 by done. exact B2.
    - destruct (refund_cases base (xe_asset e) (m_trader m) w Ht) as (_ & _ & [(C1 & C2 & C3)|(C1 & C2 & C3)]); rewrite C3 in B2.
      + left. unfold same_native. rewrite B1, C1, C2. split_and!; [done|done|]. unfold out. lia.
      + right. right. split; [done|]. exists w. rewrite B1. by split_and!.
  Qed.
  Lemma settled_native m : trader_ok (xe_asset e) (m_trader m) -> same_native m (settled e m) \/ refunded_native m (settled e m).
  Proof.
    intros Ht. destruct (settled_case e m) as [-> | H]; [left; by split_and!|].
    assert (Ho : forall k, out (settled e m) <= out m + k <-> held_of (m_hold (settled e m)) relay_location <= held_of (m_hold m) relay_location + k).
    { intros k. unfold out, around. destruct (refund_frame e m) as [-> _]. lia. }
    destruct (refund_held _ _ _ relay_location H) as [[B1 B2]|(w & B1 & B2)].
    - left. unfold same_native. rewrite B1. split_and!; [done|done|]. pose proof (proj2 (Ho 0)). lia.
    - destruct (refund_cases base (xe_asset e) (m_trader m) w Ht) as (_ & _ & [(C1 & C2 & C3)|(C1 & C2 & C3)]); rewrite C3 in B2.
      + left. unfold same_native. rewrite B1, C1, C2. split_and!; [done|done|]. pose proof (proj2 (Ho 0)). lia.
      + right. exists w. rewrite B1. split_and!; [done|done|]. by apply Ho.
  Qed.
  Lemma post_native origin m : trader_ok (xe_asset e) (m_trader m) ->
    in_existence (post_process e origin m) None relay_location <= out (settled e m) + tr_native (m_trader (settled e m)).
  Proof.
    intros Ht. assert (trader_ok (xe_asset e) (m_trader (settled e m))) as Ht'.
    { destruct (settled_case e m) as [-> | H]; [done|]. apply refund_ok in H as (_ & _ & [[-> _]|(w & -> & _)]); [done|]. by apply refund_cases. }
    unfold post_process. set (m' := settled e m) in *. clearbody m'.
    pose proof (pay_fees_amount e None relay_location eq_refl (outstanding (m_trader m')) (m_chain m')) as P. fold (owed (m_trader m') relay_location) in P. rewrite owed_cases in P.
    destruct (pay_fees_only e (outstanding (m_trader m')) (m_chain m')) as (P1 & _). set (c := pay_fees e _ _) in *. clearbody c.
    assert (match tr_asset (m_trader m') with Some a => ind (bool_decide (fst a = relay_location)) (snd a) | None => 0 end = 0) as Hz.
    { unfold trader_ok in Ht'. destruct (tr_asset (m_trader m')) as [a|]; [|done]. destruct Ht' as (id & Hid & _). rewrite bool_decide_eq_false_2; [done|]. by eapply fee_asset_not_relay. }
    rewrite Hz, bool_decide_eq_true_2 in P by done. cbn [ind] in P. unfold out, around, in_existence. case_bool_decide as E.
    - rewrite P1. lia.
    - cbn [ch_traps]. rewrite in_traps_app, in_traps_cons, P1. cbn [snd]. change (in_traps [] relay_location) with 0. change (in_accounts (Chain _ _ _ _) None) with (in_accounts c None). lia.
  Qed.

  (** * A bound on what comes out of nothing *)

  Definition stake (m : machine) : N := out m + N.max (tr_native (m_trader m)) (both (tr_weight (m_trader m))).
  Lemma stake_refund m m' : fits (tr_weight (m_trader m)) -> refunded_native m m' -> stake m' <= stake m + 1.
  Proof.
    intros F (r & H1 & H2 & H3). unfold stake. rewrite H1, H2. pose proof (both_refund _ r F). lia.
  Qed.
  Lemma stake_same m m' : same_native m m' -> stake m' <= stake m.
  Proof. intros (H1 & H2 & H3). unfold stake. rewrite H1, H2. lia. Qed.
  Lemma stake_buy i m m' : bought_native i m m' -> stake m' <= stake m + excess_of base i.
  Proof.
    intros (w & a & -> & H1 & H2 & H3). unfold stake. rewrite H1, H2. cbn [excess_of]. pose proof (both_add (tr_weight (m_trader m)) w). pose proof (both_fee w). unfold sat128. lia.
  Qed.
  Lemma fits_step i m m' : fits (tr_weight (m_trader m)) -> same_native m m' \/ bought_native i m m' \/ i = XRefund /\ refunded_native m m' -> fits (tr_weight (m_trader m')).
  Proof.
    intros F [(H & _)|[(w & a & _ & H & _)|(_ & r & H & _)]]; rewrite H; [done|apply fits_add|]. destruct F. unfold fits, weight_sub. cbn [fst snd]. lia.
  Qed.
  (** What holds all along. *)
  Record sound (origin : location) (m : machine) : Prop := Sound {
    so_origin : forall o, m_origin m = Some o -> extends origin o;
    so_trader : trader_ok (xe_asset e) (m_trader m);
    so_fits : fits (tr_weight (m_trader m))
  }.
  Lemma sound_start ch origin p : sound origin (start ch origin p).
  Proof. split; [intros o [= <-]; apply extends_refl|apply no_trader_ok|]. unfold fits, u64_max. cbn. lia. Qed.
  Lemma native_step origin m m' : (forall o, extends origin o -> is_reserve relay_location o = false) -> sound origin m -> xstep e m = XOk m' -> sound origin m' /\
    (idle m m' \/ exists i, (same_native m m' \/ bought_native i m m' \/ i = XRefund /\ refunded_native m m') /\ forall f, rem f m' + f i <= rem f m).
  Proof.
    intros Hr [S1 S2 S3] H. destruct (step_cases _ _ H) as [I|(i & p & Hp & E & Hf)].
    - split; [|by left]. destruct I as (I1 & I2 & I3 & I4 & _). by split; rewrite ?I2, ?I4.
    - assert (same_native (xset_prog p m) m' \/ bought_native i (xset_prog p m) m' \/ i = XRefund /\ refunded_native (xset_prog p m) m') as Hc.
      { apply exec_native; [done| |done]. intros o Ho. by apply Hr, S1. }
      split; [split|right; exists i; split; [exact Hc|done]].
      + intros o Ho. pose proof (al_origin e _ _ _ _ (exec_allowed e _ _ _ E) o Ho) as (o0 & E0 & Hx). eapply extends_trans; [by apply S1|done].
      + eapply exec_trader_ok; [|exact E]. done.
      + by eapply fits_step; [|exact Hc].
  Qed.
  Lemma stake_steps origin n : (forall o, extends origin o -> is_reserve relay_location o = false) -> forall m m', sound origin m -> xsteps e n m = XOk m' ->
    sound origin m' /\ stake m' + rem (excess_of base) m' <= stake m + rem (excess_of base) m.
  Proof.
    intros Hr. induction n as [|n IH]; intros m m' Hs H; cbn [xsteps] in H; [by injection H as <-|]. xinv H.
    destruct (native_step origin m x Hr Hs E) as [Hx Hc]. destruct (IH _ _ Hx H) as [Hs' Hle]. split; [done|]. etransitivity; [exact Hle|]. clear Hle IH.
    destruct Hc as [(I1 & I2 & I3 & I4 & I5)|(i & Hc & Hf)].
    - specialize (I5 (excess_of base)). unfold stake, out, around. rewrite I1, I3, I4. lia.
    - specialize (Hf (excess_of base)). destruct Hc as [Hc|[Hc|[-> Hc]]].
      + apply stake_same in Hc. lia.
      + apply stake_buy in Hc. lia.
      + apply stake_refund in Hc; [|by destruct Hs]. cbn [excess_of] in *. lia.
  Qed.

  (** * Messages that ask for no refund *)

  Definition claim_on (m : machine) : N := out m + N.max (tr_native (m_trader m)) (fee (tr_weight (m_trader m))).
  Notation none := (bool_decide (_ = (0, 0))).
  Definition modest (total : N) (start : N) (m : machine) : Prop :=
    (tr_weight (m_trader m) = (0, 0) -> claim_on m <= start) /\
    claim_on m + ind (negb (bool_decide (tr_weight (m_trader m) = (0, 0)))) 1 + rem (fun i => if buys i then 1 else 0) m <= start + total /\
    rem (fun i => if asks_refund i then 1 else 0) m = 0.
  Lemma modest_steps origin total s n : (forall o, extends origin o -> is_reserve relay_location o = false) -> forall m m', sound origin m -> modest total s m -> xsteps e n m = XOk m' ->
    sound origin m' /\ modest total s m'.
  Proof.
    intros Hr. induction n as [|n IH]; intros m m' Hs Hm H; cbn [xsteps] in H; [by injection H as <-|]. xinv H.
    destruct (native_step origin m x Hr Hs E) as [Hx Hc]. apply (IH _ _ Hx); [|done]. clear IH H E Hx m'. destruct Hm as (M1 & M2 & M3).
    destruct Hc as [(I1 & I2 & I3 & I4 & I5)|(i & Hc & Hf)].
    - pose proof (I5 (fun i => if buys i then 1 else 0)). pose proof (I5 (fun i => if asks_refund i then 1 else 0)).
      unfold modest, claim_on, out, around in *. rewrite I1, I3, I4. split_and!; [done|lia|lia].
    - pose proof (Hf (fun i => if buys i then 1 else 0)) as F1. pose proof (Hf (fun i => if asks_refund i then 1 else 0)) as F2. cbv beta in *. destruct Hc as [(C1 & C2 & C3)|[(w & a & -> & C1 & C2 & C3)|[-> _]]].
      + unfold modest, claim_on in *. rewrite C1, C2. split_and!; [intros Hz; specialize (M1 Hz); lia|destruct (buys i); lia|destruct (asks_refund i); lia].
      + cbn [buys asks_refund] in *. unfold modest, claim_on in *. rewrite C1, C2. pose proof (fee_add (tr_weight (m_trader m)) w) as Fa. unfold sat128.
        destruct (decide (tr_weight (m_trader m) = (0, 0))) as [Ez|Ez].
        * specialize (M1 Ez). rewrite Ez in *. assert (fee (weight_sat_add (0, 0) w) <= fee w) as Fb.
          { apply fee_mono; unfold weight_sat_add, sat64; cbn [fst snd]; lia. }
          split_and!; [intros _; lia| |lia]. rewrite (bool_decide_eq_true_2 ((0, 0) = (0, 0))) in M2 by done. cbn [negb ind] in *. destruct (negb _); cbn [ind]; lia.
        * rewrite (bool_decide_eq_false_2 _ Ez) in M2. cbn [negb ind] in *. split_and!; [|destruct (negb _); cbn [ind]; lia|lia].
          intros Hz. destruct Ez. by eapply sat_zero.
      + cbn [asks_refund] in F2. lia.
  Qed.
End native.

Lemma set_limit_excess base need p : total_of (excess_of base) (set_limit need p) <= total_of (excess_of base) p + other_fee base need.
Proof.
  induction p as [|i p IH]; [cbn; lia|]. destruct i; cbn [set_limit]; rewrite !total_step; cbn [inner] in *; try lia.
  cbn [excess_of]. lia.
Qed.
Lemma through_excess para origin p need credit p' base : let_through para origin p need credit = Some p' -> total_of (excess_of base) p' <= total_of (excess_of base) p + other_fee base need.
Proof.
  unfold let_through. destruct (computed_origin _ _ _ _) as [o r]. destruct (take_weight_credit _ _); [intros [= <-]; lia|]. destruct (paid_execution _ _); [intros [= <-]; apply set_limit_excess|].
  destruct (unpaid_execution _ _ _ _); intros H; by inversion H; lia.
Qed.
Lemma through_same para origin p need credit p' f : (forall a l1 l2, f (XBuy a l1) = f (XBuy a l2)) -> let_through para origin p need credit = Some p' -> total_of f p' = total_of f p.
Proof.
  intros Hf El. unfold let_through in El. destruct (computed_origin _ _ _ _) as [o r]. destruct (take_weight_credit _ _); [by injection El as <-|]. destruct (paid_execution _ _); [injection El as <-; by apply total_set_limit|].
  destruct (unpaid_execution _ _ _ _); by try injection El as <-.
Qed.
Lemma out_start ch origin p : out (start ch origin p) = in_existence ch None relay_location.
Proof. unfold out, around, in_existence. cbn [start m_chain m_hold]. unfold held_of. rewrite lookup_empty. cbn. lia. Qed.

(** Whatever a message does, there are at most so many native tokens more. *)
Lemma native_bounded : forall e para ch origin p need ch', receive e para ch origin p need = XOk ch' -> (forall o, extends origin o -> is_reserve (Location 1 []) o = false) ->
  in_existence ch' None (Location 1 []) <= in_existence ch None (Location 1 []) + other_fee (xe_base e) need + total_of (excess_of (xe_base e)) p + 1.
Proof.
  intros e para ch origin p need ch' H Hr. unfold receive, process in H. destruct (let_through _ _ _ _ _) as [p'|] eqn:El; [|injection H as <-; lia].
  apply (through_excess _ _ _ _ _ _ (xe_base e)) in El. xinv H. injection H as <-.
  destruct (stake_steps e origin _ Hr _ _ (sound_start e ch origin p') E) as [Hs Hle]. etransitivity; [apply post_native; by destruct Hs|].
  assert (stake e (settled e x) <= stake e x + 1) as Hx.
  { destruct (settled_native e x) as [Hc|Hc]; [by destruct Hs|apply (stake_same e) in Hc; lia|apply stake_refund in Hc; [lia|by destruct Hs]]. }
  unfold stake at 2 in Hle. rewrite out_start in Hle. unfold rem in Hle at 2. cbn [start m_prog m_handler m_appendix m_trader no_trader tr_native tr_weight] in Hle.
  change (total_of (excess_of (xe_base e)) []) with 0 in Hle. assert (both e (0, 0) = 0) as Hb.
  { unfold both. pose proof (fee_zero (xe_base e)) as Hz. unfold weight_to_fee in Hz. cbn [fst snd] in *. lia. }
  rewrite Hb in Hle. change (Location 1 []) with relay_location in *. unfold stake in Hx at 1. lia.
Qed.
(** If it asks for no refund, at most one more for each purchase but the first. *)
Lemma native_modest : forall e para ch origin p need ch', receive e para ch origin p need = XOk ch' -> (forall o, extends origin o -> is_reserve (Location 1 []) o = false) ->
  how_many asks_refund p = 0%nat -> in_existence ch' None (Location 1 []) <= in_existence ch None (Location 1 []) + N.of_nat (how_many buys p - 1).
Proof.
  intros e para ch origin p need ch' H Hr Hz. unfold receive, process in H. destruct (let_through _ _ _ _ _) as [p'|] eqn:El; [|injection H as <-; lia].
  pose proof (through_same _ _ _ _ _ _ (fun i => if buys i then 1 else 0) ltac:(done) El) as T1. pose proof (through_same _ _ _ _ _ _ (fun i => if asks_refund i then 1 else 0) ltac:(done) El) as T2.
  rewrite (total_count _ p) in T1. rewrite (total_count _ p), Hz in T2. xinv H. injection H as <-.
  assert (modest e (N.of_nat (how_many buys p)) (in_existence ch None relay_location) (start ch origin p')) as Hm.
  { assert (claim_on e (start ch origin p') = in_existence ch None relay_location) as Hc.
    { unfold claim_on. rewrite out_start. cbn [start m_trader no_trader tr_weight tr_native]. rewrite fee_zero. lia. }
    unfold modest. rewrite Hc. unfold rem. cbn [start m_prog m_handler m_appendix m_trader no_trader tr_weight]. rewrite bool_decide_eq_true_2 by done.
    change (total_of (fun i : xinstr => if buys i then 1 else 0) []) with 0. change (total_of (fun i : xinstr => if asks_refund i then 1 else 0) []) with 0. cbn [negb ind]. split_and!; [done|lia|lia]. }
  destruct (modest_steps e origin _ _ _ Hr _ _ (sound_start e ch origin p') Hm E) as [Hs (M1 & M2 & _)].
  etransitivity; [apply post_native; by destruct Hs|]. change (Location 1 []) with relay_location.
  assert (out (settled e x) + tr_native (m_trader (settled e x)) <= claim_on e x) as Hx.
  { unfold claim_on. destruct (settled_native e x) as [(C1 & C2 & C3)|(r & C1 & C2 & C3)]; [by destruct Hs|rewrite C2; lia|].
    rewrite C2. pose proof (fee_mono e (weight_min r (tr_weight (m_trader x))) (tr_weight (m_trader x))) as F. unfold weight_min at 1 2 in F. cbn [fst snd] in F. lia. }
  destruct (decide (tr_weight (m_trader x) = (0, 0))) as [Ez|Ez]; [specialize (M1 Ez); lia|]. rewrite (bool_decide_eq_false_2 _ Ez) in M2. cbn [negb ind] in M2. lia.
Qed.
Lemma not_relay_reserve n o : extends (Location 1 [Parachain n]) o -> is_reserve (Location 1 []) o = false.
Proof.
  intros [s ->]. destruct (is_reserve _ _) eqn:E; [|done]. apply reserves_exact in E as [E|[[s' E]|[_ [s' E]]]]; cbn in E; discriminate E.
Qed.
Lemma sibling_bounded : forall e para ch n p need ch', receive e para ch (Location 1 [Parachain n]) p need = XOk ch' ->
  in_existence ch' None (Location 1 []) <= in_existence ch None (Location 1 []) + other_fee (xe_base e) need + total_of (excess_of (xe_base e)) p + 1.
Proof. intros e para ch n p need ch' H. eapply native_bounded; [exact H|]. apply not_relay_reserve. Qed.
Lemma sibling_modest : forall e para ch n p need ch', receive e para ch (Location 1 [Parachain n]) p need = XOk ch' -> how_many asks_refund p = 0%nat ->
  in_existence ch' None (Location 1 []) <= in_existence ch None (Location 1 []) + N.of_nat (how_many buys p - 1).
Proof. intros e para ch n p need ch' H. eapply native_modest; [exact H|]. apply not_relay_reserve. Qed.

(** A message that is refunded time and proof size one after the other gets more than it paid. *)
Definition pump : list xinstr :=
  [XWithdraw [(relay_location, 100000000000)]; XBuy (relay_location, 100000000000) None;
   XSetErrorHandler [XTransact KSovereign (500000000000, 0) 0]; XSetErrorHandler [XTransact KSovereign (0, 460000) 0]; XRefund;
   XSetErrorHandler []; XRefund; XDeposit FAll (Location 1 [Parachain 2000])].
Lemma sibling_pumps : exists e para ch p ch', receive_message e para ch (Location 1 [Parachain 2000]) p = XOk ch' /\
  in_existence ch' None (Location 1 []) = in_existence ch None (Location 1 []) + 15290355740 /\
  bal ch' None (sibling_account 2000) = bal ch None (sibling_account 2000) + 15290355740.
Proof.
  set (ch := Chain {[(None, sibling_account 2000) := 100000000000]} [] [] 0).
  destruct (receive_message (calm_env 1) 2281 ch (Location 1 [Parachain 2000]) pump) as [ch'| |] eqn:E.
  all: assert (match receive_message (calm_env 1) 2281 ch (Location 1 [Parachain 2000]) pump with
               | XOk c => (in_existence c None (Location 1 []), bal c None (sibling_account 2000)) | _ => (0, 0) end = (115290355740, 115290355740)) as Hx by (vm_compute; reflexivity).
  all: rewrite E in Hx. 2,3: discriminate Hx.
  injection Hx as H1 H2. exists (calm_env 1), 2281, ch, pump, ch'. rewrite H1, H2. split_and!; [exact E|vm_compute; reflexivity|vm_compute; reflexivity].
Qed.

(** * The price *)

Lemma price_monotone : forall base info w w' k p p', price_in base info w k p -> price_in base info w' k p' -> fst w <= fst w' -> snd w <= snd w' -> p <= p'.
Proof.
  intros base info w w' k p p' H H' H1 H2. assert (weight_to_fee base w <= weight_to_fee base w') as Hf by (destruct w, w'; by apply fee_monotone).
  destruct H as [|k id min Hk Hid Hm]; inversion H' as [|k' id' min' Hk' Hid' Hm']; subst; [done|done|done|].
  rewrite Hid in Hid'. injection Hid' as <-. rewrite Hm in Hm'. injection Hm' as <-. unfold in_terms_of.
  set (c := N.min _ (min * _ / _)). assert (c * weight_to_fee base w / 10 ^ 18 <= c * weight_to_fee base w' / 10 ^ 18); [|lia]. apply N.div_le_mono; [done|]. by apply N.mul_le_mono_l.
Qed.
(** In terms of the asset, never more than by the ratio of minimum balances, and less by less than a unit and what 18 decimals can tell. *)
Lemma terms_accurate : forall min n, in_terms_of min n * EXISTENTIAL_DEPOSIT <= min * n /\
  (min <= 10 ^ 27 -> n <= 10 ^ 18 -> min * n * 10 ^ 18 <= (in_terms_of min n + 1) * EXISTENTIAL_DEPOSIT * 10 ^ 18 + n * EXISTENTIAL_DEPOSIT).
Proof.
  intros min n. unfold in_terms_of. set (d := min * 10 ^ 18 / EXISTENTIAL_DEPOSIT). set (r := N.min u128_max d).
  assert (0 < EXISTENTIAL_DEPOSIT) as He by done. assert (0 < 10 ^ 18) as Ht by done.
  pose proof (N.mul_div_le (min * 10 ^ 18) EXISTENTIAL_DEPOSIT ltac:(done)) as D1. pose proof (N.mul_succ_div_gt (min * 10 ^ 18) EXISTENTIAL_DEPOSIT ltac:(done)) as D2. fold d in D1, D2.
  pose proof (N.mul_div_le (r * n) (10 ^ 18) ltac:(done)) as Q1. pose proof (N.mul_succ_div_gt (r * n) (10 ^ 18) ltac:(done)) as Q2. set (q := r * n / 10 ^ 18) in *.
  assert (r <= d) as Hr by lia. split.
  - etransitivity; [apply N.mul_le_mono_r, N.le_min_r|]. apply (N.mul_le_mono_pos_r _ _ (10 ^ 18)); [done|]. clearbody r d q.
    replace (q * EXISTENTIAL_DEPOSIT * 10 ^ 18) with (10 ^ 18 * q * EXISTENTIAL_DEPOSIT) by lia. transitivity (r * n * EXISTENTIAL_DEPOSIT); [by apply N.mul_le_mono_r|].
    transitivity (EXISTENTIAL_DEPOSIT * d * n); [|replace (min * n * 10 ^ 18) with (min * 10 ^ 18 * n) by lia; by apply N.mul_le_mono_r].
    replace (r * n * EXISTENTIAL_DEPOSIT) with (EXISTENTIAL_DEPOSIT * r * n) by lia. by apply N.mul_le_mono_r, N.mul_le_mono_l.
  - intros Hm Hn. assert (d <= 10 ^ 38) as Hd.
    { unfold d. apply N.div_le_upper_bound; [done|]. transitivity (10 ^ 27 * 10 ^ 18); [by apply N.mul_le_mono_r|]. vm_compute. discriminate. }
    assert (r = d) as Er by (unfold r; apply N.min_r; etransitivity; [exact Hd|vm_compute; discriminate]).
    assert (q <= u128_max) as Hq.
    { unfold q. rewrite Er. etransitivity; [apply N.div_le_mono; [done|apply N.mul_le_mono; [exact Hd|exact Hn]]|]. vm_compute. discriminate. }
    rewrite (N.min_r _ _ Hq). rewrite Er in *. clear Er Hr. clearbody d q r. clear Hd Hq Hm Hn Q1 D1.
    set (T := 10 ^ 18) in *. clearbody T. set (X := EXISTENTIAL_DEPOSIT) in *. clearbody X.
    assert (min * T * n <= X * N.succ d * n) as H1 by (apply N.mul_le_mono_r; lia). assert (d * n * X <= T * N.succ q * X) as H2 by (apply N.mul_le_mono_r; lia). nia.
Qed.
Lemma first_purchase : forall e m fee need, m_trader m = no_trader ->
  ((exists m', exec_instr e m (XBuy fee (Some need)) = XOk m') <-> snd fee <= held_of (m_hold m) (fst fee) /\ exists price, costs e need (fst fee) price /\ price <= snd fee).
Proof.
  intros e m [k n] need Ht. cbn [exec_instr fst snd]. rewrite Ht. split.
  - intros [m' H]. xinv H. apply N.leb_le in E. split; [done|]. destruct x0 as [t p]. apply buy_cases in E0 as (H1 & H2 & _). by exists p.
  - intros (H1 & price & H2 & H3). rewrite (proj2 (N.leb_le _ _) H1). cbn [xensure xbind]. rewrite (buy_first _ _ _ _ _ _ H2 H3). cbn [xsome xbind]. by eexists.
Qed.
Lemma later_purchase : forall e n ch origin p m k units fee need, xsteps e n (start ch origin p) = XOk m -> k <> Location 1 [] -> owed (m_trader m) k = units -> units <> 0 ->
  fst fee <> Location 1 [] -> exec_instr e m (XBuy fee (Some need)) = XErr.
Proof.
  intros e n ch origin p m k units fee need H Hk Ho Hu Hf. destruct (tr_asset (m_trader m)) as [a|] eqn:Ea.
  - cbn [exec_instr]. destruct (_ <=? _); [|done]. cbn [xensure xbind]. unfold buy_weight, buy_with_asset. rewrite Ea. unfold buy_with_native. by rewrite bool_decide_eq_false_2.
  - rewrite owed_cases, Ea in Ho. rewrite bool_decide_eq_false_2 in Ho by done. by subst units.
Qed.
(** Refunds in assets are taken off what was paid, of which at least the minimum balance stays. *)
Lemma asset_refunds : forall e n ch origin p m w k, xsteps e n (start ch origin p) = XOk m -> k <> Location 1 [] ->
  let r := refund_weight (xe_base e) (xe_asset e) (m_trader m) w in
  owed (fst r) k + match snd r with Some a => ind (bool_decide (fst a = k)) (snd a) | None => 0 end = owed (m_trader m) k /\
  (forall id min, convert k = Val (Some id) -> xe_asset e id = Some (true, min) -> owed (m_trader m) k <> 0 -> min <= owed (fst r) k).
Proof.
  intros e n ch origin p m w k H Hk. cbv zeta. assert (trader_ok (xe_asset e) (m_trader m)) as Ht.
  { apply (rn_trader e origin (start ch origin p) m). eapply ran_steps; [|exact H]. apply ran_refl; [intros o [= <-]; apply extends_refl|apply no_trader_ok]. }
  destruct (refund_cases (xe_base e) (xe_asset e) (m_trader m) w Ht) as (R1 & R2 & _). pose proof (R2 k Hk) as R3. split; [exact R3|].
  intros id min Hid Hmin Ho. assert (exists out, tr_asset (fst (refund_weight (xe_base e) (xe_asset e) (m_trader m) w)) = Some (k, out)) as [out Eo].
  { rewrite owed_cases, bool_decide_eq_false_2 in Ho by done. cbn [ind] in Ho. destruct (tr_asset (m_trader m)) as [[k' out]|] eqn:Ea; [|done]. cbn [fst snd] in Ho.
    case_bool_decide; [subst k'|done]. unfold refund_weight, refund_native, refund_asset. rewrite Ea. destruct (fee_asset_id k); [|by exists out]. destruct (charge_in_asset _ _ _ _); [|by exists out].
    destruct (_ <? out - _); cbn [fst snd]; destruct (0 <? _); cbn [fst tr_asset]; by eexists. }
  unfold trader_ok in R1. rewrite Eo in R1. destruct R1 as (id' & R4 & R5). apply fee_asset_id_iff in R4 as [_ R4]. cbn [fst snd] in *. rewrite Hid in R4. injection R4 as <-.
  rewrite owed_cases, Eo. cbn [fst snd]. rewrite (bool_decide_eq_true_2 (k = k)) by done. cbn [ind]. unfold min_balance in R5. rewrite Hmin in R5. lia.
Qed.

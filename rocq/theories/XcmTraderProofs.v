(** Proofs about the price of execution and refunds. *)
From Verif Require Import Base XcmTypes AssetLocationModel AssetLocationProofs OriginTypes PaymentsSpec XcmConfigModel XcmConfigSpec XcmConfigProofs RuntimeModel RuntimeProofs
  XcmInstrModel XcmWeightsModel XcmTraderModel XcmTraderSpec.
From stdpp Require Import gmap.
Open Scope N_scope.

Lemma amt_cons a l k : amt (a :: l) k = ind (bool_decide (fst a = k)) (snd a) + amt l k.
Proof. done. Qed.
Lemma amt_app l1 l2 k : amt (l1 ++ l2) k = amt l1 k + amt l2 k.
Proof. induction l1 as [|a l1 IH]; [done|]. cbn [app]. rewrite !amt_cons, IH. lia. Qed.
Lemma owed_cases t k : owed t k = (match tr_asset t with Some a => ind (bool_decide (fst a = k)) (snd a) | None => 0 end) + ind (bool_decide (k = relay_location)) (tr_native t).
Proof.
  unfold owed, outstanding. rewrite amt_app. f_equal; [destruct (tr_asset t); [rewrite amt_cons; cbn; lia|done]|].
  destruct (N.eqb_spec (tr_native t) 0) as [->|]; [by destruct (bool_decide _)|]. rewrite amt_cons. cbn [fst snd]. unfold amt; cbn [foldr].
  rewrite (bool_decide_ext (relay_location = k) (k = relay_location)) by (split; congruence). lia.
Qed.
Lemma fee_asset_id_iff k id : fee_asset_id k = Some id <->
  (extends (Location 1 [Parachain 1000]) k \/ extends (Location 2 [GlobalConsensus Polkadot]) k) /\ convert k = Val (Some id).
Proof.
  unfold fee_asset_id. rewrite <-!prefix_exact. change (Location 1 [Parachain 1000]) with asset_hub_location. change (Location 2 [GlobalConsensus Polkadot]) with polkadot_location.
  destruct (matches_prefix asset_hub_location k), (matches_prefix polkadot_location k); cbn [orb]; destruct (convert k) as [[]| |]; split; intros H; try done; try (injection H as ->; split; [tauto|done]); destruct H as [H1 H2]; try congruence; destruct H1; done.
Qed.
Lemma fee_asset_not_relay k id : fee_asset_id k = Some id -> k <> relay_location.
Proof. intros H ->. apply fee_asset_id_iff in H as [_ H]. done. Qed.

Lemma terms_eq min n : fixed_mul (fixed_ratio min EXISTENTIAL_DEPOSIT) n = in_terms_of min n.
Proof. unfold fixed_mul, fixed_ratio, in_terms_of, sat128. change (10 ^ 18) with 1000000000000000000. rewrite (N.min_comm u128_max), (N.min_comm u128_max). done. Qed.

Section trader.
  Context (base : N) (info : asset_id -> option (bool * N)).

  (** What was paid in an asset never falls below its minimum balance. *)
  Definition trader_ok (t : trader) : Prop :=
    match tr_asset t with Some a => exists id, fee_asset_id (fst a) = Some id /\ min_balance info id <= snd a | None => True end.
  Lemma no_trader_ok : trader_ok no_trader.
  Proof. done. Qed.

  Lemma buy_cases t w a t' p : buy_weight base info t w a = Some (t', p) ->
    p <= snd a /\ price_in base info w (fst a) p /\
    (fst a <> relay_location /\ tr_asset t = None /\ (exists id, fee_asset_id (fst a) = Some id /\ min_balance info id <= p) /\ t' = Trader (Some (fst a, p)) (tr_weight t) (tr_native t) \/
     fst a = relay_location /\ p = weight_to_fee base w /\ t' = Trader (tr_asset t) (weight_sat_add (tr_weight t) w) (sat128 (tr_native t + p))).
  Proof.
    unfold buy_weight, buy_with_asset. destruct (tr_asset t) as [x|] eqn:Ea.
    2: destruct (fee_asset_id (fst a)) as [id|] eqn:Ei.
    2: destruct (charge_in_asset base info id w) as [c|] eqn:Ec.
    2: destruct (N.leb_spec (N.max c (min_balance info id)) (snd a)) as [Hle|Hlt].
    2: { intros [= <- <-]. split; [done|]. split.
      - pose proof Ei as Ex. apply fee_asset_id_iff in Ex as [Ex1 Ex2]. unfold charge_in_asset, to_asset_balance in Ec. destruct (info id) as [[[] min]|] eqn:Em; try done.
        injection Ec as <-. unfold min_balance. rewrite Em, terms_eq. exact (price_asset base info w (fst a) id min Ex1 Ex2 Em).
      - left. split; [by eapply fee_asset_not_relay|]. split; [done|]. split; [|done]. exists id. split; [done|lia]. }
    all: unfold buy_with_native; case_bool_decide as Er; cbn [andb]; try done; destruct (N.leb_spec (weight_to_fee base w) (snd a)) as [Hl|Hl]; try done;
      intros [= <- <-]; (split; [done|]); (split; [rewrite Er; apply price_native|right; rewrite ?Ea; done]).
  Qed.
  Lemma buy_first w k p n : price_in base info w k p -> p <= n ->
    buy_weight base info no_trader w (k, n) = Some (if bool_decide (k = relay_location) then Trader None (weight_sat_add (0, 0) w) (sat128 p) else Trader (Some (k, p)) (0, 0) 0, p).
  Proof.
    intros Hp Hn. unfold buy_weight, buy_with_asset. cbn [tr_asset no_trader fst snd]. destruct Hp as [|k id min Hk Hid Hm].
    - change (fee_asset_id (Location 1 [])) with (@None asset_id). unfold buy_with_native. cbn [fst snd tr_asset tr_weight tr_native no_trader].
      rewrite !bool_decide_eq_true_2, (proj2 (N.leb_le _ _) Hn) by done. cbn [andb]. by rewrite N.add_0_l.
    - assert (Hf : fee_asset_id k = Some id) by (by apply fee_asset_id_iff). rewrite Hf. unfold charge_in_asset, to_asset_balance, min_balance. rewrite Hm.
      rewrite terms_eq, (proj2 (N.leb_le _ _) Hn). rewrite bool_decide_eq_false_2 by (by eapply fee_asset_not_relay). done.
  Qed.
  Lemma price_accepted w k p : price_in base info w k p -> k = Location 1 [] \/ extends (Location 1 [Parachain 1000]) k \/ extends (Location 2 [GlobalConsensus Polkadot]) k.
  Proof. destruct 1 as [|k id min Hk Hid Hm]; [by left|by right]. Qed.
  Lemma price_unique w k p q : price_in base info w k p -> price_in base info w k q -> p = q.
  Proof.
    destruct 1 as [|k id min Hk Hid Hm]; inversion 1 as [|k' id' min' Hk' Hid' Hm']; subst; [done|done|done|].
    rewrite Hid in Hid'. injection Hid' as <-. congruence.
  Qed.

  Lemma buy_ok t w a t' p : trader_ok t -> buy_weight base info t w a = Some (t', p) -> trader_ok t'.
  Proof.
    unfold trader_ok. intros Ht H. apply buy_cases in H as (_ & _ & [(_ & _ & (id & H1 & H2) & ->)|(_ & _ & ->)]); cbn [tr_asset fst snd]; [|done]. by exists id.
  Qed.
  Lemma buy_owed t w a t' p k : buy_weight base info t w a = Some (t', p) -> k <> relay_location -> owed t' k = owed t k + ind (bool_decide (fst a = k)) p.
  Proof.
    intros H Hk. apply buy_cases in H as (_ & _ & [(Hn & E & _ & ->)|(Hr & _ & ->)]); rewrite !owed_cases; cbn [tr_asset tr_native fst snd];
      rewrite (bool_decide_eq_false_2 (k = relay_location)) by done; cbn [ind].
    - rewrite E. lia.
    - rewrite (bool_decide_eq_false_2 (fst a = k)) by congruence. cbn [ind]. lia.
  Qed.

  Definition back_of (r : trader * option (location * N)) (k : location) : N := match snd r with Some a => ind (bool_decide (fst a = k)) (snd a) | None => 0 end.
  (** Refunds in an asset are taken off what was paid. *)
  Lemma refund_asset_cases t w : trader_ok t -> let r := refund_asset base info t w in
    trader_ok (fst r) /\ tr_weight (fst r) = tr_weight t /\ tr_native (fst r) = tr_native t /\ (forall k, owed (fst r) k + back_of r k = owed t k) /\
    (forall a, snd r = Some a -> fst a <> relay_location /\ exists out, tr_asset t = Some (fst a, out)).
  Proof.
    unfold trader_ok, refund_asset, back_of. destruct (tr_asset t) as [[k out]|] eqn:Ea; cbn [fst snd].
    2: { intros _. rewrite Ea. split_and!; try done. intros k. lia. }
    intros (id & Hid & Hmin). rewrite Hid. destruct (charge_in_asset base info id w) as [c|]; cbn [fst snd].
    2: { rewrite Ea. split_and!; try done; [by exists id|]. intros k'. lia. }
    destruct (N.ltb_spec (min_balance info id) (out - c)) as [Hc|Hc]; cbn [fst snd tr_asset tr_weight tr_native].
    - split_and!; try done; [exists id; split; [done|lia]|..].
      + intros k'. rewrite !owed_cases, Ea. cbn [tr_asset tr_native fst snd]. destruct (N.ltb_spec 0 c); cbn [fst snd]; destruct (bool_decide (k = k')); cbn [ind]; lia.
      + intros a. destruct (0 <? c); [|done]. intros [= <-]. cbn [fst]. split; [by eapply fee_asset_not_relay|by eexists].
    - split_and!; try done; [by exists id|..].
      + intros k'. rewrite !owed_cases, Ea. cbn [tr_asset tr_native fst snd]. destruct (N.ltb_spec 0 (out - min_balance info id)); cbn [fst snd]; destruct (bool_decide (k = k')); cbn [ind]; lia.
      + intros a. destruct (0 <? _); [|done]. intros [= <-]. cbn [fst]. split; [by eapply fee_asset_not_relay|by eexists].
  Qed.
  (** What can come back: an asset paid with, or native tokens for weight bought. *)
  Lemma refund_cases t w : trader_ok t -> let r := refund_weight base info t w in
    trader_ok (fst r) /\ (forall k, k <> relay_location -> owed (fst r) k + back_of r k = owed t k) /\
    (tr_weight (fst r) = tr_weight t /\ tr_native (fst r) = tr_native t /\ back_of r relay_location = 0 \/
     let back := weight_to_fee base (weight_min w (tr_weight t)) in
     tr_weight (fst r) = weight_sub (tr_weight t) (weight_min w (tr_weight t)) /\ tr_native (fst r) = tr_native t - back /\ back_of r relay_location = back).
  Proof.
    intros Ht. pose proof (refund_asset_cases t w Ht) as (A1 & A2 & A3 & A4 & A5). unfold refund_weight. destruct (refund_asset base info t w) as [t1 [a|]]; cbn [fst snd] in *.
    - split_and!; [done|intros; apply A4|]. left. split_and!; [done|done|]. unfold back_of. cbn [snd]. destruct (A5 a eq_refl) as [A6 _]. by rewrite bool_decide_eq_false_2.
    - unfold refund_native, back_of in *. cbn [fst snd tr_weight tr_native] in *. rewrite A2, A3. split_and!.
      + unfold trader_ok in *. cbn [tr_asset]. done.
      + intros k Hk. rewrite <-(A4 k), !owed_cases. cbn [tr_asset tr_native]. rewrite !(bool_decide_eq_false_2 (k = relay_location)) by done. cbn [ind].
        destruct (0 <? _); cbn [fst snd]; [rewrite bool_decide_eq_false_2 by congruence; cbn [ind]|]; lia.
      + right. split_and!; [done|done|]. destruct (N.ltb_spec 0 (weight_to_fee base (weight_min w (tr_weight t)))); [by rewrite bool_decide_eq_true_2 by done|lia].
  Qed.
  (** The asset that comes back was paid with or is the native token. *)
  Lemma refund_names t w a : trader_ok t -> snd (refund_weight base info t w) = Some a -> fst a = relay_location \/ exists id, fee_asset_id (fst a) = Some id.
  Proof.
    intros Ht H. pose proof (refund_asset_cases t w Ht) as (_ & _ & _ & _ & A5). unfold refund_weight in H. destruct (refund_asset base info t w) as [t1 [b|]]; cbn [fst snd] in *.
    - injection H as <-. destruct (A5 b eq_refl) as [_ [out E]]. unfold trader_ok in Ht. rewrite E in Ht. destruct Ht as (id & Ht & _). right. by exists id.
    - unfold refund_native in H. cbn [snd] in H. destruct (0 <? _); [|done]. injection H as <-. by left.
  Qed.
End trader.

From stdpp Require Import gmap.
From Verif Require Import Base XcmTypes AssetLocationModel OriginTypes AccountsModel PaymentsSpec XcmConfigModel XcmInstrModel XcmWeightsModel RuntimeModel RuntimeProofs
  XcmTraderModel XcmTraderSpec XcmTraderProofs CostModel CostSpec TxFeesModel TxFeesSpec.
Open Scope N_scope.
Local Opaque treasury_account.

(* ------------------------------------------------------------------ *)
(** * The fee *)

Lemma capped_fee_mono w w' : weight_le w w' -> capped_fee w <= capped_fee w'.
Proof. intros [H1 H2]. unfold capped_fee, weight_min. apply fee_monotone; lia. Qed.
Lemma fixed_mul_mono m n n' : n <= n' -> fixed_mul m n <= fixed_mul m n'.
Proof.
  intros H. unfold fixed_mul, sat128. assert (m * n / 1000000000000000000 <= m * n' / 1000000000000000000).
  { apply N.div_le_mono; [done|]. by apply N.mul_le_mono_l. }
  lia.
Qed.

Lemma fee_in_full : forall mult len w tip, whole_fee mult len w tip <= u128_max ->
  tx_fee mult len w false tip = whole_fee mult len w tip /\ tx_fee mult len w true tip = tip.
Proof.
  intros mult len w tip H. unfold whole_fee in *. unfold tx_fee, length_fee, fixed_mul, sat128.
  change (capped_fee base_extrinsic) with (weight_to_fee 108157000 (125000000, 0)).
  change byte_fee with (10 * MILLICENTS).
  change (capped_fee w) with (weight_to_fee 108157000 (N.min (fst w) 2000000000000, N.min (snd w) (5 * 1024 * 1024))).
  change (10 ^ 18) with 1000000000000000000 in *.
  generalize dependent (weight_to_fee 108157000 (125000000, 0)).
  generalize (mult * weight_to_fee 108157000 (N.min (fst w) 2000000000000, N.min (snd w) (5 * 1024 * 1024)) / 1000000000000000000).
  generalize (len * (10 * MILLICENTS)). intros a b c H. lia.
Qed.

Lemma fee_grows : forall mult len len' w w' tip tip', len <= len' -> weight_le w w' -> tip <= tip' ->
  tx_fee mult len w false tip <= tx_fee mult len' w' false tip' /\ tx_fee mult len w true tip <= tx_fee mult len' w' false tip'.
Proof.
  intros mult len len' w w' tip tip' Hl Hw Ht. unfold tx_fee.
  pose proof (fixed_mul_mono mult _ _ (capped_fee_mono _ _ Hw)). unfold length_fee, sat128.
  assert (len * byte_fee <= len' * byte_fee) by (by apply N.mul_le_mono_r). lia.
Qed.

Lemma fee_least : forall mult len w tip, 3852424 <= tx_fee mult len w false tip.
Proof.
  intros. unfold tx_fee. assert (capped_fee base_extrinsic = 3852424) as -> by (vm_compute; reflexivity). unfold sat128, length_fee.
  assert (3852424 <= u128_max) by (unfold u128_max; lia). lia.
Qed.

Lemma charged_weight_le i r : weight_le (charged_weight i r) (ci_weight i).
Proof. unfold charged_weight. destruct (po_weight _); split; cbn; lia. Qed.

Lemma due_at_most : forall e t r, due e t r <= announced e t /\ N.min u128_max (tx_tip t) <= due e t r.
Proof.
  intros e t r. unfold due, announced.
  pose proof (fee_grows (fe_mult e) (tx_len t) (tx_len t) _ _ (tx_tip t) (tx_tip t) (N.le_refl _) (charged_weight_le (tx_info t) r) (N.le_refl _)) as [H1 H2].
  split.
  - unfold charged_free. destruct (ci_free (tx_info t)); cbn [orb]; [unfold tx_fee; cbn; lia|]. by destruct (po_free _).
  - unfold tx_fee, sat128. lia.
Qed.

(** Nothing is to be paid just if the call declares to be free and there is no tip. *)
Lemma nothing_to_pay : forall e t, announced e t = 0 <-> ci_free (tx_info t) = true /\ tx_tip t = 0.
Proof.
  intros e t. unfold announced. destruct (ci_free (tx_info t)) eqn:E.
  - split; [|intros [_ ->]; unfold tx_fee, sat128; cbn; lia].
    unfold tx_fee, sat128. cbn. intros H. split; [done|]. assert (0 < u128_max) by done. lia.
  - pose proof (fee_least (fe_mult e) (tx_len t) (ci_weight (tx_info t)) (tx_tip t)). split; [lia|]. intros [? _]. done.
Qed.

(* ------------------------------------------------------------------ *)
(** * Ledgers *)

Lemma upd_same l k who n : upd l k who n k who = n.
Proof. unfold upd. by rewrite decide_True. Qed.
Lemma upd_add l k who n k' who' : upd l k who (l k who + n) k' who' = l k' who' + at_ k who k' who' n.
Proof.
  unfold upd, at_, ind. destruct (decide (k' = k /\ who' = who)) as [[-> ->]|H].
  - by rewrite bool_decide_eq_true_2.
  - rewrite bool_decide_eq_false_2 by done. lia.
Qed.
Lemma upd_sub l k who n : n <= l k who -> charged_first l k who n (upd l k who (l k who - n)).
Proof.
  intros H. split; [done|]. intros k' who'. unfold upd, at_, ind. destruct (decide (k' = k /\ who' = who)) as [[-> ->]|Hn].
  - rewrite bool_decide_eq_true_2 by done. lia.
  - rewrite bool_decide_eq_false_2 by done. lia.
Qed.
Lemma at_zero k who k' who' : at_ k who k' who' 0 = 0.
Proof. unfold at_, ind. by destruct (bool_decide _). Qed.
Lemma at_self k who n : at_ k who k who n = n.
Proof. unfold at_, ind. by rewrite bool_decide_eq_true_2. Qed.
Lemma at_le k who k' who' n : at_ k who k' who' n <= n.
Proof. unfold at_, ind. destruct (bool_decide _); lia. Qed.

Lemma run_call_took call l1 l2 r : run_call call l1 = (l2, r) -> call_took call l1 l2 r.
Proof.
  unfold run_call, call_took. destruct (call l1) as [l' [p|p]] eqn:E; intros [= <- <-]; eauto.
Qed.

(* ------------------------------------------------------------------ *)
(** * Paying in the native token *)

Section native.
  Context (e : fenv) (l : fledger) (t : tx) (call : fledger -> fledger * call_result).
  Context (Hpay : has_to_pay e t) (Hnat : tx_asset t = None).

  Lemma apply_native : apply_tx e l t call =
    match withdraw_native e l (tx_payer t) (announced e t) with
    | Some l1 => let '(l2, r) := run_call call l1 in Some (settle_native e l2 (tx_payer t) (announced e t) (due e t r), r)
    | None => None
    end.
  Proof using Hpay Hnat.
    destruct Hpay as (H1 & H2 & H3). unfold apply_tx. cbv zeta. rewrite H1, H2, Hnat. cbn [orb].
    fold (announced e t). apply N.eqb_neq in H3. rewrite H3. unfold due. done.
  Qed.
End native.

Lemma native_included : forall e l t call, has_to_pay e t -> tx_asset t = None ->
  (apply_tx e l t call <> None <-> announced e t + N.max (fe_stays e None (tx_payer t)) EXISTENTIAL_DEPOSIT <= l None (tx_payer t)).
Proof.
  intros e l t call H1 H2. rewrite apply_native by done. unfold withdraw_native.
  destruct (N.leb_spec (announced e t + N.max (fe_stays e None (tx_payer t)) EXISTENTIAL_DEPOSIT) (l None (tx_payer t))) as [H|H].
  - destruct (run_call call _). done.
  - split; [done|lia].
Qed.

Lemma settle_native_spec e l who paid d : d <= paid -> room l paid ->
  exists back rest, back + rest <= paid /\
    (forall k' who', settle_native e l who paid d k' who' = l k' who' + at_ None who k' who' back + at_ None treasury_account k' who' rest) /\
    (back = paid - d \/ back = 0 /\ (l None who + fe_reserved e who = 0 \/ l None who + (paid - d) < EXISTENTIAL_DEPOSIT)) /\
    (rest = paid - back \/ rest = 0 /\ l None treasury_account < EXISTENTIAL_DEPOSIT).
Proof.
  intros Hd Hroom. unfold settle_native. cbv zeta.
  set (step := if 0 <? l None who + fe_reserved e who then if paid - d =? 0 then (l, 0) else deposit_native l who (paid - d) else (l, 0)).
  assert (exists l1 back, step = (l1, back) /\ back <= paid - d /\ (forall k' who', l1 k' who' = l k' who' + at_ None who k' who' back) /\
    (back = paid - d \/ back = 0 /\ (l None who + fe_reserved e who = 0 \/ l None who + (paid - d) < EXISTENTIAL_DEPOSIT))) as
    (l1 & back & -> & Hb & El & Hback).
  { unfold step. clear step. destruct (N.ltb_spec 0 (l None who + fe_reserved e who)) as [Hpos|Hz].
    - destruct (N.eqb_spec (paid - d) 0) as [Hz|Hnz].
      + exists l, 0. split_and!; [done|lia| |by left]. intros. rewrite at_zero. lia.
      + unfold deposit_native. pose proof (Hroom None who). assert (sat128 (l None who + (paid - d)) = l None who + (paid - d)) as -> by (unfold sat128; lia).
        destruct (N.ltb_spec (l None who + (paid - d)) EXISTENTIAL_DEPOSIT) as [Hlt|Hge].
        * exists l, 0. split_and!; [done|lia| |right; split; [done|by right]]. intros. rewrite at_zero. lia.
        * eexists _, _. split; [reflexivity|]. split; [lia|]. split; [|left; lia].
          intros k' who'. rewrite upd_add. f_equal. f_equal. lia.
    - exists l, 0. split_and!; [done|lia| |right; split; [done|left; lia]]. intros. rewrite at_zero. lia. }
  pose proof (El None treasury_account) as Et. pose proof (at_le None who None treasury_account back).
  pose proof (Hroom None treasury_account).
  destruct (N.eqb_spec (paid - back) 0) as [Hz|Hnz].
  - exists back, 0. split_and!; [lia| |done|left; lia]. intros. rewrite El, at_zero. lia.
  - destruct (N.leb_spec (l1 None treasury_account + (paid - back)) u128_max) as [Hu|Hu]; [|lia].
    rewrite andb_true_r.
    destruct (N.leb_spec EXISTENTIAL_DEPOSIT (l1 None treasury_account + (paid - back))) as [He|He].
    + exists back, (paid - back). split_and!; [lia| |done|by left]. intros. by rewrite upd_add, El.
    + exists back, 0. split_and!; [lia| |done|right; split; [done|lia]]. intros. rewrite El, at_zero. lia.
Qed.

(** The whole story of a transaction that pays in the native token. *)
Lemma native_settled : forall e l t call l' r, has_to_pay e t -> tx_asset t = None -> apply_tx e l t call = Some (l', r) ->
  exists l1 l2, charged_first l None (tx_payer t) (announced e t) l1 /\ call_took call l1 l2 r /\
    (room l2 (announced e t) ->
     exists back rest, back + rest <= announced e t /\
       (forall k who, l' k who = l2 k who + at_ None (tx_payer t) k who back + at_ None treasury_account k who rest) /\
       (back = announced e t - due e t r \/
        back = 0 /\ (l2 None (tx_payer t) + fe_reserved e (tx_payer t) = 0 \/ l2 None (tx_payer t) + (announced e t - due e t r) < EXISTENTIAL_DEPOSIT)) /\
       (rest = announced e t - back \/ rest = 0 /\ l2 None treasury_account < EXISTENTIAL_DEPOSIT)).
Proof.
  intros e l t call l' r H1 H2 H. rewrite apply_native in H by done. unfold withdraw_native in H.
  destruct (N.leb_spec (announced e t + N.max (fe_stays e None (tx_payer t)) EXISTENTIAL_DEPOSIT) (l None (tx_payer t))) as [Hle|]; [|done].
  destruct (run_call call _) as [l2 r2] eqn:Er. injection H as <- <-.
  eexists _, l2. split; [apply upd_sub; lia|]. split; [by apply run_call_took|]. intros Hroom.
  apply settle_native_spec; [apply due_at_most | done].
Qed.

(** What it comes to for a payer that the call leaves with enough: exactly what is due, all of which the treasury gets. *)
Lemma native_cost : forall e l t call l' r, has_to_pay e t -> tx_asset t = None -> apply_tx e l t call = Some (l', r) ->
  tx_payer t <> treasury_account ->
  exists l1 l2, charged_first l None (tx_payer t) (announced e t) l1 /\ call_took call l1 l2 r /\
    (room l2 (announced e t) -> EXISTENTIAL_DEPOSIT <= l2 None (tx_payer t) -> EXISTENTIAL_DEPOSIT <= l2 None treasury_account ->
     l' None (tx_payer t) + due e t r = l2 None (tx_payer t) + announced e t /\
     l' None treasury_account = l2 None treasury_account + due e t r /\
     (forall k who, k <> None \/ who <> tx_payer t /\ who <> treasury_account -> l' k who = l2 k who)).
Proof.
  intros e l t call l' r H1 H2 H Hne. destruct (native_settled e l t call l' r H1 H2 H) as (l1 & l2 & Hc & Ht & Hrest).
  exists l1, l2. split_and!; [done|done|]. intros Hroom Hp Htr. destruct (Hrest Hroom) as (back & rest & _ & El & Hb & Hr).
  destruct (due_at_most e t r) as [Hd _].
  assert (0 < EXISTENTIAL_DEPOSIT) by (vm_compute; done).
  destruct Hb as [Hb|[_ [Hb|Hb]]]; [|lia|lia]. destruct Hr as [Hr|[_ Hr]]; [|lia].
  assert (forall a b n, a <> b -> at_ None a None b n = 0) as Hz.
  { intros a b n Hab. unfold at_, ind. rewrite bool_decide_eq_false_2; [done|]. intros [_ ?]. congruence. }
  split_and!.
  - rewrite El, at_self, Hz by done. lia.
  - rewrite El, at_self, Hz by congruence. lia.
  - intros k who Hk. rewrite El. unfold at_, ind. rewrite !bool_decide_eq_false_2; [lia|naive_solver|naive_solver].
Qed.

(** The payer never pays more than announced, whatever the call does. *)
Lemma native_never_more : forall e l t call l' r, has_to_pay e t -> tx_asset t = None -> apply_tx e l t call = Some (l', r) ->
  exists l1 l2, charged_first l None (tx_payer t) (announced e t) l1 /\ call_took call l1 l2 r /\
    (room l2 (announced e t) -> forall k who, l2 k who <= l' k who).
Proof.
  intros e l t call l' r H1 H2 H. destruct (native_settled e l t call l' r H1 H2 H) as (l1 & l2 & Hc & Ht & Hrest).
  exists l1, l2. split_and!; [done|done|]. intros Hroom k who. destruct (Hrest Hroom) as (back & rest & _ & El & _). rewrite El. lia.
Qed.

(* ------------------------------------------------------------------ *)
(** * Paying in an asset *)

(** What an amount of native tokens is in an asset with this minimum balance, at least one unit unless it is nothing. *)
Lemma fee_in_asset_eq info id fee : fee_in_asset info id fee =
  match info id with Some (true, min) => Some (N.max (in_terms_of min fee) (N.min fee 1)) | _ => None end.
Proof.
  unfold fee_in_asset, to_asset_balance. destruct (info id) as [[[] min]|]; try done. cbn. f_equal. rewrite terms_eq. f_equal.
  destruct (N.eqb_spec fee 0); lia.
Qed.
Lemma in_terms_mono min n n' : n <= n' -> in_terms_of min n <= in_terms_of min n'.
Proof.
  intros H. unfold in_terms_of. set (r := N.min u128_max (min * 10 ^ 18 / EXISTENTIAL_DEPOSIT)).
  assert (r * n / 10 ^ 18 <= r * n' / 10 ^ 18). { apply N.div_le_mono; [done|]. by apply N.mul_le_mono_l. } lia.
Qed.

Section asset.
  Context (e : fenv) (l : fledger) (t : tx) (call : fledger -> fledger * call_result) (id : asset_id).
  Context (Hpay : has_to_pay e t) (Has : tx_asset t = Some id).

  Lemma apply_asset : apply_tx e l t call =
    match withdraw_asset e l (tx_payer t) id (announced e t) with
    | Some (l1, paid) =>
        let '(l2, r) := run_call call l1 in
        match settle_asset e l2 (tx_payer t) id paid (due e t r) with Some l3 => Some (l3, r) | None => None end
    | None => None
    end.
  Proof using Hpay Has.
    destruct Hpay as (H1 & H2 & H3). unfold apply_tx. cbv zeta. rewrite H1, H2, Has. cbn [orb].
    fold (announced e t). apply N.eqb_neq in H3. rewrite H3. unfold due. done.
  Qed.
End asset.

Lemma resolve_asset_spec e l id who n : l (Some id) who + n <= u128_max ->
  exists got, (forall k' who', resolve_asset e l id who n k' who' = l k' who' + at_ (Some id) who k' who' got) /\
    (got = n \/ got = 0 /\ (fe_takes e id who = false \/ l (Some id) who + n < min_balance (fe_info_after e) id)).
Proof.
  intros Hroom. unfold resolve_asset. destruct (N.eqb_spec n 0) as [->|Hn].
  - exists 0. split; [|by left]. intros. rewrite at_zero. lia.
  - destruct (N.leb_spec (l (Some id) who + n) u128_max) as [_|]; [|lia]. rewrite andb_true_r.
    destruct (fe_takes e id who) eqn:E; cbn [andb].
    + destruct (N.leb_spec (min_balance (fe_info_after e) id) (l (Some id) who + n)) as [H|H].
      * exists n. split; [|by left]. intros. by rewrite upd_add.
      * exists 0. split; [intros; rewrite at_zero; lia|]. right. split; [done|by right].
    + exists 0. split; [intros; rewrite at_zero; lia|]. right. split; [done|by left].
Qed.
Lemma asset_included : forall e l t call id, has_to_pay e t -> tx_asset t = Some id ->
  (apply_tx e l t call <> None <->
   exists min min', fe_info e id = Some (true, min) /\ fe_info_after e id = Some (true, min') /\ fe_usable e id (tx_payer t) = true /\
     in_asset min (announced e t) + N.max (fe_stays e (Some id) (tx_payer t)) min <= l (Some id) (tx_payer t)).
Proof.
  intros e l t call id H1 H2. rewrite (apply_asset e l t call id) by done. unfold withdraw_asset, settle_asset. rewrite fee_in_asset_eq.
  destruct (fe_info e id) as [[[] min]|] eqn:Ei; [|split; [done|naive_solver]..]. fold (in_asset min (announced e t)).
  assert (min_balance (fe_info e) id = min) as -> by (unfold min_balance; by rewrite Ei).
  destruct (fe_usable e id (tx_payer t)); cbn [andb]; [|split; [done|naive_solver]].
  destruct (N.leb_spec (in_asset min (announced e t) + N.max (fe_stays e (Some id) (tx_payer t)) min) (l (Some id) (tx_payer t))) as [Hle|Hgt].
  - destruct (run_call call _) as [l2 r]. rewrite fee_in_asset_eq. destruct (fe_info_after e id) as [[[] min']|]; split; try done; try naive_solver.
  - split; [done|]. intros (m & m' & [= <-] & _ & _ & ?). lia.
Qed.

(** The whole story of a transaction that pays in an asset. *)
Lemma asset_settled : forall e l t call id l' r, has_to_pay e t -> tx_asset t = Some id -> apply_tx e l t call = Some (l', r) ->
  exists min min' l1 l2, fe_info e id = Some (true, min) /\ fe_info_after e id = Some (true, min') /\
    let paid := in_asset min (announced e t) in let final := N.min paid (in_asset min' (due e t r)) in
    charged_first l (Some id) (tx_payer t) paid l1 /\ call_took call l1 l2 r /\
    (room l2 paid ->
     exists back got, back <= paid - final /\ got <= final /\
       (forall k who, l' k who = l2 k who + at_ (Some id) (tx_payer t) k who back + to_author e (Some id) k who got) /\
       (back = paid - final \/ back = 0 /\ (fe_takes e id (tx_payer t) = false \/ l2 (Some id) (tx_payer t) + (paid - final) < min')) /\
       (forall a, fe_author e = Some a -> got = final \/ got = 0 /\ (fe_takes e id a = false \/ l2 (Some id) a + final < min'))).
Proof.
  intros e l t call id l' r H1 H2 H. rewrite (apply_asset e l t call id) in H by done. unfold withdraw_asset, settle_asset in H. rewrite fee_in_asset_eq in H.
  destruct (fe_info e id) as [[[] min]|] eqn:Ei; try done. fold (in_asset min (announced e t)) in H.
  destruct (fe_usable e id (tx_payer t) && _) eqn:Eu in H; [|done]. apply andb_true_iff in Eu as [_ Hle]. apply N.leb_le in Hle.
  destruct (run_call call _) as [l2 r2] eqn:Er. rewrite fee_in_asset_eq in H. destruct (fe_info_after e id) as [[[] min']|] eqn:Ei'; try done.
  injection H as <- <-. fold (in_asset min' (due e t r2)). set (paid := in_asset min (announced e t)) in *.
  set (final := N.min paid (in_asset min' (due e t r2))). cbv zeta.
  eexists min, min', _, l2. split; [done|]. split; [done|]. split; [apply upd_sub; lia|]. split; [by apply run_call_took|]. intros Hroom.
  assert (min_balance (fe_info_after e) id = min') as Em by (unfold min_balance; by rewrite Ei').
  assert (final <= paid) by (unfold final; lia).
  pose proof (Hroom (Some id) (tx_payer t)).
  destruct (resolve_asset_spec e l2 id (tx_payer t) (paid - final)) as (back & El & Hb); [lia|]. rewrite Em in Hb.
  set (l3 := resolve_asset e l2 id (tx_payer t) (paid - final)) in *.
  assert (back <= paid - final) by (destruct Hb as [->|[-> _]]; lia).
  destruct (fe_author e) as [a|] eqn:Ea.
  - destruct (resolve_asset_spec e l3 id a final) as (got & El' & Hg).
    { rewrite El. pose proof (at_le (Some id) (tx_payer t) (Some id) a back). pose proof (Hroom (Some id) a). lia. }
    rewrite Em in Hg. exists back, got. split_and!; [done| | |done|].
    + destruct Hg as [->|[-> _]]; lia.
    + intros k who. rewrite El', El. unfold to_author. rewrite Ea. lia.
    + intros a' [= <-]. destruct Hg as [Hg|[Hg Hc]]; [by left|right]. split; [done|]. destruct Hc as [Hc|Hc]; [by left|right]. rewrite El in Hc. lia.
  - exists back, 0. split_and!; [done|lia| |done|done]. intros k who. rewrite El. unfold to_author. rewrite Ea. lia.
Qed.

(** What it comes to when the asset stays as it is and all concerned have and can take it: the fee in terms of the asset, which the author gets. *)
Lemma asset_cost : forall e l t call id l' r min, has_to_pay e t -> tx_asset t = Some id -> apply_tx e l t call = Some (l', r) ->
  fe_info e id = Some (true, min) -> fe_info_after e id = Some (true, min) ->
  exists l1 l2, charged_first l (Some id) (tx_payer t) (in_asset min (announced e t)) l1 /\ call_took call l1 l2 r /\
    (room l2 (in_asset min (announced e t)) -> fe_takes e id (tx_payer t) = true -> min <= l2 (Some id) (tx_payer t) ->
     forall a, fe_author e = Some a -> a <> tx_payer t -> fe_takes e id a = true -> min <= l2 (Some id) a ->
     l' (Some id) (tx_payer t) + in_asset min (due e t r) = l2 (Some id) (tx_payer t) + in_asset min (announced e t) /\
     l' (Some id) a = l2 (Some id) a + in_asset min (due e t r) /\
     (forall k who, k <> Some id \/ who <> tx_payer t /\ who <> a -> l' k who = l2 k who)).
Proof.
  intros e l t call id l' r min H1 H2 H Ei Ei'. destruct (asset_settled e l t call id l' r H1 H2 H) as (m & m' & l1 & l2 & Em & Em' & Hc & Ht & Hrest).
  rewrite Ei in Em. injection Em as <-. rewrite Ei' in Em'. injection Em' as <-. exists l1, l2. split_and!; [done|done|].
  intros Hroom Hk Hp a Ha Hne Hka Hpa. destruct (Hrest Hroom) as (back & got & _ & _ & El & Hb & Hg). specialize (Hg a Ha).
  assert (in_asset min (due e t r) <= in_asset min (announced e t)) as Hmono.
  { unfold in_asset. destruct (due_at_most e t r) as [Hd _]. pose proof (in_terms_mono min _ _ Hd). lia. }
  rewrite N.min_r in Hb, Hg by done.
  destruct Hb as [Hb|[_ [Hb|Hb]]]; [|congruence|lia]. destruct Hg as [Hg|[_ [Hg|Hg]]]; [|congruence|lia].
  unfold to_author in El. rewrite Ha in El.
  assert (forall x y n, x <> y -> at_ (Some id) x (Some id) y n = 0) as Hz.
  { intros x y n Hxy. unfold at_, ind. rewrite bool_decide_eq_false_2; [done|]. intros [_ ?]. congruence. }
  split_and!.
  - rewrite El, at_self, Hz by done. lia.
  - rewrite El, at_self, Hz by congruence. lia.
  - intros k who Hkw. rewrite El. unfold at_, ind. rewrite !bool_decide_eq_false_2; [lia|naive_solver|naive_solver].
Qed.

(* ------------------------------------------------------------------ *)
(** * Nothing runs unpaid *)

(** A transaction that is included is feeless, has gas, declares to be free without a tip, or was charged before its call ran. *)
Lemma nothing_unpaid : forall e l t call l' r, apply_tx e l t call = Some (l', r) ->
  (exists l1 l2, call_took call l1 l2 r /\
    (fe_feeless e = true \/ fe_gas e (tx_payer t) (ci_weight (tx_info t)) = true \/ ci_free (tx_info t) = true /\ tx_tip t = 0) /\ l1 = l /\ l' = l2) \/
  (exists l1 l2 paid, call_took call l1 l2 r /\ has_to_pay e t /\ 0 < paid /\ charged_first l (tx_asset t) (tx_payer t) paid l1 /\
    (forall id min, tx_asset t = Some id -> fe_info e id = Some (true, min) -> paid = in_asset min (announced e t)) /\
    (tx_asset t = None -> paid = announced e t)).
Proof.
  intros e l t call l' r H.
  destruct (fe_feeless e || fe_gas e (tx_payer t) (ci_weight (tx_info t))) eqn:Ef.
  { left. unfold apply_tx in H. cbv zeta in H. rewrite Ef in H. injection H as H. apply run_call_took in H. exists l, l'.
    split_and!; try done. apply orb_true_iff in Ef. tauto. }
  apply orb_false_iff in Ef as [Ef1 Ef2]. destruct (decide (announced e t = 0)) as [Hz|Hnz].
  { left. unfold apply_tx in H. cbv zeta in H. rewrite Ef1, Ef2 in H. cbn [orb] in H. fold (announced e t) in H. rewrite Hz in H. cbn in H.
    injection H as H. apply run_call_took in H. exists l, l'. split_and!; try done. right; right. by apply nothing_to_pay in Hz. }
  assert (has_to_pay e t) as Hp by done. right. destruct (tx_asset t) as [id|] eqn:Ea.
  - destruct (asset_settled e l t call id l' r Hp Ea H) as (min & min' & l1 & l2 & Ei & _ & Hc & Ht & _).
    exists l1, l2, (in_asset min (announced e t)). split_and!; try done; [unfold in_asset; lia|]. intros id' m [= <-] Hm. congruence.
  - destruct (native_settled e l t call l' r Hp Ea H) as (l1 & l2 & Hc & Ht & _). exists l1, l2, (announced e t). split_and!; try done; lia.
Qed.

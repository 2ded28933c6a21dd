(** Proofs about messages from other chains: siblings, crashes, fees, arrival. *)
From Verif Require Import Base XcmTypes AssetLocationModel AssetLocationProofs OriginTypes AccountsModel AccountsProofs PaymentsSpec LedgerProofs XcmConfigModel
  XcmConfigSpec XcmConfigProofs XcmCountable RuntimeModel XcmExecModel XcmExecSpec XcmTraderProofs XcmExecProofs XcmRunProofs.
From stdpp Require Import gmap.
Open Scope N_scope.

(** * What a chain can do *)

Lemma receive_balances : forall e para ch origin p need ch' t a, receive e para ch origin p need = XOk ch' ->
  bal ch' t a < bal ch t a -> account_of_or_under origin a.
Proof. intros. eapply fr_bal; [by eapply receive_fair|done]. Qed.
Lemma receive_supply : forall e para ch origin p need ch' t k, receive e para ch origin p need = XOk ch' -> token_of k = Val (Some t) -> k <> relay_location ->
  (forall o, extends origin o -> is_reserve k o = false) -> in_existence ch' t k <= in_existence ch t k.
Proof. intros. eapply fr_worth; [by eapply receive_fair|done|done|done]. Qed.
Lemma receive_traps : forall e para ch origin p need ch' tr, receive e para ch origin p need = XOk ch' -> ~ extends origin (fst tr) ->
  times_trapped tr ch' = times_trapped tr ch.
Proof. intros. eapply fr_traps; [by eapply receive_fair|done]. Qed.
Lemma receive_calls : forall e para ch origin p need ch', receive e para ch origin p need = XOk ch' ->
  exists l, ch_calls ch' = ch_calls ch ++ l /\ Forall (fun c => exists o kind, extends origin o /\ transact_origin o kind = Some (fst c)) l.
Proof. intros. eapply fr_calls. by eapply receive_fair. Qed.

Lemma under_sibling n o a : extends (Location 1 [Parachain n]) o -> location_to_account o = Some a -> o = Location 1 [Parachain n] /\ a = sibling_account n.
Proof.
  intros [s ->] H. cbn [loc_parents loc_interior] in *. unfold location_to_account, or_else in H. cbn in H. destruct s; [by injection H as <-|done].
Qed.
Lemma sibling_balances : forall e para ch n p need ch' t a, receive e para ch (Location 1 [Parachain n]) p need = XOk ch' ->
  bal ch' t a < bal ch t a -> a = sibling_account n.
Proof. intros e para ch n p need ch' t a H Hlt. destruct (receive_balances _ _ _ _ _ _ _ _ _ H Hlt) as (o & Ho & Ha). by destruct (under_sibling _ _ _ Ho Ha). Qed.
Lemma sibling_supply : forall e para ch n p need ch' t k, receive e para ch (Location 1 [Parachain n]) p need = XOk ch' -> token_of k = Val (Some t) -> k <> relay_location ->
  ~ extends (Location 1 [Parachain n]) k -> ~ extends (Location 1 [Parachain 1000]) k -> (n = 1000 -> ~ extends (Location 2 [GlobalConsensus Polkadot]) k) ->
  in_existence ch' t k <= in_existence ch t k.
Proof.
  intros e para ch n p need ch' t k H Hk Hn H1 H2 H3. eapply receive_supply; [done|done|done|]. intros o Ho.
  destruct (is_reserve k o) eqn:E; [|done]. apply reserves_exact in E as [->|[E|[E1 E2]]]; [done|done|].
  destruct Ho as [s ->]. injection E1 as -> ->. by destruct (H3 eq_refl).
Qed.
Lemma sibling_calls : forall e para ch n p need ch', receive e para ch (Location 1 [Parachain n]) p need = XOk ch' ->
  exists l, ch_calls ch' = ch_calls ch ++ l /\
    Forall (fun c => fst c = RoSigned (sibling_account n) \/ fst c = RoSibling n \/ exists l, fst c = RoXcm l /\ extends (Location 1 [Parachain n]) l) l.
Proof.
  intros e para ch n p need ch' H. destruct (receive_calls _ _ _ _ _ _ _ H) as (l & E & Hl). exists l. split; [done|].
  eapply Forall_impl; [done|]. intros [d c] (o & kind & Ho & Hd). cbn [fst] in *. destruct d as [a| |m|l'].
  - left. apply transact_signed in Hd. by destruct (under_sibling _ _ _ Ho Hd) as [_ ->].
  - apply transact_relay in Hd as [-> _]. destruct Ho as [s Ho]. by injection Ho.
  - right. left. apply transact_sibling in Hd as [-> _]. destruct Ho as [s [= -> _]]. done.
  - right. right. apply transact_xcm in Hd as [-> _]. by eexists.
Qed.

(** Local users and communities. *)
Lemma under_account net id o a : extends (Location 0 [AccountId32 net id]) o -> location_to_account o = Some a -> a = account_of_bytes id.
Proof.
  intros [s ->] H. apply location_to_account_iff in H as [[H _]|[(i & H & _)|[(i & part & H & _)|(p & net' & id' & _ & H & _ & ->)]]]; try done.
  by injection H as <- <- <- _.
Qed.
Lemma under_plurality i part o a : extends (Location 0 [Plurality (BIndex i) part]) o -> location_to_account o = Some a -> a = community_account (N.min i u16_max).
Proof.
  intros [s ->] H. apply location_to_account_iff in H as [[H _]|[(j & H & _)|[(j & part' & H & ->)|(p & net' & id' & _ & H & _ & ->)]]]; try done.
  by injection H as <- _ _.
Qed.
Lemma local_balances : forall e para ch o p need ch' t a, execute_for e para ch o p need = Some (XOk ch') ->
  (forall who, o = OSigned who -> account_wf who) -> (forall id s, o = OCommunity id s -> id <= u16_max) -> bal ch' t a < bal ch t a ->
  o = OSigned a \/ exists id s, o = OCommunity id s /\ a = community_account id.
Proof.
  intros e para ch o p need ch' t a H Hwf Hid Hlt. unfold execute_for in H. destruct (can_execute_xcm o) as [l|] eqn:El; [|done]. injection H as Hr.
  apply receive_fair in Hr. destruct (fr_bal _ _ _ Hr t a Hlt) as (x & Hx & Ha).
  unfold can_execute_xcm, or_else in El. destruct o; cbn [community_to_location signed_to_account] in El; try done.
  - apply (inj Some) in El as <-. left. pose proof (under_account _ _ _ _ Hx Ha) as E. rewrite account_of_bytes_bytes in E by (by apply Hwf). by subst.
  - right. eexists _, _. split; [done|]. specialize (Hid _ _ eq_refl). replace id with (N.min id u16_max) by lia.
    destruct s as [[]|]; cbn in El; try done; injection El as <-; by eapply under_plurality.
Qed.

(** * Crashes *)

Definition safe (k : location) : Prop := token_of k <> Panic.
Definition hsafe (h : gmap location N) : Prop := forall k, is_Some (h !! k) -> safe k.

Lemma safe_iff k : safe k <-> ~ exists ix, u32_max < ix /\ k = Location 0 [PalletInstance 13; GeneralIndex ix].
Proof.
  unfold safe, token_of. rewrite <-convert_panic_iff. case_bool_decide as E; [subst; split; done|].
  destruct (convert k) as [[]| |]; split; done.
Qed.

Section crash.
  Context (e : xenv).

  Lemma xbind_panic {A B} (x : xres A) (f : A -> xres B) : x <> XPanic -> (forall a, x = XOk a -> f a <> XPanic) -> xbind x f <> XPanic.
  Proof. destruct x; cbn; auto. Qed.
  Lemma xensure_panic b : xensure b <> XPanic. Proof. by destruct b. Qed.
  Lemma xsome_panic {A} (x : option A) : xsome x <> XPanic. Proof. by destruct x. Qed.
  Lemma xtoken_panic k : safe k -> xtoken k <> XPanic.
  Proof. unfold safe, xtoken. by destruct (token_of k) as [[]| |]. Qed.
  Hint Resolve xensure_panic xsome_panic xtoken_panic : core.

  Lemma withdraw_one_panic ch a who : safe (fst a) -> withdraw_one e ch a who <> XPanic.
  Proof. intros. unfold withdraw_one. repeat (apply xbind_panic; [auto|intros]). done. Qed.
  Lemma deposit_to_panic ch t n x : deposit_to e ch t n x <> XPanic.
  Proof. unfold deposit_to. apply xbind_panic; [auto|]. done. Qed.
  Lemma deposit_one_panic ch a who : safe (fst a) -> deposit_one e ch a who <> XPanic.
  Proof. intros. unfold deposit_one. do 2 (apply xbind_panic; [auto|intros]). apply deposit_to_panic. Qed.
  Lemma check_out_panic ch a : safe (fst a) -> check_out_one e ch a <> XPanic.
  Proof. intros. unfold check_out_one. apply xbind_panic; [auto|]. intros t _. destruct (xe_checked e ch t); [apply deposit_to_panic|done]. Qed.
  Lemma each_panic f : forall l ch, Forall safe (map fst l) -> (forall ch a, safe (fst a) -> f ch a <> XPanic) -> each f l ch <> XPanic.
  Proof.
    induction l as [|a l IH]; intros ch Hl Hf; cbn [each]; [done|]. cbn [map] in Hl. inversion Hl; subst.
    apply xbind_panic; [by apply Hf|]. intros ch' _. by apply IH.
  Qed.
  Lemma deposit_some_panic who : forall l ch, Forall safe (map fst l) -> deposit_some e l who ch <> XPanic /\
    (forall q, deposit_some e l who ch = XOk q -> Forall safe (map fst (fst q))).
  Proof.
    induction l as [|a l IH]; intros ch Hl; cbn [deposit_some]; [split; [done|]; intros q [= <-]; constructor|]. cbn [map] in Hl. inversion Hl; subst.
    pose proof (deposit_one_panic ch a who ltac:(done)). destruct (deposit_one e ch a who) as [ch'| |]; [by apply IH| |done].
    destruct (IH ch ltac:(done)) as [I1 I2]. split; [apply xbind_panic; [done|done]|]. intros q Hq. xinv Hq. injection Hq as <-. cbn. constructor; [done|]. by apply I2.
  Qed.
  Lemma deposit_all_panic who l ch : Forall safe (map fst l) -> deposit_all e l who ch <> XPanic.
  Proof.
    intros Hl. unfold deposit_all. destruct (deposit_some_panic who l ch Hl) as [H1 H2]. apply xbind_panic; [done|]. intros q Hq.
    apply each_panic; [by apply H2|]. intros. by apply deposit_one_panic.
  Qed.

  Lemma hsafe_set h k v : hsafe h -> safe k -> hsafe (set_held_of h k v).
  Proof.
    intros Hh Hk k' [x Hx]. unfold set_held_of in Hx. destruct (v =? 0).
    - apply lookup_delete_Some in Hx as [_ Hx]. apply Hh. by eexists.
    - apply lookup_insert_Some in Hx as [[<- _]|[_ Hx]]; [done|]. apply Hh. by eexists.
  Qed.
  Lemma hsafe_sub h k v : hsafe h -> v = 0 \/ is_Some (h !! k) -> hsafe (set_held_of h k v).
  Proof.
    intros Hh [->|Hk]; [|by apply hsafe_set; [|apply Hh]]. intros k' [x Hx]. unfold set_held_of in Hx. cbn in Hx.
    apply lookup_delete_Some in Hx as [_ Hx]. apply Hh. by eexists.
  Qed.
  Lemma hsafe_subsume : forall l h, hsafe h -> Forall safe (map fst l) -> hsafe (subsume h l).
  Proof.
    induction l as [|a l IH]; intros h Hh Hl; [done|]. rewrite subsume_cons. cbn [map] in Hl. inversion Hl; subst. apply IH; [by apply hsafe_set|done].
  Qed.
  Lemma held_some h k : held_of h k <> 0 -> is_Some (h !! k).
  Proof. unfold held_of. destruct (h !! k); [eauto|done]. Qed.
  Lemma hsafe_less h k n : hsafe h -> hsafe (set_held_of h k (held_of h k - n)).
  Proof.
    intros Hh. apply hsafe_sub; [done|]. destruct (decide (held_of h k = 0)) as [E|E]; [left; lia|right; by apply held_some].
  Qed.
  Lemma take_safe : forall l h, hsafe h -> Forall safe (map fst l) -> Forall safe (map fst (fst (saturating_take l h))) /\ hsafe (snd (saturating_take l h)).
  Proof.
    induction l as [|a l IH]; intros h Hh Hl; cbn [saturating_take]; [done|]. cbn [map] in Hl. inversion Hl; subst.
    destruct (IH (set_held_of h (fst a) (held_of h (fst a) - N.min (snd a) (held_of h (fst a)))) ltac:(by apply hsafe_less) ltac:(done)) as [I1 I2].
    destruct (saturating_take l _) as [taken rest]. cbn [fst snd map] in *. split; [by constructor|done].
  Qed.
  Lemma take_rest_safe : forall l h, hsafe h -> hsafe (snd (saturating_take l h)).
  Proof.
    induction l as [|a l IH]; intros h Hh; cbn [saturating_take]; [done|].
    pose proof (IH (set_held_of h (fst a) (held_of h (fst a) - N.min (snd a) (held_of h (fst a)))) ltac:(by apply hsafe_less)) as I2.
    destruct (saturating_take l _) as [taken rest]. done.
  Qed.
  Lemma try_take_safe : forall l h r, hsafe h -> try_take l h = Some r -> hsafe r.
  Proof.
    induction l as [|a l IH]; intros h r Hh H; cbn [try_take] in H; [by injection H as <-|].
    destruct (snd a <=? held_of h (fst a)); [|done]. eapply IH; [|done]. by apply hsafe_less.
  Qed.
  Lemma list_safe h : hsafe h -> Forall safe (map fst (map_to_list h)).
  Proof.
    intros Hh. apply Forall_forall. intros k Hk. apply elem_of_list_In, in_map_iff in Hk as ([k' v] & <- & Hin).
    apply elem_of_list_In, elem_of_map_to_list in Hin. apply Hh. by eexists.
  Qed.
  Definition filter_assets (f : xfilter) : list location := match f with FDefinite l => map fst l | FAllOf k _ | FAllOfCounted k _ _ => [k] | _ => [] end.
  Lemma requested_safe f h : hsafe h -> Forall safe (filter_assets f) -> Forall safe (map fst (requested f h)).
  Proof.
    intros Hh Hf. destruct f as [l| |k nft|n|k nft n]; cbn [requested filter_assets] in *; [done|by apply list_safe|destruct nft; [constructor|done]| |destruct (nft || _); [constructor|done]].
    pose proof (list_safe h Hh) as Hl. rewrite <-(take_drop n (map_to_list h)), map_app in Hl. by apply Forall_app in Hl as [Hl _].
  Qed.

  (** Fees for delivery are never in the assets that crash. *)
  Definition fees_safe : Prop := forall m, Forall safe (map fst (xe_delivery e m)).
  Record psafe (m : machine) : Prop := PSafe {
    ps_hold : hsafe (m_hold m);
    ps_trader : trader_ok (xe_asset e) (m_trader m);
    ps_prog : Forall safe (prog_assets (m_prog m));
    ps_handler : Forall safe (prog_assets (m_handler m));
    ps_appendix : Forall safe (prog_assets (m_appendix m))
  }.
  Lemma delivery_safe m : fees_safe -> hsafe (m_hold m) -> take_delivery_fee e m <> XPanic /\ (forall m', take_delivery_fee e m = XOk m' -> hsafe (m_hold m') /\ m_trader m' = m_trader m).
  Proof.
    intros Hf Hh. unfold take_delivery_fee. split.
    - apply xbind_panic; [auto|]. intros _ _. destruct (m_jit m).
      + apply xbind_panic; [auto|]. intros o _. apply xbind_panic; [|done]. apply each_panic; [apply Hf|]. intros. by apply withdraw_one_panic.
      + apply xbind_panic; [auto|done].
    - intros m' H. xinv H. destruct (m_jit m); xinv H; injection H as <-; [done|]. cbn. split; [|done]. by eapply try_take_safe.
  Qed.
  Lemma exec_safe m i : fees_safe -> hsafe (m_hold m) -> trader_ok (xe_asset e) (m_trader m) -> Forall safe (instr_assets i) ->
    exec_instr e m i <> XPanic /\ (forall m', exec_instr e m i = XOk m' -> hsafe (m_hold m') /\ trader_ok (xe_asset e) (m_trader m')).
  Proof.
    intros Hf Hh Hp Hi. destruct i; cbn [exec_instr instr_assets] in *; try (by split; [done|]); try (by split; [done|intros m' [= <-]]).
    - split.
      + repeat (apply xbind_panic; [auto|intros]); [|done]. apply each_panic; [done|]. intros. by apply withdraw_one_panic.
      + intros m' H. xinv H. injection H as <-. cbn. split; [by apply hsafe_subsume|done].
    - split; [repeat (apply xbind_panic; [auto|intros]); done|]. intros m' H. xinv H. injection H as <-. cbn. split; [by apply hsafe_subsume|done].
    - split; [repeat (apply xbind_panic; [auto|intros]); done|]. intros m' H. xinv H. by injection H as <-.
    - split.
      + repeat (apply xbind_panic; [auto|intros]); [|done]. apply each_panic; [done|]. intros c b Hb. unfold transfer_one.
        apply xbind_panic; [by apply withdraw_one_panic|]. intros. by apply deposit_one_panic.
      + intros m' H. xinv H. by injection H as <-.
    - split.
      + apply xbind_panic; [auto|]. intros o _. apply xbind_panic.
        * apply each_panic; [done|]. intros c b Hb. unfold transfer_one. apply xbind_panic; [by apply withdraw_one_panic|]. intros. by apply deposit_one_panic.
        * intros. by apply delivery_safe.
      + intros m' H. xinv H. destruct (delivery_safe _ Hf Hh) as [_ D]. eapply (delivery_safe (xset_chain x0 m)) in H as [H1 H2]; [|done|done]. cbn in *. by rewrite H2.
    - split; [repeat (apply xbind_panic; [auto|intros]); done|]. intros m' H. xinv H. by injection H as <-.
    - split; [repeat (apply xbind_panic; [auto|intros]); done|]. intros m' H. xinv H. by injection H as <-.
    - destruct (take_safe (requested f (m_hold m)) (m_hold m) Hh) as [T1 T2]; [apply requested_safe; [done|by destruct f]|].
      destruct (saturating_take _ _) as [taken rest]. cbn [fst snd] in *. split.
      + apply xbind_panic; [by apply deposit_all_panic|done].
      + intros m' H. xinv H. by injection H as <-.
    - destruct (delivery_safe m Hf Hh) as [D1 D2]. split.
      + apply xbind_panic; [done|]. intros m1 Hm1. destruct (D2 m1 Hm1) as [D3 D4].
        destruct (take_safe (requested f (m_hold m1)) (m_hold m1) D3) as [T1 T2]; [apply requested_safe; [done|by destruct f]|].
        destruct (saturating_take _ _) as [taken rest]. cbn [fst snd] in *. apply xbind_panic; [by apply deposit_all_panic|done].
      + intros m' H. xinv H. destruct (D2 x E) as [D3 D4]. pose proof (take_rest_safe (requested f (m_hold x)) (m_hold x) D3) as T.
        destruct (saturating_take _ _) as [taken rest]. xinv H. injection H as <-. cbn in *. by rewrite D4.
    - destruct (delivery_safe m Hf Hh) as [D1 D2]. split.
      + apply xbind_panic; [done|]. intros m1 Hm1. by destruct (saturating_take _ _).
      + intros m' H. xinv H. destruct (D2 x E) as [D3 D4]. pose proof (take_rest_safe (requested f (m_hold x)) (m_hold x) D3) as T.
        destruct (saturating_take _ _) as [taken rest]. injection H as <-. cbn in *. by rewrite D4.
    - destruct (delivery_safe m Hf Hh) as [D1 D2]. split.
      + apply xbind_panic; [done|]. intros m1 Hm1. destruct (D2 m1 Hm1) as [D3 D4].
        destruct (take_safe (requested f (m_hold m1)) (m_hold m1) D3) as [T1 T2]; [apply requested_safe; [done|by destruct f]|].
        destruct (saturating_take _ _) as [taken rest]. cbn [fst snd] in *. apply xbind_panic; [|done]. apply each_panic; [done|]. intros. by apply check_out_panic.
      + intros m' H. xinv H. destruct (D2 x E) as [D3 D4]. pose proof (take_rest_safe (requested f (m_hold x)) (m_hold x) D3) as T.
        destruct (saturating_take _ _) as [taken rest]. xinv H. injection H as <-. cbn in *. by rewrite D4.
    - inversion Hi; subst. destruct limit; [|by split; [|intros m' [= <-]]]. split; [repeat (apply xbind_panic; [auto|intros]); done|].
      intros m' H. xinv H. injection H as <-. destruct x0 as [t p]. cbn [m_hold m_trader xset_trader xset_hold fst snd]. split; [by apply hsafe_less|]. by eapply buy_ok.
    - split.
      + unfold refund_surplus. destruct (weight_le _ _); [done|]. destruct (refund_weight _ _ _ _) as [t [a|]]; [by destruct (_ && _)|done].
      + intros m' H. apply refund_ok in H as (_ & _ & [[-> ->]|(w & -> & ->)]); [done|]. split; [|by apply refund_cases].
        destruct (snd (refund_weight (xe_base e) (xe_asset e) (m_trader m) w)) as [a|] eqn:Ea; [|done]. apply hsafe_subsume; [done|]. constructor; [|constructor].
        apply refund_names in Ea as [Ea|[id Ea]]; [| |done]; [unfold safe; by rewrite Ea|]. apply fee_asset_id_iff in Ea as [_ Ea]. unfold safe, token_of. rewrite Ea. by case_bool_decide.
    - split; [repeat (apply xbind_panic; [auto|intros]); done|]. intros m' H. xinv H. by injection H as <-.
    - split; [repeat (apply xbind_panic; [auto|intros]); done|]. intros m' H. xinv H. by injection H as <-.
    - split; [repeat (apply xbind_panic; [auto|intros]); done|]. intros m' H. xinv H. injection H as <-. cbn. split; [by apply hsafe_subsume|done].
    - split; [done|]. intros m' [= <-]. cbn. split; [by apply take_rest_safe|done].
    - destruct (delivery_safe m Hf Hh) as [D1 D2]. split; [done|]. intros m' H. destruct (D2 m' H) as [D3 D4]. by rewrite D4.
    - split; [repeat (apply xbind_panic; [auto|intros]); done|]. intros m' H. xinv H. injection H as <-. by destruct k.
  Qed.
  Lemma prog_assets_cons i p : prog_assets (i :: p) = instr_assets i ++ prog_assets p.
  Proof. done. Qed.
  Lemma step_safe m : fees_safe -> psafe m -> xstep e m <> XPanic /\ (forall m', xstep e m = XOk m' -> psafe m').
  Proof.
    intros Hf Hps. pose proof Hps as [H1 H2 H3 H4 H5]. unfold xstep. destruct (m_prog m) as [|i p].
    - split; [done|]. intros m' [= <-]. destruct (halted m); [done|]. by split.
    - rewrite prog_assets_cons in H3. apply Forall_app in H3 as [Hi Hp].
      destruct (exec_safe (xset_prog p m) i Hf H1 H2 Hi) as [E1 E2].
      destruct (exec_instr e (xset_prog p m) i) as [m1| |] eqn:E; [|..|done].
      + split; [done|]. intros m' [= <-]. destruct (E2 m1 eq_refl) as [E3 E4].
        apply exec_progs in E as (P1 & [(P2 & P3)|[(q & -> & P2 & P3)|(q & -> & P2 & P3)]]); cbn in P1, P2, P3; split; rewrite ?P1, ?P2, ?P3; done.
      + destruct (m_handler m) as [|j q] eqn:Eh; (split; [done|]); intros m' [= <-]; split; cbn; rewrite ?Eh; done.
  Qed.
  Lemma steps_safe n : forall m, fees_safe -> psafe m -> xsteps e n m <> XPanic.
  Proof.
    induction n as [|n IH]; intros m Hf Hp; cbn [xsteps]; [done|]. destruct (step_safe m Hf Hp) as [H1 H2].
    apply xbind_panic; [done|]. intros m' Hm. apply IH; [done|]. by apply H2.
  Qed.
  Lemma set_limit_assets need p : prog_assets (set_limit need p) = prog_assets p.
  Proof. induction p as [|i p IH]; [done|]. cbn [set_limit]. destruct i; rewrite !prog_assets_cons; try rewrite IH; done. Qed.
End crash.

(** A message that names no asset of pallet 13 beyond u32 does not crash the chain. *)
Lemma receive_no_crash : forall e para ch origin p need,
  (forall k, In k (prog_assets p) -> ~ exists ix, u32_max < ix /\ k = Location 0 [PalletInstance 13; GeneralIndex ix]) ->
  (forall m k, In k (map fst (xe_delivery e m)) -> ~ exists ix, u32_max < ix /\ k = Location 0 [PalletInstance 13; GeneralIndex ix]) ->
  receive e para ch origin p need <> XPanic.
Proof.
  intros e para ch origin p need Hp Hd. assert (Hf : fees_safe e).
  { intros m. apply Forall_forall. intros k Hk. apply safe_iff. apply (Hd m). by apply elem_of_list_In. }
  assert (Hs : Forall safe (prog_assets p)).
  { apply Forall_forall. intros k Hk. apply safe_iff. apply Hp. by apply elem_of_list_In. }
  unfold receive, process. destruct (let_through para origin p need (0, 0)) as [p'|] eqn:Ea; [|done].
  assert (prog_assets p' = prog_assets p) as Eq.
  { unfold let_through in Ea. destruct (computed_origin _ _ _ _) as [o r]. destruct (take_weight_credit _ _); [by injection Ea as <-|].
    destruct (paid_execution r need); [injection Ea as <-; apply set_limit_assets|]. destruct (unpaid_execution _ _ _ _); [by injection Ea as <-|done]. }
  apply xbind_panic; [|done]. apply steps_safe; [done|]. split; cbn [start m_hold m_trader m_prog m_handler m_appendix]; try (by intros k [x Hx]); [done|by rewrite Eq|constructor..].
Qed.

(** * No execution without payment *)

(** Instructions that come before payment. *)
Definition loads (i : xinstr) : bool :=
  match i with
  | XWithdraw _ | XReserveDeposited _ | XReceiveTeleported _ | XClaim _ | XClearOrigin | XDescend _ | XUniversalOrigin _ => true
  | _ => false
  end.
Lemma loads_exec e m i m' : loads i = true -> exec_instr e m i = XOk m' ->
  m_trader m' = m_trader m /\ ch_calls (m_chain m') = ch_calls (m_chain m) /\ (forall t a, bal (m_chain m') t a <= bal (m_chain m) t a).
Proof.
  intros Hl H. destruct i; cbn [exec_instr loads] in *; try done; try (xinv H; injection H as <-; cbn; done).
  xinv H. injection H as <-. cbn. split; [done|].
  assert (forall l ch ch', withdraw_all e l x ch = XOk ch' -> ch_calls ch' = ch_calls ch /\ forall t a, bal ch' t a <= bal ch t a) as Hw.
  { clear. unfold withdraw_all. induction l as [|b l IH]; intros ch ch' H; cbn [each] in H; [by injection H as <-|]. xinv H.
    apply withdraw_one_ok in E as (t & y & v & _ & _ & H1 & H2 & ->). apply IH in H as [I1 I2]. split; [by rewrite I1|].
    intros t' a'. etransitivity; [apply I2|]. rewrite bal_set. case_bool_decide as E; [destruct E as [<- <-]|]; lia. }
  by apply Hw in E1.
Qed.

(** Nothing was done but loading. *)
Definition quiet (ch : chain) (m : machine) : Prop :=
  m_trader m = no_trader /\ ch_calls (m_chain m) = ch_calls ch /\ (forall t a, bal (m_chain m) t a <= bal ch t a).
(** Execution was bought. *)
Definition bought (e : xenv) (need : weight) (m0 : machine) : Prop :=
  exists n m1 fee price rest, xsteps e n m0 = XOk m1 /\ m_prog m1 = XBuy fee (Some need) :: rest /\ accepted_for_fees (fst fee) /\
    costs e need (fst fee) price /\ price <= snd fee /\ snd fee <= held_of (m_hold m1) (fst fee).

Lemma quiet_halted e ch n : forall m m', quiet ch m -> halted m = true -> xsteps e n m = XOk m' -> quiet ch m'.
Proof. intros m m' Hq Hh. rewrite halted_all by done. by intros [= <-]. Qed.
Lemma bought_later e need m0 m1 : xstep e m0 = XOk m1 -> bought e need m1 -> bought e need m0.
Proof. intros H (n & m & fee & price & rest & Hn & H'). exists (S n), m, fee, price, rest. split; [|done]. cbn [xsteps]. by rewrite H. Qed.
Lemma loading_run e need ch fee rest n : forall pre m m', m_prog m = pre ++ XBuy fee (Some need) :: rest -> forallb loads pre = true ->
  m_handler m = [] -> m_appendix m = [] -> quiet ch m -> xsteps e n m = XOk m' -> quiet ch m' \/ bought e need m.
Proof.
  induction n as [|n IH]; intros pre m m' Hm Hpre Hh Ha Hq H; cbn [xsteps] in H; [injection H as <-; by left|].
  xinv H. destruct pre as [|i pre]; cbn [app] in Hm.
  - pose proof E as Es. unfold xstep in E. rewrite Hm in E. cbn [exec_instr] in E.
    destruct (N.leb_spec (snd fee) (held_of (m_hold (xset_prog rest m)) (fst fee))) as [E1|E1]; cbn [xensure xbind] in E.
    2: { rewrite Hh in E. injection E as <-. left. refine (quiet_halted e ch n _ _ _ _ H); [exact Hq|unfold to_handler, to_appendix, halted; cbn; rewrite ?Hh, ?Ha; done]. }
    destruct (buy_weight (xe_base e) (xe_asset e) (m_trader (xset_prog rest m)) need fee) as [[t p]|] eqn:E3; cbn [xbind xsome] in E.
    2: { rewrite Hh in E. injection E as <-. left. refine (quiet_halted e ch n _ _ _ _ H); [exact Hq|unfold to_handler, to_appendix, halted; cbn; rewrite ?Hh, ?Ha; done]. }
    apply buy_cases in E3 as (E3 & E4 & _). right. exists 0%nat, m, fee, p, rest. split_and!; try done. exact (price_accepted _ _ _ _ _ E4).
  - cbn [forallb] in Hpre. apply andb_prop in Hpre as [Hi Hpre]. pose proof E as Es. unfold xstep in E. rewrite Hm in E.
    destruct (exec_instr e (xset_prog (pre ++ XBuy fee (Some need) :: rest) m) i) as [m1| |] eqn:Ei; [|..|done].
    + injection E as <-. pose proof Ei as Ep. apply exec_progs in Ep as (P1 & P2). cbn in P1.
      assert (m_handler m1 = [] /\ m_appendix m1 = []) as [P3 P4].
      { destruct P2 as [(P2 & P3)|[(q & -> & _)|(q & -> & _)]]; [cbn in P2, P3; by rewrite P2, P3|done|done]. }
      apply loads_exec in Ei as (L1 & L2 & L3); [|done]. cbn in L1, L2, L3. destruct Hq as (Q1 & Q2 & Q3).
      destruct (IH pre m1 m' P1 Hpre P3 P4) as [?|?]; [|done|by left|right; by eapply bought_later].
      split_and!; [congruence|congruence|]. intros t a. etransitivity; [apply L3|apply Q3].
    + rewrite Hh in E. injection E as <-. left. refine (quiet_halted e ch n _ _ _ _ H); [exact Hq|unfold to_handler, to_appendix, halted; cbn; rewrite ?Hh, ?Ha; done].
Qed.

Lemma computed_split u n : forall o p o' r, computed_origin u n o (map shape p) = (o', r) ->
  exists pre p1, p = pre ++ p1 /\ forallb loads pre = true /\ r = map shape p1.
Proof.
  induction n as [|n IH]; intros o p o' r H; [injection H as _ <-; by exists [], p|].
  destruct p as [|i p]; [injection H as _ <-; by exists [], []|]. cbn [map] in H.
  assert (Hs : (o, shape i :: map shape p) = (o', r) -> exists pre p1, i :: p = pre ++ p1 /\ forallb loads pre = true /\ r = map shape p1).
  { intros [= _ <-]. by exists [], (i :: p). }
  destruct i; cbn [shape computed_origin] in H, Hs; try (by apply Hs); destruct (IH _ _ _ _ H) as (pre & p1 & -> & Hl & ->).
  - by exists (XDescend js :: pre), p1.
  - by exists (XUniversalOrigin j :: pre), p1.
Qed.
Lemma skip_clear_split : forall n p limit r, skip_clear (take n (map shape p)) = BBuyExecution limit :: r ->
  exists pre fee p1, p = pre ++ XBuy fee limit :: p1 /\ forallb loads pre = true.
Proof.
  induction n as [|n IH]; intros p limit r H; [done|]. destruct p as [|i p]; [done|]. cbn [map take] in H. destruct i; cbn [shape skip_clear] in H; try done.
  - destruct (IH _ _ _ H) as (pre & fee & p1 & -> & Hl). by exists (XClearOrigin :: pre), fee, p1.
  - injection H as -> _. by exists [], fee, p.
Qed.
Lemma set_limit_loads need fee lim p1 : forall pre, forallb loads pre = true -> set_limit need (pre ++ XBuy fee lim :: p1) = pre ++ XBuy fee (Some need) :: p1.
Proof. induction pre as [|i pre IH]; intros H; [done|]. cbn [forallb] in H. apply andb_prop in H as [Hi H]. cbn [app set_limit]. rewrite IH by done. by destruct i. Qed.
Lemma paid_split need p : paid_execution (map shape p) need = true -> exists pre fee lim p1, p = pre ++ XBuy fee lim :: p1 /\ forallb loads pre = true.
Proof.
  unfold paid_execution. destruct p as [|i p]; [done|]. cbn [map]. change (take 5 (shape i :: map shape p)) with (shape i :: take 4 (map shape p)).
  intros H. assert (Hl : loads i = true).
  { destruct i; cbn [shape] in H; try done. }
  destruct (shape i); try done. apply andb_prop in H as [_ H]. destruct (skip_clear (take 4 (map shape p))) as [|b r] eqn:E; [done|].
  destruct b; try done. destruct (skip_clear_split _ _ _ _ E) as (pre & fee & p1 & -> & Hp). exists (i :: pre), fee, limit, p1. split; [done|]. cbn. by rewrite Hl, Hp.
Qed.
Lemma unprivileged para origin l o r : parent_or_executive origin = false -> computed_origin (universal_location para) 8 origin l = (o, r) -> parent_or_executive o = false.
Proof.
  intros Ho H. destruct (computed_origin_cases _ _ _ _ _ _ (universal_far para) H) as [Hf|(k & _ & _ & _ & ->)].
  - destruct o as [q js]. cbn in Hf. unfold parent_or_executive. destruct q as [|[]]; try done; lia.
  - set (inner := concat _). destruct origin as [q js]. cbn [loc_parents loc_interior]. unfold parent_or_executive in *. destruct q as [|[]]; try done.
    destruct js as [|j js]; [done|]. destruct js; [|destruct j; try done; by destruct id]. cbn. destruct inner; [done|]. destruct j; try done. by destruct id.
Qed.
Lemma fee_zero base : weight_to_fee base (0, 0) = 0.
Proof. unfold weight_to_fee, ref_time_fee, proof_size_fee, linear_fee, perbill_of. cbn [fst snd]. by rewrite !N.mul_0_r, !N.mul_0_l. Qed.
Lemma refund_nothing base info w : refund_weight base info no_trader w = (no_trader, None).
Proof.
  unfold refund_weight, refund_asset, refund_native. cbn [tr_asset tr_weight tr_native no_trader].
  assert (weight_min w (0, 0) = (0, 0)) as -> by (unfold weight_min; cbn [fst snd]; f_equal; lia). by rewrite fee_zero.
Qed.
Lemma quiet_post e origin ch m : quiet ch m -> ch_calls (post_process e origin m) = ch_calls ch /\ (forall t a, bal (post_process e origin m) t a <= bal ch t a).
Proof.
  intros (Q1 & Q2 & Q3). unfold post_process.
  destruct (refund_frame e m) as [-> _]. assert (m_trader (settled e m) = no_trader) as ->.
  { destruct (settled_case e m) as [-> | H]; [done|]. apply refund_ok in H as (_ & _ & [[-> _]|(w & -> & _)]); [done|]. by rewrite Q1, refund_nothing. }
  cbn [pay_fees fold_left outstanding no_trader tr_asset tr_native app]. destruct (bool_decide _); done.
Qed.
Lemma need_nonzero need : need <> (0, 0) -> take_weight_credit (0, 0) need = false.
Proof.
  destruct need as [a b]. unfold take_weight_credit, weight_le. cbn [fst snd]. intros Hn. destruct (N.leb_spec a 0), (N.leb_spec b 0); try done.
  destruct Hn. f_equal; lia.
Qed.

(** A message that neither the relay chain nor its executive sent does nothing before it has bought the weight it needs. *)
Lemma receive_paid : forall e para ch origin p need ch', need <> (0, 0) -> parent_or_executive origin = false -> receive e para ch origin p need = XOk ch' ->
  (ch_calls ch' = ch_calls ch /\ forall t a, bal ch' t a <= bal ch t a) \/
  exists n m1 fee price rest, xsteps e n (start ch origin (set_limit need p)) = XOk m1 /\ m_prog m1 = XBuy fee (Some need) :: rest /\ accepted_for_fees (fst fee) /\
    costs e need (fst fee) price /\ price <= snd fee /\ snd fee <= held_of (m_hold m1) (fst fee).
Proof.
  intros e para ch origin p need ch' Hn Ho H. unfold receive, process, let_through in H.
  destruct (computed_origin (universal_location para) 8 origin (map shape p)) as [o r] eqn:Ec. rewrite need_nonzero in H by done.
  destruct (paid_execution r need) eqn:Ep.
  - destruct (computed_split _ _ _ _ _ _ Ec) as (pre & p1 & -> & Hl & ->). destruct (paid_split _ _ Ep) as (pre2 & fee & lim & p2 & -> & Hl2).
    rewrite app_assoc in *. rewrite set_limit_loads in * by (by rewrite forallb_app, Hl, Hl2). xinv H. injection H as <-.
    apply (loading_run e need ch fee p2 _ (pre ++ pre2)) in E; [|done|by rewrite forallb_app, Hl, Hl2|done|done|done].
    destruct E as [E|E]; [left; by apply quiet_post|right; exact E].
  - unfold unpaid_execution in H. rewrite (unprivileged _ _ _ _ _ Ho Ec) in H. cbn [andb] in H. injection H as <-. by left.
Qed.
(** Buying takes the price from what the message holds. *)
Lemma buy_takes : forall e m fee need m', exec_instr e m (XBuy fee (Some need)) = XOk m' -> exists price, costs e need (fst fee) price /\
  held_of (m_hold m') (fst fee) + price = held_of (m_hold m) (fst fee) /\ owed (m_trader m') (fst fee) <= owed (m_trader m) (fst fee) + price /\
  (owed (m_trader m) (fst fee) + price <= u128_max -> owed (m_trader m') (fst fee) = owed (m_trader m) (fst fee) + price).
Proof.
  intros e m fee need m' H. cbn [exec_instr] in H. xinv H. injection H as <-. destruct x0 as [t p]. apply N.leb_le in E. exists p.
  pose proof (buy_cases _ _ _ _ _ _ _ E0) as (Hp & Hc & Hcase). split; [done|]. cbn [m_hold m_trader xset_hold xset_trader fst snd]. rewrite held_set, bool_decide_eq_true_2 by done. split; [lia|].
  destruct Hcase as [(Hn & _)|(Hr & -> & ->)].
  - rewrite (buy_owed _ _ _ _ _ _ _ _ E0 Hn), bool_decide_eq_true_2 by done. cbn [ind]. split; [lia|done].
  - rewrite !owed_cases, Hr. cbn [tr_asset tr_native]. rewrite !(bool_decide_eq_true_2 (relay_location = relay_location)) by done. cbn [ind]. unfold sat128. lia.
Qed.

(** * Arrival *)

Ltac mcbn := cbn [m_chain m_origin m_hold m_trader m_jit m_prog m_handler m_appendix m_hweight m_aweight m_surplus m_refunded xset_chain xset_origin xset_hold xset_trader xset_jit xset_prog
  xset_handler xset_appendix xset_hweight xset_aweight xset_surplus xset_refunded fold_left fst snd xbind xsome xensure].
Lemma set_held_nonzero h k v : v <> 0 -> set_held_of h k v = <[k := v]> h.
Proof. intros Hv. unfold set_held_of. by rewrite (proj2 (N.eqb_neq v 0)). Qed.
Lemma arrival_tail e k t o n price need dest x ch origin : calm e -> costs e need k price -> token_of k = Val (Some t) ->
  location_to_account dest = Some x -> x <> treasury_account -> 0 < price -> price < n -> n <= u128_max ->
  bal ch t x + (n - price) <= u128_max -> bal ch t treasury_account + price <= u128_max ->
  (run m <- xsteps e 2 (Machine ch o {[k := n]} no_trader false [XBuy (k, n) (Some need); XDeposit (FAllCounted 1) dest] [] [] (0, 0) (0, 0) (0, 0) (0, 0)); XOk (post_process e origin m)) =
  XOk (arrived ch t x n price).
Proof.
  intros [C2 C3 C4] Hcost Ht Hx Hne Hp0 Hp Hn B1 B2.
  assert (Hk : xtoken k = XOk t) by (unfold xtoken; by rewrite Ht).
  assert (held_of {[k := n]} k = n) as Hh by (unfold held_of; by rewrite lookup_singleton).
  cbn [xsteps xbind]. unfold xstep at 1. cbn [m_prog exec_instr xset_prog m_hold fst snd]. rewrite Hh, N.leb_refl. cbn [xensure xbind]. mcbn.
  rewrite (buy_first _ _ _ _ _ _ Hcost) by lia. mcbn. set (tr := if bool_decide _ then _ else _).
  assert (outstanding tr = [(k, price)]) as Ho.
  { unfold tr. case_bool_decide as Er; unfold outstanding; cbn [tr_asset tr_native app]; [|done]. unfold sat128. rewrite N.min_l by lia. rewrite (proj2 (N.eqb_neq price 0)) by lia. by rewrite Er. }
  clearbody tr. rewrite set_held_nonzero by lia. rewrite insert_singleton.
  unfold xstep. mcbn. cbn [exec_instr requested]. mcbn.
  rewrite map_to_list_singleton. cbn [take saturating_take fst snd].
  assert (held_of {[k := n - price]} k = n - price) as Hh2 by (unfold held_of; by rewrite lookup_singleton). rewrite Hh2, N.min_id, N.sub_diag.
  unfold set_held_of at 1. cbn [N.eqb]. unfold deposit_all. cbn [deposit_some]. unfold deposit_one. cbn [fst snd]. rewrite Hk. cbn [xbind]. rewrite Hx. cbn [xsome xbind].
  unfold deposit_to. rewrite C4, (proj2 (N.leb_le _ _) B1). cbn [andb xensure xbind each fst snd].
  unfold post_process, settled, refund_surplus, unrefunded. mcbn. change (weight_le (weight_sub (0, 0) (0, 0)) (0, 0)) with true. cbv iota. mcbn.
  rewrite delete_singleton, bool_decide_eq_true_2 by done.
  rewrite Ho. unfold pay_fees. cbn [fold_left fst snd]. rewrite Hk. unfold deposit_to.
  assert (bal (set_bal ch t x (bal ch t x + (n - price))) t treasury_account = bal ch t treasury_account) as Hb.
  { rewrite bal_set, bool_decide_eq_false_2; [done|]. by intros [_ ?]. }
  rewrite C4, Hb, (proj2 (N.leb_le _ _) B2). cbn [andb xensure xbind]. unfold arrived. done.
Qed.
Local Opaque treasury_account.


Lemma let_through_paid para origin i fee limit rest need : (exists n, shape i = BAssets n /\ (n <= 2)%nat) -> need <> (0, 0) -> within need limit = true ->
  let_through para origin (i :: XClearOrigin :: XBuy fee limit :: rest) need (0, 0) = Some (i :: XClearOrigin :: XBuy fee (Some need) :: rest).
Proof.
  intros (n & Hs & Hn2) Hn Hw. unfold let_through. cbn [map]. rewrite Hs. cbn [shape computed_origin]. rewrite need_nonzero by done.
  unfold paid_execution. cbn [take skip_clear]. rewrite (proj2 (Nat.leb_le n 2) Hn2), Hw. cbn [andb].
  cbn [set_limit]. destruct i; try done.
Qed.
Lemma reserve_arrives_from : forall e para ch origin k id n price limit dest x need, calm e -> costs e need k price -> is_reserve k origin = true ->
  extends (Location 1 [Parachain 1000]) k -> convert k = Val (Some id) ->
  location_to_account dest = Some x -> x <> treasury_account -> 0 < price -> price < n -> n <= u128_max ->
  bal ch (Some id) x + (n - price) <= u128_max -> bal ch (Some id) treasury_account + price <= u128_max -> need <> (0, 0) -> within need limit = true ->
  receive e para ch origin (reserve_message k n limit dest) need = XOk (arrived ch (Some id) x n price).
Proof.
  intros e para ch origin k id n price limit dest x need Hc Hcost Hr Hk Hid Hx Hne Hp0 Hp Hn B1 B2 Hneed Hw.
  assert (Ht : token_of k = Val (Some (Some id))).
  { unfold token_of. rewrite bool_decide_eq_false_2, Hid; [done|]. intros ->. destruct Hk as [s [=]]. }
  unfold receive, process, reserve_message. rewrite let_through_paid; [|by eexists; split; [done|cbn; lia]|done|done].
  rewrite <-(arrival_tail e k (Some id) None n price need dest x ch origin) by done.
  change (prog_size _) with 4%nat. change (xsteps e 4) with (fun m => run m' <- xstep e m; (run m'' <- xstep e m'; xsteps e 2 m'')). cbv beta.
  unfold start. unfold xstep at 1. cbn [m_prog exec_instr xset_prog m_hold m_origin xsome xbind forallb fst]. rewrite Hr. cbn [andb xensure xbind].
  unfold subsume. cbn [fold_left fst snd xset_hold m_chain m_origin m_trader m_jit m_prog m_handler m_appendix m_hweight m_aweight m_surplus m_refunded]. 
  assert (held_of ∅ k = 0) as Hz by (unfold held_of; by rewrite lookup_empty). rewrite Hz, N.add_0_l. unfold sat128. rewrite N.min_l by lia. rewrite set_held_nonzero by lia.
  unfold xstep at 1. cbn [m_prog exec_instr xset_prog xset_origin m_hold m_chain m_origin m_trader m_jit m_handler m_appendix m_hweight m_aweight m_surplus m_refunded xbind]. done.
Qed.
Lemma reserve_arrives : forall e para ch k id n price limit dest x need, calm e -> costs e need k price -> extends (Location 1 [Parachain 1000]) k -> convert k = Val (Some id) ->
  location_to_account dest = Some x -> x <> treasury_account -> 0 < price -> price < n -> n <= u128_max ->
  bal ch (Some id) x + (n - price) <= u128_max -> bal ch (Some id) treasury_account + price <= u128_max -> need <> (0, 0) -> within need limit = true ->
  receive e para ch (Location 1 [Parachain 1000]) (reserve_message k n limit dest) need = XOk (arrived ch (Some id) x n price).
Proof. intros. apply reserve_arrives_from; try done. apply reserves_exact. by right; left. Qed.
(** A chain spends what its own account holds here. *)
Lemma withdraw_arrives : forall e para ch k t n price limit origin y dest x need, calm e -> costs e need k price -> token_of k = Val (Some t) ->
  location_to_account origin = Some y -> location_to_account dest = Some x -> x <> treasury_account -> x <> y -> y <> treasury_account -> n <= bal ch t y ->
  0 < price -> price < n -> n <= u128_max ->
  bal ch t x + (n - price) <= u128_max -> bal ch t treasury_account + price <= u128_max -> need <> (0, 0) -> within need limit = true ->
  receive e para ch origin (withdraw_message k n limit dest) need = XOk (arrived (set_bal ch t y (bal ch t y - n)) t x n price).
Proof.
  intros e para ch k t n price limit origin y dest x need Hc Hcost Ht Hy Hx Hne Hxy Hyt Hb Hp0 Hp Hn B1 B2 Hneed Hw.
  unfold receive, process, withdraw_message. rewrite let_through_paid; [|by eexists; split; [done|cbn; lia]|done|done].
  rewrite <-(arrival_tail e k t None n price need dest x (set_bal ch t y (bal ch t y - n)) origin); try done.
  2,3: rewrite bal_set, bool_decide_eq_false_2; [done|]; by intros [_ ?].
  change (prog_size _) with 4%nat. change (xsteps e 4) with (fun m => run m' <- xstep e m; (run m'' <- xstep e m'; xsteps e 2 m'')). cbv beta.
  unfold start. unfold xstep at 1. cbn [m_prog exec_instr xset_prog m_hold m_origin xsome xbind m_chain]. unfold withdraw_all. cbn [each].
  unfold withdraw_one. cbn [fst snd]. unfold xtoken. rewrite Ht. cbn [xbind]. rewrite Hy. cbn [xsome xbind]. destruct Hc as [C2 C3 C4]. rewrite C2, C3, (proj2 (N.leb_le _ _) Hb).
  cbn [andb xensure xbind]. unfold subsume. cbn [fold_left fst snd xset_hold xset_chain m_chain m_origin m_trader m_jit m_prog m_handler m_appendix m_hweight m_aweight m_surplus m_refunded]. 
  assert (held_of ∅ k = 0) as Hz by (unfold held_of; by rewrite lookup_empty). rewrite Hz, N.add_0_l. unfold sat128. rewrite N.min_l by lia. rewrite set_held_nonzero by lia.
  unfold xstep at 1. cbn [m_prog exec_instr xset_prog xset_origin m_hold m_chain m_origin m_trader m_jit m_handler m_appendix m_hweight m_aweight m_surplus m_refunded xbind]. done.
Qed.
Lemma arrived_balances : forall ch t x n price, x <> treasury_account ->
  bal (arrived ch t x n price) t x = bal ch t x + (n - price) /\
  bal (arrived ch t x n price) t treasury_account = bal ch t treasury_account + price /\
  (forall t' a, (t', a) <> (t, x) -> (t', a) <> (t, treasury_account) -> bal (arrived ch t x n price) t' a = bal ch t' a) /\
  ch_traps (arrived ch t x n price) = ch_traps ch /\ ch_calls (arrived ch t x n price) = ch_calls ch.
Proof.
  intros ch t x n price Hne. unfold arrived. split_and!; [| | |done|done].
  - rewrite bal_set, bool_decide_eq_false_2 by (by intros [_ ?]). by rewrite bal_set, bool_decide_eq_true_2.
  - by rewrite bal_set, bool_decide_eq_true_2.
  - intros t' a H1 H2. rewrite !bal_set, !bool_decide_eq_false_2; [done|..]; intros [E1 E2]; [apply H1|apply H2]; congruence.
Qed.

(** * Examples and refutations *)


Lemma calm_env_calm min : calm (calm_env min).
Proof. by split. Qed.
Lemma calm_env_usdt : costs (calm_env 1) (1000, 10) usdt 1.
Proof. refine (price_asset _ _ (1000, 10) usdt usdt_id 1 _ eq_refl eq_refl). left. by exists [PalletInstance 50; GeneralIndex 1984]. Qed.
Lemma arrived_existence ch t k x n price : x <> treasury_account -> price <= n -> in_existence (arrived ch t x n price) t k = in_existence ch t k + n.
Proof.
  intros Hne Hp. unfold in_existence, arrived. pose proof (in_accounts_set ch t x (bal ch t x + (n - price)) t) as H1.
  pose proof (in_accounts_set (set_bal ch t x (bal ch t x + (n - price))) t treasury_account (bal ch t treasury_account + price) t) as H2.
  rewrite bal_set, (bool_decide_eq_false_2 (t = t /\ x = treasury_account)) in H2 by (by intros [_ ?]). rewrite bool_decide_eq_true_2 in H1, H2 by done. cbn [ind] in *.
  cbn [ch_traps set_bal]. lia.
Qed.
Lemma sibling_mints : exists e para ch p need ch', receive e para ch (Location 1 [Parachain 2000]) p need = XOk ch' /\ token_of usdt = Val (Some (Some usdt_id)) /\
  in_existence ch' (Some usdt_id) usdt = in_existence ch (Some usdt_id) usdt + 1000000 /\
  bal ch' (Some usdt_id) (sibling_account 2000) = bal ch (Some usdt_id) (sibling_account 2000) + 999999.
Proof.
  assert (sibling_account 2000 <> treasury_account) as Hne by (vm_compute; discriminate).
  exists (calm_env 1), 2281, (Chain ∅ [] [] 0), (reserve_message usdt 1000000 None (Location 1 [Parachain 2000])), (1000, 10), (arrived (Chain ∅ [] [] 0) (Some usdt_id) (sibling_account 2000) 1000000 1).
  split_and!.
  - apply reserve_arrives_from; try done; [apply calm_env_usdt|by exists [PalletInstance 50; GeneralIndex 1984]].
  - done.
  - by apply arrived_existence.
  - by destruct (arrived_balances (Chain ∅ [] [] 0) (Some usdt_id) (sibling_account 2000) 1000000 1 Hne) as (-> & _).
Qed.
Lemma sibling_crashes : exists e para ch p need, need <> (0, 0) /\ p = withdraw_message (Location 0 [PalletInstance 13; GeneralIndex 4294967296]) 1 None (Location 1 [Parachain 2000]) /\
  receive e para ch (Location 1 [Parachain 2000]) p need = XPanic.
Proof. eexists (calm_env 1), 2281, (Chain ∅ [] [] 0), _, (1000, 10). split_and!; [done|reflexivity|vm_compute; reflexivity]. Qed.

(** * Programs end *)

Lemma instr_size_count : forall i, (instr_size i <= 2 * instr_count i)%nat.
Proof.
  fix IH 1. intros i. destruct i; cbn [instr_size instr_count]; try lia.
  - assert (list_sum (map instr_size p) <= 2 * list_sum (map instr_count p))%nat; [|lia]. revert p. fix IHp 1. intros [|j q]; [cbn; lia|].
    pose proof (IH j). pose proof (IHp q). cbn [map list_sum foldr] in *. unfold list_sum in *. cbn [foldr] in *. lia.
  - assert (list_sum (map instr_size p) <= 2 * list_sum (map instr_count p))%nat; [|lia]. revert p. fix IHp 1. intros [|j q]; [cbn; lia|].
    pose proof (IH j). pose proof (IHp q). cbn [map list_sum foldr] in *. unfold list_sum in *. cbn [foldr] in *. lia.
Qed.
Lemma prog_size_count p : (prog_size p <= 2 * instructions p)%nat.
Proof.
  unfold prog_size, instructions. induction p as [|i p IH]; [cbn; lia|]. pose proof (instr_size_count i). unfold list_sum in *. cbn [map foldr] in *. lia.
Qed.
Lemma xstep_no_err e m : xstep e m <> XErr.
Proof. unfold xstep. destruct (m_prog m); [done|]. destruct (exec_instr e _ _); [done| |done]. by destruct (m_handler m). Qed.
Lemma xsteps_no_err e n : forall m, xsteps e n m <> XErr.
Proof.
  induction n as [|n IH]; intros m; cbn [xsteps]; [done|]. pose proof (xstep_no_err e m). unfold xbind. destruct (xstep e m); [apply IH|done|done].
Qed.
Lemma ends_steps e n m0 : (work_left m0 <= n)%nat -> forall m, xsteps e n m0 = XOk m -> halted m = true.
Proof. intros Hw m. by apply steps_halt. Qed.
Lemma ends_within : forall e ch origin p n, (2 * instructions p <= n)%nat ->
  match xsteps e n (start ch origin p) with XOk m => halted m = true | XErr => False | XPanic => True end.
Proof.
  intros e ch origin p n Hn. destruct (xsteps e n (start ch origin p)) as [m| |] eqn:E; [|by apply xsteps_no_err in E|done].
  eapply ends_steps; [|done]. rewrite start_work. pose proof (prog_size_count p). lia.
Qed.
(** Steps beyond the end change nothing. *)
Lemma halted_more : forall e n m, halted m = true -> xsteps e n m = XOk m.
Proof. exact halted_all. Qed.

(** Proofs about memberships as items. *)
From stdpp Require Import gmap.
From Verif Require Import Base XcmTypes OriginTypes AccountsModel CommunitiesModel TracksModel ManagerModel ManagerSpec ManagerProofs MarketModel MarketSpec.
Open Scope N_scope.

(** ** Single calls *)
Lemma buys e s who coll id bid s' : nft_call e s who (NBuy coll id bid) = Some s' ->
  exists seller price, mg_items s !! (coll, id) = Some (Item seller (Some price)) /\ seller <> who /\ price <= bid /\
    price <= balance (mg_c s) who /\ mg_items s' = <[(coll, id) := Item who None]> (mg_items s) /\
    balance (mg_c s') who = balance (mg_c s) who - price /\ balance (mg_c s') seller = balance (mg_c s) seller + price /\
    (forall a, a <> who -> a <> seller -> balance (mg_c s') a = balance (mg_c s) a).
Proof.
  unfold nft_call. destruct (ne_ok e _); [|discriminate]. destruct (mg_items s !! (coll, id)) as [[seller [price|]]|] eqn:Ei; try discriminate.
  destruct (N.eqb_spec seller who); [discriminate|]. destruct (N.ltb_spec bid price); [discriminate|]. cbn [orb].
  unfold transfer. destruct (N.leb_spec price (balance (mg_c s) who)); cbn [andb]; [|discriminate].
  destruct (ce_transfer_ok _ _ _ _); cbn [censure cbind]; [|discriminate]. intros [= <-].
  exists seller, price. split_and!; try done.
  - unfold balance. cbn. rewrite lookup_insert_ne by done. by rewrite lookup_insert.
  - unfold balance. cbn. rewrite lookup_insert. rewrite lookup_insert_ne by done. done.
  - intros a Ha Hs. unfold balance. cbn. by rewrite !lookup_insert_ne by done.
Qed.

(** Whatever a call of [who] does to an item that exists. *)
Lemma nft_item e s who k s' key a pr : nft_call e s who k = Some s' -> mg_items s !! key = Some (Item a pr) ->
  mg_items s' !! key = Some (Item a pr) \/
  (who = a /\ exists price, k = NSetPrice (fst key) (snd key) price /\ mg_items s' !! key = Some (Item a price)) \/
  (who = a /\ ((exists to, k = NTransfer (fst key) (snd key) to) \/ k = NBurn (fst key) (snd key))) \/
  (exists bid price, k = NBuy (fst key) (snd key) bid /\ pr = Some price).
Proof.
  intros H Hk. destruct key as [cl i]. cbn [fst snd]. pose proof H as H0. unfold nft_call in H. destruct (ne_ok e k); [|discriminate].
  destruct k as [coll id to|coll id price|coll id bid|coll id to|coll id|coll to].
  - destruct (mg_collections s !! coll); [|discriminate]. destruct (mg_items s !! (coll, id)) eqn:E; [discriminate|]. destruct (_ =? _); [|discriminate].
    injection H as <-. left. cbn. rewrite lookup_insert_ne; [done|]. intros [= -> ->]. congruence.
  - destruct (mg_items s !! (coll, id)) as [x|] eqn:E; [|discriminate]. destruct (N.eqb_spec (it_owner x) who) as [Hw|]; [|discriminate].
    injection H as <-. cbn. destruct (decide ((coll, id) = (cl, i))) as [[= -> ->]|Hne]; [|left; by rewrite lookup_insert_ne].
    rewrite Hk in E. injection E as <-. cbn in Hw. right; left. split; [done|]. rewrite lookup_insert. subst. eauto.
  - apply buys in H0 as (seller & p & Hi & _ & _ & _ & -> & _). destruct (decide ((coll, id) = (cl, i))) as [[= -> ->]|Hne]; [|left; by rewrite lookup_insert_ne].
    rewrite Hk in Hi. injection Hi as <- ->. right; right; right. eauto.
  - destruct (mg_items s !! (coll, id)) as [x|] eqn:E; [|discriminate]. destruct (N.eqb_spec (it_owner x) who) as [Hw|]; [|discriminate].
    injection H as <-. cbn. destruct (decide ((coll, id) = (cl, i))) as [[= -> ->]|Hne]; [|left; by rewrite lookup_insert_ne].
    rewrite Hk in E. injection E as <-. cbn in Hw. right; right; left. eauto.
  - destruct (mg_items s !! (coll, id)) as [x|] eqn:E; [|discriminate]. destruct (N.eqb_spec (it_owner x) who) as [Hw|]; [|discriminate].
    injection H as <-. cbn. destruct (decide ((coll, id) = (cl, i))) as [[= -> ->]|Hne]; [|left; by rewrite lookup_delete_ne].
    rewrite Hk in E. injection E as <-. cbn in Hw. right; right; left. eauto.
  - destruct (mg_collections s !! coll); [|discriminate]. destruct (_ =? _); [|discriminate]. injection H as <-. by left.
Qed.
(** An item that comes to be by a call of [who] is minted into a collection of [who]. *)
Lemma nft_new e s who k s' key x : nft_call e s who k = Some s' -> mg_items s !! key = None -> mg_items s' !! key = Some x ->
  exists to, k = NMint (fst key) (snd key) to /\ mg_collections s !! fst key = Some who /\ x = Item to None.
Proof.
  intros H Hk Hk'. destruct key as [cl i]. cbn [fst snd]. pose proof H as H0. unfold nft_call in H. destruct (ne_ok e k); [|discriminate].
  destruct k as [coll id to|coll id price|coll id bid|coll id to|coll id|coll to].
  - destruct (mg_collections s !! coll) as [w|] eqn:Ec; [|discriminate]. destruct (mg_items s !! (coll, id)) eqn:E; [discriminate|].
    destruct (N.eqb_spec w who) as [->|]; [|discriminate].
    injection H as <-. cbn in Hk'. destruct (decide ((coll, id) = (cl, i))) as [[= -> ->]|Hne]; [|rewrite lookup_insert_ne in Hk' by done; congruence].
    rewrite lookup_insert in Hk'. injection Hk' as <-. eauto.
  - exfalso. destruct (mg_items s !! (coll, id)) as [y|] eqn:E; [|discriminate]. destruct (_ =? _); [|discriminate]. injection H as <-. cbn in Hk'.
    rewrite lookup_insert_ne in Hk'; [congruence|]. intros [= -> ->]. congruence.
  - exfalso. apply buys in H0 as (seller & p & Hi & _ & _ & _ & E & _). rewrite E in Hk'. rewrite lookup_insert_ne in Hk'; [congruence|]. intros [= -> ->]. congruence.
  - exfalso. destruct (mg_items s !! (coll, id)) as [y|] eqn:E; [|discriminate]. destruct (_ =? _); [|discriminate]. injection H as <-. cbn in Hk'.
    rewrite lookup_insert_ne in Hk'; [congruence|]. intros [= -> ->]. congruence.
  - exfalso. destruct (mg_items s !! (coll, id)) as [y|] eqn:E; [|discriminate]. destruct (_ =? _); [|discriminate]. injection H as <-. cbn in Hk'.
    rewrite lookup_delete_ne in Hk'; [congruence|]. intros [= -> ->]. congruence.
  - exfalso. destruct (mg_collections s !! coll); [|discriminate]. destruct (_ =? _); [|discriminate]. injection H as <-. cbn in Hk'. congruence.
Qed.
(** Collections change hands only by their owner. *)
Lemma nft_collection e s who k s' coll w : nft_call e s who k = Some s' -> mg_collections s !! coll = Some w -> who <> w -> mg_collections s' !! coll = Some w.
Proof.
  intros H Hc Hw. pose proof H as H0. unfold nft_call in H. destruct (ne_ok e k); [|discriminate].
  destruct k as [cl id to|cl id price|cl id bid|cl id to|cl id|cl to].
  - destruct (mg_collections s !! cl); [|discriminate]. destruct (mg_items s !! (cl, id)); [discriminate|]. destruct (_ =? _); [|discriminate]. by injection H as <-.
  - destruct (mg_items s !! (cl, id)); [|discriminate]. destruct (_ =? _); [|discriminate]. by injection H as <-.
  - destruct (mg_items s !! (cl, id)) as [[seller [price|]]|]; try discriminate. destruct (_ || _); [discriminate|]. destruct (transfer _ _ _ _ _); [|discriminate]. by injection H as <-.
  - destruct (mg_items s !! (cl, id)); [|discriminate]. destruct (_ =? _); [|discriminate]. by injection H as <-.
  - destruct (mg_items s !! (cl, id)); [|discriminate]. destruct (_ =? _); [|discriminate]. by injection H as <-.
  - destruct (mg_collections s !! cl) as [w'|] eqn:E; [|discriminate]. destruct (N.eqb_spec w' who); [|discriminate]. injection H as <-. cbn.
    rewrite lookup_insert_ne; [done|]. intros ->. congruence.
Qed.

(** ** Steps *)
(** Manager steps change no item that exists, and bring about only memberships on sale. *)
Lemma mint_loop_old c e n : forall s id price k s' k', mint_loop c e s n id price k = MOk (s', k') ->
  (forall key x, mg_items s !! key = Some x -> mg_items s' !! key = Some x) /\
  (forall key x, mg_items s !! key = None -> mg_items s' !! key = Some x -> fst key = mc_collection c /\ x = Item (mc_owner c) (Some price)) /\
  mg_collections s' = mg_collections s.
Proof.
  induction n as [|n IH]; cbn; intros s id price k s' k' H.
  { injection H as <- <-. split_and!; [done| |done]. intros. congruence. }
  unfold mint_into in H. destruct (mg_items s !! (mc_collection c, id)) eqn:E; cbn in H; [discriminate|]. destruct (me_item_ok e id); cbn in H; [|discriminate].
  unfold set_price in H. cbn [mg_items mset_items] in H. rewrite lookup_insert in H. cbn in H. rewrite N.eqb_refl in H. cbn in H. rewrite insert_insert in H.
  set (s1 := mset_items _ _) in H.
  assert (forall key x, mg_items s !! key = Some x -> mg_items s1 !! key = Some x) as H1.
  { intros key x Hx. unfold s1. cbn. rewrite lookup_insert_ne; [done|]. intros <-. congruence. }
  assert (forall key x, mg_items s !! key = None -> mg_items s1 !! key = Some x -> fst key = mc_collection c /\ x = Item (mc_owner c) (Some price)) as H2.
  { intros key x Hn Hx. unfold s1 in Hx. cbn in Hx. destruct (decide ((mc_collection c, id) = key)) as [<-|Hne].
    - rewrite lookup_insert in Hx. by injection Hx as <-.
    - rewrite lookup_insert_ne in Hx by done. congruence. }
  assert (mg_collections s1 = mg_collections s) as H3 by done.
  destruct (next_id id) as [id'|].
  - destruct (IH _ _ _ _ _ _ H) as (I1 & I2 & I3). split_and!.
    + auto.
    + intros key x Hn Hx. destruct (mg_items s1 !! key) as [y|] eqn:E1; [|by apply I2].
      rewrite (I1 _ _ E1) in Hx. injection Hx as <-. by eapply H2.
    + congruence.
  - injection H as <- <-. done.
Qed.
Lemma register_keeps_items c e s o id name who dm ti s' evs : mg_register c e s o id name who dm ti = MOk (s', evs) ->
  mg_items s' = mg_items s /\ forall coll w, mg_collections s !! coll = Some w -> mg_collections s' !! coll = Some w.
Proof.
  intros H. destruct (register_complete _ _ _ _ _ _ _ _ _ _ _ H) as (d & a & _ & _ & _ & _ & _ & Hc & _ & _ & _ & _ & _ & _ & _ & _ & _ & EC & EI & _).
  split; [done|]. intros coll w Hw. rewrite EC, lookup_insert_ne; [done|]. intros ->. congruence.
Qed.
Lemma manager_item c s x key i : mg_items s !! key = Some i -> mg_items (kstep_run c s (KManager x)) !! key = Some i.
Proof.
  intros Hi. destruct x as [e o id name a dm ti|e o n st p|y]; cbn.
  - unfold mdispatch. destruct (mg_register c e s o id name a dm ti) as [[s' evs]|] eqn:E; [|done]. apply register_keeps_items in E as [-> _]. done.
  - destruct (mg_collections s !! mc_collection c) as [w0|] eqn:Ew0; [|done]. unfold mdispatch, mg_create_memberships. destruct (mensure (n <=? 1024) _); cbn; [|done]. destruct (msome _ _); cbn; [|done].
    destruct (mint_loop c e s (N.to_nat n) st p 0) as [[s' k]|] eqn:E; [|done]. cbn. by apply (mint_loop_old _ _ _ _ _ _ _ _ _ E).
  - by destruct y.
Qed.
Lemma manager_collection c s x coll w : mg_collections s !! coll = Some w -> mg_collections (kstep_run c s (KManager x)) !! coll = Some w.
Proof.
  intros Hi. destruct x as [e o id name a dm ti|e o n st p|y]; cbn.
  - unfold mdispatch. destruct (mg_register c e s o id name a dm ti) as [[s' evs]|] eqn:E; [|done]. apply register_keeps_items in E as [_ HC]. by apply HC.
  - destruct (mg_collections s !! mc_collection c) as [w0|] eqn:Ew0; [|done]. unfold mdispatch, mg_create_memberships. destruct (mensure (n <=? 1024) _); cbn; [|done]. destruct (msome _ _); cbn; [|done].
    destruct (mint_loop c e s (N.to_nat n) st p 0) as [[s' k]|] eqn:E; [|done]. cbn. apply mint_loop_old in E as (_ & _ & ->). done.
  - by destruct y.
Qed.
Lemma manager_new c s x key i : mg_items s !! key = None -> mg_items (kstep_run c s (KManager x)) !! key = Some i ->
  fst key = mc_collection c /\ creates c s (KManager x) (snd key).
Proof.
  intros Hn Hi. pose proof Hi as Hi0. destruct x as [e o id name a dm ti|e o n st p|y]; cbn in Hi.
  - exfalso. unfold mdispatch in Hi. destruct (mg_register c e s o id name a dm ti) as [[s' evs]|] eqn:E; [|congruence]. apply register_keeps_items in E as [E _]. congruence.
  - assert (fst key = mc_collection c /\ mc_create_origin c o <> None /\ i = Item (mc_owner c) (Some p)) as (H1 & H2 & ->).
    { destruct (mg_collections s !! mc_collection c) as [w0|] eqn:Ew0; [|congruence]. unfold mdispatch, mg_create_memberships in Hi. destruct (mensure (n <=? 1024) _); [|cbn in Hi; congruence]. cbn in Hi.
      destruct (mc_create_origin c o) eqn:Eo; [|cbn in Hi; congruence]. cbn in Hi.
      destruct (mint_loop c e s (N.to_nat n) st p 0) as [[s' k]|] eqn:E; [|cbn in Hi; congruence]. cbn in Hi. apply mint_loop_old in E as (_ & H2 & _).
      destruct (H2 _ _ Hn Hi) as [-> ->]. done. }
    split; [done|]. destruct key as [cl j]. cbn [fst snd] in *. subst cl. exists e, o, n, st, p. done.
  - exfalso. destruct y; cbn in Hi; congruence.
Qed.

(** The call a step makes, and in whose name. *)
Lemma step_call c s x : (exists y, x = KManager y) \/ (exists coll w, x = KCreate coll w) \/ kstep_run c s x = s \/
  exists e who k s', in_name c s x who k /\ nft_call e s who k = Some s' /\ kstep_run c s x = s'.
Proof.
  destruct x as [y|e o k|e o k|coll w]; [left; eauto|right; right|right; right|right; left; eauto].
  - destruct o as [| |who| | | |]; cbn; try by left. destruct (nft_call e s who k) as [s'|] eqn:E; [|by left]. right. exists e, who, k, s'.
    split_and!; try done. left. eauto.
  - cbn. unfold dispatch_as_account. destruct (cc_mgmt_origin (mc_c c) (mg_c s) o) as [g|] eqn:Eg; [|by left].
    destruct (nft_call e s (cc_account (mc_c c) g) k) as [s'|] eqn:E; [|by left]. right. exists e, (cc_account (mc_c c) g), k, s'.
    split_and!; try done. right. exists e, o, g. done.
Qed.

Lemma item_step c s x key a pr : mg_items s !! key = Some (Item a pr) ->
  mg_items (kstep_run c s x) !! key = Some (Item a pr) \/
  (exists price, in_name c s x a (NSetPrice (fst key) (snd key) price) /\ mg_items (kstep_run c s x) !! key = Some (Item a price)) \/
  ((exists to, in_name c s x a (NTransfer (fst key) (snd key) to)) \/ in_name c s x a (NBurn (fst key) (snd key))) \/
  (exists price, pr = Some price /\ sells c s x key a price).
Proof.
  intros Hi. destruct (step_call c s x) as [[y ->]|[(coll & w & ->)|[->|(e & who & k & s' & Hn & Hc & Hr)]]].
  - left. by apply manager_item.
  - left. cbn. by destruct (mg_collections s !! coll).
  - by left.
  - rewrite Hr. destruct (nft_item _ _ _ _ _ _ _ _ Hc Hi) as [H|[(-> & price & -> & H)|[(-> & [(to & ->)| ->])|(bid & price & -> & ->)]]].
    + by left.
    + right; left. eauto.
    + right; right; left; left. eauto.
    + right; right; left; right. eauto.
    + right; right; right. exists price. split; [done|]. exists who, bid.
      apply buys in Hc as (seller & p & E & Hs & Hb & Hbal & EI & B1 & B2 & B3). rewrite <- surjective_pairing in E, EI. rewrite Hi in E. injection E as <- <-.
      cbv zeta. rewrite Hr. split_and!; try done. by rewrite EI, lookup_insert.
Qed.

(** ** The properties *)
Lemma keeps_or_sells : forall c s x key a price, mg_items s !! key = Some (Item a (Some price)) ->
  mg_items (kstep_run c s x) !! key = Some (Item a (Some price)) \/ sells c s x key a price \/ exists k, in_name c s x a k.
Proof.
  intros c s x key a price Hi. destruct (item_step c s x key a (Some price) Hi) as [H|[(p & H & _)|[[(to & H)|H]|(p & [= <-] & H)]]]; eauto.
Qed.
Lemma unpriced_stays : forall c s x key a, mg_items s !! key = Some (Item a None) ->
  mg_items (kstep_run c s x) !! key = Some (Item a None) \/ exists k, in_name c s x a k.
Proof. intros c s x key a Hi. destruct (item_step c s x key a None Hi) as [H|[(p & H & _)|[[(to & H)|H]|(p & E & H)]]]; eauto. discriminate E. Qed.

Lemma on_sale_until_sold : forall c key a price l s, mg_items s !! key = Some (Item a (Some price)) -> nobody_as c a s l ->
  mg_items (krun c s l) !! key = Some (Item a (Some price)) \/
  exists l1 x l2, l = l1 ++ x :: l2 /\ mg_items (krun c s l1) !! key = Some (Item a (Some price)) /\ sells c (krun c s l1) x key a price.
Proof.
  intros c key a price l. induction l as [|x l IH]; intros s Hi Hn; [by left|]. destruct Hn as [Hx Hn]. cbn.
  destruct (keeps_or_sells c s x key a price Hi) as [H|[H|[k H]]].
  - destruct (IH _ H Hn) as [H'|(l1 & y & l2 & -> & H1 & H2)]; [by left|]. right. exists (x :: l1), y, l2. done.
  - right. exists [], x, l. done.
  - by apply Hx in H.
Qed.

Lemma create_and_buy : forall c e s o amount start price s1 evs, start <= u32_max ->
  mg_create_memberships c e s o amount start price = MOk (s1, evs) ->
  forall e' i buyer bid, start <= i -> i < N.min (start + amount) (u32_max + 1) -> buyer <> mc_owner c -> price <= bid -> price <= balance (mg_c s1) buyer ->
  ne_ok e' (NBuy (mc_collection c) i bid) = true -> ce_transfer_ok (ne_c e') buyer (mc_owner c) price = true ->
  let s2 := kstep_run c s1 (KNft e' (OSigned buyer) (NBuy (mc_collection c) i bid)) in sells c s1 (KNft e' (OSigned buyer) (NBuy (mc_collection c) i bid)) (mc_collection c, i) (mc_owner c) price.
Proof.
  intros c e s o amount start price s1 evs Hst Hc e' i buyer bid Hi1 Hi2 Hb Hp Hbal Hok Ht s2.
  destruct (memberships_created _ _ _ _ _ _ _ _ _ Hst Hc) as (_ & _ & Hit & _). destruct (Hit i Hi1 Hi2) as [_ Hi].
  assert (exists s', nft_call e' s1 buyer (NBuy (mc_collection c) i bid) = Some s') as [s' E].
  { unfold nft_call. rewrite Hok, Hi. destruct (N.eqb_spec (mc_owner c) buyer); [congruence|]. destruct (N.ltb_spec bid price); [lia|]. cbn [orb].
    unfold transfer. destruct (N.leb_spec price (balance (mg_c s1) buyer)); [|lia]. cbn [andb]. rewrite Ht. cbn [censure cbind]. eauto. }
  pose proof E as E0. apply buys in E as (seller & p & Ei & _ & _ & _ & EI & B1 & B2 & B3). rewrite Hi in Ei. injection Ei as <- <-.
  exists buyer, bid. cbn [fst snd]. split; [left; eauto|]. split; [done|]. split; [done|]. cbv zeta. cbn [kstep_run]. rewrite E0. cbn [default from_option id].
  split_and!; try done. by rewrite EI, lookup_insert.
Qed.

(** Creation (C166). *)
Lemma self_made : forall c s g o, mg_collections s !! g = Some (cc_account (mc_c c) g) -> cc_mgmt_origin (mc_c c) (mg_c s) o = Some g ->
  forall e id to, ne_ok e (NMint g id to) = true -> mg_items s !! (g, id) = None ->
  mg_items (kstep_run c s (KAs e o (NMint g id to))) !! (g, id) = Some (Item to None).
Proof.
  intros c s g o Hc Ho e id to Hok Hn. cbn [kstep_run]. unfold dispatch_as_account. rewrite Ho. unfold nft_call. rewrite Hok, Hc, Hn, N.eqb_refl.
  cbn. by rewrite lookup_insert.
Qed.
Lemma none_without_collection : forall c s e o amount start price, mg_collections s !! mc_collection c = None ->
  kstep_run c s (KManager (MCreateMemberships e o amount start price)) = s.
Proof. intros c s e o amount start price H. cbn. by rewrite H. Qed.

Lemma new_item : forall c s x key i, mg_items s !! key = None -> mg_items (kstep_run c s x) !! key = Some i ->
  (fst key = mc_collection c /\ creates c s x (snd key)) \/
  (exists a to, mg_collections s !! fst key = Some a /\ in_name c s x a (NMint (fst key) (snd key) to) /\ i = Item to None).
Proof.
  intros c s x key i Hn Hi. destruct (step_call c s x) as [[y ->]|[(coll & w & ->)|[E|(e & who & k & s' & Hin & Hc & Hr)]]].
  - left. by eapply manager_new.
  - exfalso. cbn in Hi. destruct (mg_collections s !! coll); cbn in Hi; congruence.
  - exfalso. congruence.
  - right. rewrite Hr in Hi. destruct (nft_new _ _ _ _ _ _ _ Hc Hn Hi) as (to & -> & Hcol & ->). eauto 10.
Qed.
Lemma collection_stays c s x coll w : mg_collections s !! coll = Some w -> (forall k, ~ in_name c s x w k) -> mg_collections (kstep_run c s x) !! coll = Some w.
Proof.
  intros Hc Hx. destruct (step_call c s x) as [[y ->]|[(cl & w' & ->)|[->|(e & who & k & s' & Hin & Hk & ->)]]].
  - by apply manager_collection.
  - cbn. destruct (mg_collections s !! cl) eqn:E; [done|]. cbn. rewrite lookup_insert_ne; [done|]. intros ->. congruence.
  - done.
  - eapply nft_collection; try done. intros ->. by eapply Hx.
Qed.
Lemma by_collective : forall c l s a, mg_collections s !! mc_collection c = Some a -> nobody_as c a s l ->
  forall id i, mg_items s !! (mc_collection c, id) = None -> mg_items (krun c s l) !! (mc_collection c, id) = Some i ->
  exists l1 x l2, l = l1 ++ x :: l2 /\ creates c (krun c s l1) x id.
Proof.
  intros c l. induction l as [|x l IH]; intros s a Hc Hn id i Hi Hi'; cbn in Hi'; [congruence|]. destruct Hn as [Hx Hn].
  destruct (mg_items (kstep_run c s x) !! (mc_collection c, id)) as [y|] eqn:E.
  - exists [], x, l. split; [done|]. destruct (new_item c s x _ _ Hi E) as [[_ H]|(b & to & Hb & H & _)]; [done|]. cbn [fst] in Hb. rewrite Hc in Hb.
    injection Hb as <-. by apply Hx in H.
  - destruct (IH _ a (collection_stays _ _ _ _ _ Hc Hx) Hn id i E Hi') as (l1 & z & l2 & -> & H). exists (x :: l1), z, l2. done.
Qed.

(** Proofs about account derivation, lookup and location conversion. *)
From Verif Require Import Base BaseProofs XcmTypes OriginTypes AccountsModel AccountsSpec.

Lemma is_bytes_reverse l : is_bytes l -> is_bytes (reverse l).
Proof. unfold is_bytes. by rewrite Forall_reverse. Qed.

Lemma account_bytes_length a : length (account_bytes a) = 32%nat.
Proof. unfold account_bytes. by rewrite reverse_length, le_bytes_length. Qed.

Lemma account_bytes_is_bytes a : is_bytes (account_bytes a).
Proof. apply is_bytes_reverse, le_bytes_is_bytes. Qed.

Lemma account_of_bytes_wf l : is_bytes l -> length l = 32%nat -> account_wf (account_of_bytes l).
Proof.
  intros Hb Hl. unfold account_of_bytes, account_wf. pose proof (le_val_bound (reverse l) (is_bytes_reverse _ Hb)) as H.
  rewrite reverse_length, Hl in H. exact H.
Qed.

Lemma account_bytes_of_bytes l : is_bytes l -> length l = 32%nat -> account_bytes (account_of_bytes l) = l.
Proof.
  intros Hb Hl. unfold account_bytes, account_of_bytes.
  rewrite <- (reverse_involutive l) at 2. f_equal.
  pose proof (le_bytes_val (reverse l) (is_bytes_reverse _ Hb)) as H. rewrite reverse_length, Hl in H. exact H.
Qed.

Lemma account_of_bytes_bytes a : account_wf a -> account_of_bytes (account_bytes a) = a.
Proof.
  intros H. unfold account_of_bytes, account_bytes. rewrite reverse_involutive. apply le_val_bytes. exact H.
Qed.

Lemma account_bytes_inj a b : account_wf a -> account_wf b -> account_bytes a = account_bytes b -> a = b.
Proof. intros Ha Hb E. rewrite <- (account_of_bytes_bytes a Ha), E. by apply account_of_bytes_bytes. Qed.

Lemma account_of_bytes_inj l1 l2 :
  is_bytes l1 -> is_bytes l2 -> length l1 = 32%nat -> length l2 = 32%nat ->
  account_of_bytes l1 = account_of_bytes l2 -> l1 = l2.
Proof.
  intros B1 B2 L1 L2 E. rewrite <- (account_bytes_of_bytes l1 B1 L1), E. by apply account_bytes_of_bytes.
Qed.

Lemma is_bytes_app l1 l2 : is_bytes l1 -> is_bytes l2 -> is_bytes (l1 ++ l2).
Proof. apply Forall_app_2. Qed.

Lemma is_bytes_zeros n : is_bytes (replicate n 0).
Proof. apply Forall_replicate. unfold is_byte. lia. Qed.

Lemma is_bytes_dec l : forallb (fun b => b <? 256) l = true -> is_bytes l.
Proof.
  intros H. apply Forall_forall. intros x Hx. rewrite forallb_forall in H.
  apply elem_of_list_In in Hx. specialize (H x Hx). unfold is_byte. lia.
Qed.

(** A well-formed pallet id: 8 bytes. *)
Notation pallet_wf p := (is_bytes p /\ length p = 8%nat).

Lemma sub_account_bytes p s :
  pallet_wf p -> account_bytes (sub_account p s) = modl ++ p ++ le_bytes 2 s ++ replicate 18 0.
Proof.
  intros [Hb Hl]. unfold sub_account. apply account_bytes_of_bytes.
  - repeat apply is_bytes_app; [by apply is_bytes_dec|done|apply le_bytes_is_bytes|apply is_bytes_zeros].
  - rewrite !app_length, le_bytes_length, replicate_length, Hl. done.
Qed.

Lemma sub_account_wf p s : pallet_wf p -> account_wf (sub_account p s).
Proof.
  intros [Hb Hl]. apply account_of_bytes_wf.
  - repeat apply is_bytes_app; [by apply is_bytes_dec|done|apply le_bytes_is_bytes|apply is_bytes_zeros].
  - rewrite !app_length, le_bytes_length, replicate_length, Hl. done.
Qed.

Lemma community_pallet_wf : pallet_wf community_pallet_id.
Proof. split; [by apply is_bytes_dec|done]. Qed.
Lemma treasury_pallet_wf : pallet_wf treasury_pallet_id.
Proof. split; [by apply is_bytes_dec|done]. Qed.

Lemma length_8_inv {A} (p : list A) : length p = 8%nat -> exists a b c d e f g h, p = [a;b;c;d;e;f;g;h].
Proof. do 9 (destruct p as [|? p]; try discriminate). eauto 10. Qed.

Lemma le_bytes_2 s : le_bytes 2 s = [s mod 256; (s / 256) mod 256].
Proof. done. Qed.

Lemma try_from_sub p s : pallet_wf p -> s <= u16_max -> try_from_sub_account (sub_account p s) = Some (p, s).
Proof.
  intros Hp Hs. unfold try_from_sub_account. rewrite sub_account_bytes by done. destruct Hp as [_ Hl].
  destruct (length_8_inv p Hl) as (a&b&c&d&e&f&g&h&->).
  rewrite le_bytes_2. unfold modl. cbn [app take drop replicate all_zero N.eqb andb].
  rewrite bool_decide_eq_true_2 by done. cbn [andb].
  replace (0 =? 0) with true by done. cbn [andb]. do 2 f_equal. rewrite <- le_bytes_2.
  apply le_val_bytes. unfold u16_max in Hs. change (256 ^ N.of_nat 2) with 65536. lia.
Qed.

Lemma take_drop_32 {A} (l : list A) : l = take 4 l ++ take 8 (drop 4 l) ++ take 2 (drop 12 l) ++ drop 14 l.
Proof.
  rewrite <- (take_drop 4 l) at 1. f_equal.
  rewrite <- (take_drop 8 (drop 4 l)) at 1. f_equal.
  rewrite drop_drop. change (4 + 8)%nat with 12%nat.
  rewrite <- (take_drop 2 (drop 12 l)) at 1. f_equal.
  by rewrite drop_drop.
Qed.

Lemma try_from_sub_inv a p s :
  account_wf a -> try_from_sub_account a = Some (p, s) -> pallet_wf p /\ s <= u16_max /\ a = sub_account p s.
Proof.
  intros Ha. unfold try_from_sub_account.
  destruct (bool_decide (take 4 (account_bytes a) = modl)) eqn:Hm; cbn [andb]; [|discriminate].
  apply bool_decide_eq_true in Hm.
  destruct (all_zero (drop 14 (account_bytes a))) eqn:Hz; [|discriminate].
  intros E. apply (inj Some), pair_equal_spec in E as [<- <-].
  pose proof (account_bytes_is_bytes a) as Hb. pose proof (account_bytes_length a) as Hl.
  apply all_zero_spec in Hz. rewrite drop_length, Hl in Hz. change (32 - 14)%nat with 18%nat in Hz.
  assert (Hp : pallet_wf (take 8 (drop 4 (account_bytes a)))).
  { split; [by apply Forall_take, Forall_drop|]. rewrite take_length, drop_length, Hl. done. }
  assert (H2 : is_bytes (take 2 (drop 12 (account_bytes a)))) by (by apply Forall_take, Forall_drop).
  assert (L2 : length (take 2 (drop 12 (account_bytes a))) = 2%nat) by (rewrite take_length, drop_length, Hl; done).
  split; [done|]. split.
  - pose proof (le_val_bound _ H2) as B. rewrite L2 in B. change (256 ^ N.of_nat 2) with 65536 in B. unfold u16_max. lia.
  - apply account_bytes_inj; [done|by apply sub_account_wf|].
    rewrite sub_account_bytes by done.
    pose proof (le_bytes_val _ H2) as B. rewrite L2 in B. rewrite B, <- Hz, <- Hm. apply take_drop_32.
Qed.

Lemma sub_account_inj p q s t :
  pallet_wf p -> pallet_wf q -> s <= u16_max -> t <= u16_max -> sub_account p s = sub_account q t -> p = q /\ s = t.
Proof.
  intros Hp Hq Hs Ht E. pose proof (try_from_sub p s Hp Hs) as H. rewrite E, try_from_sub in H by done.
  injection H as -> ->. done.
Qed.

Lemma community_account_bytes c :
  c <= u16_max ->
  account_bytes (community_account c) =
  [109; 111; 100; 108] ++ [107; 118; 47; 99; 109; 116; 121; 115] ++ [c mod 256; c / 256] ++ replicate 18 0.
Proof.
  intros Hc. unfold community_account. rewrite sub_account_bytes by apply community_pallet_wf.
  rewrite le_bytes_2. rewrite (N.mod_small (c / 256)); [done|]. unfold u16_max in Hc. apply N.div_lt_upper_bound; lia.
Qed.

Lemma community_account_inj c d : c <= u16_max -> d <= u16_max -> community_account c = community_account d -> c = d.
Proof. intros Hc Hd E. by apply sub_account_inj in E as [_ E]; try apply community_pallet_wf. Qed.

Lemma account_to_community_own c : c <= u16_max -> account_to_community (community_account c) = Some c.
Proof. intros Hc. unfold account_to_community, community_account. by rewrite (try_from_sub _ c community_pallet_wf Hc). Qed.

Lemma account_to_community_iff a c :
  account_wf a ->
  (account_to_community a = Some c <-> c <= u16_max /\ exists p, pallet_wf p /\ a = sub_account p c).
Proof.
  intros Ha. unfold account_to_community. split.
  - destruct (try_from_sub_account a) as [[p s]|] eqn:E; [|discriminate]. cbn. intros F. injection F as <-.
    apply try_from_sub_inv in E as (Hp & Hs & ->); [|done]. eauto.
  - intros (Hc & p & Hp & ->). by rewrite (try_from_sub p c Hp Hc).
Qed.

(* ------------------------------------------------------------------ *)
(** * Locations *)

Lemma first4_sibling id : take 4 (account_bytes (sibling_account id)) = [115; 105; 98; 108].
Proof.
  unfold sibling_account. rewrite account_bytes_of_bytes; [done| |].
  - repeat apply is_bytes_app; [by apply is_bytes_dec|apply le_bytes_is_bytes|apply is_bytes_zeros].
  - rewrite !app_length, le_bytes_length, replicate_length. done.
Qed.

Lemma sibling_account_bytes id :
  account_bytes (sibling_account id) = [115; 105; 98; 108] ++ le_bytes 4 id ++ replicate 24 0.
Proof.
  unfold sibling_account. apply account_bytes_of_bytes.
  - repeat apply is_bytes_app; [by apply is_bytes_dec|apply le_bytes_is_bytes|apply is_bytes_zeros].
  - rewrite !app_length, le_bytes_length, replicate_length. done.
Qed.

Lemma sibling_account_inj i j : i <= u32_max -> j <= u32_max -> sibling_account i = sibling_account j -> i = j.
Proof.
  intros Hi Hj E. pose proof (sibling_account_bytes i) as H. rewrite E, sibling_account_bytes in H.
  apply app_inv_head in H. apply app_inj_1 in H as [H _]; [|by rewrite !le_bytes_length].
  symmetry. apply (le_bytes_inj 4); [..|done]; change (256 ^ N.of_nat 4) with 4294967296; unfold u32_max in *; lia.
Qed.

Lemma parent_account_bytes : account_bytes parent_account = [80; 97; 114; 101; 110; 116] ++ replicate 26 0.
Proof. vm_compute. done. Qed.

Lemma community_first4 c : take 4 (account_bytes (community_account c)) = [109; 111; 100; 108].
Proof. unfold community_account. by rewrite (sub_account_bytes _ _ community_pallet_wf). Qed.

Lemma parent_not_sibling i : parent_account <> sibling_account i.
Proof. intros E. pose proof (first4_sibling i) as H. rewrite <- E, parent_account_bytes in H. discriminate. Qed.
Lemma parent_not_community i : parent_account <> community_account i.
Proof. intros E. pose proof (community_first4 i) as H. rewrite <- E, parent_account_bytes in H. discriminate. Qed.
Lemma sibling_not_community i j : sibling_account i <> community_account j.
Proof. intros E. pose proof (community_first4 j) as H. rewrite <- E, first4_sibling in H. discriminate. Qed.

Lemma plurality_converts_small i part :
  i <= u16_max -> location_to_account (Location 0 [Plurality (BIndex i) part]) = Some (community_account i).
Proof.
  intros Hi. unfold location_to_account, or_else. cbn. unfold sat16. rewrite N.min_l by done. done.
Qed.

Lemma plurality_converts_big i part :
  u16_max <= i -> location_to_account (Location 0 [Plurality (BIndex i) part]) = Some (community_account u16_max).
Proof. intros Hi. unfold location_to_account, or_else. cbn. unfold sat16. by rewrite N.min_r by done. Qed.

Lemma account_to_plurality c :
  c <= u16_max -> signed_by_community_to_plurality (OSigned (community_account c)) = Some (Location 0 [Plurality (BIndex c) Voice]).
Proof.
  intros Hc. cbn [signed_by_community_to_plurality]. unfold community_account.
  by rewrite (try_from_sub _ c community_pallet_wf Hc).
Qed.

Lemma sent_as_community o l :
  (forall a, o = OSigned a -> account_wf a) ->
  can_send_xcm o = Some l ->
  exists c part, l = Location 0 [Plurality (BIndex c) part] /\
    ((exists s, o = OCommunity c s) \/
     (part = Voice /\ c <= u16_max /\ exists p, pallet_wf p /\ o = OSigned (sub_account p c))).
Proof.
  intros Hw. unfold can_send_xcm, or_else.
  destruct o as [| |a|c s|x|x|x]; cbn; try discriminate.
  - destruct (try_from_sub_account a) as [[p c]|] eqn:E; [|discriminate]. cbn. intros F. injection F as <-.
    apply try_from_sub_inv in E as (Hp & Hc & ->); [|by apply Hw]. eauto 10.
  - destruct (community_to_junction c s) as [j|] eqn:E; [|discriminate]. cbn. intros F. injection F as <-.
    destruct s as [[]|]; cbn in E; try discriminate; injection E as <-; eauto 10.
Qed.

Lemma lookup_account_spec ad a :
  lookup_address ad = Some a <-> ad = AddrId a \/ exists i, ad = AddrIndex i /\ a = community_account i.
Proof.
  destruct ad; cbn [lookup_address]; split.
  1: intros [= ->]; by left.
  1: intros [[= ->]|(? & [=] & _)]; done.
  1: intros E; right; eexists; split; [done|]; by inversion E.
  1: intros [[=]|(? & [= ->] & ->)]; done.
  all: try discriminate; intros [[=]|(? & [=] & _)].
Qed.

(** The locations that have an account, and which. *)
Lemma location_to_account_iff l a :
  location_to_account l = Some a <->
  (l = Location 1 [] /\ a = parent_account) \/
  (exists i, l = Location 1 [Parachain i] /\ a = sibling_account i) \/
  (exists i part, l = Location 0 [Plurality (BIndex i) part] /\ a = community_account (N.min i u16_max)) \/
  (exists p net id, (p = 0 \/ p = 1) /\ l = Location p [AccountId32 net id] /\ (net = None \/ net = Some Kusama) /\
     a = account_of_bytes id).
Proof.
  split.
  - unfold location_to_account, or_else. destruct l as [p js].
    destruct p as [|[p|p|]].
    + destruct js as [|j [|j' js]]; try discriminate.
      * destruct j; try discriminate.
        -- cbn. destruct net as [net|]; [destruct (bool_decide_reflect (Some net = relay_network)) as [En|]; [unfold relay_network in En|discriminate]|];
             intros E; apply (inj Some) in E as <-; right; right; right; exists 0; eexists _, id; (split; [by left|]); (split; [reflexivity|]); (split; [|reflexivity]); auto.
        -- destruct id; try discriminate. intros E. cbn in E. apply (inj Some) in E as <-. right; right; left; eauto.
      * destruct j as [|[]| | | | | | |[]|]; intros E; cbn in E; discriminate E.
    + destruct js as [|j [|j' js]]; try discriminate; destruct j; try discriminate.
    + destruct js as [|j [|j' js]]; try discriminate; destruct j; try discriminate.
    + destruct js as [|j [|j' js]]; try discriminate.
      * intros E. apply (inj Some) in E as <-. by left.
      * destruct j; try discriminate.
        -- intros E. apply (inj Some) in E as <-. right; left; eauto.
        -- cbn. destruct net as [net|]; [destruct (bool_decide_reflect (Some net = relay_network)) as [En|]; [unfold relay_network in En|discriminate]|];
             intros E; apply (inj Some) in E as <-; right; right; right; exists 1; eexists _, id; (split; [by right|]); (split; [reflexivity|]); (split; [|reflexivity]); auto.
      * destruct j as [|[]| | | | | | |[]|]; intros E; cbn in E; discriminate E.
  - intros [[-> ->]|[(i & -> & ->)|[(i & part & -> & ->)|(p & net & id & [-> | ->] & -> & [-> | ->] & ->)]]]; done.
Qed.

Local Opaque parent_account sibling_account community_account.
Lemma parties_distinct l1 l2 a :
  chain_or_community l1 -> chain_or_community l2 ->
  location_to_account l1 = Some a -> location_to_account l2 = Some a -> l1 = l2.
Proof.
  intros H1 H2 E1 E2.
  destruct H1 as [->|[(i & Hi & ->)|(c & Hc & ->)]], H2 as [->|[(j & Hj & ->)|(d & Hd & ->)]];
    rewrite ?plurality_converts_small in E1, E2 by done; apply (inj Some) in E1, E2; subst a; try done.
  all: try (exfalso; (apply parent_not_sibling in E2 || apply parent_not_community in E2 || apply sibling_not_community in E2); exact E2).
  all: try (exfalso; symmetry in E2; (apply parent_not_sibling in E2 || apply parent_not_community in E2 || apply sibling_not_community in E2); exact E2).
  - by apply sibling_account_inj in E2 as ->.
  - by apply community_account_inj in E2 as ->.
Qed.

Lemma permill_id p : p <= 1000000 -> permill_from_rational p 1000000 = p.
Proof.
  intros H. unfold permill_from_rational. replace (1000000 =? 0) with false by done. cbn [orb].
  destruct (N.leb_spec 1000000 p); [lia|]. by rewrite N.div_mul.
Qed.

Lemma junction_roundtrip c s j :
  subset_wf s -> (forall m, s <> Some (SubMember m)) -> community_to_junction c s = Some j -> junction_to_community j = Some (c, s).
Proof.
  intros Hw Hm. destruct s as [[]|]; cbn in *; intros E; try discriminate; injection E as <-; try done.
  - by destruct (Hm m).
  - cbn [junction_to_community]. by rewrite permill_id.
Qed.

Local Transparent community_account parent_account sibling_account.
Lemma treasury_is_community_zero :
  account_wf treasury_account /\ ensure_community_account (OSigned treasury_account) = Some 0 /\
  (forall c, c <= u16_max -> treasury_account <> community_account c).
Proof.
  split; [apply sub_account_wf, treasury_pallet_wf|]. split; [vm_compute; done|].
  intros c Hc E. unfold treasury_account in E. unfold community_account in E. apply sub_account_inj in E as [E _]; [discriminate|apply treasury_pallet_wf|apply community_pallet_wf|done|done].
Qed.

(** In bytes. *)
Lemma derived_sub p s : pallet_wf p -> s <= u16_max -> has_bytes (sub_account p s) (derived_bytes str_modl p s).
Proof.
  intros Hp Hs. split; [by apply sub_account_wf|]. rewrite sub_account_bytes by done. rewrite le_bytes_2.
  rewrite (N.mod_small (s / 256)); [done|]. unfold u16_max in Hs. apply N.div_lt_upper_bound; lia.
Qed.

Lemma has_bytes_inj a b l : has_bytes a l -> has_bytes b l -> a = b.
Proof. intros [Ha E] [Hb F]. apply account_bytes_inj; congruence. Qed.

Lemma community_accounts_distinct :
  (forall c, c <= u16_max -> has_bytes (community_account c) (derived_bytes str_modl str_communities c)) /\
  (forall c d, c <= u16_max -> d <= u16_max -> community_account c = community_account d -> c = d) /\
  (forall c, c <= u16_max -> account_to_community (community_account c) = Some c) /\
  (forall c p n a, c <= u16_max -> is_bytes p -> length p = 8%nat -> n <= u16_max -> p <> str_communities ->
     has_bytes a (derived_bytes str_modl p n) -> a <> community_account c).
Proof.
  split; [intros c Hc; apply derived_sub; [apply community_pallet_wf|done]|].
  split; [exact community_account_inj|]. split; [exact account_to_community_own|].
  intros c p n a Hc Hb Hl Hn Hp Ha E.
  assert (a = sub_account p n) as -> by (eapply has_bytes_inj; [exact Ha|by apply derived_sub]).
  unfold community_account in E. apply sub_account_inj in E as [E _]; try done. apply community_pallet_wf.
Qed.

Lemma acts_as_community_iff a c : account_wf a ->
  (ensure_community_account (OSigned a) = Some c <->
   c <= u16_max /\ exists p, is_bytes p /\ length p = 8%nat /\ account_bytes a = derived_bytes str_modl p c).
Proof.
  intros Ha. cbn [ensure_community_account]. rewrite account_to_community_iff by done. split.
  - intros (Hc & p & [Hb Hl] & ->). split; [done|]. exists p. split_and!; [done..|]. by apply derived_sub.
  - intros (Hc & p & Hb & Hl & E). split; [done|]. exists p. split; [done|].
    apply (has_bytes_inj _ _ (derived_bytes str_modl p c)); [done|by apply derived_sub].
Qed.

Lemma address_lookup :
  (forall a, lookup_address (AddrId a) = Some a) /\
  (forall i, i <= u16_max -> exists a, lookup_address (AddrIndex i) = Some a /\ has_bytes a (derived_bytes str_modl str_communities i)) /\
  (forall l, lookup_address (AddrRaw l) = None /\ lookup_address (Addr32 l) = None /\ lookup_address (Addr20 l) = None) /\
  (forall a, lookup_address (unlookup a) = Some a).
Proof.
  split_and!; try done. intros i Hi. exists (community_account i). split; [done|]. by apply community_accounts_distinct.
Qed.

Lemma plurality_agrees i : i <= u16_max ->
  exists a, has_bytes a (derived_bytes str_modl str_communities i) /\
    (forall part, location_to_account (Location 0 [Plurality (BIndex i) part]) = Some a) /\
    can_send_xcm (OSigned a) = Some (Location 0 [Plurality (BIndex i) Voice]) /\
    can_send_xcm (OCommunity i None) = Some (Location 0 [Plurality (BIndex i) Voice]).
Proof.
  intros Hi. exists (community_account i). split; [by apply community_accounts_distinct|].
  split; [intros part; by apply plurality_converts_small|]. split; [|done].
  unfold can_send_xcm, or_else. cbn [community_to_location]. by apply account_to_plurality.
Qed.

Lemma pluralities_share : exists i j part,
  i <> j /\ i <= u32_max /\ j <= u32_max /\ exists a, location_to_account (Location 0 [Plurality (BIndex i) part]) = Some a /\
    location_to_account (Location 0 [Plurality (BIndex j) part]) = Some a.
Proof.
  exists 65535, 65536, Voice. split_and!; [done..|]. eexists. split; [apply plurality_converts_big; done|].
  apply plurality_converts_big. vm_compute. discriminate.
Qed.

Lemma pluralities_distinct i j part1 part2 a :
  i <= u16_max -> j <= u16_max -> location_to_account (Location 0 [Plurality (BIndex i) part1]) = Some a ->
  location_to_account (Location 0 [Plurality (BIndex j) part2]) = Some a -> i = j.
Proof.
  intros Hi Hj. rewrite !plurality_converts_small by done. intros E F. apply community_account_inj; congruence.
Qed.

Lemma sent_as_community_bytes o l :
  (forall a, o = OSigned a -> account_wf a) -> can_send_xcm o = Some l ->
  exists c part, l = Location 0 [Plurality (BIndex c) part] /\
    ((exists s, o = OCommunity c s) \/
     (part = Voice /\ exists a p, o = OSigned a /\ is_bytes p /\ length p = 8%nat /\ account_bytes a = derived_bytes str_modl p c)).
Proof.
  intros Hw H. destruct (sent_as_community o l Hw H) as (c & part & -> & [Ho|(Hv & Hc & p & Hp & ->)]); exists c, part; split; try done.
  - by left.
  - right. split; [done|]. exists (sub_account p c), p. split_and!; try apply Hp; [done|]. by apply derived_sub.
Qed.

Lemma treasury_speaks : exists a, account_wf a /\ account_bytes a = derived_bytes str_modl str_treasury 0 /\
  can_send_xcm (OSigned a) = Some (Location 0 [Plurality (BIndex 0) Voice]) /\
  ensure_community_account (OSigned a) = Some 0 /\ (forall c, c <= u16_max -> a <> community_account c).
Proof.
  exists treasury_account. destruct treasury_is_community_zero as (H1 & H2 & H3). split_and!; try done; vm_compute; done.
Qed.

Lemma location_accounts l a :
  location_to_account l = Some a <->
  (l = Location 1 [] /\ has_bytes a (str_parent ++ replicate 26 0)) \/
  (exists i, l = Location 1 [Parachain i] /\ has_bytes a (str_sibl ++ le_bytes 4 i ++ replicate 24 0)) \/
  (exists i part, l = Location 0 [Plurality (BIndex i) part] /\ has_bytes a (derived_bytes str_modl str_communities (N.min i u16_max))) \/
  (exists p net id, (p = 0 \/ p = 1) /\ l = Location p [AccountId32 net id] /\ (net = None \/ net = Some Kusama) /\
     a = account_of_bytes id).
Proof.
  assert (HP : has_bytes parent_account (str_parent ++ replicate 26 0)) by (split; vm_compute; done).
  assert (HS : forall i, has_bytes (sibling_account i) (str_sibl ++ le_bytes 4 i ++ replicate 24 0)).
  { intros i. split; [|apply sibling_account_bytes]. apply account_of_bytes_wf.
    - repeat apply is_bytes_app; [by apply is_bytes_dec|apply le_bytes_is_bytes|apply is_bytes_zeros].
    - rewrite !app_length, le_bytes_length, replicate_length. done. }
  assert (HC : forall i, has_bytes (community_account (N.min i u16_max)) (derived_bytes str_modl str_communities (N.min i u16_max))).
  { intros i. apply community_accounts_distinct. lia. }
  rewrite location_to_account_iff. split.
  - intros [[-> ->]|[(i & -> & ->)|[(i & part & -> & ->)|H]]]; [left; by split|right; left; by exists i|right; right; left; by exists i, part|right; right; right; exact H].
  - intros [[-> H]|[(i & -> & H)|[(i & part & -> & H)|H]]].
    + left. split; [done|]. eapply has_bytes_inj; [exact H|exact HP].
    + right; left. exists i. split; [done|]. eapply has_bytes_inj; [exact H|apply HS].
    + right; right; left. exists i, part. split; [done|]. eapply has_bytes_inj; [exact H|apply HC].
    + right; right; right; exact H.
Qed.

Lemma member_spends c m : c <= u16_max ->
  exists l, can_execute_xcm (OCommunity c (Some (SubMember m))) = Some l /\ location_to_account l = Some (community_account c) /\
    as_signed_by_community (OCommunity c (Some (SubMember m))) = Some (community_account c).
Proof. intros Hc. eexists. split; [done|]. split; [by apply plurality_converts_small|done]. Qed.

Lemma executes_as o l a :
  (forall a, o = OSigned a -> account_wf a) -> (forall c s, o = OCommunity c s -> c <= u16_max) ->
  can_execute_xcm o = Some l -> location_to_account l = Some a ->
  o = OSigned a \/ exists c s, o = OCommunity c s /\ has_bytes a (derived_bytes str_modl str_communities c).
Proof.
  intros Hw Hc. unfold can_execute_xcm, or_else. destruct o as [| |x|c s|x|x|x]; cbn [community_to_location signed_to_account]; try discriminate.
  - intros E. injection E as <-. intros E. left. f_equal.
    change (Some (account_of_bytes (account_bytes x)) = Some a) in E. rewrite account_of_bytes_bytes in E by by apply Hw. congruence.
  - specialize (Hc c s eq_refl). intros E F. right. exists c, s. split; [done|].
    destruct s as [[]|]; cbn in E; try discriminate; injection E as <-;
      (rewrite plurality_converts_small in F by done; apply (inj Some) in F as <-; by apply community_accounts_distinct).
Qed.

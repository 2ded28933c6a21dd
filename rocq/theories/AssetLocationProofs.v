(** Proofs about asset ids and locations. *)
From Verif Require Import Base BaseProofs XcmTypes AssetLocationModel.

Lemma try_u16_spec x y : try_u16 x = Some y <-> y = x /\ x <= u16_max.
Proof. unfold try_u16. destruct (x <=? u16_max) eqn:E; [|split; [done|lia]]. split; [intros [= <-]; lia|intros [-> _]; done]. Qed.
Lemma try_u32_spec x y : try_u32 x = Some y <-> y = x /\ x <= u32_max.
Proof. unfold try_u32. destruct (x <=? u32_max) eqn:E; [|split; [done|lia]]. split; [intros [= <-]; lia|intros [-> _]; done]. Qed.
Lemma try_u16_ok x : x <= u16_max -> try_u16 x = Some x.
Proof. intros. by apply try_u16_spec. Qed.
Lemma try_u32_ok x : x <= u32_max -> try_u32 x = Some x.
Proof. intros. by apply try_u32_spec. Qed.

Lemma network_try_from_from n : network_try_from (network_from n) = Some n.
Proof. by destruct n. Qed.
Lemma network_from_try_from n m : network_try_from n = Some m -> network_from m = n.
Proof. destruct n; cbn; intros [=]; subst; done. Qed.
Lemma network_try_from_wf n m : network_wf n -> network_try_from n = Some m -> asset_network_wf m.
Proof. destruct n; cbn; intros H [=]; subst; done. Qed.
Lemma network_from_wf n : asset_network_wf n -> network_wf (network_from n).
Proof. by destruct n. Qed.

Ltac wf_list :=
  cbn [loc_interior]; repeat (apply Forall_cons; split); try apply Forall_nil; try done;
  cbn in *; unfold u8_max, u16_max, u32_max, u128_max in *; lia.

Lemma convert_convert_back a : asset_id_wf a ->
  exists l, convert_back a = Some l /\ location_wf l /\ convert l = Val (Some a).
Proof.
  destruct a as [i|[id pl ix]|n [[id pl ix]|]]; cbn [asset_id_wf para_wf para_id para_pallet para_index];
    intros Hwf; eexists; (split; [reflexivity|]).
  - split; [|cbn [convert]; by rewrite try_u32_ok].
    split; [cbn; unfold u8_max; lia|]. wf_list.
  - destruct Hwf as (H1 & H2 & H3). split.
    + split; [cbn; unfold u8_max; lia|]. wf_list.
    + cbn [convert]. by rewrite try_u16_ok, try_u32_ok.
  - destruct Hwf as (Hn & H1 & H2 & H3). cbn in H1, H2, H3. split.
    + split; [cbn; unfold u8_max; lia|]. constructor; [by apply network_from_wf|].
      wf_list.
    + cbn [convert]. by rewrite network_try_from_from, try_u16_ok, try_u32_ok.
  - destruct Hwf as [Hn _]. split.
    + split; [cbn; unfold u8_max; lia|]. constructor; [by apply network_from_wf|constructor].
    + cbn [convert]. by rewrite network_try_from_from.
Qed.

(** Case analysis on the shapes [convert] accepts. *)
Inductive asset_shape : location -> outcome (option asset_id) -> Prop :=
| Sh_ext n m : network_try_from n = Some m ->
    asset_shape (Location 2 [GlobalConsensus n]) (Val (Some (External m None)))
| Sh_extp n m id pl ix : network_try_from n = Some m -> id <= u16_max -> ix <= u32_max ->
    asset_shape (Location 2 [GlobalConsensus n; Parachain id; PalletInstance pl; GeneralIndex ix])
                (Val (Some (External m (Some (Para id pl ix)))))
| Sh_sib id pl ix : id <= u16_max -> ix <= u32_max ->
    asset_shape (Location 1 [Parachain id; PalletInstance pl; GeneralIndex ix]) (Val (Some (Sibling (Para id pl ix))))
| Sh_here ix : ix <= u32_max ->
    asset_shape (Location 0 [PalletInstance 13; GeneralIndex ix]) (Val (Some (Here ix)))
| Sh_panic ix : u32_max < ix ->
    asset_shape (Location 0 [PalletInstance 13; GeneralIndex ix]) Panic.

Lemma convert_shape l o : convert l = o -> o <> Val None -> asset_shape l o.
Proof.
  destruct l as [p ji]. intros <- Hne. unfold convert in *.
  Local Ltac junk Hne := try (exfalso; apply Hne; reflexivity).
  destruct p as [|p].
  - (* parents 0 *)
    destruct ji as [|[| | | |i| | | | |] [|[| | | | |ix| | | |] [|]]]; junk Hne.
    all: destruct i as [|i]; junk Hne; do 4 (destruct i as [i|i|]; junk Hne).
    destruct (try_u32 ix) as [y|] eqn:E.
    + apply try_u32_spec in E as [-> E]. by constructor.
    + constructor. unfold try_u32 in E. destruct (ix <=? u32_max) eqn:Hle; [done|]. lia.
  - destruct p as [p|p|]; junk Hne.
    + destruct p; junk Hne.
      destruct ji as [|[| | | | | | | | |net] [|[id| | | | | | | | |] [|[| | | |pl| | | | |] [|[| | | | |ix| | | |] [|]]]]]; junk Hne.
      * destruct (network_try_from net) as [m|] eqn:En; junk Hne. by constructor.
      * destruct (network_try_from net) as [m|] eqn:En; junk Hne.
        destruct (try_u16 id) as [id'|] eqn:E1; junk Hne.
        destruct (try_u32 ix) as [ix'|] eqn:E2; junk Hne.
        apply try_u16_spec in E1 as [-> E1]. apply try_u32_spec in E2 as [-> E2]. by constructor.
    + destruct ji as [|[id| | | | | | | | |] [|[| | | |pl| | | | |] [|[| | | | |ix| | | |] [|]]]]; junk Hne.
      destruct (try_u16 id) as [id'|] eqn:E1; junk Hne.
      destruct (try_u32 ix) as [ix'|] eqn:E2; junk Hne.
      apply try_u16_spec in E1 as [-> E1]. apply try_u32_spec in E2 as [-> E2]. by constructor.
Qed.

Lemma convert_faithful l a : location_wf l -> convert l = Val (Some a) ->
  asset_id_wf a /\ convert_back a = Some l.
Proof.
  intros Hwf E. pose proof (convert_shape _ _ E ltac:(done)) as Hs.
  destruct Hwf as [_ Hwf]. inversion Hs; subst; cbn [loc_interior] in Hwf.
  - inversion Hwf; subst. split.
    + split; [|done]. by eapply network_try_from_wf.
    + cbn. by erewrite network_from_try_from.
  - inversion Hwf as [|? ? Hj1 Hwf2]; subst. inversion Hwf2 as [|? ? Hj2 Hwf3]; subst. inversion Hwf3 as [|? ? Hj3 ?]; subst. split.
    + split; [by eapply network_try_from_wf|]. done.
    + cbn. by erewrite network_from_try_from.
  - inversion Hwf as [|? ? Hj1 Hwf2]; subst. inversion Hwf2 as [|? ? Hj2 ?]; subst. done.
  - done.
Qed.

Lemma convert_panic_iff l :
  convert l = Panic <-> exists ix, u32_max < ix /\ l = Location 0 [PalletInstance 13; GeneralIndex ix].
Proof.
  split.
  - intros E. pose proof (convert_shape _ _ E ltac:(done)) as Hs. inversion Hs; subst. eauto.
  - intros (ix & Hlt & ->). cbn [convert]. unfold try_u32. by rewrite (proj2 (N.leb_gt _ _) Hlt).
Qed.

(** ** SCALE *)

Lemma dec_uint_app n v rest : v < 256 ^ N.of_nat n -> dec_uint n (le_bytes n v ++ rest) = Some (v, rest).
Proof.
  intros Hv. unfold dec_uint.
  assert ((length (le_bytes n v ++ rest) <? n)%nat = false) as ->.
  { apply Nat.ltb_ge. rewrite app_length, le_bytes_length. lia. }
  rewrite take_app_alt, drop_app_alt by (by rewrite le_bytes_length).
  by rewrite le_val_bytes.
Qed.

Lemma dec_uint_inv n input v rest : is_bytes input -> dec_uint n input = Some (v, rest) ->
  v < 256 ^ N.of_nat n /\ input = le_bytes n v ++ rest /\ is_bytes rest.
Proof.
  intros Hb. unfold dec_uint. case_match eqn:Hl; [done|]. intros [= <- <-].
  apply Nat.ltb_ge in Hl.
  assert (is_bytes (take n input)) as Ht by (by apply Forall_take).
  assert (length (take n input) = n) as Hlt by (rewrite take_length; lia).
  pose proof (le_val_bound _ Ht) as Hv. rewrite Hlt in Hv.
  pose proof (le_bytes_val _ Ht) as E. rewrite Hlt in E.
  split; [done|]. split; [|by apply Forall_drop]. by rewrite E, take_drop.
Qed.

Lemma dec_enc_para p rest : para_wf p -> dec_para (enc_para p ++ rest) = Some (p, rest).
Proof.
  destruct p as [id pl ix]. intros (H1 & H2 & H3). cbn [para_id para_pallet para_index] in *.
  unfold u8_max, u16_max, u32_max in *.
  unfold dec_para, enc_para. cbn [para_id para_pallet para_index]. rewrite <- !app_assoc.
  rewrite (dec_uint_app 2) by (change (256 ^ N.of_nat 2) with 65536; lia). cbn [mbind option_bind].
  rewrite (dec_uint_app 1) by (change (256 ^ N.of_nat 1) with 256; lia). cbn [mbind option_bind].
  rewrite (dec_uint_app 4) by (change (256 ^ N.of_nat 4) with 4294967296; lia). done.
Qed.

Lemma dec_para_inv input p rest : is_bytes input -> dec_para input = Some (p, rest) ->
  para_wf p /\ input = enc_para p ++ rest /\ is_bytes rest.
Proof.
  intros Hb. unfold dec_para.
  destruct (dec_uint 2 input) as [[id r1]|] eqn:E1; [|done]. cbn [mbind option_bind].
  destruct (dec_uint 1 r1) as [[pl r2]|] eqn:E2; [|done]. cbn [mbind option_bind].
  destruct (dec_uint 4 r2) as [[ix r3]|] eqn:E3; [|done]. cbn [mbind option_bind].
  intros [= <- <-].
  apply dec_uint_inv in E1 as (H1 & -> & Hb1); [|done].
  apply dec_uint_inv in E2 as (H2 & -> & Hb2); [|done].
  apply dec_uint_inv in E3 as (H3 & -> & Hb3); [|done].
  change (256 ^ N.of_nat 2) with 65536 in H1. change (256 ^ N.of_nat 1) with 256 in H2.
  change (256 ^ N.of_nat 4) with 4294967296 in H3.
  split; [|split; [|done]].
  - unfold para_wf, u8_max, u16_max, u32_max. cbn [para_id para_pallet para_index]. lia.
  - unfold enc_para. cbn [para_id para_pallet para_index]. by rewrite <- !app_assoc.
Qed.

Lemma dec_enc_network n rest : asset_network_wf n -> dec_network (enc_network n ++ rest) = Some (n, rest).
Proof.
  destruct n; intros Hwf; [done|done|]. cbn [enc_network app dec_network].
  rewrite (dec_uint_app 8); [done|]. change (256 ^ N.of_nat 8) with 18446744073709551616.
  cbn in Hwf. unfold u64_max in Hwf. lia.
Qed.

Lemma tag_cases b : b < 256 -> b = 0 \/ b = 1 \/ b = 2 \/ 2 < b.
Proof. lia. Qed.

Lemma dec_network_inv input n rest : is_bytes input -> dec_network input = Some (n, rest) ->
  asset_network_wf n /\ input = enc_network n ++ rest /\ is_bytes rest.
Proof.
  intros Hb. destruct input as [|b r]; [done|]. inversion Hb as [|? ? Hb0 Hbr]; subst.
  destruct b as [|[[]|[]|]]; cbn [dec_network]; try done.
  - intros [= <- <-]. done.
  - destruct (dec_uint 8 r) as [[c r']|] eqn:E; [|done]. cbn [mbind option_bind]. intros [= <- <-].
    apply dec_uint_inv in E as (H & -> & ?); [|done].
    split; [|done]. cbn. unfold u64_max. change (256 ^ N.of_nat 8) with 18446744073709551616 in H. lia.
  - intros [= <- <-]. done.
Qed.

Lemma dec_option_para_inv input c rest : is_bytes input -> dec_option_para input = Some (c, rest) ->
  match c with Some p => para_wf p | None => True end /\ input = enc_option_para c ++ rest /\ is_bytes rest.
Proof.
  intros Hb. destruct input as [|b r]; [done|]. inversion Hb as [|? ? Hb0 Hbr]; subst.
  destruct b as [|[[]|[]|]]; cbn [dec_option_para]; try done.
  - intros [= <- <-]. done.
  - destruct (dec_para r) as [[p r']|] eqn:E; [|done]. cbn [mbind option_bind]. intros [= <- <-].
    apply dec_para_inv in E as (H & -> & ?); [|done]. done.
Qed.

Lemma dec_enc_asset a rest : asset_id_wf a -> dec_asset (enc_asset a ++ rest) = Some (a, rest).
Proof.
  destruct a as [i|p|n c]; cbn [asset_id_wf enc_asset app dec_asset].
  - intros Hi. rewrite (dec_uint_app 4); [done|]. change (256 ^ N.of_nat 4) with 4294967296. unfold u32_max in Hi. lia.
  - intros Hp. by rewrite dec_enc_para.
  - intros [Hn Hc]. rewrite <- app_assoc, dec_enc_network by done. cbn [mbind option_bind].
    destruct c as [p|]; cbn [enc_option_para app dec_option_para]; [|done]. by rewrite dec_enc_para.
Qed.

Lemma dec_asset_inv input a rest : is_bytes input -> dec_asset input = Some (a, rest) ->
  asset_id_wf a /\ input = enc_asset a ++ rest.
Proof.
  intros Hb. destruct input as [|b r]; [done|]. inversion Hb as [|? ? Hb0 Hbr]; subst.
  destruct b as [|[[]|[]|]]; cbn [dec_asset]; try done.
  - destruct (dec_uint 4 r) as [[i r']|] eqn:E; [|done]. cbn [mbind option_bind]. intros [= <- <-].
    apply dec_uint_inv in E as (H & -> & ?); [|done]. split; [|done].
    change (256 ^ N.of_nat 4) with 4294967296 in H. cbn. unfold u32_max. lia.
  - destruct (dec_network r) as [[n r1]|] eqn:E1; [|done]. cbn [mbind option_bind].
    destruct (dec_option_para r1) as [[c r2]|] eqn:E2; [|done]. cbn [mbind option_bind]. intros [= <- <-].
    apply dec_network_inv in E1 as (Hn & -> & Hb1); [|done].
    apply dec_option_para_inv in E2 as (Hc & -> & Hb2); [|done].
    split; [done|]. cbn [enc_asset app]. by rewrite <- app_assoc.
  - destruct (dec_para r) as [[p r']|] eqn:E; [|done]. cbn [mbind option_bind]. intros [= <- <-].
    apply dec_para_inv in E as (H & -> & ?); [|done]. done.
Qed.

Lemma enc_asset_length a : (length (enc_asset a) <= asset_max_encoded_len)%nat.
Proof.
  unfold asset_max_encoded_len. destruct a as [i|p|[] [p|]]; vm_compute; lia.
Qed.

Lemma enc_asset_bytes a : is_bytes (enc_asset a).
Proof.
  assert (forall p, is_bytes (enc_para p)) as Hp.
  { intros p. unfold enc_para. repeat (apply Forall_app; split); apply le_bytes_is_bytes. }
  destruct a as [i|p|n c]; cbn [enc_asset]; (constructor; [by vm_compute|]).
  - apply le_bytes_is_bytes.
  - apply Hp.
  - apply Forall_app. split.
    + destruct n; cbn [enc_network]; (constructor; [by vm_compute|]); [constructor|constructor|apply le_bytes_is_bytes].
    + destruct c; cbn [enc_option_para]; (constructor; [by vm_compute|]); [apply Hp|constructor].
Qed.

Lemma enc_asset_prefix_free a b rest1 rest2 : asset_id_wf a -> asset_id_wf b ->
  enc_asset a ++ rest1 = enc_asset b ++ rest2 -> a = b /\ rest1 = rest2.
Proof.
  intros Ha Hb E. pose proof (dec_enc_asset a rest1 Ha) as E1. rewrite E, (dec_enc_asset b rest2 Hb) in E1.
  injection E1 as -> ->. done.
Qed.

(** ** Statements used by PropsAssets *)

Lemma asset_location_roundtrip :
  (forall a, asset_id_wf a -> exists l, convert_back a = Some l /\ location_wf l /\ convert l = Val (Some a)) /\
  (forall a b l, asset_id_wf a -> asset_id_wf b -> convert_back a = Some l -> convert_back b = Some l -> a = b).
Proof.
  split; [apply convert_convert_back|].
  intros a b l Ha Hb Ea Eb.
  destruct (convert_convert_back a Ha) as (l1 & E1 & _ & C1). destruct (convert_convert_back b Hb) as (l2 & E2 & _ & C2).
  congruence.
Qed.

Lemma location_asset_faithful :
  (forall l a, location_wf l -> convert l = Val (Some a) -> asset_id_wf a /\ convert_back a = Some l) /\
  (forall l1 l2 a, location_wf l1 -> location_wf l2 ->
     convert l1 = Val (Some a) -> convert l2 = Val (Some a) -> l1 = l2).
Proof.
  split; [apply convert_faithful|].
  intros l1 l2 a H1 H2 E1 E2. apply convert_faithful in E1 as [_ E1]; [|done].
  apply convert_faithful in E2 as [_ E2]; [|done]. congruence.
Qed.

Lemma convert_panics : exists l, location_wf l /\ convert l = Panic.
Proof.
  exists (Location 0 [PalletInstance 13; GeneralIndex 4294967296]). split; [|by vm_compute].
  split; [by vm_compute|]. repeat constructor; by vm_compute.
Qed.

Lemma asset_scale_codec :
  (forall a rest, asset_id_wf a -> dec_asset (enc_asset a ++ rest) = Some (a, rest)) /\
  (forall input a rest, is_bytes input -> dec_asset input = Some (a, rest) -> asset_id_wf a /\ input = enc_asset a ++ rest) /\
  (forall a, is_bytes (enc_asset a) /\ (length (enc_asset a) <= asset_max_encoded_len)%nat) /\
  (forall a b rest1 rest2, asset_id_wf a -> asset_id_wf b ->
     enc_asset a ++ rest1 = enc_asset b ++ rest2 -> a = b /\ rest1 = rest2).
Proof.
  split; [intros; by apply dec_enc_asset|]. split; [apply dec_asset_inv|].
  split; [|apply enc_asset_prefix_free]. intros a. split; [apply enc_asset_bytes|apply enc_asset_length].
Qed.

(** Proofs about Kreivo's XCM configuration. *)
From Verif Require Import Base XcmTypes AssetLocationModel OriginTypes AccountsModel XcmConfigModel XcmConfigSpec.
Open Scope N_scope.

Lemma zip_all_eq_iff a : forall b, (length a <= length b)%nat -> zip_all_eq a b = true <-> exists s, b = a ++ s.
Proof.
  induction a as [|x a IH]; intros b Hl; cbn; [split; [by exists b|done]|].
  destruct b as [|y b]; [cbn in Hl; lia|]. rewrite andb_true_iff, bool_decide_eq_true, IH by (cbn in Hl; lia).
  split; [intros [-> [s ->]]; by exists s|intros [s [= -> ->]]; split; [done|by exists s]].
Qed.
Lemma prefix_exact : forall prefix loc, matches_prefix prefix loc = true <-> extends prefix loc.
Proof.
  intros [p a] [q b]. unfold matches_prefix, extends. cbn [loc_parents loc_interior]. rewrite !andb_true_iff, N.eqb_eq, Nat.leb_le. split.
  - intros [[-> Hl] Hz]. apply (zip_all_eq_iff a b Hl) in Hz as [s ->]. by exists s.
  - intros [s [= -> ->]]. assert (length a <= length (a ++ s))%nat as Hl by (rewrite app_length; lia). split_and!; [done|done|].
    apply zip_all_eq_iff; [done|]. by exists s.
Qed.

(** Exactly when a reserve transfer is accepted. *)
Lemma reserves_exact : forall asset origin, is_reserve asset origin = true <->
  asset = origin \/ extends asset_hub_location asset \/ (origin = asset_hub_location /\ extends polkadot_location asset).
Proof.
  intros asset origin. unfold is_reserve, native_asset, reserve_assets_from, reserve_foreign_assets_from.
  rewrite !orb_true_iff, andb_true_iff, !bool_decide_eq_true, !prefix_exact. intuition congruence.
Qed.

(** What holds of other assets: they are accepted only from their own location, or Polkadot's from the asset hub. *)
Lemma reserves_elsewhere : forall asset origin, ~ extends asset_hub_location asset -> is_reserve asset origin = true ->
  origin = asset \/ (origin = asset_hub_location /\ extends polkadot_location asset).
Proof. intros asset origin Hn H. apply reserves_exact in H as [->|[H|H]]; auto. done. Qed.

(** * Barrier *)

Lemma universal_far para j : 2 <= loc_parents (relative_to [j] (universal_location para)).
Proof. unfold universal_location. cbn. destruct (bool_decide _); cbn; lia. Qed.


Lemma computed_far universal n : forall o l, (forall j, 2 <= loc_parents (relative_to [j] universal)) ->
  2 <= loc_parents o -> 2 <= loc_parents (fst (computed_origin universal n o l)).
Proof.
  induction n as [|n IH]; intros o l Hu Ho; cbn; [done|]. destruct l as [|[] r]; try done; apply IH; try done. apply Hu.
Qed.

Lemma computed_origin_cases universal n : forall o l o' r, (forall j, 2 <= loc_parents (relative_to [j] universal)) ->
  computed_origin universal n o l = (o', r) ->
  (2 <= loc_parents o') \/ (exists k, (k <= n)%nat /\ r = drop k l /\ (forall i x, (i < k)%nat -> l !! i = Some x -> exists js, x = BDescendOrigin js) /\
    o' = Location (loc_parents o) (loc_interior o ++ concat (map (fun x => match x with BDescendOrigin js => js | _ => [] end) (take k l)))).
Proof.
  induction n as [|n IH]; intros o l o' r Hu H; cbn [computed_origin] in H.
  { injection H as <- <-. right. exists 0%nat. split_and!; [lia|done|intros i x Hi; lia|]. cbn. rewrite app_nil_r. by destruct o. }
  assert (Hsame : (o, l) = (o', r) -> 2 <= loc_parents o' \/ (exists k, (k <= S n)%nat /\ r = drop k l /\ (forall i x, (i < k)%nat -> l !! i = Some x -> exists js, x = BDescendOrigin js) /\
    o' = Location (loc_parents o) (loc_interior o ++ concat (map (fun x => match x with BDescendOrigin js => js | _ => [] end) (take k l))))).
  { intros [= <- <-]. right. exists 0%nat. split_and!; [lia|done|intros i x Hi; lia|]. cbn. rewrite app_nil_r. by destruct o. }
  destruct l as [|[m| |js|j|lim|lim|m] l]; try (by apply Hsame).
  - destruct (IH _ _ _ _ Hu H) as [?|(k & Hk & -> & Hd & ->)]; [by left|]. right. exists (S k). split_and!; [lia|done|..].
    + intros [|i] x Hi Hx; [injection Hx as <-; by eexists|]. apply (Hd i); [lia|done].
    + cbn. by rewrite app_assoc.
  - left. pose proof (computed_far universal n (relative_to [j] universal) l Hu (Hu j)) as Hf. by rewrite H in Hf.
Qed.

(** A message without credit that needs weight is executed only if it pays, or comes from the relay chain or its executive. *)
Lemma barrier_passes : forall para origin l need, need <> (0, 0) -> barrier para origin l need (0, 0) = true ->
  exists k, (k <= 8)%nat /\
  ((exists n r limit rest, drop k l = BAssets n :: r /\ (n <= 2)%nat /\ (skip_clear (take 4 r)) = BBuyExecution limit :: rest /\
      (forall w, limit = Some w -> fst need <= fst w /\ snd need <= snd w)) \/
   (exists limit rest part, drop k l = BUnpaidExecution limit :: rest /\ (forall w, limit = Some w -> fst need <= fst w /\ snd need <= snd w) /\
      (forall i x, (i < k)%nat -> l !! i = Some x -> exists js, x = BDescendOrigin js) /\
      let inner := concat (map (fun x => match x with BDescendOrigin js => js | _ => [] end) (take k l)) in
      (origin = relay_location /\ (inner = [] \/ inner = [Plurality BExecutive part]) \/
       origin = Location 1 [Plurality BExecutive part] /\ inner = []))).
Proof.
  intros para origin l need Hn H. unfold barrier, take_weight_credit in H.
  assert (weight_le need (0, 0) = false) as E.
  { destruct need as [a b]. unfold weight_le. cbn [fst snd]. destruct (N.leb_spec a 0), (N.leb_spec b 0); try done.
    destruct Hn. f_equal; lia. }
  rewrite E in H. cbn [orb] in H. destruct (computed_origin (universal_location para) 8 origin l) as [o r] eqn:Ec.
  assert (Hw : forall lim, within need lim = true -> forall w, lim = Some w -> fst need <= fst w /\ snd need <= snd w).
  { intros lim Hl w ->. cbn in Hl. unfold weight_le in Hl. apply andb_prop in Hl as [H1 H2]. split; by apply N.leb_le. }
  assert (Hk : exists k, (k <= 8)%nat /\ r = drop k l).
  { clear -Ec. revert origin l Ec. generalize 8%nat. intros n. induction n as [|n IH]; intros origin l Ec; cbn in Ec.
    - injection Ec as _ <-. by exists 0%nat.
    - destruct l as [|[] l']; try (injection Ec as _ <-; exists 0%nat; split; [lia|done]); destruct (IH _ _ Ec) as (k & ? & ->); exists (S k); (split; [lia|done]). }
  apply orb_prop in H as [H|H].
  - destruct Hk as (k & Hk & ->). exists k. split; [done|]. left. unfold paid_execution in H. destruct (drop k l) as [|i r']; [done|].
    cbn [take] in H. destruct i; try done. apply andb_prop in H as [H1 H2]. apply Nat.leb_le in H1.
    destruct (skip_clear (take 4 r')) as [|[] rest] eqn:Es; try done. exists n, r', limit, rest. split_and!; try done. by apply Hw.
  - destruct (computed_origin_cases _ _ _ _ _ _ (universal_far para) Ec) as [Hf|(k & Hk' & -> & Hd & ->)].
    { unfold unpaid_execution in H. apply andb_prop in H as [H _]. destruct o as [p js]. cbn in Hf. unfold parent_or_executive in H.
      destruct p as [|[p|p|]]; try done; lia. }
    exists k. split; [done|]. right. unfold unpaid_execution in H. apply andb_prop in H as [H1 H2].
    destruct (drop k l) as [|i rest] eqn:Ed; [done|]. destruct i; try done.
    set (inner := concat _) in *. destruct origin as [p js]. cbn [loc_parents loc_interior] in *. unfold parent_or_executive in H1.
    destruct p as [|[p|p|]]; try done. cbv zeta. fold inner. clearbody inner.
    assert (exists part, (js = [] /\ (inner = [] \/ inner = [Plurality BExecutive part])) \/ (js = [Plurality BExecutive part] /\ inner = [])) as [part Hp].
    { destruct js as [|j [|j' js]].
      - cbn in H1. destruct inner as [|j1 [|j2 inner]]; [exists Voice; auto|..]; destruct j1; try done; destruct id; try done. exists part; auto.
      - destruct inner as [|j1 inner]; [|cbn in H1; destruct j; try done; by destruct id]. destruct j; try done. destruct id; try done. exists part. auto.
      - cbn in H1. destruct j; try done. by destruct id. }
    exists limit, rest, part. split_and!; [done|by apply Hw|done|].
    destruct Hp as [[-> Hp]|[-> ->]]; [left|right]; by split.
Qed.

(** Conversely, paying messages and those of the relay chain pass. *)
Lemma barrier_paid : forall para origin n rest need limit credit, (n <= 2)%nat -> within need limit = true ->
  barrier para origin (BAssets n :: BClearOrigin :: BBuyExecution limit :: rest) need credit = true /\
  barrier para origin (BAssets n :: BBuyExecution limit :: rest) need credit = true.
Proof.
  intros para origin n rest need limit credit Hn Hw. unfold barrier. cbn [computed_origin]. unfold paid_execution. cbn [take skip_clear].
  rewrite (proj2 (Nat.leb_le n 2) Hn), Hw. cbn. by rewrite !orb_true_r.
Qed.
Lemma barrier_relay : forall para rest need limit credit, within need limit = true ->
  barrier para relay_location (BUnpaidExecution limit :: rest) need credit = true.
Proof.
  intros para rest need limit credit Hw. unfold barrier. cbn [computed_origin]. unfold unpaid_execution. cbn. rewrite Hw.
  by rewrite !orb_true_r.
Qed.

(** * Remote calls *)
Lemma transact_signed : forall l k a, transact_origin l k = Some (RoSigned a) ->
  location_to_account l = Some a.
Proof.
  intros l k a H. destruct k; cbn in H; try done.
  - destruct l as [p js]. destruct p as [|[p|p|]]; try done; destruct js as [|j [|j2 js]]; try done; destruct j; try done.
    destruct (bool_decide (net = None)) eqn:E1.
    + apply bool_decide_eq_true in E1 as ->. cbn in H. injection H as <-. reflexivity.
    + cbn in H. destruct (bool_decide (net = relay_network)) eqn:E2; [|done]. apply bool_decide_eq_true in E2 as ->. injection H as <-. reflexivity.
  - destruct (location_to_account l); [|done]. cbn in H. by injection H as <-.
Qed.
Lemma transact_relay : forall l k, transact_origin l k = Some RoRelay <-> l = relay_location /\ k = KNative.
Proof.
  intros l k. split; [|by intros [-> ->]]. destruct k; cbn; try done.
  - destruct l as [[|[p|p|]] [|[] [|]]]; try done; try (by destruct (_ || _)).
  - by destruct (location_to_account l).
Qed.
Lemma transact_sibling : forall l k n, transact_origin l k = Some (RoSibling n) <-> l = Location 1 [Parachain n] /\ k = KNative.
Proof.
  intros l k n. split; [|by intros [-> ->]]. destruct k; cbn; try done.
  - destruct l as [[|[p|p|]] [|[] [|]]]; try done; try (by destruct (_ || _)). by intros [= ->].
  - by destruct (location_to_account l).
Qed.
Lemma transact_xcm : forall l k l', transact_origin l k = Some (RoXcm l') <-> l' = l /\ k = KXcm.
Proof.
  intros l k l'. split; [|by intros [-> ->]]. destruct k; cbn; try done.
  - destruct l as [[|[p|p|]] [|[] [|]]]; try done; by destruct (_ || _).
  - by destruct (location_to_account l).
  - by intros [= ->].
Qed.
Lemma transact_superuser : forall l, transact_origin l KSuperuser = None.
Proof. done. Qed.

Lemma collator_updates : forall o, collator_update_origin o = true <-> o = ORoot \/ o = OXcm (Location 1 [Plurality BDefense Voice]).
Proof.
  intros o. split; [|intros [->| ->]; [done|by apply bool_decide_eq_true]]. destruct o; cbn; try done; auto.
  intros H. apply bool_decide_eq_true in H as ->. by right.
Qed.

(** * Reserve transfers from anyone *)
Lemma reserve_from_stranger : exists asset id origin,
  convert asset = Val (Some id) /\ (exists home, home_chain asset home /\ home <> origin) /\ is_reserve asset origin = true /\
  (forall para need credit rest, barrier para origin (BAssets 1 :: BBuyExecution None :: rest) need credit = true).
Proof.
  exists (Location 1 [Parachain 1000; PalletInstance 50; GeneralIndex 1984]). eexists. exists (Location 1 [Parachain 2000]).
  split; [vm_compute; reflexivity|]. split; [exists (Location 1 [Parachain 1000]); split; [reflexivity|congruence]|]. split; [by vm_compute|].
  intros para need credit rest. by apply barrier_paid; [lia|].
Qed.

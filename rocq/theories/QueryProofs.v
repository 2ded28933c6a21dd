From Verif Require Import Base XcmTypes AssetLocationModel AssetLocationProofs XcmCountable OriginTypes XcmConfigModel QueryModel.
From stdpp Require Import gmap.
Open Scope N_scope.

Lemma merge_assets_spec l : NoDup l.*1 -> (forall k n, (k, n) ∈ l -> n <= u128_max) ->
  forall k n, merge_assets l !! k = Some n <-> (k, n) ∈ l.
Proof.
  induction l as [|[k0 n0] l IH]; cbn [merge_assets foldr fst snd]; intros Hnd Hle k n.
  - rewrite lookup_empty. split; [done|]. intros H. by apply elem_of_nil in H.
  - fold (merge_assets l). rewrite fmap_cons in Hnd. apply NoDup_cons in Hnd as [Hni Hnd]. cbn in Hni.
    assert (forall k n, merge_assets l !! k = Some n <-> (k, n) ∈ l) as IH'.
    { apply IH; [done|]. intros. eapply Hle. by right. }
    assert (merge_assets l !! k0 = None) as Hno.
    { destruct (merge_assets l !! k0) as [x|] eqn:E; [|done]. apply IH' in E. destruct Hni. apply elem_of_list_fmap. by exists (k0, x). }
    rewrite Hno. cbn [default]. assert (sat128 (0 + n0) = n0) as ->.
    { unfold sat128. specialize (Hle k0 n0 ltac:(by left)). lia. }
    rewrite lookup_insert_Some, elem_of_cons, IH'. split.
    + intros [[-> ->]|[_ ?]]; [by left|by right].
    + intros [[= -> ->]|H]; [by left|right]. split; [|done]. intros ->. apply IH' in H. congruence.
Qed.

Lemma convert_all_spec l : exists l', convert_all l = Some l' /\ forall k n, (k, n) ∈ l' <-> exists id, (id, n) ∈ l /\ convert_back id = Some k.
Proof.
  induction l as [|[id n] l (l' & E & IH)]; cbn [convert_all].
  - exists []. split; [done|]. intros k n. split; [intros H; by apply elem_of_nil in H|]. intros (? & H & _). by apply elem_of_nil in H.
  - destruct (convert_back id) as [k0|] eqn:Ec; [|by destruct id as [|?|? []]]. rewrite E. exists ((k0, n) :: l'). split; [done|].
    intros k m. rewrite elem_of_cons, IH. split.
    + intros [[= -> ->]|(id' & H & Hc)]; [exists id | exists id']; (split; [|done]); [by left|by right].
    + intros (id' & H & Hc). apply elem_of_cons in H as [[= -> ->]|H]; [left; congruence|right; by exists id'].
Qed.
Lemma convert_all_nodup l l' : (forall id n, (id, n) ∈ l -> asset_id_wf id) -> NoDup l.*1 -> convert_all l = Some l' -> NoDup l'.*1.
Proof.
  revert l'. induction l as [|[id n] l IH]; cbn [convert_all]; intros l' Hwf Hnd H; [injection H as <-; constructor|].
  destruct (convert_back id) as [k0|] eqn:Ec; [|done]. destruct (convert_all l) as [r|] eqn:Er; [|done]. injection H as <-.
  rewrite fmap_cons in *. apply NoDup_cons in Hnd as [Hni Hnd]. cbn in Hni. apply NoDup_cons. split.
  - cbn. intros Hin. apply elem_of_list_fmap in Hin as ([k m] & -> & Hin). cbn in Ec.
    destruct (convert_all_spec l) as (r' & Er' & Hr). rewrite Er in Er'. injection Er' as <-. apply Hr in Hin as (id' & Hin & Hc).
    assert (id = id') as ->.
    { eapply (proj2 asset_location_roundtrip); [eapply Hwf; by left | eapply Hwf; by right | done | done]. }
    apply Hni, elem_of_list_fmap. by exists (id', m).
  - eapply IH; [|done|done]. intros. eapply Hwf. by right.
Qed.

Lemma filter_nodup_fst (P : asset_id * N -> Prop) `{!forall x, Decision (P x)} l : NoDup l.*1 -> NoDup (filter P l).*1.
Proof.
  induction l as [|x l IH]; [done|]. rewrite fmap_cons. intros Hd. apply NoDup_cons in Hd as [Hn Hd]. rewrite filter_cons. destruct (decide (P x)).
  - rewrite fmap_cons. apply NoDup_cons. split; [|auto]. intros Hin. apply Hn. apply elem_of_list_fmap in Hin as (y & -> & Hy).
    apply elem_of_list_filter in Hy as [_ Hy]. apply elem_of_list_fmap. by exists y.
  - auto.
Qed.

(** The answer lists each token the account has, and no other, with its balance. *)
Lemma query_exact : forall native assets, native <= u128_max ->
  (forall id n, assets !! id = Some n -> asset_id_wf id /\ n <= u128_max) ->
  exists m, query_account_balances native assets = Some m /\
    forall k n, m !! k = Some n <-> 0 < n /\ (k = Location 1 [] /\ n = native \/ exists id, assets !! id = Some n /\ convert_back id = Some k).
Proof.
  intros native assets Hn Ha. unfold query_account_balances.
  set (l := filter (fun x : asset_id * N => 0 < snd x) (map_to_list assets)).
  assert (forall id n, (id, n) ∈ l <-> 0 < n /\ assets !! id = Some n) as Hl.
  { intros id n. unfold l. by rewrite elem_of_list_filter, elem_of_map_to_list. }
  assert (NoDup l.*1) as Hnd by (apply filter_nodup_fst, NoDup_fst_map_to_list).
  destruct (convert_all_spec l) as (l' & E & Hl'). rewrite E. eexists. split; [reflexivity|].
  assert (NoDup l'.*1) as Hnd' by (eapply convert_all_nodup; [|done|done]; intros id n Hin; apply Hl in Hin as [_ Hin]; by apply Ha in Hin as []).
  assert (forall k n, (k, n) ∈ l' -> k <> relay_location /\ n <= u128_max) as Hle.
  { intros k n Hin. apply Hl' in Hin as (id & Hin & Hc). apply Hl in Hin as [_ Hin]. apply Ha in Hin as [_ Hin]. split; [|done].
    intros ->. by destruct id as [|?|? []]. }
  set (own := if 0 <? native then [(relay_location, native)] else []).
  assert (forall k n, (k, n) ∈ own <-> 0 < n /\ k = Location 1 [] /\ n = native) as Hown.
  { intros k n. unfold own. destruct (N.ltb_spec 0 native).
    - rewrite elem_of_list_singleton. change relay_location with (Location 1 []). split; [intros [= -> ->]; done | intros (_ & -> & ->); done].
    - split; [intros Hin; by apply elem_of_nil in Hin | lia]. }
  assert (NoDup (own ++ l').*1) as Hall.
  { rewrite fmap_app. apply NoDup_app. split_and!; [unfold own; destruct (0 <? native); [apply NoDup_singleton|constructor]| |done].
    intros k Hk Hk'. apply elem_of_list_fmap in Hk as ([k1 n1] & -> & Hk). apply Hown in Hk as (_ & -> & _).
    apply elem_of_list_fmap in Hk' as ([k2 n2] & E2 & Hk'). apply Hle in Hk' as [Hk' _]. by destruct Hk'. }
  intros k n. rewrite merge_assets_spec; [|done|].
  - rewrite elem_of_app, Hown, Hl'. split.
    + intros [(? & ? & ?)|(id & Hin & Hc)]; [tauto|]. apply Hl in Hin as [? ?]. split; [done|]. right. by exists id.
    + intros [H0 [[? ?]|(id & Hin & Hc)]]; [by left|right]. exists id. split; [by apply Hl|done].
  - intros k' n' Hin. apply elem_of_app in Hin as [Hin|Hin]; [|by apply Hle in Hin as []]. by apply Hown in Hin as (_ & _ & ->).
Qed.

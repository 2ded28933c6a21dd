(** Registration, administration and authorisation of communities. *)
From stdpp Require Import gmap.
From Verif Require Import Base XcmTypes OriginTypes AccountsModel CommunitiesModel CommunitiesSpec CommunitiesProofs CommunitiesTally.
Open Scope N_scope.

(* ------------------------------------------------------------------ *)
(** * Registration *)

Lemma registration : forall c e s admin id deposit s',
  register c e s admin id deposit = COk s' ->
  c_info s !! id = None /\ c_admin s admin = None /\
  c_info s' !! id = Some Active /\ c_admin s' admin = Some id /\
  (forall id', id' <> id -> c_info s' !! id' = c_info s !! id') /\
  (forall o, o <> admin -> c_admin s' o = c_admin s o) /\
  c_method s' = c_method s /\ c_members s' = c_members s /\ same_voting_state s s' /\
  match deposit with
  | None => c_balance s' = c_balance s
  | Some (n, from, to) =>
      n <= balance s from /\
      (from <> to -> balance s' from = balance s from - n /\ balance s' to = balance s to + n) /\
      (from = to -> balance s' from = balance s from) /\
      (forall a, a <> from -> a <> to -> balance s' a = balance s a)
  end.
Proof.
  intros c e s admin id deposit s' H. pose proof H as H'. apply register_same in H' as (Hsv & Hm & Hmm).
  unfold register in H. cinv H. injection H as <-.
  destruct (c_info s !! id) eqn:Hi; [discriminate|]. destruct (c_admin s admin) eqn:Ha; [discriminate|].
  assert (c_info a1 = c_info s /\ c_admin a1 = c_admin s) as [E1 E2].
  { destruct deposit as [[[n f] t]|]; [|by injection H2 as <-]. unfold transfer in H2. cinv H2. injection H2 as <-. done. }
  cbn [c_info c_admin set_providers set_info set_admin].
  rewrite E1, E2. unfold admin_insert. split_and!; try done.
  - apply lookup_insert.
  - by rewrite decide_True.
  - intros id' Hne. by rewrite lookup_insert_ne.
  - intros o Hne. by rewrite decide_False.
  - destruct deposit as [[[n f] t]|]; [|by injection H2 as <-].
    unfold transfer in H2. cinv H2. injection H2 as <-. apply andb_true_iff in H as [Hn _]. apply N.leb_le in Hn.
    unfold balance. cbn. split_and!; try done.
    + intros Hne. rewrite lookup_insert_ne, !lookup_insert by done. cbn. rewrite lookup_insert_ne by done. done.
    + intros ->. rewrite !lookup_insert. cbn. unfold balance in Hn. lia.
    + intros x Hx Hy. by rewrite !lookup_insert_ne by done.
Qed.

Lemma registration_succeeds : forall c e s admin id deposit,
  c_info s !! id = None -> c_admin s admin = None ->
  (forall n from to, deposit = Some (n, from, to) -> n <= balance s from /\ ce_transfer_ok e from to n = true) ->
  exists s', register c e s admin id deposit = COk s'.
Proof.
  intros c e s admin id deposit Hi Ha Hd. unfold register. rewrite Hi, Ha. cbn.
  destruct deposit as [[[n f] t]|]; cbn; [|eauto].
  destruct (Hd n f t eq_refl) as [Hn Ht]. unfold transfer. apply N.leb_le in Hn. rewrite Hn, Ht. cbn. eauto.
Qed.

Lemma create_registers : forall c e s o admin id s' evs,
  ccall_run c e s o (CCreate admin id) = COk (s', evs) ->
  exists deposit, cc_create_origin c o = Some deposit /\ register c e s admin id deposit = COk s' /\ evs = [EvCommunityCreated id admin].
Proof.
  intros c e s o admin id s' evs H. cbn in H. unfold call_create in H. cinv H. injection H as <- <-. eauto.
Qed.

(* ------------------------------------------------------------------ *)
(** * Changes of the registry *)

Inductive registry_kind (c : cconfig) (s : cstate) (x : cstep) (s' : cstate) : Prop :=
| RKSame : c_info s' = c_info s -> c_admin s' = c_admin s -> registry_kind c s x s'
| RKRegister admin id : c_info s !! id = None -> c_admin s admin = None ->
    c_info s' = <[id := Active]> (c_info s) -> (forall o, c_admin s' o = admin_insert admin id (c_admin s) o) -> registry_kind c s x s'
| RKSetAdmin e o admin id : x = StCall e o (CSetAdmin admin) -> cc_admin_origin c s o = Some id -> c_admin s o = Some id ->
    c_info s' = c_info s -> (forall o', c_admin s' o' = admin_insert admin id (admin_remove o (c_admin s)) o') -> registry_kind c s x s'
| RKForce id st st0 : x = StForceState id st -> c_info s !! id = Some st0 -> c_info s' = <[id := st]> (c_info s) -> c_admin s' = c_admin s ->
    registry_kind c s x s'.

Lemma set_admin_ok c s o admin s' evs :
  call_set_admin c s o admin = COk (s', evs) ->
  exists id, cc_admin_origin c s o = Some id /\ c_admin s o = Some id /\
    s' = set_admin (admin_insert admin id (admin_remove o (c_admin s))) s /\ evs = [EvAdminOriginSet id admin].
Proof.
  unfold call_set_admin. intros H. cinv H. injection H as <- <-. apply bool_decide_eq_true in H1. eauto.
Qed.

Lemma registry_register c e s x admin id d s' : register c e s admin id d = COk s' -> registry_kind c s x s'.
Proof.
  intros H. apply registration in H as (H1 & H2 & H3 & H4 & H5 & H6 & _).
  eapply (RKRegister _ _ _ _ admin id); try done.
  - apply map_eq. intros i. destruct (decide (i = id)) as [->|]; [by rewrite lookup_insert | rewrite lookup_insert_ne by done; by apply H5].
  - intros o. unfold admin_insert. destruct (decide (o = admin)) as [->|]; [done | by apply H6].
Qed.

Lemma registry_kind_of c s x : registry_kind c s x (cstep_run c s x).
Proof.
  destruct x as [e o k|e admin id d|p g|p|id st|m y|a n|a y]; cbn.
  - unfold cdispatch. destruct (ccall_run c e s o k) as [[s' evs]|er] eqn:E; [|by apply RKSame].
    destruct k; cbn in E.
    + apply create_registers in E as (d & _ & E & _). by eapply registry_register.
    + apply set_admin_ok in E as (id & Ho & Ha & -> & _). by eapply RKSetAdmin.
    + unfold call_add_member in E. cinv E. injection E as <- <-. unfold assign in H2. cinv H2. injection H2 as <-. by apply RKSame.
    + unfold call_remove_member in E. cinv E. injection E as <- <-. unfold release in H2. cinv H2. injection H2 as <-. by apply RKSame.
    + unfold call_promote in E. cinv E. injection E as <- <-. unfold set_rank in H1. cinv H1. injection H1 as <-. by apply RKSame.
    + unfold call_demote in E. cinv E. injection E as <- <-. unfold set_rank in H1. cinv H1. injection H1 as <-. by apply RKSame.
    + apply call_set_method_ok in E as (A & w & _ & -> & _). by apply RKSame.
    + apply call_vote_ok in E as (who & g & t & s1 & -> & Hc & Hw & Hf & -> & Hs1 & Hp & Hl & ->).
      destruct (vote_recorded_fields s1 g who m p t v) as ((E1 & E2 & _) & _).
      assert (c_info s1 = c_info s /\ c_admin s1 = c_admin s) as [E3 E4].
      { destruct Hs1 as [[_ ->]|(t0 & v0 & w0 & _ & _ & ->)]; [done|].
        by destruct (vote_removed_fields s g m p t0 v0 w0 (method_of s g)) as ((? & ? & _) & _). }
      apply RKSame; congruence.
    + apply call_remove_vote_ok in E as (who & g & t & v & voter & -> & Hc & -> & Hp & Hv & ->).
      destruct (vote_removed_fields s g m p t v voter (method_of s g)) as ((? & ? & _) & _). by apply RKSame.
    + apply call_unlock_ok in E as (who & v & -> & -> & Hl & Hp & ->).
      destruct (lock_removed_fields s who p v) as (? & ? & _). by apply RKSame.
  - destruct (register c e s admin id d) eqn:E; [|by apply RKSame]. by eapply registry_register.
  - destruct (c_polls s !! p); by apply RKSame.
  - destruct (c_polls s !! p); by apply RKSame.
  - unfold force_state. destruct (c_info s !! id) eqn:E; [by eapply RKForce | by apply RKSame].
  - by apply RKSame.
  - by apply RKSame.
  - by apply RKSame.
Qed.

Lemma one_admin : forall c s, creachable c s ->
  (forall o o' id, c_admin s o = Some id -> c_admin s o' = Some id -> o = o') /\
  (forall o id, c_admin s o = Some id -> c_info s !! id <> None).
Proof.
  intros c. apply (reachable_invariant c (fun s => (forall o o' id, c_admin s o = Some id -> c_admin s o' = Some id -> o = o') /\
    (forall o id, c_admin s o = Some id -> c_info s !! id <> None))); [done|].
  intros s x [H1 H2]. destruct (registry_kind_of c s x) as [E1 E2|admin id Hi Ha E1 E2|e o admin id -> Ho Ha E1 E2|id st st0 -> Hi E1 E2].
  - rewrite E1, E2. done.
  - rewrite E1. split.
    + intros o o' id'. rewrite !E2. unfold admin_insert. repeat case_decide; intros; simplify_eq; try done.
      * exfalso. by eapply H2.
      * exfalso. by eapply H2.
      * by eapply H1.
    + intros o id'. rewrite E2. unfold admin_insert. case_decide; intros; simplify_eq.
      * by rewrite lookup_insert.
      * rewrite lookup_insert_ne; [by eapply H2|]. intros <-. by eapply H2.
  - rewrite E1. split.
    + intros o1 o2 id'. rewrite !E2. unfold admin_insert, admin_remove. repeat case_decide; intros; simplify_eq; try done.
      * exfalso. assert (o = o2) by (by eapply H1). congruence.
      * exfalso. assert (o = o1) by (by eapply H1). congruence.
      * by eapply H1.
    + intros o1 id'. rewrite E2. unfold admin_insert, admin_remove. repeat case_decide; intros; simplify_eq; [by eapply H2 | by eapply H2].
  - rewrite E1, E2. split; [done|]. intros o id' Ho. destruct (decide (id' = id)) as [->|]; [by rewrite lookup_insert|].
    rewrite lookup_insert_ne by done. by eapply H2.
Qed.

(** Communities are never removed. *)
Lemma communities_stay : forall c s x id, c_info s !! id <> None -> c_info (cstep_run c s x) !! id <> None.
Proof.
  intros c s x id H. destruct (registry_kind_of c s x) as [E1 E2|admin id' Hi Ha E1 E2|e o admin id' -> Ho Ha E1 E2|id' st st0 -> Hi E1 E2];
    rewrite E1; try done; (destruct (decide (id = id')) as [->|]; [by rewrite lookup_insert | by rewrite lookup_insert_ne]).
Qed.

(* ------------------------------------------------------------------ *)
(** * Authorisation *)

Lemma live_communities : forall s o id,
  ensure_community s o = Some id <->
  c_info s !! id = Some Active /\
  ((exists sub, o = OCommunity id sub) \/
   (o <> ORoot /\ o <> ONone /\ (forall id' sub, o <> OCommunity id' sub) /\ c_admin s o = Some id)).
Proof.
  intros s o id. unfold ensure_community. split.
  - intros H.
    assert (forall oi, (match oi with Some i => match c_info s !! i with Some Active => Some i | _ => None end | None => None end) = Some id ->
      oi = Some id /\ c_info s !! id = Some Active) as Hi.
    { intros [i|]; [|done]. destruct (c_info s !! i) as [[]|] eqn:E; try discriminate. intros [= ->]. done. }
    destruct o as [| |who|i sub|cu|l|n]; try discriminate; [|apply (Hi (Some i)) in H as [[= ->] ?]; eauto| | |];
      apply Hi in H as [H ?]; split; try done; right; split_and!; done.
  - intros [Hi [[sub ->]|(H1 & H2 & H3 & Ha)]]; [by rewrite Hi|].
    destruct o; try done; try (rewrite Ha, Hi; done). exfalso. by eapply H3.
Qed.

Lemma blocked_authorises : forall s o id, c_info s !! id = Some Blocked -> kreivo_admin_origin s o = Some id ->
  exists who, o = OSigned who /\ account_to_community who = Some id.
Proof.
  intros s o id Hb. unfold kreivo_admin_origin, either_of. destruct (ensure_community s o) eqn:E.
  - intros [= ->]. apply live_communities in E as [E _]. congruence.
  - destruct o; cbn; try discriminate. eauto.
Qed.

(** Which calls a community's administration is behind. *)
Lemma kreivo_admin_calls : forall e s o k s' evs,
  ccall_run kreivo_communities e s o k = COk (s', evs) ->
  match k with
  | CCreate _ _ => False
  | CSetAdmin _ | CAddMember _ | CRemoveMember _ _ | CPromote _ | CDemote _ | CSetMethod _ _ =>
      exists id, kreivo_admin_origin s o = Some id
  | CVote _ _ _ | CRemoveVote _ _ | CUnlock _ => exists who, o = OSigned who
  end.
Proof.
  intros e s o k s' evs H. destruct k; cbn in H.
  - unfold call_create in H. cinv H. discriminate.
  - unfold call_set_admin in H. cinv H. eauto.
  - unfold call_add_member in H. cinv H. eauto.
  - unfold call_remove_member in H. cinv H. eauto.
  - unfold call_promote in H. cinv H. eauto.
  - unfold call_demote in H. cinv H. eauto.
  - unfold call_set_method in H. cinv H. eauto.
  - apply call_vote_ok in H as (? & ? & ? & ? & ? & _). eauto.
  - apply call_remove_vote_ok in H as (? & ? & ? & ? & ? & ? & _). eauto.
  - apply call_unlock_ok in H as (? & ? & ? & _). eauto.
Qed.

Lemma set_admin_own : forall c e s o admin s' evs,
  ccall_run c e s o (CSetAdmin admin) = COk (s', evs) ->
  exists id, cc_admin_origin c s o = Some id /\ c_admin s o = Some id /\ c_admin s' admin = Some id /\
    (o <> admin -> c_admin s' o = None) /\
    (forall o', o' <> o -> o' <> admin -> c_admin s' o' = c_admin s o') /\
    evs = [EvAdminOriginSet id admin].
Proof.
  intros c e s o admin s' evs H. cbn in H. apply set_admin_ok in H as (id & H1 & H2 & -> & ->).
  exists id. cbn. unfold admin_insert, admin_remove. split_and!; try done.
  - by rewrite decide_True.
  - intros Hne. rewrite decide_False, decide_True by done. done.
  - intros o' Hn1 Hn2. by rewrite !decide_False by done.
Qed.

(** Decision methods change only by [set_decision_method] with an authorised origin. *)
Lemma method_changes : forall c s x g,
  c_method (cstep_run c s x) !! g <> c_method s !! g ->
  exists e o dm id, x = StCall e o (CSetMethod g dm) /\ cc_admin_origin c s o = Some id /\ c_method (cstep_run c s x) !! g = Some dm.
Proof.
  intros c s x g. destruct x as [e o k|e admin id d|p cl|p|id st|m y|a n|a y]; cbn.
  - unfold cdispatch. destruct (ccall_run c e s o k) as [[s' evs]|er] eqn:E; [|done].
    destruct k; cbn in E.
    + apply create_registers in E as (d & _ & E & _). apply register_same in E as (_ & -> & _). done.
    + apply set_admin_ok in E as (id & Ho & Ha & -> & _). done.
    + unfold call_add_member in E. cinv E. injection E as <- <-. unfold assign in H2. cinv H2. injection H2 as <-. done.
    + unfold call_remove_member in E. cinv E. injection E as <- <-. unfold release in H2. cinv H2. injection H2 as <-. done.
    + unfold call_promote in E. cinv E. injection E as <- <-. unfold set_rank in H1. cinv H1. injection H1 as <-. done.
    + unfold call_demote in E. cinv E. injection E as <- <-. unfold set_rank in H1. cinv H1. injection H1 as <-. done.
    + apply call_set_method_ok in E as (A & w & ? & -> & _). cbn. intros Hne.
      destruct (decide (id = g)) as [->|Hg]; [|by rewrite lookup_insert_ne in Hne].
      rewrite lookup_insert. eauto 10.
    + apply call_vote_ok in E as (who & g' & t & s1 & -> & Hc & Hw & Hf & -> & Hs1 & Hp & Hl & ->).
      destruct (vote_recorded_fields s1 g' who m p t v) as ((_ & _ & -> & _) & _).
      destruct Hs1 as [[_ ->]|(t0 & v0 & w0 & _ & _ & ->)]; [done|].
      by destruct (vote_removed_fields s g' m p t0 v0 w0 (method_of s g')) as ((_ & _ & -> & _) & _).
    + apply call_remove_vote_ok in E as (who & g' & t & v & voter & -> & Hc & -> & Hp & Hv & ->).
      by destruct (vote_removed_fields s g' m p t v voter (method_of s g')) as ((_ & _ & -> & _) & _).
    + apply call_unlock_ok in E as (who & v & -> & -> & Hl & Hp & ->).
      by destruct (lock_removed_fields s who p v) as (_ & _ & -> & _).
  - destruct (register c e s admin id d) eqn:E; [|done]. by apply register_same in E as (_ & -> & _).
  - by destruct (c_polls s !! p).
  - by destruct (c_polls s !! p).
  - unfold force_state. by destruct (c_info s !! id).
  - done.
  - done.
  - done.
Qed.

(** An asset changes only by root's doing or by an admin choosing a missing asset for the votes. *)
Lemma asset_changes : forall c s x a,
  c_assets (cstep_run c s x) !! a <> c_assets s !! a ->
  (exists y, x = StAsset a y) \/
  (exists e o g min id, x = StCall e o (CSetMethod g (ByCommunityAsset a min)) /\ cc_admin_origin c s o = Some id /\ 0 < min /\
     c_assets s !! a = None /\ c_assets (cstep_run c s x) !! a = Some (cc_pallet_account c, min)).
Proof.
  intros c s x g. destruct x as [e o k|e admin id d|p cl|p|id st|m y|a n|a y]; cbn.
  - unfold cdispatch. destruct (ccall_run c e s o k) as [[s' evs]|er] eqn:E; [|done].
    destruct k; cbn in E.
    + apply create_registers in E as (d & _ & E & _). apply register_assets in E as ->. done.
    + apply set_admin_ok in E as (id & Ho & Ha & -> & _). done.
    + unfold call_add_member in E. cinv E. injection E as <- <-. unfold assign in H2. cinv H2. injection H2 as <-. done.
    + unfold call_remove_member in E. cinv E. injection E as <- <-. unfold release in H2. cinv H2. injection H2 as <-. done.
    + unfold call_promote in E. cinv E. injection E as <- <-. unfold set_rank in H1. cinv H1. injection H1 as <-. done.
    + unfold call_demote in E. cinv E. injection E as <- <-. unfold set_rank in H1. cinv H1. injection H1 as <-. done.
    + pose proof E as E0. unfold call_set_method in E. cinv E. injection E as <- <-. cbn. intros Hne. right.
      destruct dm as [| |b min|]; cbn in Hne |- *; try done. unfold create_asset in Hne |- *.
      destruct (c_assets s !! b) eqn:Eb; [done|]. destruct (N.eqb_spec min 0); [done|]. cbn in Hne |- *.
      destruct (decide (b = g)) as [->|Hg]; [|by rewrite lookup_insert_ne in Hne].
      rewrite lookup_insert. eexists _, _, _, _, _. split_and!; [done|done|lia|done|done].
    + apply call_vote_ok in E as (who & g' & t & s1 & -> & Hc & Hw & Hf & -> & Hs1 & Hp & Hl & ->).
      destruct (vote_recorded_fields s1 g' who m p t v) as ((_ & _ & _ & _ & _ & _ & ->) & _).
      destruct Hs1 as [[_ ->]|(t0 & v0 & w0 & _ & _ & ->)]; [done|].
      by destruct (vote_removed_fields s g' m p t0 v0 w0 (method_of s g')) as ((_ & _ & _ & _ & _ & _ & ->) & _).
    + apply call_remove_vote_ok in E as (who & g' & t & v & voter & -> & Hc & -> & Hp & Hv & ->).
      by destruct (vote_removed_fields s g' m p t v voter (method_of s g')) as ((_ & _ & _ & _ & _ & _ & ->) & _).
    + apply call_unlock_ok in E as (who & v & -> & -> & Hl & Hp & ->).
      by destruct (lock_removed_fields s who p v) as (_ & _ & _ & _ & _ & _ & _ & _ & ->).
  - destruct (register c e s admin id d) eqn:E; [|done]. by apply register_assets in E as ->.
  - by destruct (c_polls s !! p).
  - by destruct (c_polls s !! p).
  - unfold force_state. by destruct (c_info s !! id).
  - done.
  - done.
  - destruct y; intros Hne; destruct (decide (a = g)) as [->|]; try (by left; eauto); by rewrite ?lookup_insert_ne, ?lookup_delete_ne in Hne.
Qed.


Lemma assets_chosen c s o id dm s' evs : call_set_method c s o id dm = COk (s', evs) -> assets_after (cc_pallet_account c) (Some dm) s s'.
Proof.
  unfold call_set_method. intros H. cinv H. injection H as <- <-. destruct dm as [| |a0 min|]; cbn; try done.
  unfold create_asset. destruct (c_assets s !! a0) eqn:E; [split; [done|by cbn]|].
  destruct (N.eqb_spec min 0); (split; [|intros [?|?]; try done]); intros; cbn; try done; lia.
Qed.

(* ------------------------------------------------------------------ *)
(** * Memberships *)

Lemma user_memberships_elem s who m x : (m, x) ∈ user_memberships s who <-> c_members s !! m = Some x /\ m_owner x = who.
Proof. unfold user_memberships. rewrite elem_of_list_filter, elem_of_map_to_list. cbn. tauto. Qed.
Lemma is_member_of_iff s g who : is_member_of s g who = true <-> exists m x, c_members s !! m = Some x /\ m_group x = g /\ m_owner x = who.
Proof.
  unfold is_member_of. rewrite bool_decide_eq_true, Exists_exists. split.
  - intros ([m x] & Hin & H). apply elem_of_map_to_list in Hin. eauto.
  - intros (m & x & Hl & H). exists (m, x). rewrite elem_of_map_to_list. done.
Qed.

Lemma add_member_effect : forall c e s o who s' evs,
  ccall_run c e s o (CAddMember who) = COk (s', evs) ->
  exists id w m x, cc_mgmt_origin c s o = Some id /\ cc_lookup c who = Some w /\
    c_members s !! m = Some x /\ m_owner x = cc_account c id /\
    c_members s' = <[m := Membership id w (m_rank x)]> (c_members s) /\ evs = [EvMemberAdded w m] /\
    s' = set_members (c_members s') s.
Proof.
  intros c e s o who s' evs H. cbn in H. unfold call_add_member in H. cinv H. injection H as <- <-.
  destruct (user_memberships s (cc_account c a)) as [|[m x] l] eqn:El; [discriminate|]. injection H2 as <-.
  assert ((m, x) ∈ user_memberships s (cc_account c a)) as Hin by (rewrite El; left).
  apply user_memberships_elem in Hin as [Hm Ho].
  unfold assign in H3. cinv H3. injection H3 as <-. rewrite Hm in H2. injection H2 as <-. exists a, a0, m, x. split_and!; done.
Qed.

Lemma add_member_capacity : forall c e s o who id w,
  cc_mgmt_origin c s o = Some id -> cc_lookup c who = Some w ->
  (ccall_run c e s o (CAddMember who) = CErr ECommunityAtCapacity <-> forall m x, c_members s !! m = Some x -> m_owner x <> cc_account c id).
Proof.
  intros c e s o who id w Ho Hw. cbn. unfold call_add_member. rewrite Ho, Hw. cbn.
  destruct (user_memberships s (cc_account c id)) as [|[m x] l] eqn:El; cbn.
  - split; [|done]. intros _ m x Hm Hx. assert ((m, x) ∈ user_memberships s (cc_account c id)) as Hin by (by apply user_memberships_elem).
    rewrite El in Hin. by apply elem_of_nil in Hin.
  - assert ((m, x) ∈ user_memberships s (cc_account c id)) as Hin by (rewrite El; left).
    apply user_memberships_elem in Hin as [Hm Hx]. unfold assign. rewrite Hm. destruct (ce_member_ok e); cbn; split; try discriminate.
    + intros H. by apply H in Hm.
    + intros H. by apply H in Hm.
Qed.

Lemma remove_member_effect : forall c e s o who m s' evs,
  ccall_run c e s o (CRemoveMember who m) = COk (s', evs) ->
  exists id w x, cc_mgmt_origin c s o = Some id /\ cc_lookup c who = Some w /\
    (exists m0 x0, c_members s !! m0 = Some x0 /\ m_group x0 = id /\ m_owner x0 = w) /\
    c_members s !! m = Some x /\ m_group x = id /\
    c_members s' = <[m := Membership id (cc_account c id) 0]> (c_members s) /\ evs = [EvMemberRemoved w m] /\
    s' = set_members (c_members s') s.
Proof.
  intros c e s o who m s' evs H. cbn in H. unfold call_remove_member in H. cinv H. injection H as <- <-.
  apply is_member_of_iff in H2. unfold release in H3. cinv H3. injection H3 as <-. apply N.eqb_eq in H5.
  exists a, a0, a4. split_and!; done.
Qed.

Lemma promote_effect : forall c e s o m s' evs,
  ccall_run c e s o (CPromote m) = COk (s', evs) ->
  exists id x, cc_mgmt_origin c s o = Some id /\ c_members s !! m = Some x /\ m_group x = id /\
    let r := N.min (m_rank x + 1) 255 in
    c_members s' = <[m := Membership id (m_owner x) r]> (c_members s) /\ evs = [EvRankUpdated m r] /\
    s' = set_members (c_members s') s.
Proof.
  intros c e s o m s' evs H. cbn in H. unfold call_promote in H. cinv H. injection H as <- <-.
  unfold rank_of in H1. destruct (c_members s !! m) as [x|] eqn:Hm; [|discriminate].
  destruct (N.eqb_spec (m_group x) a) as [E|]; [|discriminate]. injection H1 as <-.
  unfold set_rank in H2. cinv H2. injection H2 as <-. rewrite Hm in H1. injection H1 as <-. subst a. exists (m_group x), x. cbv zeta. split_and!; done.
Qed.

Lemma demote_effect : forall c e s o m s' evs,
  ccall_run c e s o (CDemote m) = COk (s', evs) ->
  exists id x, cc_mgmt_origin c s o = Some id /\ c_members s !! m = Some x /\ m_group x = id /\
    c_members s' = <[m := Membership id (m_owner x) (m_rank x - 1)]> (c_members s) /\ evs = [EvRankUpdated m (m_rank x)] /\
    s' = set_members (c_members s') s.
Proof.
  intros c e s o m s' evs H. cbn in H. unfold call_demote in H. cinv H. injection H as <- <-.
  unfold rank_of in H1. destruct (c_members s !! m) as [x|] eqn:Hm; [|discriminate].
  destruct (N.eqb_spec (m_group x) a) as [E|]; [|discriminate]. injection H1 as <-.
  unfold set_rank in H2. cinv H2. injection H2 as <-. rewrite Hm in H1. injection H1 as <-. subst a. exists (m_group x), x. cbv zeta. split_and!; done.
Qed.

Lemma dispatch_as_own : forall c s o o', dispatch_as_account c s o = Some o' ->
  exists id, cc_mgmt_origin c s o = Some id /\ o' = OSigned (cc_account c id).
Proof. intros c s o o'. unfold dispatch_as_account. destruct (cc_mgmt_origin c s o); [|discriminate]. intros [= <-]. eauto. Qed.

(** Properties of the communities manager, of community referenda and of governance tracks. Words: ManagerSpec.v, TracksSpec.v. *)
From stdpp Require Import gmap.
From Coq Require Import Sorting.Sorted.
From Verif Require Import Base XcmTypes OriginTypes AccountsModel CommunitiesModel CommunitiesSpec CommunitiesExamples TracksModel TracksSpec
  ManagerModel ManagerSpec TracksProofs ManagerProofs.
Open Scope N_scope.

(** Two communities: 1 registered by root with admin account 1, 2 registered and paid for by account 9 with admin account 2. *)
Definition ok_env : menv := MEnv easy_env true true true (fun _ => true).
Definition name_one : list N := [195; 177; 97]. (* "ña" *)
Definition h_manager : list mstep :=
  [MRegister ok_env ORoot 1 name_one (AddrId 1) (Some ByRank) None;
   MCommunityStep (StBalance 9 (2 * community_deposit));
   MRegister ok_env (OSigned 9) 2 [98] (AddrId 2) None (Some (default_track [99]))].

(** C50: when registration succeeds all of this was created, and nothing else changed but the deposit's payment. *)
Theorem C50_all_created : forall c e s o id name who dm ti s' evs,
  mg_register c e s o id name who dm ti = MOk (s', evs) ->
  exists deposit a, mc_register_origin c o = Some deposit /\ utf8_text name /\ cc_lookup (mc_c c) who = Some a /\
    c_info (mg_c s) !! id = None /\ c_admin (mg_c s) (OSigned a) = None /\ mg_collections s !! id = None /\ mg_tracks s !! id = None /\
    mg_collective s !! cc_account (mc_c c) id = None /\
    c_info (mg_c s') = <[id := Active]> (c_info (mg_c s)) /\
    c_admin (mg_c s') (OSigned a) = Some id /\ (forall o', o' <> OSigned a -> c_admin (mg_c s') o' = c_admin (mg_c s) o') /\
    c_method (mg_c s') = match dm with Some d => <[id := d]> (c_method (mg_c s)) | None => c_method (mg_c s) end /\
    c_members (mg_c s') = c_members (mg_c s) /\ same_voting_state (mg_c s) (mg_c s') /\ paid deposit (mg_c s) (mg_c s') /\
    mg_collections s' = <[id := cc_account (mc_c c) id]> (mg_collections s) /\ mg_items s' = mg_items s /\
    mg_tracks s' = <[id := default (default_track name) ti]> (mg_tracks s) /\
    mg_track_of s' (OCommunity id None) = Some id /\ (forall o', o' <> OCommunity id None -> mg_track_of s' o' = mg_track_of s o') /\
    mg_collective s' = <[cc_account (mc_c c) id := 0]> (mg_collective s) /\ assets_after (cc_pallet_account (mc_c c)) dm (mg_c s) (mg_c s') /\
    evs = [MvRegistered id].
Proof. exact register_complete. Qed.
Print Assumptions C50_all_created.

(** C50: otherwise nothing changed; and nothing but a taken name part, an unpayable deposit or a refusing pallet is in the way. *)
Theorem C50_or_nothing :
  (forall c e s o id name who dm ti er,
     mg_register c e s o id name who dm ti = MErr er -> mstep_run c s (MRegister e o id name who dm ti) = s) /\
  (forall e s o id name who dm ti deposit a,
     kreivo_register_origin o = Some deposit -> utf8_text name -> lookup_address who = Some a ->
     c_info (mg_c s) !! id = None -> c_admin (mg_c s) (OSigned a) = None -> mg_collections s !! id = None -> mg_tracks s !! id = None ->
     mg_collective s !! community_account id = None ->
     (forall n from to, deposit = Some (n, from, to) -> n <= balance (mg_c s) from /\ ce_transfer_ok (me_c e) from to n = true) ->
     me_collection_ok e = true -> me_track_ok e = true -> me_induct_ok e = true ->
     exists s', mg_register kreivo_manager e s o id name who dm ti = MOk (s', [MvRegistered id])).
Proof. split; [exact register_failing|exact register_possible]. Qed.
Print Assumptions C50_or_nothing.

Example C50_case : let s := mrun kreivo_manager m_empty h_manager in
  c_info (mg_c s) !! 1 = Some Active /\ c_info (mg_c s) !! 2 = Some Active /\ c_admin (mg_c s) (OSigned 2) = Some 2 /\
  c_method (mg_c s) !! 1 = Some ByRank /\ mg_track_of s (OCommunity 2 None) = Some 2 /\ mg_collective s !! community_account 1 = Some 0 /\
  mg_collections s !! 2 = Some (community_account 2).
Proof. cbv zeta. split_and!; vm_compute; reflexivity. Qed.

(** C51 is false of the code: the largest id is minted but not counted, and the rest of the request is dropped. *)
Theorem C51_memberships_refuted : exists s,
  mg_create_memberships kreivo_manager ok_env m_empty ORoot 3 u32_max 5 = MOk (s, [MvMembershipsCreated u32_max 0]) /\
  mg_items s !! (0, u32_max) = Some (Item treasury_account (Some 5)).
Proof. eexists. split; vm_compute; reflexivity. Qed.
Print Assumptions C51_memberships_refuted.

(** C51: exactly what is created; the count is right when the ids stay below the largest; and creation succeeds if all the ids are free. *)
Theorem C51_memberships_partial :
  (forall c e s o amount start price s' evs, start <= u32_max ->
     mg_create_memberships c e s o amount start price = MOk (s', evs) ->
     let last := N.min (start + amount) (u32_max + 1) in
     amount <= 1024 /\ mc_create_origin c o = Some tt /\
     (forall i, start <= i -> i < last -> mg_items s !! (mc_collection c, i) = None /\ mg_items s' !! (mc_collection c, i) = Some (Item (mc_owner c) (Some price))) /\
     (forall coll i, coll <> mc_collection c \/ i < start \/ last <= i -> mg_items s' !! (coll, i) = mg_items s !! (coll, i)) /\
     mg_c s' = mg_c s /\ mg_collections s' = mg_collections s /\ mg_tracks s' = mg_tracks s /\ mg_track_of s' = mg_track_of s /\
     mg_collective s' = mg_collective s /\
     evs = [MvMembershipsCreated start (N.min amount (u32_max - start))]) /\
  (forall c e s o amount start price s' evs, start + amount <= u32_max ->
     mg_create_memberships c e s o amount start price = MOk (s', evs) ->
     evs = [MvMembershipsCreated start amount]) /\
  (forall c e s o amount start price, amount <= 1024 -> mc_create_origin c o = Some tt ->
     (forall i, start <= i -> i < start + amount -> mg_items s !! (mc_collection c, i) = None /\ me_item_ok e i = true) ->
     exists s' evs, mg_create_memberships c e s o amount start price = MOk (s', evs)).
Proof. split_and!; [exact memberships_created|exact memberships_reported|exact memberships_possible]. Qed.
Print Assumptions C51_memberships_partial.
(** On Kreivo only root and the origin of the track for memberships create them. *)
Theorem C51_who_creates_partial : forall e s o amount start price s' evs, mg_create_memberships kreivo_manager e s o amount start price = MOk (s', evs) ->
  o = ORoot \/ o = OCustom CreateMemberships.
Proof. exact who_creates. Qed.
Print Assumptions C51_who_creates_partial.

Example C51_case : match mg_create_memberships kreivo_manager ok_env m_empty (OCustom CreateMemberships) 3 7 5 with
  | MOk (s, evs) => evs = [MvMembershipsCreated 7 3] /\ mg_items s !! (0, 9) = Some (Item treasury_account (Some 5)) /\ mg_items s !! (0, 10) = None
  | MErr _ => False
  end /\ mg_create_memberships kreivo_manager ok_env m_empty (OSigned 1) 3 7 5 = MErr MBadOrigin /\
  mg_create_memberships kreivo_manager ok_env m_empty ORoot 1025 7 5 = MErr MCreatingTooManyMemberships.
Proof. split_and!; vm_compute; [|reflexivity..]. repeat split. Qed.

(** C54. *)
Theorem C54_tracks :
  (forall o id, kreivo_track_for o = Some id -> exists t, In (id, t) kreivo_tracks) /\
  (forall o o' id, kreivo_track_for o = Some id -> kreivo_track_for o' = Some id -> o = o') /\
  (forall o, kreivo_track_for o <> None <->
     o = ORoot \/ o = OCustom ReferendumCanceller \/ o = OCustom ReferendumKiller \/ o = OCustom CreateMemberships) /\
  (forall id t, In (id, t) kreivo_tracks -> exists o, kreivo_track_for o = Some id) /\
  (StronglySorted N.lt (map fst kreivo_tracks)).
Proof. split_and!; [exact kreivo_tracks_listed|exact kreivo_tracks_injective|exact kreivo_tracks_origins|exact kreivo_tracks_used|exact kreivo_tracks_increasing]. Qed.
Print Assumptions C54_tracks.

Example C54_case : kreivo_track_for (OCustom ReferendumKiller) = Some 2 /\ kreivo_track_for (OSigned 5) = None.
Proof. split; reflexivity. Qed.

(** C68: who may submit a proposal to be enacted with [track_origin]. *)
Theorem C68_only_members_propose : forall s, mreachable kreivo_manager s -> forall o track_origin who,
  kreivo_submit_origin s o track_origin = Some who <->
  (o = ORoot /\ who = treasury_account) \/
  (o = OSigned who /\ exists g, track_origin = OCommunity g None /\ c_info (mg_c s) !! g <> None /\ holds_membership s g who).
Proof. exact submissions. Qed.
Print Assumptions C68_only_members_propose.

(** C68: a history in which account 10 is a member of community 1 and account 11 is not. *)
Definition h_member : list mstep := h_manager ++
  [MCommunityStep (StMember 101 (Some (Membership 1 (community_account 1) 0))); MCommunityStep (StCall easy_env (OSigned 1) (CAddMember (AddrId 10)))].
Example C68_case : let s := mrun kreivo_manager m_empty h_member in
  kreivo_submit_origin s (OSigned 10) (OCommunity 1 None) = Some 10 /\ kreivo_submit_origin s (OSigned 11) (OCommunity 1 None) = None /\
  kreivo_submit_origin s (OSigned 10) (OCommunity 2 None) = None /\ kreivo_submit_origin s (OSigned 10) ORoot = None.
Proof. cbv zeta. split_and!; vm_compute; reflexivity. Qed.

(** C69. *)
Theorem C69_own_track : forall s, mreachable kreivo_manager s -> forall o id,
  ensure_origin_to_track s o id = true <-> o = OCommunity id None /\ c_info (mg_c s) !! id <> None.
Proof. exact track_updates. Qed.
Print Assumptions C69_own_track.

Example C69_case : let s := mrun kreivo_manager m_empty h_manager in
  ensure_origin_to_track s (OCommunity 1 None) 1 = true /\ ensure_origin_to_track s (OCommunity 1 None) 2 = false /\
  ensure_origin_to_track s ORoot 1 = false.
Proof. cbv zeta. split_and!; vm_compute; reflexivity. Qed.

(** C70. *)
Theorem C70_registration_price :
  (forall e s o id name who dm ti s' evs,
     mg_register kreivo_manager e s o id name who dm ti = MOk (s', evs) ->
     (o = ORoot /\ (forall a, balance (mg_c s') a = balance (mg_c s) a)) \/
     (exists payer, o = OSigned payer /\ community_deposit <= balance (mg_c s) payer /\
        (payer <> treasury_account -> balance (mg_c s') payer = balance (mg_c s) payer - community_deposit /\
           balance (mg_c s') treasury_account = balance (mg_c s) treasury_account + community_deposit) /\
        (forall a, a <> payer -> a <> treasury_account -> balance (mg_c s') a = balance (mg_c s) a))) /\
  (2 * community_deposit = 10 ^ 12).
Proof. split; [exact register_costs|exact community_price]. Qed.
Print Assumptions C70_registration_price.

Example C70_case : let s := mrun kreivo_manager m_empty h_manager in
  balance (mg_c s) 9 = community_deposit /\ balance (mg_c s) treasury_account = community_deposit /\ community_deposit = 500000000000.
Proof. cbv zeta. split_and!; vm_compute; reflexivity. Qed.

(** C71. *)
Theorem C71_communities_complete : forall s, mreachable kreivo_manager s -> forall id,
  (c_info (mg_c s) !! id <> None -> complete kreivo_manager s id) /\
  (mg_tracks s !! id <> None -> c_info (mg_c s) !! id <> None) /\
  (forall o, mg_track_of s o = Some id -> o = OCommunity id None /\ c_info (mg_c s) !! id <> None).
Proof. exact communities_complete. Qed.
Print Assumptions C71_communities_complete.
Theorem C71_nothing_without_community : forall s, mreachable kreivo_manager s ->
  (forall id, mg_collections s !! id <> None -> c_info (mg_c s) !! id <> None) /\
  (forall a, mg_collective s !! a <> None -> exists id, a = community_account id /\ c_info (mg_c s) !! id <> None).
Proof. exact nothing_without_communities. Qed.
Print Assumptions C71_nothing_without_community.

Example C71_case : mreachable kreivo_manager (mrun kreivo_manager m_empty h_manager) /\
  c_info (mg_c (mrun kreivo_manager m_empty h_manager)) !! 2 <> None /\ mg_tracks (mrun kreivo_manager m_empty h_manager) !! 3 = None.
Proof. split_and!; [by exists h_manager|vm_compute; discriminate|vm_compute; reflexivity]. Qed.

(** C72: bytes pass as a name exactly if they are the UTF-8 encoding of some text. *)
Theorem C72_names_are_text : forall l, utf8_ok l = true <-> utf8_text l.
Proof. exact utf8_name. Qed.
Print Assumptions C72_names_are_text.
Theorem C72_bad_names_rejected : forall c e s o id name who dm ti s' evs,
  mg_register c e s o id name who dm ti = MOk (s', evs) -> utf8_text name.
Proof. intros c e s o id name who dm ti s' evs H. destruct (register_complete _ _ _ _ _ _ _ _ _ _ _ H) as (? & ? & ? & ? & ?). done. Qed.
Print Assumptions C72_bad_names_rejected.

Example C72_case : utf8_text name_one /\ ~ utf8_text [192; 128] /\ ~ utf8_text [237; 160; 128] /\ utf8_ok [240; 159; 152; 128] = true.
Proof.
  split_and!; [exists [241; 97]; split; [|done]|..]; [repeat constructor; unfold scalar_value; lia|..|done];
  intros H; apply utf8_name in H; discriminate.
Qed.

(** C73: what a community's default track asks for, [x] billionths into the decision period. *)
Theorem C73_default_thresholds :
  (forall name x approval support, x <= billion ->
     approved (default_track name) x approval support <->
     percent 100 - x * percent 50 / billion <= approval /\ percent 50 - x * percent 50 / billion <= support) /\
  (forall name x approval support,
     approved (default_track name) x approval support -> percent 50 <= approval) /\
  (forall name x x' approval approval' support support',
     x <= x' -> approval <= approval' -> support <= support' ->
     approved (default_track name) x approval support -> approved (default_track name) x' approval' support') /\
  (forall name approval support,
     approved (default_track name) 0 approval support <-> percent 100 <= approval /\ percent 50 <= support) /\
  (forall name approval support,
     approved (default_track name) billion approval support <-> percent 50 <= approval).
Proof. split_and!; [exact default_track_exact|exact default_track_needs|exact default_track_relaxes|exact default_track_start|exact default_track_end]. Qed.
Print Assumptions C73_default_thresholds.

(** C73: what Kreivo's own tracks ask for. *)
Theorem C73_governance_thresholds : forall o id t x approval support,
  kreivo_track_for o = Some id -> In (id, t) kreivo_tracks -> approved t x approval support ->
  (o = OCustom CreateMemberships -> percent 50 <= approval /\ percent 50 <= support) /\
  (o <> OCustom CreateMemberships -> percent 90 <= approval).
Proof. exact kreivo_tracks_need. Qed.
Print Assumptions C73_governance_thresholds.

Example C73_case : approved (default_track [97]) (percent 50) (percent 75) (percent 25) /\
  ~ approved (default_track [97]) (percent 50) (percent 74) (percent 25) /\ ~ approved (default_track [97]) (percent 50) (percent 75) (percent 24).
Proof. split_and!; [split; vm_compute; reflexivity|intros [H _]; vm_compute in H; discriminate|intros [_ H]; vm_compute in H; discriminate]. Qed.

(** Account 9 pays for community 7, which is to vote with asset [a]; account 8 pays for community 0. *)
Definition h_squat (a min : N) : list mstep :=
  [MCommunityStep (StBalance 9 units); MCommunityStep (StBalance 8 units);
   MRegister ok_env (OSigned 9) 7 [98] (AddrId 9) (Some (ByCommunityAsset a min)) None].
Definition h_owner (a min : N) : list mstep := h_squat a min ++ [MRegister ok_env (OSigned 8) 0 [97] (AddrId 8) None None].

(** C90 is false of the code: anyone who can pay for a community creates any asset that does not exist yet, with the minimum of their choice. *)
Theorem C90_only_root_refuted : forall a min, 0 < min ->
  c_assets (mg_c (mrun kreivo_manager m_empty (h_squat a min))) !! a = Some (community_account 0, min).
Proof.
  intros a min Hm. unfold h_squat. unfold mrun. cbn [fold_left]. set (s := mstep_run _ (mstep_run _ m_empty _) _).
  cbn [mstep_run]. unfold mdispatch.
  destruct (register_possible ok_env s (OSigned 9) 7 [98] (AddrId 9) (Some (ByCommunityAsset a min)) None (Some (community_deposit, 9, treasury_account)) 9)
    as [s' E]; try reflexivity; try (by vm_compute).
  - by exists [98]; split; [repeat constructor|].
  - intros n from to [= <- <- <-]. split; [by vm_compute|reflexivity].
  - rewrite E. by eapply squatting in E.
Qed.
Print Assumptions C90_only_root_refuted.

(** C90: besides root, only a registration or an admin's choice of what to vote with makes an asset. It must not exist yet, so owner and
    minimum balance of an existing asset never change this way. *)
Theorem C90_only_root_partial : forall s x a,
  c_assets (mg_c (mstep_run kreivo_manager s x)) !! a <> c_assets (mg_c s) !! a ->
  (exists y, x = MCommunityStep (StAsset a y)) \/
  (c_assets (mg_c s) !! a = None /\ exists min, 0 < min /\
   c_assets (mg_c (mstep_run kreivo_manager s x)) !! a = Some (community_account 0, min) /\
   ((exists e o g id, x = MCommunityStep (StCall e o (CSetMethod g (ByCommunityAsset a min))) /\ kreivo_admin_origin (mg_c s) o = Some id) \/
    (exists e o id name who ti, x = MRegister e o id name who (Some (ByCommunityAsset a min)) ti /\ c_info (mg_c s) !! id = None /\
       (o = ORoot \/ exists w, o = OSigned w /\ community_deposit <= balance (mg_c s) w)))).
Proof. exact manager_assets. Qed.
Print Assumptions C90_only_root_partial.

(** C91 is false of the code: the asset made for community 7 answers to community 0, whose admin acts as its owner. *)
Theorem C91_own_asset_refuted : exists l a min,
  let s := mg_c (mrun kreivo_manager m_empty l) in
  c_method s !! 7 = Some (ByCommunityAsset a min) /\ c_assets s !! a = Some (community_account 0, min) /\
  dispatch_as_account kreivo_communities s (OSigned 8) = Some (OSigned (community_account 0)) /\
  dispatch_as_account kreivo_communities s (OSigned 9) = Some (OSigned (community_account 7)) /\
  community_account 7 <> community_account 0.
Proof. exists (h_owner 5 3), 5, 3. cbv zeta. split_and!; [vm_compute; reflexivity..|vm_compute; discriminate]. Qed.
Print Assumptions C91_own_asset_refuted.

(** C91: through the pallet, only who stands for community 0 acts as the owner. *)
Theorem C91_own_asset_partial : forall s o, (forall id, kreivo_admin_origin s o = Some id -> id <= u16_max) ->
  dispatch_as_account kreivo_communities s o = Some (OSigned (community_account 0)) <-> kreivo_admin_origin s o = Some 0.
Proof. exact owner_of_assets. Qed.
Print Assumptions C91_own_asset_partial.

Example C91_case : let s := mg_c (mrun kreivo_manager m_empty (h_owner 5 1)) in
  (forall id, kreivo_admin_origin s (OSigned 8) = Some id -> id <= u16_max) /\ kreivo_admin_origin s (OSigned 8) = Some 0 /\
  c_assets s !! 6 = None.
Proof. cbv zeta. split_and!; [intros id H; vm_compute in H; injection H as <-; done|vm_compute; reflexivity|vm_compute; reflexivity]. Qed.

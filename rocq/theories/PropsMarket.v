(** Property theorems C165 and C166: memberships as items. The program is [nft_call], [kstep_run] and [krun] of MarketModel.v over
    ManagerModel.v; the words are in MarketSpec.v. *)
From stdpp Require Import gmap.
From Verif Require Import Base XcmTypes OriginTypes AccountsModel CommunitiesModel CommunitiesSpec CommunitiesExamples TracksModel ManagerModel ManagerSpec ManagerProofs MarketModel MarketSpec Market.
Open Scope N_scope.

Definition ok_env : menv := MEnv easy_env true true true (fun _ => true).
Definition ok_nfts : nenv := NEnv easy_env (fun _ => true).

(* ------------------------------------------------------------------ *)
(** * C165: memberships on sale are sold for their price, once *)

(** As long as nobody acts in its owner's name, an item on sale stays theirs and keeps its price until the step in which somebody buys it
    for exactly that price. *)
Theorem C165_until_sold : forall c key a price l s, mg_items s !! key = Some (Item a (Some price)) -> nobody_as c a s l ->
  mg_items (krun c s l) !! key = Some (Item a (Some price)) \/
  exists l1 x l2, l = l1 ++ x :: l2 /\ mg_items (krun c s l1) !! key = Some (Item a (Some price)) /\ sells c (krun c s l1) x key a price.
Proof. exact on_sale_until_sold. Qed.
Print Assumptions C165_until_sold.

(** An item without a price, as one just bought is, is its owner's until the owner does something. *)
Theorem C165_once : forall c s x key a, mg_items s !! key = Some (Item a None) ->
  mg_items (kstep_run c s x) !! key = Some (Item a None) \/ exists k, in_name c s x a k.
Proof. exact unpriced_stays. Qed.
Print Assumptions C165_once.

(** Memberships that were created can be bought, each by anyone else who bids the price and has it. *)
Theorem C165_can_be_bought : forall c e s o amount start price s1 evs, start <= u32_max ->
  mg_create_memberships c e s o amount start price = MOk (s1, evs) ->
  forall e' i buyer bid, start <= i -> i < N.min (start + amount) (u32_max + 1) -> buyer <> mc_owner c -> price <= bid -> price <= balance (mg_c s1) buyer ->
  ne_ok e' (NBuy (mc_collection c) i bid) = true -> ce_transfer_ok (ne_c e') buyer (mc_owner c) price = true ->
  sells c s1 (KNft e' (OSigned buyer) (NBuy (mc_collection c) i bid)) (mc_collection c, i) (mc_owner c) price.
Proof. exact create_and_buy. Qed.
Print Assumptions C165_can_be_bought.

(** The treasury's collection; three memberships for 100 each; account 9, with 250, bids 150 for one of them and 99 for another. *)
Definition h_sale : list kstep :=
  [KCreate 0 treasury_account; KManager (MCommunityStep (StBalance 9 250)); KManager (MCreateMemberships ok_env (OCustom CreateMemberships) 3 5 100)].
Definition h_bids : list kstep := [KNft ok_nfts (OSigned 9) (NBuy 0 6 150); KNft ok_nfts (OSigned 9) (NBuy 0 7 99); KNft ok_nfts (OSigned 8) (NBuy 0 6 100)].
Example C165_case : let s := krun kreivo_manager m_empty h_sale in let s' := krun kreivo_manager s h_bids in
  mg_items s !! (0, 6) = Some (Item treasury_account (Some 100)) /\ mg_items s' !! (0, 6) = Some (Item 9 None) /\
  mg_items s' !! (0, 7) = Some (Item treasury_account (Some 100)) /\ balance (mg_c s') 9 = 150 /\ balance (mg_c s') treasury_account = 100 /\
  nobody_as kreivo_manager treasury_account s h_bids.
Proof.
  cbv zeta. do 5 (split; [vm_compute; reflexivity|]). cbn [h_bids nobody_as].
  split_and!; try exact I; intros k [(e & H)|(e & o & g & H & _)]; discriminate H.
Qed.

(* ------------------------------------------------------------------ *)
(** * C166: memberships are created by the collective *)

(** Refuted: a community's account owns the collection of its memberships, and may mint. Whoever manages the community has its account mint
    memberships, for whom they like and for nothing. *)
Theorem C166_self_made_refuted : forall c s g o, mg_collections s !! g = Some (cc_account (mc_c c) g) -> cc_mgmt_origin (mc_c c) (mg_c s) o = Some g ->
  forall e id to, ne_ok e (NMint g id to) = true -> mg_items s !! (g, id) = None ->
  mg_items (kstep_run c s (KAs e o (NMint g id to))) !! (g, id) = Some (Item to None).
Proof. exact self_made. Qed.
Print Assumptions C166_self_made_refuted.

(** Refuted: the collection the collective's memberships come from has an id a community can have. While nobody has made it the collective
    can create none; and account 9, which registers community 0 for the usual price, owns it, makes memberships there, and sells them. *)
Theorem C166_none_yet_refuted : forall c s e o amount start price, mg_collections s !! mc_collection c = None ->
  kstep_run c s (KManager (MCreateMemberships e o amount start price)) = s.
Proof. exact none_without_collection. Qed.
Print Assumptions C166_none_yet_refuted.
Definition h_community_zero : list kstep :=
  [KManager (MCommunityStep (StBalance 9 community_deposit)); KManager (MRegister ok_env (OSigned 9) 0 [97] (AddrId 9) None None);
   KAs ok_nfts (OSigned 9) (NMint 0 5 9); KNft ok_nfts (OSigned 9) (NSetPrice 0 5 (Some 1))].
Theorem C166_squatted_refuted : let s := krun kreivo_manager m_empty h_community_zero in
  mg_items s !! (mc_collection kreivo_manager, 5) = Some (Item 9 (Some 1)) /\
  mg_collections s !! mc_collection kreivo_manager = Some (community_account 0) /\ community_account 0 <> treasury_account.
Proof. cbv zeta. split_and!; vm_compute; [reflexivity..|discriminate]. Qed.
Print Assumptions C166_squatted_refuted.

(** What holds: items come to be only by the collective, in its collection, or by being minted in the name of whose collection it is; ... *)
Theorem C166_new_items_partial : forall c s x key i, mg_items s !! key = None -> mg_items (kstep_run c s x) !! key = Some i ->
  (fst key = mc_collection c /\ creates c s x (snd key)) \/
  (exists a to, mg_collections s !! fst key = Some a /\ in_name c s x a (NMint (fst key) (snd key) to) /\ i = Item to None).
Proof. exact new_item. Qed.
Print Assumptions C166_new_items_partial.

(** ... and once the collection of the collective's memberships is the treasury's, or anyone's in whose name nobody acts, all that come to
    be in it were created by the collective. *)
Theorem C166_by_collective_partial : forall c l s a, mg_collections s !! mc_collection c = Some a -> nobody_as c a s l ->
  forall id i, mg_items s !! (mc_collection c, id) = None -> mg_items (krun c s l) !! (mc_collection c, id) = Some i ->
  exists l1 x l2, l = l1 ++ x :: l2 /\ creates c (krun c s l1) x id.
Proof. exact by_collective. Qed.
Print Assumptions C166_by_collective_partial.

(** Community 1, which account 4 manages, makes a membership for account 10; account 5 cannot, nor can account 4 in the treasury's collection. *)
Example C166_case : let s := krun kreivo_manager m_empty (h_sale ++ [KManager (MRegister ok_env ORoot 1 [97] (AddrId 4) None None)]) in
  let s' := krun kreivo_manager s [KAs ok_nfts (OSigned 4) (NMint 1 77 10); KAs ok_nfts (OSigned 5) (NMint 1 78 10); KAs ok_nfts (OSigned 4) (NMint 0 77 10)] in
  mg_collections s !! 1 = Some (cc_account kreivo_communities 1) /\ cc_mgmt_origin kreivo_communities (mg_c s) (OSigned 4) = Some 1 /\
  mg_items s' !! (1, 77) = Some (Item 10 None) /\ mg_items s' !! (1, 78) = None /\ mg_items s' !! (0, 77) = None /\
  mg_collections s' !! mc_collection kreivo_manager = Some treasury_account /\ creates kreivo_manager (krun kreivo_manager m_empty (take 2 h_sale))
    (KManager (MCreateMemberships ok_env (OCustom CreateMemberships) 3 5 100)) 6.
Proof.
  cbv zeta. do 6 (split; [vm_compute; reflexivity|]). exists ok_env, (OCustom CreateMemberships), 3, 5, 100.
  split; [reflexivity|]. split; [discriminate|]. split; vm_compute; reflexivity.
Qed.

(** Property theorems C11-C14, C59, C61 and C62: accounts, addresses and locations on Kreivo. Words: AccountsSpec.v. *)
From Verif Require Import Base XcmTypes OriginTypes AccountsModel AccountsSpec AccountsProofs.

(** C11. A community's account is "modl", "kv/cmtys", the id, zeros; different ids have different accounts, the id can be read back, and no
    sub-account of another pallet is a community account. *)
Theorem C11_community_accounts_distinct :
  (forall c, c <= u16_max -> has_bytes (community_account c) (derived_bytes str_modl str_communities c)) /\
  (forall c d, c <= u16_max -> d <= u16_max -> community_account c = community_account d -> c = d) /\
  (forall c, c <= u16_max -> account_to_community (community_account c) = Some c) /\
  (forall c p n a, c <= u16_max -> is_bytes p -> length p = 8%nat -> n <= u16_max -> p <> str_communities ->
     has_bytes a (derived_bytes str_modl p n) -> a <> community_account c).
Proof. exact community_accounts_distinct. Qed.
Print Assumptions C11_community_accounts_distinct.

Example C11_case : account_bytes (community_account 258) =
  [109;111;100;108;107;118;47;99;109;116;121;115;2;1;0;0;0;0;0;0;0;0;0;0;0;0;0;0;0;0;0;0].
Proof. vm_compute. reflexivity. Qed.

(** C12 is false of the code: the treasury's account is no community's account, yet it acts as community 0. *)
Theorem C12_only_own_account_refuted : exists a, account_wf a /\ account_bytes a = derived_bytes str_modl str_treasury 0 /\
  (forall c, c <= u16_max -> a <> community_account c) /\ ensure_community_account (OSigned a) = Some 0.
Proof. destruct treasury_speaks as (a & H1 & H2 & _ & H3 & H4). by exists a. Qed.
Print Assumptions C12_only_own_account_refuted.

(** C12, exactly who is recognised as community c: sub-account c of any pallet id whatsoever. Missing for the full claim: that the pallet id is
    the communities pallet's. *)
Theorem C12_only_own_account_partial : forall a c, account_wf a ->
  (ensure_community_account (OSigned a) = Some c <->
   c <= u16_max /\ exists p, is_bytes p /\ length p = 8%nat /\ account_bytes a = derived_bytes str_modl p c).
Proof. exact acts_as_community_iff. Qed.
Print Assumptions C12_only_own_account_partial.

Example C12_case : account_wf (community_account 7) /\ ensure_community_account (OSigned (community_account 7)) = Some 7 /\
  ensure_community_account (OSigned 7) = None.
Proof. split; [apply community_accounts_distinct; vm_compute; discriminate|]. split; vm_compute; reflexivity. Qed.

(** C13. *)
Theorem C13_address_lookup :
  (forall a, lookup_address (AddrId a) = Some a) /\
  (forall i, i <= u16_max -> exists a, lookup_address (AddrIndex i) = Some a /\ has_bytes a (derived_bytes str_modl str_communities i)) /\
  (forall l, lookup_address (AddrRaw l) = None /\ lookup_address (Addr32 l) = None /\ lookup_address (Addr20 l) = None) /\
  (forall a, lookup_address (unlookup a) = Some a).
Proof. exact address_lookup. Qed.
Print Assumptions C13_address_lookup.

Example C13_case : lookup_address (AddrIndex 3) = Some (community_account 3).
Proof. reflexivity. Qed.

(** C14, last part, is false of the code: community indices above 65535 are cut off, so pluralities share an account. *)
Theorem C14_plurality_agrees_refuted : exists i j part,
  i <> j /\ i <= u32_max /\ j <= u32_max /\ exists a, location_to_account (Location 0 [Plurality (BIndex i) part]) = Some a /\
    location_to_account (Location 0 [Plurality (BIndex j) part]) = Some a.
Proof. exact pluralities_share. Qed.
Print Assumptions C14_plurality_agrees_refuted.

(** C14 for indices that are community ids (16 bits). *)
Theorem C14_plurality_agrees_partial :
  (forall i, i <= u16_max ->
   exists a, has_bytes a (derived_bytes str_modl str_communities i) /\
    (forall part, location_to_account (Location 0 [Plurality (BIndex i) part]) = Some a) /\
    can_send_xcm (OSigned a) = Some (Location 0 [Plurality (BIndex i) Voice]) /\
    can_send_xcm (OCommunity i None) = Some (Location 0 [Plurality (BIndex i) Voice])) /\
  (forall i j part1 part2 a, i <= u16_max -> j <= u16_max ->
     location_to_account (Location 0 [Plurality (BIndex i) part1]) = Some a ->
     location_to_account (Location 0 [Plurality (BIndex j) part2]) = Some a -> i = j).
Proof. split; [exact plurality_agrees|exact pluralities_distinct]. Qed.
Print Assumptions C14_plurality_agrees_partial.

Example C14_case : location_to_account (Location 0 [Plurality (BIndex 9) Voice]) = Some (community_account 9).
Proof. vm_compute. reflexivity. Qed.

(** C61. Which locations have accounts here, and which accounts; the relay chain, sibling chains and communities never share one. *)
Theorem C61_location_accounts :
  (forall l a, location_to_account l = Some a <->
    (l = Location 1 [] /\ has_bytes a (str_parent ++ replicate 26 0)) \/
    (exists i, l = Location 1 [Parachain i] /\ has_bytes a (str_sibl ++ le_bytes 4 i ++ replicate 24 0)) \/
    (exists i part, l = Location 0 [Plurality (BIndex i) part] /\ has_bytes a (derived_bytes str_modl str_communities (N.min i u16_max))) \/
    (exists p net id, (p = 0 \/ p = 1) /\ l = Location p [AccountId32 net id] /\ (net = None \/ net = Some Kusama) /\
       a = account_of_bytes id)) /\
  (forall l1 l2 a, chain_or_community l1 -> chain_or_community l2 ->
     location_to_account l1 = Some a -> location_to_account l2 = Some a -> l1 = l2).
Proof. split; [exact location_accounts|exact parties_distinct]. Qed.
Print Assumptions C61_location_accounts.

Example C61_case : chain_or_community (Location 1 [Parachain 2000]) /\ location_to_account (Location 1 [Parachain 2000]) = Some (sibling_account 2000) /\
  take 8 (account_bytes (sibling_account 2000)) = [115; 105; 98; 108; 208; 7; 0; 0].
Proof.
  split; [right; left; exists 2000; split; [vm_compute; discriminate|done]|]. split; vm_compute; reflexivity.
Qed.

(** C62 is false of the code: a community origin narrowed to a single member executes messages, and pays, with the whole community's
    account. *)
Theorem C62_part_is_not_the_whole_refuted : exists c m l a, has_bytes a (derived_bytes str_modl str_communities c) /\
  can_execute_xcm (OCommunity c (Some (SubMember m))) = Some l /\ location_to_account l = Some a /\
  as_signed_by_community (OCommunity c (Some (SubMember m))) = Some a.
Proof.
  destruct (member_spends 5 1 ltac:(vm_compute; discriminate)) as (l & H1 & H2 & H3).
  exists 5, 1, l, (community_account 5). split; [apply community_accounts_distinct; vm_compute; discriminate|done].
Qed.
Print Assumptions C62_part_is_not_the_whole_refuted.

(** C62, what holds: an origin that may execute messages does so with its own account, or with that of the community it is (part of); an
    origin that may send messages is (part of) a community, or signed by an account of the derived form. *)
Theorem C62_part_is_not_the_whole_partial :
  (forall o l a, (forall x, o = OSigned x -> account_wf x) -> (forall c s, o = OCommunity c s -> c <= u16_max) ->
     can_execute_xcm o = Some l -> location_to_account l = Some a ->
     o = OSigned a \/ exists c s, o = OCommunity c s /\ has_bytes a (derived_bytes str_modl str_communities c)) /\
  (forall o l, (forall a, o = OSigned a -> account_wf a) -> can_send_xcm o = Some l ->
     exists c part, l = Location 0 [Plurality (BIndex c) part] /\
       ((exists s, o = OCommunity c s) \/
        (part = Voice /\ exists a p, o = OSigned a /\ is_bytes p /\ length p = 8%nat /\ account_bytes a = derived_bytes str_modl p c))).
Proof. split; [exact executes_as|exact sent_as_community_bytes]. Qed.
Print Assumptions C62_part_is_not_the_whole_partial.

Example C62_case : can_execute_xcm (OSigned 77) = Some (Location 0 [AccountId32 (Some Kusama) (account_bytes 77)]) /\
  location_to_account (Location 0 [AccountId32 (Some Kusama) (account_bytes 77)]) = Some 77 /\ can_send_xcm (OSigned 77) = None.
Proof. split; [reflexivity|]. split; vm_compute; reflexivity. Qed.

(** C59 is false of the code: a single member becomes "one member", whichever. *)
Theorem C59_origin_location_roundtrip_refuted : exists c s j, community_to_junction c s = Some j /\ junction_to_community j <> Some (c, s).
Proof. exists 5, (Some (SubMember 1)), (Plurality (BIndex 5) (PMembers 1)). split; [done|discriminate]. Qed.
Print Assumptions C59_origin_location_roundtrip_refuted.

(** C59 for all other origins that have a location. *)
Theorem C59_origin_location_roundtrip_partial : forall c s j,
  subset_wf s -> (forall m, s <> Some (SubMember m)) -> community_to_junction c s = Some j -> junction_to_community j = Some (c, s).
Proof. exact junction_roundtrip. Qed.
Print Assumptions C59_origin_location_roundtrip_partial.

Example C59_case : subset_wf (Some (SubFraction 333333)) /\
  community_to_junction 5 (Some (SubFraction 333333)) = Some (Plurality (BIndex 5) (PFraction 333333 1000000)).
Proof. split; [vm_compute; discriminate|reflexivity]. Qed.

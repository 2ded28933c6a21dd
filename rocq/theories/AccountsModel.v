(** Model of account derivation, address lookup and location-to-account conversion on Kreivo. *)
From Verif Require Import Base XcmTypes OriginTypes.

(** sp_runtime::traits::AccountIdConversion with [PalletId::TYPE_ID = *b"modl"] (dependency). *)
Definition modl : list N := [109; 111; 100; 108].

(** sp_runtime [into_sub_account_truncating] for a u16 sub-account: TYPE_ID, pallet id (8 bytes), sub-account, then zeros up to
    32 bytes ([TrailingZeroInput]). [into_account_truncating] is the same without sub-account, which for u16 is sub-account 0. *)
Definition sub_account (pallet : list N) (sub : N) : N :=
  account_of_bytes (modl ++ pallet ++ le_bytes 2 sub ++ replicate 18 0).

(** sp_runtime [try_from_sub_account::<u16>]: checks TYPE_ID, decodes (PalletId, u16), and requires the rest to be zero. *)
Definition try_from_sub_account (a : N) : option (list N * N) :=
  let d := account_bytes a in
  if bool_decide (take 4 d = modl) && all_zero (drop 14 d)
  then Some (take 8 (drop 4 d), le_val (take 2 (drop 12 d)))
  else None.

(** runtime/kreivo/src/communities/mod.rs:40 [CommunityPalletId]: "kv/cmtys" *)
Definition community_pallet_id : list N := [107; 118; 47; 99; 109; 116; 121; 115].

(** runtime/kreivo/src/lib.rs:438,448 [TreasuryPalletId] "py/trsry", [TreasuryAccount] *)
Definition treasury_pallet_id : list N := [112; 121; 47; 116; 114; 115; 114; 121].
Definition treasury_account : N := sub_account treasury_pallet_id 0.

(** sp_runtime [into_account_truncating]: TYPE_ID, pallet id, zeros (the sub-account is (), which has no bytes). *)
Definition pallet_account (pallet : list N) : N := account_of_bytes (modl ++ pallet ++ replicate 20 0).

(** pallets/communities/src/functions.rs:22-24 [community_account] *)
Definition community_account (id : N) : N := sub_account community_pallet_id id.

(** runtime/kreivo/src/communities/mod.rs:47-51 [AccountToCommunityId]: the pallet id is ignored. *)
Definition account_to_community (a : N) : option N := snd <$> try_from_sub_account a.

(** runtime/kreivo/src/communities/mod.rs:52 [EnsureCommunityAccount] *)
Definition ensure_community_account (o : origin) : option N :=
  match o with OSigned who => account_to_community who | _ => None end.

(** runtime/kreivo/src/configuration/system_support.rs:45-51 [CommunityLookup::lookup] *)
Definition lookup_address (ad : address) : option N :=
  match ad with
  | AddrId a => Some a
  | AddrIndex i => Some (community_account i)
  | _ => None
  end.

(** runtime/kreivo/src/configuration/system_support.rs:52-54 [CommunityLookup::unlookup] *)
Definition unlookup (a : N) : address := AddrId a.

(** pallets/communities/src/origin.rs:201-218 [AsSignedByCommunity]: neither subset nor community state matter. *)
Definition as_signed_by_community (o : origin) : option N :=
  match o with OCommunity id _ => Some (community_account id) | _ => None end.

(** pallets/communities/src/origin.rs:229-250 [AsSignedByStaticCommunity] *)
Definition as_signed_by_static_community (c : N) (o : origin) : option N :=
  match o with
  | OCommunity id _ => if id =? c then Some (community_account id) else None
  | _ => None
  end.

(** frame_system [EnsureSigned] *)
Definition ensure_signed (o : origin) : option N := match o with OSigned w => Some w | _ => None end.

(** frame_support [EitherOf] *)
Definition either_of {A} (f g : origin -> option A) (o : origin) : option A :=
  match f o with Some a => Some a | None => g o end.

(* ------------------------------------------------------------------ *)
(** * Locations to accounts (runtime/kreivo/src/xcm_config.rs:56-67) *)

(** xcm_builder [ParentIsPreset]: b"Parent" padded with zeros. *)
Definition parent_account : N := account_of_bytes ([80; 97; 114; 101; 110; 116] ++ replicate 26 0).
Definition parent_is_preset (l : location) : option N :=
  match l with Location 1 [] => Some parent_account | _ => None end.

(** xcm_builder [SiblingParachainConvertsVia<Sibling>]: b"sibl", u32 little endian, zeros. *)
Definition sibling_account (id : N) : N := account_of_bytes ([115; 105; 98; 108] ++ le_bytes 4 id ++ replicate 24 0).
Definition sibling_converts (l : location) : option N :=
  match l with Location 1 [Parachain id] => Some (sibling_account id) | _ => None end.

(** runtime/kreivo/src/xcm_config/communities.rs:14-27 [PluralityConvertsToCommunityAccountId]; the part is ignored and the u32 index
    saturates to u16. *)
Definition plurality_converts (l : location) : option N :=
  match l with
  | Location 0 [Plurality (BIndex id) _] => Some (community_account (sat16 id))
  | _ => None
  end.

(** runtime/kreivo/src/xcm_config.rs:38 [RelayNetwork] *)
Definition relay_network : option network := Some Kusama.

(** runtime/kreivo/src/xcm_config/communities.rs:29-42 [AccountId32FromRelay] *)
Definition account_from_relay (l : location) : option N :=
  match l with
  | Location 1 [AccountId32 None id] => Some (account_of_bytes id)
  | Location 1 [AccountId32 net id] => if bool_decide (net = relay_network) then Some (account_of_bytes id) else None
  | _ => None
  end.

(** xcm_builder [AccountId32Aliases] *)
Definition account_aliases (l : location) : option N :=
  match l with
  | Location 0 [AccountId32 None id] => Some (account_of_bytes id)
  | Location 0 [AccountId32 net id] => if bool_decide (net = relay_network) then Some (account_of_bytes id) else None
  | _ => None
  end.

(** runtime/kreivo/src/xcm_config.rs:56-67 [LocationToAccountId]: the first converter that answers. *)
Definition or_else {A B} (f g : A -> option B) (x : A) : option B :=
  match f x with Some y => Some y | None => g x end.
Definition location_to_account : location -> option N :=
  or_else parent_is_preset (or_else sibling_converts (or_else plurality_converts (or_else account_from_relay account_aliases))).

(* ------------------------------------------------------------------ *)
(** * Origins to locations *)

(** pallets/communities/src/origin.rs:146-170 [TryFrom<RawOrigin> for Junction]; Permill's accuracy is 1_000_000. *)
Definition community_to_junction (id : N) (s : option subset) : option junction :=
  match s with
  | None => Some (Plurality (BIndex id) Voice)
  | Some (SubMember _) => Some (Plurality (BIndex id) (PMembers 1))
  | Some (SubMembers count) => Some (Plurality (BIndex id) (PMembers count))
  | Some (SubFraction per) => Some (Plurality (BIndex id) (PFraction per 1000000))
  | Some (SubAtLeastRank _) => None
  end.

(** pallets/communities/src/origin.rs:130-143 [TryConvert for RawOrigin] *)
Definition community_to_location (o : origin) : option location :=
  match o with
  | OCommunity id s => (fun j => Location 0 [j]) <$> community_to_junction id s
  | _ => None
  end.

(** runtime/kreivo/src/xcm_config/communities.rs:44-62 [SignedByCommunityToPlurality]; the pallet id is ignored. *)
Definition signed_by_community_to_plurality (o : origin) : option location :=
  match o with
  | OSigned who =>
      match try_from_sub_account who with
      | Some (_, id) => (fun j => Location 0 [j]) <$> community_to_junction id None
      | None => None
      end
  | _ => None
  end.

(** xcm_builder [SignedToAccountId32<_, _, RelayNetwork>] *)
Definition signed_to_account (o : origin) : option location :=
  match o with OSigned who => Some (Location 0 [AccountId32 relay_network (account_bytes who)]) | _ => None end.

(** runtime/kreivo/src/xcm_config.rs:263-267 [CanSendXcmMessages] *)
Definition can_send_xcm : origin -> option location := or_else community_to_location signed_by_community_to_plurality.
(** runtime/kreivo/src/xcm_config.rs:269-273 [CanExecuteXcmTransactions] *)
Definition can_execute_xcm : origin -> option location := or_else community_to_location signed_to_account.

(** sp_arithmetic [Permill::from_rational(n, d)] on u32: floor of the fraction in parts per million, all of it when d = 0 or n >= d. *)
Definition permill_from_rational (n d : N) : N := if (d =? 0) || (d <=? n) then 1000000 else n * 1000000 / d.

(** pallets/communities/src/origin.rs:173-197 [TryFrom<Junction> for RawOrigin] (needs a community id type that holds a u32; not
    instantiated by Kreivo, whose ids are u16). *)
Definition junction_to_community (j : junction) : option (N * option subset) :=
  match j with
  | Plurality (BIndex id) Voice => Some (id, None)
  | Plurality (BIndex id) (PMembers count) => Some (id, Some (SubMembers count))
  | Plurality (BIndex id) (PFraction nom denom) => Some (id, Some (SubFraction (permill_from_rational nom denom)))
  | _ => None
  end.

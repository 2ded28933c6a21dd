(** Kreivo's XCM configuration: reserves, barrier, dispatch origins of remote calls. *)
From Verif Require Import Base XcmTypes OriginTypes AccountsModel.
Open Scope N_scope.

(* ------------------------------------------------------------------ *)
(** * Reserves *)

(** runtime/kreivo/src/constants.rs:122 [ASSET_HUB_ID]; xcm_config.rs:37,171-174 [RelayLocation], [AssetHubLocation], [PolkadotLocation] *)
Definition relay_location : location := Location 1 [].
Definition asset_hub_location : location := Location 1 [Parachain 1000].
Definition polkadot_location : location := Location 2 [GlobalConsensus Polkadot].

(** runtime/kreivo/src/xcm_config.rs:177-185 [matches_prefix] *)
Fixpoint zip_all_eq (a b : list junction) : bool :=
  match a, b with
  | x :: a', y :: b' => bool_decide (x = y) && zip_all_eq a' b'
  | _, _ => true
  end.
Definition matches_prefix (prefix loc : location) : bool :=
  (loc_parents prefix =? loc_parents loc)
  && (length (loc_interior prefix) <=? length (loc_interior loc))%nat
  && zip_all_eq (loc_interior prefix) (loc_interior loc).

(** xcm_builder [NativeAsset] (dependency); runtime/kreivo/src/xcm_config.rs:186-201 [ReserveAssetsFrom], [ReserveForeignAssetsFrom]. The
    first argument is the location of the asset. *)
Definition native_asset (asset origin : location) : bool := bool_decide (asset = origin).
Definition reserve_assets_from (prefix asset origin : location) : bool := matches_prefix prefix asset.
Definition reserve_foreign_assets_from (prefix reserve asset origin : location) : bool :=
  bool_decide (reserve = origin) && matches_prefix prefix asset.
(** runtime/kreivo/src/xcm_config.rs:222-226 [Reserves] *)
Definition is_reserve (asset origin : location) : bool :=
  native_asset asset origin || reserve_assets_from asset_hub_location asset origin ||
  reserve_foreign_assets_from polkadot_location asset_hub_location asset origin.

(* ------------------------------------------------------------------ *)
(** * Barrier *)

(** Two dimensional weights; [all_lte]. *)
Definition weight : Type := N * N.
Definition weight_le (a b : weight) : bool := (fst a <=? fst b) && (snd a <=? snd b).
(** Limits of [BuyExecution] and [UnpaidExecution]: [None] is unlimited. *)
Definition within (need : weight) (limit : option weight) : bool := match limit with None => true | Some w => weight_le need w end.

(** Instructions of a message as far as the barrier tells them apart; [BAssets n] stands for the instructions that put [n] assets into
    holding (WithdrawAsset, ReserveAssetDeposited, ReceiveTeleportedAsset, ClaimAsset). *)
Inductive binstr :=
| BAssets (n : nat)
| BClearOrigin
| BDescendOrigin (js : list junction)
| BUniversalOrigin (j : junction)
| BBuyExecution (limit : option weight)
| BUnpaidExecution (limit : option weight)
| BOther (n : N).

(** runtime/kreivo/src/xcm_config.rs:44-48 [UniversalLocation] *)
Definition universal_location (para : N) : list junction := [GlobalConsensus Polkadot; GlobalConsensus Kusama; Parachain para].

(** xcm [Junctions::relative_to] (dependency) *)
Fixpoint relative_to (js viewed_from : list junction) : location :=
  match js, viewed_from with
  | j :: js', v :: vs => if bool_decide (j = v) then relative_to js' vs else Location (N.of_nat (length viewed_from)) js
  | _, _ => Location (N.of_nat (length viewed_from)) js
  end.

(** xcm_builder [TakeWeightCredit] (dependency) *)
Definition take_weight_credit (credit need : weight) : bool := weight_le need credit.

(** xcm_builder [AllowTopLevelPaidExecutionFrom<Everything>] (dependency, stable2409): among the first five instructions, one that brings at
    most two assets, any number of ClearOrigin, and buying at least the weight needed. *)
Fixpoint skip_clear (l : list binstr) : list binstr := match l with BClearOrigin :: r => skip_clear r | _ => l end.
Definition paid_execution (l : list binstr) (need : weight) : bool :=
  match take 5 l with
  | BAssets n :: r =>
      (n <=? 2)%nat && match skip_clear r with BBuyExecution limit :: _ => within need limit | _ => false end
  | _ => false
  end.

(** runtime/kreivo/src/xcm_config.rs:139-154 [ParentOrParentsExecutivePlurality] *)
Definition parent_or_executive (l : location) : bool :=
  match l with
  | Location 1 [] => true
  | Location 1 [Plurality BExecutive _] => true
  | _ => false
  end.

(** xcm_builder [AllowExplicitUnpaidExecutionFrom] (dependency) *)
Definition unpaid_execution (allowed : location -> bool) (origin : location) (l : list binstr) (need : weight) : bool :=
  allowed origin && match l with BUnpaidExecution limit :: _ => within need limit | _ => false end.

(** xcm_builder [WithComputedOrigin] (dependency): up to [n] instructions that change the origin are followed first. *)
Fixpoint computed_origin (universal : list junction) (n : nat) (origin : location) (l : list binstr) : location * list binstr :=
  match n, l with
  | S n', BUniversalOrigin j :: r => computed_origin universal n' (relative_to [j] universal) r
  | S n', BDescendOrigin js :: r => computed_origin universal n' (Location (loc_parents origin) (loc_interior origin ++ js)) r
  | _, _ => (origin, l)
  end.

(** runtime/kreivo/src/xcm_config.rs:156-167 [Barrier] for a message from [origin] that needs weight [need] when [credit] is left. *)
Definition barrier (para : N) (origin : location) (l : list binstr) (need credit : weight) : bool :=
  take_weight_credit credit need ||
  let '(o, r) := computed_origin (universal_location para) 8 origin l in
  paid_execution r need || unpaid_execution parent_or_executive o r need.

(* ------------------------------------------------------------------ *)
(** * Origins of remote calls *)

(** xcm [OriginKind] (dependency) *)
Inductive origin_kind := KNative | KSovereign | KSuperuser | KXcm.
(** The origin a remote call is dispatched with: a signed account, cumulus_pallet_xcm's [Relay] and [SiblingParachain], pallet_xcm's [Xcm]. *)
Inductive remote_origin := RoSigned (a : N) | RoRelay | RoSibling (para : N) | RoXcm (l : location).

(** runtime/kreivo/src/xcm_config.rs:113-130 [XcmOriginToTransactDispatchOrigin]: SovereignSignedViaLocation, RelayChainAsNative,
    SiblingParachainAsNative, SignedAccountId32AsNative, XcmPassthrough (dependencies), the first that answers. *)
Definition transact_origin (l : location) (k : origin_kind) : option remote_origin :=
  match k with
  | KSovereign => RoSigned <$> location_to_account l
  | KNative =>
      match l with
      | Location 1 [] => Some RoRelay
      | Location 1 [Parachain id] => Some (RoSibling id)
      | Location 0 [AccountId32 net id] =>
          if bool_decide (net = None) || bool_decide (net = relay_network) then Some (RoSigned (account_of_bytes id)) else None
      | _ => None
      end
  | KXcm => Some (RoXcm l)
  | KSuperuser => None
  end.

(** runtime/kreivo/src/lib.rs:389-390 [CollatorSelectionUpdateOrigin]: root, or the voice of the relay chain's Defense body. *)
Definition collator_update_origin (o : origin) : bool :=
  match o with
  | ORoot => true
  | OXcm l => bool_decide (l = Location 1 [Plurality BDefense Voice])
  | _ => false
  end.

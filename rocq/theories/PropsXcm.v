(** Property theorems C57, C58, C79, C80: messages from other chains. *)
From Verif Require Import Base XcmTypes AssetLocationModel OriginTypes AccountsModel XcmConfigModel XcmConfigSpec XcmBarrierSpec XcmConfigProofs XcmConfigTheorems.
Open Scope N_scope.

(** C57, the full claim is false: assets of the asset hub are accepted from any chain that pays for its message, e.g. asset 1984 (USDT)
    from sibling 2000; the asset is one that accounts here hold. *)
Theorem C57_reserves_refuted : exists asset id origin,
  convert asset = Val (Some id) /\ (exists home, home_chain asset home /\ home <> origin) /\ is_reserve asset origin = true /\
  (forall para need credit rest, barrier para origin (BAssets 1 :: BBuyExecution None :: rest) need credit = true).
Proof. exact reserve_from_stranger. Qed.
Print Assumptions C57_reserves_refuted.
(** C57, what holds: exactly when a reserve is accepted; assets not of the asset hub are accepted only from their own location, or those
    of Polkadot from the asset hub. *)
Theorem C57_reserves_partial :
  (forall asset origin, is_reserve asset origin = true <->
     asset = origin \/ extends (Location 1 [Parachain 1000]) asset \/ (origin = Location 1 [Parachain 1000] /\ extends (Location 2 [GlobalConsensus Polkadot]) asset)) /\
  (forall asset origin, ~ extends (Location 1 [Parachain 1000]) asset -> is_reserve asset origin = true ->
     origin = asset \/ (origin = Location 1 [Parachain 1000] /\ extends (Location 2 [GlobalConsensus Polkadot]) asset)).
Proof. split; [exact reserves_exact|exact reserves_elsewhere]. Qed.
Print Assumptions C57_reserves_partial.
Example C57_case : is_reserve (Location 1 []) (Location 1 []) = true /\ is_reserve (Location 1 []) (Location 1 [Parachain 1000]) = false /\
  is_reserve (Location 2 [GlobalConsensus Polkadot]) (Location 1 [Parachain 1000]) = true /\
  is_reserve (Location 2 [GlobalConsensus Polkadot]) (Location 1 [Parachain 2000]) = false.
Proof. split_and!; vm_compute; reflexivity. Qed.

(** C58 *)
Theorem C58_prefix : forall prefix loc, matches_prefix prefix loc = true <-> extends prefix loc.
Proof. exact prefix_exact. Qed.
Print Assumptions C58_prefix.
Example C58_case : matches_prefix (Location 1 [Parachain 1000]) (Location 1 [Parachain 1000; PalletInstance 50; GeneralIndex 1984]) = true /\
  matches_prefix (Location 1 [Parachain 1000]) (Location 1 []) = false /\ matches_prefix (Location 1 [Parachain 1000]) (Location 2 [Parachain 1000]) = false /\
  matches_prefix (Location 1 [Parachain 1000; PalletInstance 50]) (Location 1 [Parachain 1000; PalletInstance 51]) = false.
Proof. split_and!; vm_compute; reflexivity. Qed.

(** C79: a message that needs weight is executed only if it pays for at least that weight, or is from the relay chain or its executive
    (and says it does not pay); ... *)
Theorem C79_no_free_execution : forall para origin l need, need <> (0, 0) -> barrier para origin l need (0, 0) = true ->
  exists k, (k <= 8)%nat /\
  ((exists n j limit rest, drop k l = BAssets n :: replicate j BClearOrigin ++ BBuyExecution limit :: rest /\ (n <= 2)%nat /\ (j <= 3)%nat /\ limit_covers need limit) \/
   (exists limit rest part, drop k l = BUnpaidExecution limit :: rest /\ limit_covers need limit /\
      (forall i x, (i < k)%nat -> l !! i = Some x -> exists js, x = BDescendOrigin js) /\
      let inner := concat (map (fun x => match x with BDescendOrigin js => js | _ => [] end) (take k l)) in
      (origin = Location 1 [] /\ (inner = [] \/ inner = [Plurality BExecutive part]) \/
       origin = Location 1 [Plurality BExecutive part] /\ inner = []))).
Proof. exact barrier_lets_through. Qed.
Print Assumptions C79_no_free_execution.
(** ... and those are executed. *)
Theorem C79_execution :
  (forall para origin n j rest need limit credit, (n <= 2)%nat -> (j <= 3)%nat -> limit_covers need limit ->
     barrier para origin (BAssets n :: replicate j BClearOrigin ++ BBuyExecution limit :: rest) need credit = true) /\
  (forall para rest need limit credit, limit_covers need limit ->
     barrier para (Location 1 []) (BUnpaidExecution limit :: rest) need credit = true).
Proof. split; [exact paid_let_through|exact relay_let_through]. Qed.
Print Assumptions C79_execution.
Example C79_case : barrier 2281 (Location 1 [Parachain 2000]) [BUnpaidExecution None; BOther 1] (1000, 10) (0, 0) = false /\
  barrier 2281 (Location 1 [Parachain 2000]) [BDescendOrigin [AccountId32 None []]; BAssets 1; BBuyExecution (Some (1000, 10)); BOther 1] (1000, 10) (0, 0) = true /\
  barrier 2281 (Location 1 [Parachain 2000]) [BAssets 1; BBuyExecution (Some (1000, 9)); BOther 1] (1000, 10) (0, 0) = false /\
  barrier 2281 (Location 1 []) [BDescendOrigin [Plurality BExecutive Voice]; BUnpaidExecution None; BOther 1] (1000, 10) (0, 0) = true.
Proof. split_and!; vm_compute; reflexivity. Qed.

(** C80: a call sent by another chain is signed only by the account of that very location, is a native origin only of that very chain, or
    an XCM origin carrying that very location; it is never root's, a community's or any other origin of this runtime. *)
Theorem C80_remote_calls :
  (forall l k a, transact_origin l k = Some (RoSigned a) ->
     location_to_account l = Some a) /\
  (forall l k, transact_origin l k = Some RoRelay <-> l = Location 1 [] /\ k = KNative) /\
  (forall l k n, transact_origin l k = Some (RoSibling n) <-> l = Location 1 [Parachain n] /\ k = KNative) /\
  (forall l k l', transact_origin l k = Some (RoXcm l') <-> l' = l /\ k = KXcm) /\
  (forall l, transact_origin l KSuperuser = None).
Proof. split_and!; [exact transact_signed|exact transact_relay|exact transact_sibling|exact transact_xcm|exact transact_superuser]. Qed.
Print Assumptions C80_remote_calls.
(** An account is heard on both ways open to it: through the account its location stands for, and, on this chain, as itself. *)
Theorem C80_heard :
  (forall l a, transact_origin l KSovereign = Some (RoSigned a) <-> location_to_account l = Some a) /\
  (forall l a, transact_origin l KNative = Some (RoSigned a) <->
     exists net id, l = Location 0 [AccountId32 net id] /\ (net = None \/ net = relay_network) /\ a = account_of_bytes id).
Proof. split; [exact transact_sovereign|exact transact_native]. Qed.
Print Assumptions C80_heard.
Example C80_case : transact_origin (Location 1 [Parachain 2000]) KSovereign = Some (RoSigned (sibling_account 2000)) /\
  transact_origin (Location 1 [Parachain 2000; AccountId32 None []]) KSovereign = None.
Proof. by split. Qed.

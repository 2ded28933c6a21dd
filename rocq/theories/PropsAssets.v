(** Property theorems C07-C10 about asset ids (common/src/multilocation_asset_id.rs). *)
From Verif Require Import Base XcmTypes AssetLocationModel AssetLocationProofs.

(** C07. Every asset id has a location that converts back to it; different assets have different locations. *)
Theorem C07_asset_to_location_roundtrip :
  (forall a, asset_id_wf a -> exists l, convert_back a = Some l /\ location_wf l /\ convert l = Val (Some a)) /\
  (forall a b l, asset_id_wf a -> asset_id_wf b -> convert_back a = Some l -> convert_back b = Some l -> a = b).
Proof. exact asset_location_roundtrip. Qed.
Print Assumptions C07_asset_to_location_roundtrip.

Example C07_case : asset_id_wf (External (AEthereum 1) (Some (Para 2000 50 7))).
Proof. vm_compute. repeat split; discriminate. Qed.

(** C08. A recognised location is the location of the asset it was recognised as; no aliases. *)
Theorem C08_location_to_asset_faithful :
  (forall l a, location_wf l -> convert l = Val (Some a) -> asset_id_wf a /\ convert_back a = Some l) /\
  (forall l1 l2 a, location_wf l1 -> location_wf l2 ->
     convert l1 = Val (Some a) -> convert l2 = Val (Some a) -> l1 = l2).
Proof. exact location_asset_faithful. Qed.
Print Assumptions C08_location_to_asset_faithful.

Example C08_case :
  convert (Location 1 [Parachain 1000; PalletInstance 50; GeneralIndex 1984]) = Val (Some (Sibling (Para 1000 50 1984))).
Proof. vm_compute. reflexivity. Qed.

(** C09. A location in this chain's assets pallet with an index above u32 panics. *)
Theorem C09_convert_never_panics_refuted : exists l, location_wf l /\ convert l = Panic.
Proof. exact convert_panics. Qed.
Print Assumptions C09_convert_never_panics_refuted.

(** C09, exactly which locations crash; missing for the full claim: those of the right-hand side. *)
Theorem C09_convert_never_panics_partial : forall l,
  convert l = Panic <-> exists ix, u32_max < ix /\ l = Location 0 [PalletInstance 13; GeneralIndex ix].
Proof. exact convert_panic_iff. Qed.
Print Assumptions C09_convert_never_panics_partial.

(** C10. SCALE codec of asset ids. *)
Theorem C10_asset_scale_codec :
  (forall a rest, asset_id_wf a -> dec_asset (enc_asset a ++ rest) = Some (a, rest)) /\
  (forall input a rest, is_bytes input -> dec_asset input = Some (a, rest) -> asset_id_wf a /\ input = enc_asset a ++ rest) /\
  (forall a, is_bytes (enc_asset a) /\ (length (enc_asset a) <= asset_max_encoded_len)%nat) /\
  (forall a b rest1 rest2, asset_id_wf a -> asset_id_wf b ->
     enc_asset a ++ rest1 = enc_asset b ++ rest2 -> a = b /\ rest1 = rest2).
Proof. exact asset_scale_codec. Qed.
Print Assumptions C10_asset_scale_codec.

Example C10_case : enc_asset (External (AEthereum 1) (Some (Para 2000 50 7))) =
  [2; 2; 1;0;0;0;0;0;0;0; 1; 208;7; 50; 7;0;0;0].
Proof. vm_compute. reflexivity. Qed.

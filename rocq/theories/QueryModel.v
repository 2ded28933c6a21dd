(** The balances of an account as told by the runtime API: runtime/kreivo/src/apis.rs:85-111. *)
From Verif Require Import Base XcmTypes AssetLocationModel XcmCountable OriginTypes XcmConfigModel.
From stdpp Require Import gmap.
Open Scope N_scope.

(** xcm v4 [Assets::from(Vec<Asset>)] (dependency): sorted, entries for the same location added up. The order is not modelled: the result is a map. *)
Definition merge_assets (l : list (location * N)) : gmap location N :=
  foldr (fun a m => <[fst a := sat128 (default 0 (m !! fst a) + snd a)]> m) ∅ l.

(** assets_common [fungible_conversion::convert] (dependency): fails if one of the ids has no location. The ids are not matched against the prefixes of
    [LocationConvertedConcreteId] (runtime/kreivo/src/xcm_config.rs:69-76). *)
Fixpoint convert_all (l : list (asset_id * N)) : option (list (location * N)) :=
  match l with
  | [] => Some []
  | (id, n) :: r =>
      match convert_back id, convert_all r with
      | Some k, Some r' => Some ((k, n) :: r')
      | _, _ => None
      end
  end.

(** apis.rs:90-110 [query_account_balances]: the native free balance, and the balances of all assets the account has ([Assets::account_balances]), without
    those that are zero. *)
Definition query_account_balances (native : N) (assets : gmap asset_id N) : option (gmap location N) :=
  let own := if 0 <? native then [(relay_location, native)] else [] in
  match convert_all (filter (fun x => 0 < snd x) (map_to_list assets)) with
  | Some l => Some (merge_assets (own ++ l))
  | None => None
  end.

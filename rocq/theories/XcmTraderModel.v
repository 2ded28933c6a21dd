(** What execution costs and what of it is refunded: [Traders], runtime/kreivo/src/xcm_config.rs:202-220. *)
From Verif Require Import Base XcmTypes AssetLocationModel OriginTypes XcmConfigModel RuntimeModel XcmInstrModel XcmWeightsModel.
From stdpp Require Import gmap.
Open Scope N_scope.

(** sp_arithmetic [FixedU128] (dependency): [saturating_from_rational], [saturating_mul_int], both rounding down; 10^18 stands for one. *)
Definition fixed_ratio (n d : N) : N := sat128 (n * 1000000000000000000 / d).
Definition fixed_mul (f n : N) : N := sat128 (f * n / 1000000000000000000).

(** pallet_assets [BalanceToAssetBalance] (dependency): native tokens in terms of an asset, by their minimum balances. [info] says of an asset
    that exists whether it is sufficient, and its minimum balance. *)
Definition to_asset_balance (info : asset_id -> option (bool * N)) (n : N) (id : asset_id) : option N :=
  match info id with
  | Some (true, min) => Some (fixed_mul (fixed_ratio min EXISTENTIAL_DEPOSIT) n)
  | _ => None
  end.
Definition min_balance (info : asset_id -> option (bool * N)) (id : asset_id) : N := match info id with Some (_, min) => min | None => 0 end.

(** runtime/kreivo/src/xcm_config.rs:69-76 [LocationConvertedConcreteId]: the assets of the asset hub and of Polkadot. *)
Definition fee_asset_id (l : location) : option asset_id :=
  if matches_prefix asset_hub_location l || matches_prefix polkadot_location l
  then match convert l with Val (Some id) => Some id | _ => None end
  else None.

(** What traders remember: the asset paid with and how much of it is not refunded (cumulus [TakeFirstAssetTrader], dependency; the weight
    it also keeps is never read); the weight bought with native tokens and how much of them is not refunded (xcm_builder
    [UsingComponents], dependency). *)
Record trader := Trader {
  tr_asset : option (location * N);
  tr_weight : weight;
  tr_native : N
}.
Definition no_trader : trader := Trader None (0, 0) 0.

Section trader.
  Context (base : N) (info : asset_id -> option (bool * N)).

  (** runtime/kreivo/src/xcm_config.rs:202-207 [AssetFeeAsExistentialDepositMultiplierFeeCharger] *)
  Definition charge_in_asset (id : asset_id) (w : weight) : option N := to_asset_balance info (weight_to_fee base w) id.

  (** [TakeFirstAssetTrader::buy_weight]: one purchase per message, at least the minimum balance. The second component is the price. *)
  Definition buy_with_asset (t : trader) (w : weight) (a : location * N) : option (trader * N) :=
    match tr_asset t, fee_asset_id (fst a) with
    | None, Some id =>
        match charge_in_asset id w with
        | Some c =>
            let price := N.max c (min_balance info id) in
            if price <=? snd a then Some (Trader (Some (fst a, price)) (tr_weight t) (tr_native t), price) else None
        | None => None
        end
    | _, _ => None
    end.
  (** [UsingComponents::buy_weight] *)
  Definition buy_with_native (t : trader) (w : weight) (a : location * N) : option (trader * N) :=
    let price := weight_to_fee base w in
    if bool_decide (fst a = relay_location) && (price <=? snd a)
    then Some (Trader (tr_asset t) (weight_sat_add (tr_weight t) w) (sat128 (tr_native t + price)), price)
    else None.
  (** The traders are tried in turn. *)
  Definition buy_weight (t : trader) (w : weight) (a : location * N) : option (trader * N) :=
    match buy_with_asset t w a with Some q => Some q | None => buy_with_native t w a end.

  (** [TakeFirstAssetTrader::refund_weight]: the minimum balance is kept. *)
  Definition refund_asset (t : trader) (w : weight) : trader * option (location * N) :=
    match tr_asset t with
    | Some (k, out) =>
        match fee_asset_id k with
        | Some id =>
            match charge_in_asset id w with
            | Some c =>
                let min := min_balance info id in
                let '(back, rest) := if min <? out - c then (c, out - c) else (out - min, min) in
                (Trader (Some (k, rest)) (tr_weight t) (tr_native t), if 0 <? back then Some (k, back) else None)
            | None => (t, None)
            end
        | None => (t, None)
        end
    | None => (t, None)
    end.
  (** [UsingComponents::refund_weight]: the price of the weight handed back, at most that bought, whatever was paid for it. *)
  Definition refund_native (t : trader) (w : weight) : trader * option (location * N) :=
    let w' := weight_min w (tr_weight t) in
    let back := weight_to_fee base w' in
    (Trader (tr_asset t) (weight_sub (tr_weight t) w') (tr_native t - back), if 0 <? back then Some (relay_location, back) else None).
  Definition refund_weight (t : trader) (w : weight) : trader * option (location * N) :=
    match refund_asset t w with
    | (t', Some a) => (t', Some a)
    | (t', None) => refund_native t' w
    end.
End trader.

(** What is not refunded in the end; it is handed over when the traders are dropped. *)
Definition outstanding (t : trader) : list (location * N) :=
  match tr_asset t with Some a => [a] | None => [] end ++ (if tr_native t =? 0 then [] else [(relay_location, tr_native t)]).

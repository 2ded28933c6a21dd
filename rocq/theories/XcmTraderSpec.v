(** Vocabulary for the price of execution. *)
From Verif Require Import Base XcmTypes AssetLocationModel OriginTypes PaymentsSpec XcmConfigModel XcmConfigSpec RuntimeModel XcmInstrModel XcmWeightsModel XcmTraderModel.
From stdpp Require Import gmap.
Open Scope N_scope.

(** Native tokens in terms of an asset with this minimum balance: the ratio of the minimum balances, cut after 18 decimals, times the amount,
    rounded down; both capped at the largest balance. *)
Definition in_terms_of (min n : N) : N := N.min u128_max (N.min u128_max (min * 10 ^ 18 / EXISTENTIAL_DEPOSIT) * n / 10 ^ 18).

(** What weight [w] costs in the asset at [k]: in the relay chain's token the fee for the weight; in a sufficient asset of the asset hub or
    of Polkadot the same in terms of the asset, but at least its minimum balance. *)
Inductive price_in (base : N) (info : asset_id -> option (bool * N)) (w : weight) : location -> N -> Prop :=
| price_native : price_in base info w (Location 1 []) (weight_to_fee base w)
| price_asset k id min : extends (Location 1 [Parachain 1000]) k \/ extends (Location 2 [GlobalConsensus Polkadot]) k -> convert k = Val (Some id) ->
    info id = Some (true, min) -> price_in base info w k (N.max (in_terms_of min (weight_to_fee base w)) min).

(** Units of an asset in a list; units that traders keep. *)
Definition amt (l : list (location * N)) (k : location) : N := foldr (fun a acc => ind (bool_decide (fst a = k)) (snd a) + acc) 0 l.
Definition owed (t : trader) (k : location) : N := amt (outstanding t) k.

(** The fee for weight is the larger of the fees for its two parts; this is the smaller one, with two units for rounding. *)
Definition other_fee (base : N) (w : weight) : N := N.min (ref_time_fee base (fst w)) (proof_size_fee (snd w)) + 2.
(** By how much an instruction can make refunds exceed what was paid. *)
Definition excess_of (base : N) (i : xinstr) : N :=
  match i with
  | XBuy _ (Some w) => other_fee base w
  | XRefund => 1
  | _ => 0
  end.
Definition buys (i : xinstr) : bool := match i with XBuy _ _ => true | _ => false end.
Definition asks_refund (i : xinstr) : bool := match i with XRefund => true | _ => false end.

(** Vocabulary for what transactions pay. *)
From stdpp Require Import gmap.
From Verif Require Import Base XcmTypes AssetLocationModel OriginTypes AccountsModel PaymentsSpec XcmConfigModel XcmInstrModel RuntimeModel XcmTraderModel XcmTraderSpec CostModel
  TxFeesModel.
Open Scope N_scope.

(** What a call of weight [w] in a transaction of [len] bytes costs with fee multiplier [mult] (10^18 stands for one), in full: the fee for the weight of an
    empty transaction (125 microseconds), 0.01 cents a byte, the fee for the weight, of which no more than fits a block counts, and the tip. *)
Definition whole_fee (mult len : N) (w : weight) (tip : N) : N :=
  weight_to_fee 108157000 (125000000, 0) + len * (10 * MILLICENTS) +
  mult * weight_to_fee 108157000 (N.min (fst w) 2000000000000, N.min (snd w) (5 * 1024 * 1024)) / 10 ^ 18 + tip.

(** What a transaction is to pay before its call runs, and what once the result of the call is known. *)
Definition announced (e : fenv) (t : tx) : N := tx_fee (fe_mult e) (tx_len t) (ci_weight (tx_info t)) (ci_free (tx_info t)) (tx_tip t).
Definition due (e : fenv) (t : tx) (r : call_result) : N :=
  tx_fee (fe_mult e) (tx_len t) (charged_weight (tx_info t) r) (charged_free (tx_info t) r) (tx_tip t).

(** The transaction has to pay. *)
Definition has_to_pay (e : fenv) (t : tx) : Prop :=
  fe_feeless e = false /\ fe_gas e (tx_payer t) (ci_weight (tx_info t)) = false /\ announced e t <> 0.

(** An amount counted where the token and the account are given ones. *)
Definition at_ (k : option asset_id) (who : N) (k' : option asset_id) (who' n : N) : N := ind (bool_decide (k' = k /\ who' = who)) n.

(** The payer's balance less what the transaction pays in advance, nothing else changed. *)
Definition charged_first (l : fledger) (k : option asset_id) (who n : N) (l1 : fledger) : Prop :=
  n <= l k who /\ forall k' who', l1 k' who' + at_ k who k' who' n = l k' who'.
(** The call took the balances from [l1] to [l2]; if it failed it changed nothing. *)
Definition call_took (call : fledger -> fledger * call_result) (l1 l2 : fledger) (r : call_result) : Prop :=
  match r with
  | RanOk _ => call l1 = (l2, r)
  | RanErr _ => (exists l', call l1 = (l', r)) /\ l2 = l1
  end.

(** No balance, with the fee added, is more than a balance can be. *)
Definition room (l : fledger) (n : N) : Prop := forall k who, l k who + n <= u128_max.

(** An amount of native tokens in an asset with this minimum balance: at least one unit unless it is nothing. *)
Definition in_asset (min n : N) : N := N.max (in_terms_of min n) (N.min n 1).
(** What the author of the block gets, if there is one. *)
Definition to_author (e : fenv) (k : option asset_id) (k' : option asset_id) (who n : N) : N :=
  match fe_author e with Some a => at_ k a k' who n | None => 0 end.

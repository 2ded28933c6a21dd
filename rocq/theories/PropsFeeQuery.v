(** Property theorem C150: what wallets are told about fees. Words: TxFeesSpec.v; [told] is what [query_info] answers for a signed transaction. *)
From Verif Require Import BlocksModel FeeMultiplierModel FeeMultiplierSpec FeeMultiplierProofs
  Base XcmTypes CommunitiesModel XcmConfigModel XcmInstrModel XcmWeightsModel RuntimeModel XcmTraderModel CostModel TxFeesModel TxFeesSpec TxFeesProofs FeeQueryModel FeeQueryProofs PropsFees.
Open Scope N_scope.

(** The fee told, with the tip, is what is charged before the call runs; ... *)
Theorem C150_announced : forall e t,
  announced e t = N.min (told (fe_mult e) t + tx_tip t) (2 ^ 128 - 1).
Proof. exact told_announced. Qed.
Print Assumptions C150_announced.
(** ... whoever has it gets the transaction included, and pays no more; ... *)
Theorem C150_enough : forall e l t call,
  has_to_pay e t -> tx_asset t = None ->
  told (fe_mult e) t + tx_tip t + N.max (fe_stays e None (tx_payer t)) EXISTENTIAL_DEPOSIT <= l None (tx_payer t) ->
  apply_tx e l t call <> None /\ forall r, due e t r <= told (fe_mult e) t + tx_tip t.
Proof. exact told_enough. Qed.
Print Assumptions C150_enough.
(** ... in a later block it is no more than 57 millionths higher for every block in between, ... *)
Theorem C150_later : forall m l len i tip,
  10 ^ 18 <= 10 * m -> m <= 2 ^ 128 - 1 ->
  1000000 ^ N.of_nat (length l) * tx_fee (multiplier_after m l) len (ci_weight i) (ci_free i) tip <=
  1000057 ^ N.of_nat (length l) * (snd (query_info m true len i) + tip + 1).
Proof. exact told_later. Qed.
Print Assumptions C150_later.
(** ... that is six thousandths after a hundred blocks; ... *)
Theorem C150_soon : forall e t m l,
  10 ^ 18 <= 10 * m -> m <= 2 ^ 128 - 1 -> N.of_nat (length l) <= 100 -> fe_mult e = multiplier_after m l ->
  1000 * announced e t <= 1006 * (told m t + tx_tip t + 1).
Proof. exact told_soon. Qed.
Print Assumptions C150_soon.
(** ... the parts told add up to it and are what they are called: the base fee is what an empty call would cost, the others the shares told for length and weight; ... *)
Theorem C150_parts : forall m signed len i,
  snd (query_info m signed len i) =
  match query_fee_details m signed len i with Some (b, l, w) => N.min (b + l + w) (2 ^ 128 - 1) | None => 0 end /\
  (query_fee_details m signed len i = None <-> signed = false \/ ci_free i = true) /\
  (forall b l w, query_fee_details m signed len i = Some (b, l, w) ->
    b = snd (query_info m true 0 (CallInfo (0, 0) false)) /\ l = query_length_to_fee len /\ w = N.min (m * query_weight_to_fee (ci_weight i) / 10 ^ 18) (2 ^ 128 - 1)) /\
  (signed = true -> query_call_info m len i = query_info m signed len i /\ query_call_fee_details m len i = query_fee_details m signed len i).
Proof. exact told_parts. Qed.
Print Assumptions C150_parts.
(** ... and what is told for a length is its share, and what is told for a weight is its share times the multiplier. *)
Theorem C150_shares : forall m len i,
  ci_free i = false -> m <= 2 ^ 128 - 1 -> snd (query_info m true len i) <= 2 ^ 128 - 2 ->
  snd (query_info m true len i) = snd (query_info 0 true 0 i) + query_length_to_fee len + m * query_weight_to_fee (ci_weight i) / 10 ^ 18.
Proof. exact told_weight. Qed.
Print Assumptions C150_shares.
Example C150_case : query_info (10 ^ 18) true 150 (CallInfo w_vote false) = (w_vote, 708785257) /\ announced case_env (case_tx None) = 708785257 /\
  told (10 ^ 18) (case_tx None) = 708785257 /\ query_fee_details (10 ^ 18) true 150 (CallInfo w_vote false) = Some (3852424, 499999500, 204933333).
Proof. split_and!; vm_compute; reflexivity. Qed.
(** A call is told to cost a fee even where none is charged. *)
Example C150_feeless : let e := FEnv (10 ^ 18) (fun _ => None) (fun _ => None) (fun _ _ => 0) (fun _ => 0) (fun _ _ => true) (fun _ _ => true) None true (fun _ _ => false) in
  told (fe_mult e) (case_tx None) = 708785257 /\ (fun x => fst x None 5) <$> apply_tx e case_ledger (case_tx None) (fun l => (l, RanOk (PostInfo None false))) = Some 10000000000.
Proof. split; vm_compute; reflexivity. Qed.

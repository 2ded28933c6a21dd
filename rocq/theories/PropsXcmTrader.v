(** Property theorems C99 to C101: what executing a message costs, and what of it comes back. *)
From Verif Require Import Base XcmTypes AssetLocationModel OriginTypes AccountsModel PaymentsSpec XcmConfigModel XcmConfigSpec XcmCountable RuntimeModel XcmExecModel XcmExecSpec
  XcmWeightsSpec XcmTraderSpec XcmSurplusSpec XcmNativeProofs XcmSurplusProofs.
From stdpp Require Import gmap.
Open Scope N_scope.

(** C99: a first purchase succeeds just if the message holds what it offers and that covers the price; ... *)
Theorem C99_first_purchase : forall e m fee need, m_trader m = no_trader ->
  ((exists m', exec_instr e m (XBuy fee (Some need)) = XOk m') <-> snd fee <= held_of (m_hold m) (fst fee) /\ exists price, costs e need (fst fee) price /\ price <= snd fee).
Proof. exact first_purchase. Qed.
Print Assumptions C99_first_purchase.
(** ... the price grows with the weight; ... *)
Theorem C99_monotone : forall base info w w' k p p', price_in base info w k p -> price_in base info w' k p' -> fst w <= fst w' -> snd w <= snd w' -> p <= p'.
Proof. exact price_monotone. Qed.
Print Assumptions C99_monotone.
(** ... in an asset it is what the native fee is worth by the minimum balances, rounded down; ... *)
Theorem C99_terms : forall min n, in_terms_of min n * EXISTENTIAL_DEPOSIT <= min * n /\
  (min <= 10 ^ 27 -> n <= 10 ^ 18 -> min * n * 10 ^ 18 <= (in_terms_of min n + 1) * EXISTENTIAL_DEPOSIT * 10 ^ 18 + n * EXISTENTIAL_DEPOSIT).
Proof. exact terms_accurate. Qed.
Print Assumptions C99_terms.
(** ... and a message pays in one such asset once. *)
Theorem C99_one_asset : forall e n ch origin p m k units fee need, xsteps e n (start ch origin p) = XOk m -> k <> Location 1 [] -> owed (m_trader m) k = units -> units <> 0 ->
  fst fee <> Location 1 [] -> exec_instr e m (XBuy fee (Some need)) = XErr.
Proof. exact later_purchase. Qed.
Print Assumptions C99_one_asset.
Example C99_case : costs (calm_env 1) (340824000, 3613) (Location 1 []) 120433333 /\ costs (calm_env 10000) (340824000, 3613) usdt 36130 /\
  in_terms_of 10000 120433333 = 36130 /\ EXISTENTIAL_DEPOSIT = 33333333.
Proof.
  split_and!; [..|vm_compute; reflexivity|vm_compute; reflexivity].
  - refine (price_native _ _ (340824000, 3613)).
  - refine (price_asset _ _ (340824000, 3613) usdt usdt_id 10000 _ eq_refl eq_refl). left. by exists [PalletInstance 50; GeneralIndex 1984].
Qed.

(** C100, the full claim is false: a parachain's message is refunded more than it paid and leaves its account with 15 billion units more, created
    out of nothing. *)
Theorem C100_refund_refuted : exists e para ch p ch', receive_message e para ch (Location 1 [Parachain 2000]) p = XOk ch' /\
  in_existence ch' None (Location 1 []) = in_existence ch None (Location 1 []) + 15290355740 /\
  bal ch' None (sibling_account 2000) = bal ch None (sibling_account 2000) + 15290355740.
Proof. exact sibling_pumps. Qed.
Print Assumptions C100_refund_refuted.
(** C100, what holds: refunds in assets are taken off what was paid, of which at least the minimum balance stays; ... *)
Theorem C100_assets_partial : forall e n ch origin p m w k, xsteps e n (start ch origin p) = XOk m -> k <> Location 1 [] ->
  let r := refund_weight (xe_base e) (xe_asset e) (m_trader m) w in
  owed (fst r) k + match snd r with Some a => ind (bool_decide (fst a = k)) (snd a) | None => 0 end = owed (m_trader m) k /\
  (forall id min, convert k = Val (Some id) -> xe_asset e id = Some (true, min) -> owed (m_trader m) k <> 0 -> min <= owed (fst r) k).
Proof. exact asset_refunds. Qed.
Print Assumptions C100_assets_partial.
(** ... messages that do not ask for refunds, and buy execution at most once, create no native token, others at most a unit for every further purchase; ... *)
Theorem C100_no_request_partial : forall e para ch n p need ch', receive e para ch (Location 1 [Parachain n]) p need = XOk ch' -> how_many asks_refund p = 0%nat ->
  in_existence ch' None (Location 1 []) <= in_existence ch None (Location 1 []) + N.of_nat (how_many buys p - 1).
Proof. exact sibling_modest. Qed.
Print Assumptions C100_no_request_partial.
(** ... and no message more than the smaller of the two fees of each purchase, and a few units. *)
Theorem C100_bound_partial : forall e para ch n p need ch', receive e para ch (Location 1 [Parachain n]) p need = XOk ch' ->
  in_existence ch' None (Location 1 []) <= in_existence ch None (Location 1 []) + other_fee (xe_base e) need + total_of (excess_of (xe_base e)) p + 1.
Proof. exact sibling_bounded. Qed.
Print Assumptions C100_bound_partial.
Example C100_case : how_many asks_refund pump = 2%nat /\ how_many buys pump = 1%nat /\ total_of (excess_of 108157000) pump = 2 /\
  (other_fee 108157000 <$> weigh pump) = Some 15446684474.
Proof. split_and!; vm_compute; reflexivity. Qed.

(** C101: what is left over at the end is exactly what the message was found to need less what it used; ... *)
Theorem C101_surplus : forall e para ch origin p need p' n m, honest_calls e -> weigh p = Some need -> let_through para origin p need (0, 0) = Some p' -> runs e ch origin p' n m ->
  fst (m_surplus m) + used_time e (tried e n (start ch origin p')) = fst need /\ snd (m_surplus m) + used_proof e (tried e n (start ch origin p')) = snd need.
Proof. exact surplus_exact. Qed.
Print Assumptions C101_surplus.
(** ... a message that buys once and asks for no refund pays the price of what it needs less that of what it did not use, in an asset at least its minimum
    balance; ... *)
Theorem C101_price : forall e para ch origin p need p' n m k paid, honest_calls e -> weigh p = Some need -> need <> (0, 0) -> parent_or_executive origin = false ->
  let_through para origin p need (0, 0) = Some p' -> runs e ch origin p' n m -> (how_many buys p <= 1)%nat -> how_many asks_refund p = 0%nat ->
  owed (m_trader m) k = paid -> paid <> 0 -> (size (m_hold m) < 128)%nat ->
  let unused := (fst need - used_time e (tried e n (start ch origin p')), snd need - used_proof e (tried e n (start ch origin p'))) in
  costs e need k paid /\
  owed (m_trader (settled e m)) k =
    (if bool_decide (k = Location 1 []) then paid - weight_to_fee (xe_base e) unused
     else match convert k with
          | Val (Some id) => match xe_asset e id with Some (_, min) => N.max (paid - in_terms_of min (weight_to_fee (xe_base e) unused)) min | None => paid end
          | _ => paid
          end).
Proof. exact final_price. Qed.
Print Assumptions C101_price.
(** ... and after a refund there is nothing more to refund. *)
Theorem C101_once : forall e n ch origin p m m1, xsteps e n (start ch origin p) = XOk m -> exec_instr e m XRefund = XOk m1 ->
  fst (m_refunded m1) <= fst (m_surplus m1) /\ snd (m_refunded m1) <= snd (m_surplus m1) /\
  (m_hold m1 <> m_hold m -> exec_instr e m1 XRefund = XOk m1 /\ settled e m1 = m1).
Proof. exact refunded_once. Qed.
Print Assumptions C101_once.
Definition spare_env : xenv :=
  let e := calm_env 1 in XEnv (xe_withdraw_ok e) (xe_dust e) (xe_deposit_ok e) (xe_base e) (xe_asset e) (xe_delivery e) (xe_send_ok e) (xe_check_account e) (xe_checked e)
    (xe_call_ok e) (fun _ => (50000000, 2000)) (fun _ _ => (20000000, 1500)) (xe_other_ok e).
Definition spare_chain : chain := Chain {[(None, sibling_account 2000) := 10 ^ 12]} [] [] 0.
Definition spare_program : list xinstr :=
  [XWithdraw [(relay_location, 10 ^ 12)]; XBuy (relay_location, 10 ^ 12) None; XSetErrorHandler [XClearOrigin]; XSetErrorHandler [XOther ClearError]; XTransact KSovereign (90000000, 3000) 7;
   XSetAppendix [XDeposit FAll (Location 1 [])]; XTrap; XClaim []].
Definition spare_run : option (machine * list xinstr) :=
  match weigh spare_program with
  | Some need =>
      match let_through 2281 (Location 1 [Parachain 2000]) spare_program need (0, 0) with
      | Some p => match xsteps spare_env 20 (start spare_chain (Location 1 [Parachain 2000]) p) with XOk m => Some (m, p) | _ => None end
      | None => None
      end
  | None => None
  end.
Example C101_case : honest_calls spare_env /\ weigh spare_program = Some (1417227000, 10184) /\ how_many buys spare_program = 1%nat /\ how_many asks_refund spare_program = 0%nat /\
  match spare_run with
  | Some (m, p) => (halted m, m_surplus m, used_time spare_env (tried spare_env 20 (start spare_chain (Location 1 [Parachain 2000]) p)),
      used_proof spare_env (tried spare_env 20 (start spare_chain (Location 1 [Parachain 2000]) p)), owed (m_trader m) relay_location, owed (m_trader (settled spare_env m)) relay_location) =
      (true, (213990000, 5091), 1203237000, 5093, 339466666, 169766666)
  | None => False
  end.
Proof. split; [intros m call; split; vm_compute; discriminate|]. split_and!; vm_compute; reflexivity. Qed.

(** Property theorems C81 to C89: what messages from other chains do when executed. *)
From Verif Require Import Base XcmTypes AssetLocationModel OriginTypes AccountsModel PaymentsSpec XcmConfigModel XcmConfigSpec XcmBarrierSpec XcmConfigTheorems XcmCountable XcmExecModel XcmExecSpec
  XcmExecProofs XcmRunProofs XcmMessageProofs.
From stdpp Require Import gmap.
Open Scope N_scope.

(** A sibling that puts 400 of its 500 million native units into a message that dispatches a call, deposits 90 million with the relay chain and
    goes wrong. *)
Definition case_chain : chain := Chain {[(None, sibling_account 2000) := 500000000; (None, sibling_account 2001) := 7]} [(Location 1 [Parachain 2001], {[usdt := 5]})] [] 0.
Definition case_program : list xinstr :=
  [XWithdraw [(relay_location, 400000000)]; XBuy (relay_location, 400000000) None; XSetAppendix [XDeposit (FDefinite [(relay_location, 90000000)]) (Location 1 [])];
   XTransact KSovereign (1000, 10) 77; XTrap; XTransact KNative (1000, 10) 78].
Definition case_result : xres chain := receive_message (calm_env 1) 2281 case_chain (Location 1 [Parachain 2000]) case_program.

(** C81: a message lowers nobody's balance but that of accounts standing for the sender or a place inside it; ... *)
Theorem C81_senders_pay : forall e para ch origin p need ch' t a, receive e para ch origin p need = XOk ch' ->
  bal ch' t a < bal ch t a -> account_of_or_under origin a.
Proof. exact receive_balances. Qed.
Print Assumptions C81_senders_pay.
(** ... for another parachain that is one account. *)
Theorem C81_siblings : forall e para ch n p need ch' t a, receive e para ch (Location 1 [Parachain n]) p need = XOk ch' ->
  bal ch' t a < bal ch t a -> a = sibling_account n.
Proof. exact sibling_balances. Qed.
Print Assumptions C81_siblings.
Example C81_case : match case_result with
  | XOk ch => (bal ch None (sibling_account 2000), bal ch None (sibling_account 2001), bal ch None parent_account, bal ch None treasury_account) = (100000000, 7, 90000000, 119766666)
  | _ => False
  end.
Proof. vm_compute. reflexivity. Qed.

(** C82, the full claim is false: sibling 2000 creates a million units of the asset hub's USDT out of nothing. *)
Theorem C82_minting_refuted : exists e para ch p need ch', receive e para ch (Location 1 [Parachain 2000]) p need = XOk ch' /\ token_of usdt = Val (Some (Some usdt_id)) /\
  in_existence ch' (Some usdt_id) usdt = in_existence ch (Some usdt_id) usdt + 1000000 /\
  bal ch' (Some usdt_id) (sibling_account 2000) = bal ch (Some usdt_id) (sibling_account 2000) + 999999.
Proof. exact sibling_mints. Qed.
Print Assumptions C82_minting_refuted.
(** C82, what holds: there are never more units of an asset other than the relay chain's token (C100) than before unless the sender, or a place inside it, is accepted as its reserve; ... *)
Theorem C82_minting_partial : forall e para ch origin p need ch' t k, receive e para ch origin p need = XOk ch' -> token_of k = Val (Some t) -> k <> Location 1 [] ->
  (forall o, extends origin o -> is_reserve k o = false) -> in_existence ch' t k <= in_existence ch t k.
Proof. exact receive_supply. Qed.
Print Assumptions C82_minting_partial.
(** ... for another parachain, all but its own assets, the asset hub's, and if it is the asset hub, Polkadot's. *)
Theorem C82_siblings_partial : forall e para ch n p need ch' t k, receive e para ch (Location 1 [Parachain n]) p need = XOk ch' -> token_of k = Val (Some t) -> k <> Location 1 [] ->
  ~ extends (Location 1 [Parachain n]) k -> ~ extends (Location 1 [Parachain 1000]) k -> (n = 1000 -> ~ extends (Location 2 [GlobalConsensus Polkadot]) k) ->
  in_existence ch' t k <= in_existence ch t k.
Proof. exact sibling_supply. Qed.
Print Assumptions C82_siblings_partial.
Example C82_case : match case_result with XOk ch => in_existence ch None relay_location | _ => 0 end = 500000007 /\ in_existence case_chain None relay_location = 500000007.
Proof. split; vm_compute; reflexivity. Qed.

(** C83: what lies trapped for others stays; nothing is trapped in others' names. *)
Theorem C83_traps : forall e para ch origin p need ch' tr, receive e para ch origin p need = XOk ch' -> ~ extends origin (fst tr) ->
  times_trapped tr ch' = times_trapped tr ch.
Proof. exact receive_traps. Qed.
Print Assumptions C83_traps.
Example C83_case : match case_result with
  | XOk ch => map (fun t => (fst t, snd t !! relay_location, snd t !! usdt)) (ch_traps ch) =
      [(Location 1 [Parachain 2001], None, Some 5); (Location 1 [Parachain 2000], Some 190233334, None)]
  | _ => False
  end.
Proof. vm_compute. reflexivity. Qed.
(** The owner gets it back, another does not. *)
Definition case_claim (n : N) : xres chain :=
  receive (calm_env 1) 2281 case_chain (Location 1 [Parachain n]) [XClaim [(usdt, 5)]; XBuy (usdt, 5) None; XDeposit FAll (Location 1 [Parachain n])] (1000, 10).
Example C83_claim : match case_claim 2001, case_claim 2000 with
  | XOk ch, XOk ch' => bal ch (Some usdt_id) (sibling_account 2001) = 4 /\ bal ch' (Some usdt_id) (sibling_account 2000) = 0 /\
      length (ch_traps ch) = 0%nat /\ length (ch_traps ch') = 1%nat
  | _, _ => False
  end.
Proof. vm_compute. split_and!; reflexivity. Qed.

(** C84: calls are dispatched only with origins of the sender or a place inside it; ... *)
Theorem C84_calls : forall e para ch origin p need ch', receive e para ch origin p need = XOk ch' ->
  exists l, ch_calls ch' = ch_calls ch ++ l /\ Forall (fun c => exists o kind, extends origin o /\ transact_origin o kind = Some (fst c)) l.
Proof. exact receive_calls. Qed.
Print Assumptions C84_calls.
(** ... for another parachain: signed by its own account, its own native origin or its own XCM origin. *)
Theorem C84_siblings : forall e para ch n p need ch', receive e para ch (Location 1 [Parachain n]) p need = XOk ch' ->
  exists l, ch_calls ch' = ch_calls ch ++ l /\
    Forall (fun c => fst c = RoSigned (sibling_account n) \/ fst c = RoSibling n \/ exists l, fst c = RoXcm l /\ extends (Location 1 [Parachain n]) l) l.
Proof. exact sibling_calls. Qed.
Print Assumptions C84_siblings.
Example C84_case : match case_result with XOk ch => ch_calls ch = [(RoSigned (sibling_account 2000), 77)] | _ => False end.
Proof. vm_compute. reflexivity. Qed.

(** C85, the full claim is false: any parachain stops message processing by naming an asset of this chain with an index over 2^32. *)
Theorem C85_crash_refuted : exists e para ch p need, need <> (0, 0) /\ p = withdraw_message (Location 0 [PalletInstance 13; GeneralIndex 4294967296]) 1 None (Location 1 [Parachain 2000]) /\
  receive e para ch (Location 1 [Parachain 2000]) p need = XPanic.
Proof. exact sibling_crashes. Qed.
Print Assumptions C85_crash_refuted.
(** C85, what holds: no other message does. *)
Theorem C85_crash_partial : forall e para ch origin p need,
  (forall k, In k (prog_assets p) -> ~ exists ix, u32_max < ix /\ k = Location 0 [PalletInstance 13; GeneralIndex ix]) ->
  (forall m k, In k (map fst (xe_delivery e m)) -> ~ exists ix, u32_max < ix /\ k = Location 0 [PalletInstance 13; GeneralIndex ix]) ->
  receive e para ch origin p need <> XPanic.
Proof. exact receive_no_crash. Qed.
Print Assumptions C85_crash_partial.
Example C85_case : (forall k, In k (prog_assets case_program) -> ~ exists ix, u32_max < ix /\ k = Location 0 [PalletInstance 13; GeneralIndex ix]) /\
  (forall m k, In k (map fst (xe_delivery (calm_env 1) m)) -> ~ exists ix, u32_max < ix /\ k = Location 0 [PalletInstance 13; GeneralIndex ix]).
Proof. split; [|by intros ? ? []]. intros k Hk (ix & _ & ->). cbn in Hk. naive_solver. Qed.

(** C86: a message is over after at most twice as many steps as it has instructions, whatever fails; ... *)
Theorem C86_messages_end : forall e ch origin p n, (2 * instructions p <= n)%nat ->
  match xsteps e n (start ch origin p) with XOk m => halted m = true | XErr => False | XPanic => True end.
Proof. exact ends_within. Qed.
Print Assumptions C86_messages_end.
(** ... what comes after has no effect. *)
Theorem C86_end_is_final : forall e n m, halted m = true -> xsteps e n m = XOk m.
Proof. exact halted_more. Qed.
Print Assumptions C86_end_is_final.
Example C86_case : instructions case_program = 7%nat /\ prog_size case_program = 8%nat /\
  match xsteps (calm_env 1) 5 (start case_chain (Location 1 [Parachain 2000]) case_program) with XOk m => halted m = false | _ => False end.
Proof. split_and!; vm_compute; reflexivity. Qed.

(** C87: unless it comes from the relay chain or its executive, a message that dispatches a call or raises a balance has bought the weight
    it needs before, at the price asked, with assets it held; ... *)
Theorem C87_pay_first : forall e para ch origin p need ch', need <> (0, 0) -> parent_or_executive origin = false -> receive e para ch origin p need = XOk ch' ->
  (ch_calls ch' = ch_calls ch /\ forall t a, bal ch' t a <= bal ch t a) \/
  exists n m1 fee price rest, xsteps e n (start ch origin (set_limit need p)) = XOk m1 /\ m_prog m1 = XBuy fee (Some need) :: rest /\ accepted_for_fees (fst fee) /\
    costs e need (fst fee) price /\ price <= snd fee /\ snd fee <= held_of (m_hold m1) (fst fee).
Proof. exact receive_paid. Qed.
Print Assumptions C87_pay_first.
(** ... which leave the holding and are set aside for the treasury. *)
Theorem C87_price : forall e m fee need m', exec_instr e m (XBuy fee (Some need)) = XOk m' -> exists price, costs e need (fst fee) price /\
  held_of (m_hold m') (fst fee) + price = held_of (m_hold m) (fst fee) /\ owed (m_trader m') (fst fee) <= owed (m_trader m) (fst fee) + price /\
  (owed (m_trader m) (fst fee) + price <= u128_max -> owed (m_trader m') (fst fee) = owed (m_trader m) (fst fee) + price).
Proof. exact buy_takes. Qed.
Print Assumptions C87_price.
Example C87_case : match receive_message (calm_env 1) 2281 case_chain (Location 1 [Parachain 2000])
    (XWithdraw [(relay_location, 400000000)] :: XBuy (relay_location, 119766665) None :: drop 2 case_program) with
  | XOk ch => (ch_calls ch, bal ch None parent_account, bal ch None treasury_account) = ([], 0, 0)
  | _ => False
  end.
Proof. vm_compute. reflexivity. Qed.

(** C88: an asset of the asset hub sent from there arrives less the price of execution, which the treasury gets; ... *)
Theorem C88_reserve_transfer : forall e para ch k id n price limit dest x need, calm e -> costs e need k price -> extends (Location 1 [Parachain 1000]) k -> convert k = Val (Some id) ->
  location_to_account dest = Some x -> x <> treasury_account -> 0 < price -> price < n -> n <= u128_max ->
  bal ch (Some id) x + (n - price) <= u128_max -> bal ch (Some id) treasury_account + price <= u128_max -> need <> (0, 0) -> limit_covers need limit ->
  receive e para ch (Location 1 [Parachain 1000]) (reserve_message k n limit dest) need = XOk (arrived ch (Some id) x n price).
Proof. intros. eapply reserve_arrives; try eassumption. by apply covers_within. Qed.
Print Assumptions C88_reserve_transfer.
(** ... an asset a place has here moves when it asks. *)
Theorem C88_withdrawal : forall e para ch k t n price limit origin y dest x need, calm e -> costs e need k price -> token_of k = Val (Some t) ->
  location_to_account origin = Some y -> location_to_account dest = Some x -> x <> treasury_account -> x <> y -> y <> treasury_account -> n <= bal ch t y ->
  0 < price -> price < n -> n <= u128_max ->
  bal ch t x + (n - price) <= u128_max -> bal ch t treasury_account + price <= u128_max -> need <> (0, 0) -> limit_covers need limit ->
  receive e para ch origin (withdraw_message k n limit dest) need = XOk (arrived (set_bal ch t y (bal ch t y - n)) t x n price).
Proof. intros. eapply withdraw_arrives; try eassumption. by apply covers_within. Qed.
Print Assumptions C88_withdrawal.
Theorem C88_arrived : forall ch t x n price, x <> treasury_account ->
  bal (arrived ch t x n price) t x = bal ch t x + (n - price) /\
  bal (arrived ch t x n price) t treasury_account = bal ch t treasury_account + price /\
  (forall t' a, (t', a) <> (t, x) -> (t', a) <> (t, treasury_account) -> bal (arrived ch t x n price) t' a = bal ch t' a) /\
  ch_traps (arrived ch t x n price) = ch_traps ch /\ ch_calls (arrived ch t x n price) = ch_calls ch.
Proof. exact arrived_balances. Qed.
Print Assumptions C88_arrived.
Example C88_case : exists x, location_to_account (Location 1 [Parachain 2000]) = Some x /\ x <> treasury_account /\
  receive (calm_env 3) 2281 case_chain (Location 1 [Parachain 1000]) (reserve_message usdt 100 None (Location 1 [Parachain 2000])) (1000, 10) =
    XOk (arrived case_chain (Some usdt_id) x 100 3).
Proof.
  exists (sibling_account 2000). split_and!; [done|vm_compute; done|].
  apply reserve_arrives; try done; [|by exists [PalletInstance 50; GeneralIndex 1984]].
  refine (price_asset _ _ (1000, 10) usdt usdt_id 3 _ eq_refl eq_refl). left. by exists [PalletInstance 50; GeneralIndex 1984].
Qed.

(** C89: a program executed for a local account or a community lowers no balance but theirs. *)
Theorem C89_local_programs : forall e para ch o p need ch' t a, execute_for e para ch o p need = Some (XOk ch') ->
  (forall who, o = OSigned who -> account_wf who) -> (forall id s, o = OCommunity id s -> id <= u16_max) -> bal ch' t a < bal ch t a ->
  o = OSigned a \/ exists id s, o = OCommunity id s /\ a = community_account id.
Proof. exact local_balances. Qed.
Print Assumptions C89_local_programs.
Example C89_case : match execute_for (calm_env 1) 2281 (Chain {[(None, community_account 5) := 50; (None, sibling_account 2001) := 7]} [] [] 0) (OCommunity 5 None)
    [XTransfer [(relay_location, 20)] (Location 1 [Parachain 2001])] (1000, 10) with
  | Some (XOk ch) => (bal ch None (community_account 5), bal ch None (sibling_account 2001)) = (30, 27)
  | _ => False
  end.
Proof. vm_compute. reflexivity. Qed.

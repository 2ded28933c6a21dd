(** What messages weigh: runtime/kreivo/src/weights/xcm and xcm_builder's [WeightInfoBounds] (dependency, stable2409) as configured by
    runtime/kreivo/src/xcm_config.rs:134,240,294. *)
From Verif Require Import Base XcmTypes AssetLocationModel OriginTypes XcmConfigModel XcmInstrModel.
Open Scope N_scope.

(** sp_weights [Weight] (dependency): reference time and proof size, both [u64]. *)
Definition weight_max : weight := (u64_max, u64_max).
Definition weight_times (n : N) (w : weight) : weight := (sat64 (fst w * n), sat64 (snd w * n)).
Definition weight_min (a b : weight) : weight := (N.min (fst a) (fst b), N.min (snd a) (snd b)).
Definition weight_add (a b : weight) : option weight :=
  if (fst a + fst b <=? u64_max) && (snd a + snd b <=? u64_max) then Some (fst a + fst b, snd a + snd b) else None.
Definition weight_sat_add (a b : weight) : weight := (sat64 (fst a + fst b), sat64 (snd a + snd b)).
Definition weight_sub (a b : weight) : weight := (fst a - fst b, snd a - snd b).

(** [DbWeight] is frame_support's [RocksDbWeight]: runtime/kreivo/src/configuration/system_support.rs:75; a benchmarked
    weight with the reads and writes it adds. *)
Definition bench (time proof reads writes : N) : weight := (time + 25000000 * reads + 100000000 * writes, proof).

(** runtime/kreivo/src/weights/xcm/pallet_xcm_benchmarks_fungible.rs:53-157 *)
Definition w_withdraw_asset : weight := bench 26613000 3593 1 1.
Definition w_transfer_asset : weight := bench 50611000 6196 2 2.
Definition w_transfer_reserve_asset : weight := bench 73381000 6196 8 4.
Definition w_receive_teleported_asset : weight := bench 3970000 0 0 0.
Definition w_deposit_asset : weight := bench 27186000 3593 1 1.
Definition w_deposit_reserve_asset : weight := bench 50949000 3593 7 3.
Definition w_initiate_teleport : weight := bench 30521000 3540 6 2.

(** runtime/kreivo/src/weights/xcm/pallet_xcm_benchmarks_generic.rs:63-347 *)
Definition w_report_holding : weight := bench 349790000 3540 6 2.
Definition w_buy_execution : weight := bench 3994000 0 0 0.
Definition w_query_response : weight := bench 11070000 3534 1 0.
Definition w_transact : weight := bench 13787000 0 0 0.
Definition w_refund_surplus : weight := bench 4328000 0 0 0.
Definition w_set_error_handler : weight := bench 2761000 0 0 0.
Definition w_set_appendix : weight := bench 2723000 0 0 0.
Definition w_clear_error : weight := bench 2866000 0 0 0.
Definition w_descend_origin : weight := bench 3679000 0 0 0.
Definition w_clear_origin : weight := bench 2750000 0 0 0.
Definition w_report_error : weight := bench 25553000 3540 6 2.
Definition w_claim_asset : weight := bench 16240000 3591 1 1.
Definition w_trap : weight := bench 2732000 0 0 0.
Definition w_subscribe_version : weight := bench 28531000 3540 6 3.
Definition w_unsubscribe_version : weight := bench 4996000 0 0 1.
Definition w_initiate_reserve_withdraw : weight := bench 397796000 3540 6 2.
Definition w_burn_asset : weight := bench 121240000 0 0 0.
Definition w_expect_asset : weight := bench 12637000 0 0 0.
Definition w_expect_origin : weight := bench 2831000 0 0 0.
Definition w_expect_error : weight := bench 2798000 0 0 0.
Definition w_expect_transact_status : weight := bench 2930000 0 0 0.
Definition w_query_pallet : weight := bench 29596000 3540 6 2.
Definition w_expect_pallet : weight := bench 5444000 0 0 0.
Definition w_report_transact_status : weight := bench 25842000 3540 6 2.
Definition w_clear_transact_status : weight := bench 2787000 0 0 0.
Definition w_set_topic : weight := bench 2692000 0 0 0.
Definition w_clear_topic : weight := bench 2705000 0 0 0.
Definition w_set_fees_mode : weight := bench 2738000 0 0 0.
Definition w_unpaid_execution : weight := bench 2966000 0 0 0.

(** runtime/kreivo/src/weights/xcm/mod.rs:27-56 [WeighAssets], [MAX_ASSETS] *)
Definition max_assets : N := 100.
Definition weigh_assets {A} (l : list A) (w : weight) : weight := weight_times (N.of_nat (length l)) w.
Definition weigh_filter (f : xfilter) (w : weight) : weight :=
  match f with
  | FDefinite l => weigh_assets l w
  | FAll => weight_times max_assets w
  | FAllOf _ false => w
  | FAllOf _ true => weight_times (64 * 2) w
  | FAllCounted n | FAllOfCounted _ _ n => weight_times (N.min max_assets (N.of_nat n)) w
  end.

(** runtime/kreivo/src/weights/xcm/mod.rs:58-233 [KreivoXcmWeight] *)
Definition other_weight (k : other_kind) : weight :=
  match k with
  | QueryResponse => w_query_response
  | SubscribeVersion => w_subscribe_version
  | UnsubscribeVersion => w_unsubscribe_version
  | ExpectAsset l => weigh_assets l w_expect_asset
  | ExpectOrigin => w_expect_origin
  | ExpectError => w_expect_error
  | ExpectTransactStatus => w_expect_transact_status
  | ExpectPallet => w_expect_pallet
  | ClearTransactStatus => w_clear_transact_status
  | ClearError => w_clear_error
  | SetTopic => w_set_topic
  | ClearTopic => w_clear_topic
  | HrmpNewChannelOpenRequest | HrmpChannelAccepted | HrmpChannelClosing => weight_max
  end.
Definition instr_weight (i : xinstr) : weight :=
  match i with
  | XWithdraw l => weigh_assets l w_withdraw_asset
  | XReserveDeposited _ => (10000, 0)
  | XReceiveTeleported l => weigh_assets l w_receive_teleported_asset
  | XTransfer l _ => weigh_assets l w_transfer_asset
  | XTransferReserve l _ => weigh_assets l w_transfer_reserve_asset
  | XTransact _ _ _ => w_transact
  | XClearOrigin => w_clear_origin
  | XDescend _ => w_descend_origin
  | XUniversalOrigin _ => weight_max
  | XAliasOrigin _ => weight_max
  | XDeposit f _ => weight_min (1000000000, 0) (weigh_filter f w_deposit_asset)
  | XDepositReserve f _ => weigh_filter f w_deposit_reserve_asset
  | XInitiateReserveWithdraw f => weigh_filter f w_initiate_reserve_withdraw
  | XInitiateTeleport f => weigh_filter f w_initiate_teleport
  | XExchange _ => weight_max
  | XBuy _ _ => w_buy_execution
  | XUnpaid _ => w_unpaid_execution
  | XRefund => w_refund_surplus
  | XSetErrorHandler _ => w_set_error_handler
  | XSetAppendix _ => w_set_appendix
  | XClaim _ => w_claim_asset
  | XTrap => w_trap
  | XBurn l => weigh_assets l w_burn_asset
  | XSetFeesMode _ => w_set_fees_mode
  | XSend ReportError => w_report_error
  | XSend ReportHolding => w_report_holding
  | XSend QueryPallet => w_query_pallet
  | XSend ReportTransactStatus => w_report_transact_status
  | XUnsupported _ => weight_max
  | XOther k => other_weight k
  end.

(** xcm_builder [WeightInfoBounds] (dependency): each (nested) program first uses up as many instructions as it has; weights are added with
    overflow checks; [Transact] adds what its sender allows for the call. The second component is the number of instructions left. *)
Fixpoint weigh_instr (left : N) (i : xinstr) {struct i} : option (weight * N) :=
  let weigh_all := fix go (left : N) (acc : weight) (p : list xinstr) {struct p} : option (weight * N) :=
    match p with
    | [] => Some (acc, left)
    | j :: r =>
        match weigh_instr left j with
        | Some (w, left') => match weight_add acc w with Some acc' => go left' acc' r | None => None end
        | None => None
        end
    end in
  let inner :=
    match i with
    | XTransact _ most _ => Some (most, left)
    | XSetErrorHandler p | XSetAppendix p =>
        if N.of_nat (length p) <=? left then weigh_all (left - N.of_nat (length p)) (0, 0) p else None
    | _ => Some ((0, 0), left)
    end in
  match inner with
  | Some (w, left') => (fun s => (s, left')) <$> weight_add (instr_weight i) w
  | None => None
  end.
Fixpoint weigh_list (left : N) (acc : weight) (p : list xinstr) : option (weight * N) :=
  match p with
  | [] => Some (acc, left)
  | j :: r =>
      match weigh_instr left j with
      | Some (w, left') => match weight_add acc w with Some acc' => weigh_list left' acc' r | None => None end
      | None => None
      end
  end.
(** [MaxInstructions]: runtime/kreivo/src/xcm_config.rs:134 *)
Definition max_instructions : N := 100.
Definition weigh (p : list xinstr) : option weight :=
  if N.of_nat (length p) <=? max_instructions then fst <$> weigh_list (max_instructions - N.of_nat (length p)) (0, 0) p else None.
(** [instr_weight] of [WeightInfoBounds], without limit on the number of instructions (u32::MAX) *)
Definition weigh_one (i : xinstr) : option weight := fst <$> weigh_instr u32_max i.

(** Property theorems C92 to C98: what messages from other chains weigh, and how much they can do. *)
From Verif Require Import Base XcmTypes AssetLocationModel OriginTypes AccountsModel XcmConfigModel XcmConfigSpec XcmCountable XcmExecModel XcmExecSpec
  XcmWeightsModel XcmWeightsSpec XcmWeightsProofs.
From stdpp Require Import gmap.
Open Scope N_scope.

(** A program with nested ones: a sibling pays and dispatches a call, what is left goes back if that fails. *)
Definition nested_case : list xinstr :=
  [XWithdraw [(relay_location, 400000000)]; XBuy (relay_location, 400000000) None; XSetErrorHandler [XSetAppendix [XDeposit FAll (Location 1 [Parachain 2000])]; XSend ReportError];
   XTransact KSovereign (5000, 70) 77; XTrap].
Definition nested_chain : chain := Chain {[(None, sibling_account 2000) := 500000000]} [] [] 0.

(** C92: a message has a weight just if it has at most a hundred instructions, nested ones included, and then its weight is the sum of what each
    instruction weighs and what is set aside for calls. *)
Theorem C92_weight : forall p w, weigh p = Some w <->
  (instructions p <= 100)%nat /\ total_time p <= u64_max /\ total_proof p <= u64_max /\ w = (total_time p, total_proof p).
Proof. exact weigh_exact. Qed.
Print Assumptions C92_weight.
Example C92_case : weigh nested_case = Some (1553168000, 7203) /\ total_time nested_case = 1553168000 /\ total_proof nested_case = 7203 /\ instructions nested_case = 8%nat /\
  weigh (repeat XTrap 100) = Some (273200000, 0) /\ weigh (repeat XTrap 101) = None /\ weigh (XSetAppendix (repeat XTrap 99) :: [XTrap]) = None /\
  weigh [XTransact KSovereign (u64_max, 0) 77] = None.
Proof. split_and!; vm_compute; reflexivity. Qed.

(** C93, the full claim is false: accepted messages come to deposit 20 assets for the weight of 6, and to send away 102 assets for the weight of 100. *)
Theorem C93_charge_refuted : (exists e para ch origin p f dest m, comes_to e para ch origin p (XDeposit f dest) m /\ ~ covers (XDeposit f dest) (m_hold m)) /\
  (exists e para ch origin p f m, comes_to e para ch origin p (XInitiateReserveWithdraw f) m /\ ~ covers (XInitiateReserveWithdraw f) (m_hold m)).
Proof. exact undercharged. Qed.
Print Assumptions C93_charge_refuted.
(** C93, what holds: with at most a hundred assets held, what is charged covers what the assets handled cost, but for deposits, ... *)
Theorem C93_charge_partial : forall i h, deposits i = false -> (length (assets_named i) <= 20)%nat -> (size h <= 100)%nat -> covers i h.
Proof. exact charged_enough. Qed.
Print Assumptions C93_charge_partial.
(** ... where nothing is charged for proof size and the time charged covers up to 6 assets. *)
Theorem C93_deposits_partial : forall f dest h,
  (forall l, f = FDefinite l -> (length l <= 20)%nat) -> (size h <= 100)%nat ->
  snd (instr_weight (XDeposit f dest)) = 0 /\
  (fst w_deposit_asset * N.of_nat (assets_handled (XDeposit f dest) h) <= fst (instr_weight (XDeposit f dest)) <-> (assets_handled (XDeposit f dest) h <= 6)%nat).
Proof. exact deposit_charge. Qed.
Print Assumptions C93_deposits_partial.
Example C93_case : covers (XInitiateTeleport FAll) {[relay_location := 5; usdt := 7]} /\ covers (XWithdraw (hub_assets 0 20)) ∅ /\
  assets_handled (XInitiateTeleport FAll) {[relay_location := 5; usdt := 7]} = 2%nat /\ assets_handled (XDeposit (FDefinite (hub_assets 0 7)) usdt) ∅ = 7%nat.
Proof. split_and!; [apply charged_enough; [done|cbn; lia|apply Nat.leb_le; vm_compute; reflexivity]|apply charged_enough; [done|apply Nat.leb_le; vm_compute; reflexivity|apply Nat.leb_le; vm_compute; reflexivity]|vm_compute; reflexivity..]. Qed.

(** C94, the full claim is false: a sibling's message of a hundred instructions about no assets weighs nothing, is executed without payment and has a
    hundred messages sent. *)
Theorem C94_free_refuted : exists e para ch p ch', Forall (fun i => i = XInitiateReserveWithdraw (FDefinite [])) p /\ weigh p = Some (0, 0) /\
  receive_message e para ch (Location 1 [Parachain 2000]) p = XOk ch' /\ ch_bal ch' = ch_bal ch /\ ch_sent ch' = ch_sent ch + 100.
Proof. exact runs_free. Qed.
Print Assumptions C94_free_refuted.
(** C94, what holds: the messages that weigh nothing are just those whose instructions are about no assets, and all they can do is have messages sent, ... *)
Theorem C94_free_partial :
  (forall p, weigh p = Some (0, 0) <-> (length p <= 100)%nat /\ forall i, In i p -> about_nothing i = true) /\
  (forall e para ch origin p, weigh p = Some (0, 0) -> exists ch', receive_message e para ch origin p = XOk ch' /\
     ch_bal ch' = ch_bal ch /\ ch_traps ch' = ch_traps ch /\ ch_calls ch' = ch_calls ch /\ ch_sent ch' <= ch_sent ch + N.of_nat (length p)).
Proof. split; [exact weightless_iff|exact free_message]. Qed.
Print Assumptions C94_free_partial.
Example C94_case : weigh [XTransferReserve [] usdt; XDeposit (FAllCounted 0) usdt] = Some (0, 0) /\ weigh [XTransferReserve [] usdt; XClearOrigin] <> Some (0, 0).
Proof. split; [vm_compute; reflexivity|vm_compute; discriminate]. Qed.

(** C95: a message that contains, at whatever depth, an instruction this chain does not offer has no effect at all. *)
Theorem C95_not_offered : forall e para ch origin p i, In i (all_instrs p) -> not_offered i = true -> receive_message e para ch origin p = XOk ch.
Proof. exact not_offered_dropped. Qed.
Print Assumptions C95_not_offered.
Example C95_case : not_offered (XExchange FAll) = true /\ In (XExchange FAll) (all_instrs (nested_case ++ [XSetAppendix [XSetErrorHandler [XExchange FAll]]])) /\
  receive_message (calm_env 1) 2281 nested_chain (Location 1 [Parachain 2000]) nested_case <> XOk nested_chain.
Proof.
  split_and!; [done|vm_compute; tauto|]. intros H. assert (match receive_message (calm_env 1) 2281 nested_chain (Location 1 [Parachain 2000]) nested_case with XOk c => bal c None (sibling_account 2000) | _ => 0 end = 259900000) as Hb by (vm_compute; reflexivity).
  rewrite H in Hb. vm_compute in Hb. discriminate.
Qed.

(** C96: a message being executed never holds more than 128 different assets. *)
Theorem C96_holding : forall e n ch origin p m, xsteps e n (start ch origin p) = XOk m -> (size (m_hold m) <= 128)%nat.
Proof. exact holding_bounded. Qed.
Print Assumptions C96_holding.
Example C96_case : match xsteps (calm_env 1) 3 (start nested_chain (Location 1 [Parachain 2000]) nested_case) with XOk m => size (m_hold m) = 1%nat | _ => False end.
Proof. vm_compute. reflexivity. Qed.

(** C97: a message has at most a hundred messages sent and calls dispatched, no more than it has instructions for that, and leaves at most one entry
    of trapped assets. *)
Theorem C97_bounds : forall e para ch origin p ch', receive_message e para ch origin p = XOk ch' ->
  ch_sent ch' <= ch_sent ch + N.of_nat (how_many sends p) /\ ch_sent ch' <= ch_sent ch + 100 /\
  (length (ch_calls ch') <= length (ch_calls ch) + how_many transacts p)%nat /\ (length (ch_calls ch') <= length (ch_calls ch) + 100)%nat /\
  (length (ch_traps ch') <= length (ch_traps ch) + 1)%nat.
Proof. exact message_bounds. Qed.
Print Assumptions C97_bounds.
Example C97_case : match receive_message (calm_env 1) 2281 nested_chain (Location 1 [Parachain 2000]) nested_case with
  | XOk c => (ch_sent c, length (ch_calls c), length (ch_traps c)) = (1, 1%nat, 1%nat) | _ => False end /\ how_many sends nested_case = 1%nat /\ how_many transacts nested_case = 1%nat.
Proof. split_and!; vm_compute; reflexivity. Qed.

(** C98: the calls a message dispatches together weigh no more than the message was found to need. *)
Theorem C98_calls : forall e para ch origin p need ch', weigh p = Some need -> receive_message e para ch origin p = XOk ch' ->
  exists new, ch_calls ch' = ch_calls ch ++ new /\ calls_time e new <= fst need /\ calls_proof e new <= snd need.
Proof. exact calls_within. Qed.
Print Assumptions C98_calls.
Example C98_case : match receive_message (calm_env 1) 2281 nested_chain (Location 1 [Parachain 2000]) nested_case with XOk c => map snd (ch_calls c) = [77] | _ => False end.
Proof. vm_compute. reflexivity. Qed.

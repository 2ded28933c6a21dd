(** Property theorems C135 and C136: how long periods counted in blocks last, and how fees follow demand. Words: TimeSpec.v and FeeMultiplierSpec.v. *)
From stdpp Require Import list.
From Coq Require Import NArith List Lia.
From Verif Require Import TimeModel TimeSpec TimeProofs BlocksModel FeeMultiplierModel FeeMultiplierSpec FeeMultiplierProofs TxFeesModel FeeMultiplierFees.
Import ListNotations.
Open Scope N_scope.

(* ------------------------------------------------------------------ *)
(** * C135: periods last as long as they are called *)

(** Refuted: the time the beneficiary has to dispute a refund, called two days where it is configured, is over after one day of a block in every slot. *)
Theorem C135_two_days_refuted : exists c l c', begun c /\ goes_on c l c' /\ one_core c l c' /\ c_number c' = c_number c + cancel_buffer /\
  c_time c' - c_time c = day.
Proof. exact two_days_short. Qed.
Print Assumptions C135_two_days_refuted.
(** Refuted: the runtime accepts two blocks in each slot, so that four days of blocks are over after two, if the relay chain includes as many. *)
Theorem C135_four_days_refuted : exists c l c', begun c /\ goes_on c l c' /\ c_number c' = c_number c + decision_period /\ c_time c' - c_time c = 2 * day.
Proof. exact four_days_short. Qed.
Print Assumptions C135_four_days_refuted.

(** What holds with one core on the relay chain: a block takes six seconds but for eighteen seconds at the end ... *)
Theorem C135_time_partial : forall c l c',
  begun c -> goes_on c l c' -> one_core c l c' ->
  6000 * N.of_nat (length l) < c_time c' - c_time c + 18000.
Proof. exact time_passes_core. Qed.
Print Assumptions C135_time_partial.
(** ... so that a refund can be disputed for a day and a decision takes four days, but for eighteen seconds. *)
Theorem C135_refund_partial : forall c l c',
  begun c -> goes_on c l c' -> one_core c l c' -> c_number c + cancel_buffer <= c_number c' -> day < c_time c' - c_time c + 18000.
Proof. exact refund_day. Qed.
Print Assumptions C135_refund_partial.
Theorem C135_decision_partial : forall c l c',
  begun c -> goes_on c l c' -> one_core c l c' -> c_number c + decision_period <= c_number c' -> 4 * day < c_time c' - c_time c + 18000.
Proof. exact decision_days. Qed.
Print Assumptions C135_decision_partial.
(** Whatever the relay chain includes, numbers count blocks, time does not go back, and a period lasts at least half as long as it is called. *)
Theorem C135_anyway_partial : forall c l c',
  begun c -> goes_on c l c' ->
  c_number c' = c_number c + N.of_nat (length l) /\ c_time c <= c_time c' /\ 3000 * N.of_nat (length l) < c_time c' - c_time c + 9000.
Proof. exact time_passes. Qed.
Print Assumptions C135_anyway_partial.
Theorem C135_half_partial : forall c l c' n,
  begun c -> goes_on c l c' -> c_number c + n * days <= c_number c' -> n * day < 2 * (c_time c' - c_time c) + 18000.
Proof. exact half_as_long. Qed.
Print Assumptions C135_half_partial.

Example C135_case : exists c l c', begun c /\ goes_on c l c' /\ one_core c l c' /\ N.of_nat (length l) = 4 /\ c_time c' - c_time c = 24000 - 6000.
Proof.
  exists (Clock 1 100 1 600000 1), [Header 100 600100 100 0; Header 101 606000 101 0; Header 102 612000 102 1; Header 103 618000 103 1], (Clock 5 103 1 618000 3).
  split; [exists [], (Header 100 600000 100 0); vm_compute; reflexivity|]. split; [vm_compute; reflexivity|]. split; [vm_compute; discriminate|]. split; reflexivity.
Qed.
(** A fourth block that waits, a third one in a slot, and a timestamp out of its slot are refused. *)
Example C135_refused : next_block (Clock 5 103 1 618000 3) (Header 104 624000 104 0) = None /\ next_block (Clock 5 103 2 618000 1) (Header 103 620000 103 1) = None /\
  next_block (Clock 5 103 1 618000 1) (Header 104 630000 104 1) = None.
Proof. repeat split. Qed.

(* ------------------------------------------------------------------ *)
(** * C136: fees follow demand, slowly *)

(** The multiplier of the fee for weight never falls below a tenth ... *)
Theorem C136_floor : forall m l,
  one <= 10 * m -> m <= max_fixed -> one <= 10 * multiplier_after m l /\ multiplier_after m l <= max_fixed.
Proof. exact after_floor. Qed.
Print Assumptions C136_floor.
(** ... and the fee of a transaction never below its fixed parts and a tenth of the fee for its weight. *)
Theorem C136_fee_floor : forall m len w tip,
  10 ^ 18 <= 10 * m ->
  N.min (capped_fee base_extrinsic + length_fee len + capped_fee w / 10) (2 ^ 128 - 1) <= tx_fee m len w false tip.
Proof. exact fee_floor. Qed.
Print Assumptions C136_fee_floor.
(** A block in which normal transactions take a quarter of their share does not lower it, any other does not raise it. *)
Theorem C136_direction :
  (forall m b,
     m <= max_fixed -> busy b -> m <= next_multiplier m b) /\
  (forall m b,
     one <= 10 * m -> ~ busy b -> next_multiplier m b <= m).
Proof. split; [exact busy_raises|exact calm_lowers]. Qed.
Print Assumptions C136_direction.
(** It rises by less than 57 and falls by less than 19 millionths per block ... *)
Theorem C136_speed :
  (forall m b,
     one <= 10 * m -> 1000000 * next_multiplier m b <= 1000057 * m) /\
  (forall m b,
     m <= max_fixed -> 999981 * m <= 1000000 * next_multiplier m b).
Proof. split; [exact rise_bound|exact fall_bound]. Qed.
Print Assumptions C136_speed.
(** ... over any number of blocks ... *)
Theorem C136_speed_long :
  (forall m l,
     one <= 10 * m -> m <= max_fixed ->
     1000000 ^ N.of_nat (length l) * multiplier_after m l <= 1000057 ^ N.of_nat (length l) * m) /\
  (forall m l,
     one <= 10 * m -> m <= max_fixed ->
     999981 ^ N.of_nat (length l) * m <= 1000000 ^ N.of_nat (length l) * multiplier_after m l).
Proof. split; [exact after_rise|exact after_fall]. Qed.
Print Assumptions C136_speed_long.
(** ... so that in 14400 blocks it gets no more than 2.28 times as high and no lower than 0.76 times. *)
Theorem C136_day :
  (forall m l,
     one <= 10 * m -> m <= max_fixed -> N.of_nat (length l) <= 14400 -> 100 * multiplier_after m l <= 228 * m) /\
  (forall m l,
     one <= 10 * m -> m <= max_fixed -> N.of_nat (length l) = 14400 -> 76 * m <= 100 * multiplier_after m l).
Proof. split; [exact within_day|exact day_fall]. Qed.
Print Assumptions C136_day.
(** It does react: a full block raises it by 56 millionths, 14400 full blocks double it, an idle block lowers it by 18 millionths down to the floor. *)
Theorem C136_reacts :
  (forall m b,
     one <= 10 * m -> m <= 2 ^ 127 -> full b -> 1000056 * m <= 1000000 * next_multiplier m b) /\
  (forall m l,
     one <= 10 * m -> m <= 2 ^ 125 -> Forall full l -> N.of_nat (length l) = 14400 -> 2 * m <= multiplier_after m l) /\
  (forall m b,
     one <= 10 * m -> m <= max_fixed -> idle b -> 1000000 * next_multiplier m b <= 999982 * m \/ 10 * next_multiplier m b = one).
Proof. split_and!; [exact full_rises|exact day_full|exact idle_falls]. Qed.
Print Assumptions C136_reacts.

Example C136_case :
  full (Block normal_share (W 0 0) base_block 0) /\ busy (Block (W 0 983040) (W 0 0) base_block 0) /\ ~ busy (Block (W 374999999999 983039) (W 0 0) base_block 0) /\
  idle empty_block /\
  next_multiplier one (Block normal_share (W 0 0) base_block 0) = 1000056251582031250 /\
  next_multiplier one (Block (W 0 983040) (W 0 0) base_block 0) = one /\ next_multiplier one empty_block = 999981250175781250 /\
  multiplier_after genesis_multiplier [Block normal_share (W 0 0) base_block 0; empty_block] = 1000037500703105225.
Proof.
  split_and!; try (vm_compute; reflexivity); [left; vm_compute; discriminate|right; vm_compute; discriminate|].
  intros [H|H]; vm_compute in H; destruct H; reflexivity.
Qed.

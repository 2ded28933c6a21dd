(** Proofs about blocks and time. *)
From Coq Require Import NArith List Bool Lia.
From Verif Require Import TimeModel TimeSpec.
Import ListNotations.
Open Scope N_scope.

(** What [next_block] checks and keeps. *)
Lemma next_inv c h c' : next_block c h = Some c' ->
  c_slot c <= h_slot h /\ c_number c' = c_number c + 1 /\ c_slot c' = h_slot h /\ c_time c <= h_time h /\ c_time c' = h_time h /\
  h_time h / 6000 = h_slot h /\ c_authored c' = (if h_slot h =? c_slot c then c_authored c + 1 else 1) /\ c_authored c' <= 2 /\
  c_waiting c' = c_waiting c - h_included h + 1 /\ c_waiting c' <= 3.
Proof.
  unfold next_block, capacity, velocity, minimum_period, slot_ms.
  destruct (h_slot h <? c_slot c) eqn:E1; [discriminate|]. destruct (negb (_ =? _)) eqn:E2; [discriminate|].
  destruct (1 + 1 <? _) eqn:E3; [discriminate|]. destruct (3 <=? _) eqn:E4; [discriminate|].
  destruct (h_time h <? _) eqn:E5; [discriminate|]. destruct (negb (h_time h / 6000 =? h_slot h)) eqn:E6; [discriminate|].
  intros [= <-]. cbn [c_number c_slot c_authored c_time c_waiting].
  apply N.ltb_ge in E1, E3, E5. apply N.leb_gt in E4. apply negb_false_iff, N.eqb_eq in E6. repeat split; lia.
Qed.

(** A clock as a block leaves it. *)
Definition sound (c : clock) : Prop := c_time c / 6000 = c_slot c /\ 1 <= c_authored c <= 2 /\ 1 <= c_waiting c <= 3.

Lemma next_sound c h c' : next_block c h = Some c' -> sound c'.
Proof.
  intros H. apply next_inv in H as (?&?&Hs&?&Ht&Hd&Ha&?&Hw&?). unfold sound. rewrite Ht, Hs. split; [exact Hd|].
  split; [|lia]. split; [|lia]. rewrite Ha. destruct (_ =? _); lia.
Qed.

Lemma grow_app c l l' : grow c (l ++ l') = match grow c l with Some c' => grow c' l' | None => None end.
Proof. revert c. induction l as [|h l IH]; intros c; cbn [app grow]; [reflexivity|]. destruct (next_block c h); [apply IH|reflexivity]. Qed.

Lemma begun_sound c : begun c -> sound c.
Proof.
  intros (l&h&H). rewrite grow_app in H. destruct (grow genesis_clock l) as [d|]; [|discriminate]. cbn [grow] in H.
  destruct (next_block d h) as [e|] eqn:E; [|discriminate]. injection H as <-. exact (next_sound _ _ _ E).
Qed.

(** Slots and timestamps never go back, numbers count blocks. *)
Lemma grow_mono c l c' : sound c -> grow c l = Some c' ->
  sound c' /\ c_slot c <= c_slot c' /\ c_time c <= c_time c' /\ c_number c' = c_number c + N.of_nat (length l).
Proof.
  revert c. induction l as [|h l IH]; intros c Hc; cbn [grow length].
  - intros [= <-]. repeat split; try apply Hc; lia.
  - destruct (next_block c h) as [d|] eqn:E; [|discriminate]. intros H.
    destruct (IH _ (next_sound _ _ _ E) H) as (?&?&?&Hn). apply next_inv in E as (?&Hk&Hs&?&Ht&_).
    split; [assumption|]. repeat split; lia.
Qed.

(** At most two blocks in each slot. *)
Lemma two_per_slot c l c' : sound c -> grow c l = Some c' ->
  N.of_nat (length l) + c_authored c + 2 * c_slot c <= 2 * c_slot c' + c_authored c'.
Proof.
  revert c. induction l as [|h l IH]; intros c Hc; cbn [grow length].
  - intros [= <-]. lia.
  - destruct (next_block c h) as [d|] eqn:E; [|discriminate]. intros H. pose proof (next_sound _ _ _ E) as Hd. specialize (IH _ Hd H).
    apply next_inv in E as (Hle&_&Hs&_&_&_&Ha&?&_). destruct Hc as (_&?&_). rewrite Hs in IH.
    destruct (N.eqb_spec (h_slot h) (c_slot c)); lia.
Qed.

(** At most three blocks wait to be included. *)
Lemma waiting_grow c l c' : grow c l = Some c' -> c_waiting c + N.of_nat (length l) <= c_waiting c' + included l.
Proof.
  revert c. induction l as [|h l IH]; intros c; cbn [grow length included fold_right].
  - intros [= <-]. lia.
  - destruct (next_block c h) as [d|] eqn:E; [|discriminate]. intros H. specialize (IH _ H). fold (included l).
    apply next_inv in E as (_&_&_&_&_&_&_&_&Hw&_). lia.
Qed.

Lemma slot_time c : sound c -> 6000 * c_slot c <= c_time c < 6000 * c_slot c + 6000.
Proof.
  intros (H&_). pose proof (N.div_mod (c_time c) 6000 ltac:(discriminate)) as D. pose proof (N.mod_lt (c_time c) 6000 ltac:(discriminate)) as M.
  rewrite H in D. clear H. revert D M. generalize (c_time c mod 6000). intros r D M. lia.
Qed.

Lemma time_passes c l c' : begun c -> goes_on c l c' ->
  c_number c' = c_number c + N.of_nat (length l) /\ c_time c <= c_time c' /\ 3000 * N.of_nat (length l) < c_time c' - c_time c + 9000.
Proof.
  intros Hb H. apply begun_sound in Hb. destruct (grow_mono _ _ _ Hb H) as (Hs&?&?&Hn). split; [exact Hn|]. split; [assumption|].
  pose proof (two_per_slot _ _ _ Hb H). pose proof (slot_time _ Hb). pose proof (slot_time _ Hs). destruct Hs as (_&?&_), Hb as (_&?&_). lia.
Qed.

Lemma time_passes_core c l c' : begun c -> goes_on c l c' -> one_core c l c' ->
  6000 * N.of_nat (length l) < c_time c' - c_time c + 18000.
Proof.
  intros Hb H Hi. apply begun_sound in Hb. destruct (grow_mono _ _ _ Hb H) as (Hs&?&?&Hn). unfold one_core in Hi.
  pose proof (waiting_grow _ _ _ H). pose proof (slot_time _ Hb). pose proof (slot_time _ Hs). destruct Hs as (_&_&?), Hb as (_&_&?). lia.
Qed.

(** Periods with one core. *)
Lemma period_core c l c' n : begun c -> goes_on c l c' -> one_core c l c' -> N.of_nat (length l) = n * 14400 -> n * day < c_time c' - c_time c + 18000.
Proof. intros Hb H Hi Hn. pose proof (time_passes_core _ _ _ Hb H Hi). unfold day. lia. Qed.

Lemma refund_day c l c' : begun c -> goes_on c l c' -> one_core c l c' -> c_number c + cancel_buffer <= c_number c' -> day < c_time c' - c_time c + 18000.
Proof.
  intros Hb H Hi Hn. pose proof (time_passes_core _ _ _ Hb H Hi) as Ht. destruct (time_passes _ _ _ Hb H) as (Hk&_). unfold cancel_buffer in Hn. unfold day. lia.
Qed.

Lemma decision_days c l c' : begun c -> goes_on c l c' -> one_core c l c' -> c_number c + decision_period <= c_number c' -> 4 * day < c_time c' - c_time c + 18000.
Proof.
  intros Hb H Hi Hn. pose proof (time_passes_core _ _ _ Hb H Hi) as Ht. destruct (time_passes _ _ _ Hb H) as (Hk&_).
  change decision_period with 57600 in Hn. unfold day. lia.
Qed.

Lemma half_as_long c l c' n : begun c -> goes_on c l c' -> c_number c + n * days <= c_number c' -> n * day < 2 * (c_time c' - c_time c) + 18000.
Proof.
  intros Hb H Hn. destruct (time_passes _ _ _ Hb H) as (Hk&_&Ht). change days with 14400 in Hn. unfold day. lia.
Qed.

(** One block in every slot, from slot [s] on; and two. *)
Fixpoint every_slot (n : nat) (s : N) : list header :=
  match n with O => [] | S n => Header s (6000 * s) s 1 :: every_slot n (s + 1) end.
Fixpoint twice_a_slot (n : nat) (s : N) : list header :=
  match n with O => [] | S n => Header s (6000 * s) s 1 :: Header s (6000 * s + 3000) s 1 :: twice_a_slot n (s + 1) end.

Lemma two_days_short : exists c l c', begun c /\ goes_on c l c' /\ one_core c l c' /\ c_number c' = c_number c + cancel_buffer /\
  c_time c' - c_time c = day.
Proof.
  exists (Clock 1 100 1 600000 1), (every_slot (N.to_nat 14400) 101), (Clock 14401 14500 1 87000000 1).
  split; [exists [], (Header 100 600000 100 1); vm_compute; reflexivity|].
  split; [vm_compute; reflexivity|]. split; [vm_compute; discriminate|]. split; vm_compute; reflexivity.
Qed.

Lemma four_days_short : exists c l c', begun c /\ goes_on c l c' /\ c_number c' = c_number c + decision_period /\ c_time c' - c_time c = 2 * day.
Proof.
  exists (Clock 2 100 2 603000 1), (twice_a_slot (N.to_nat 28800) 101), (Clock 57602 28900 2 173403000 1).
  split; [exists [Header 100 600000 100 1], (Header 100 603000 100 1); vm_compute; reflexivity|].
  split; [vm_compute; reflexivity|]. split; vm_compute; reflexivity.
Qed.

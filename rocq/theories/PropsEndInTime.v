(** Property theorems C161: referenda of the collective end in time. Words: EndInTimeSpec.v. *)
From stdpp Require Import gmap.
From Verif Require Import Base XcmTypes OriginTypes AccountsModel CommunitiesModel TracksModel GovernanceModel GovernanceSpec GovernanceProofs PropsManager PropsGovernance EndInTimeSpec EndInTime.
Open Scope N_scope.

(** A referendum not looked at when its period ends: nothing else ends it. *)
Theorem C161_alarm_refuted : forall n, exists l r, let s := grun (g_start two_members 0) l in
  is_open s Collective 0 r /\ rf_deciding r = None /\ rf_queued r = false /\ gv_now s = rf_submitted r + n.
Proof.
  intros n. exists ([GTx g_env 5 (GSubmit Collective ORoot (GOther 1) (MAfter 0))] ++ replicate (N.to_nat n) GBlock). cbv zeta. rewrite grun_app.
  destruct (only_blocks (grun (g_start two_members 0) [GTx g_env 5 (GSubmit Collective ORoot (GOther 1) (MAfter 0))]) (N.to_nat n)) as [E1 E2].
  unfold is_open. rewrite E1, E2, N2Nat.id. eexists. split; [vm_compute; reflexivity|]. by split_and!.
Qed.
Print Assumptions C161_alarm_refuted.
(** One that waits for others of its track is not bound by any period, even if always looked at when one ends. *)
Definition no_slot : genv := GEnv ok_env (fun _ => 0) true false true.
Definition h_waits : list gstep :=
  [GTx g_env 5 (GSubmit Collective ORoot (GOther 1) (MAfter 0))] ++ replicate 150 GBlock ++ [GTx no_slot 5 (GPlaceDeposit Collective 0)].
Lemma h_waits_waits : never ends_now (g_start two_members 0) h_waits 0 = true /\ waits_now (grun (g_start two_members 0) h_waits) 0 = true /\
  gv_now (grun (g_start two_members 0) h_waits) = 150.
Proof. split_and!; vm_compute; reflexivity. Qed.
Lemma h_waits_open : exists r, is_open (grun (g_start two_members 0) h_waits) Collective 0 r /\ rf_deciding r = None /\ rf_submitted r = 0.
Proof. eexists. unfold is_open. split; [vm_compute; reflexivity|]. by split. Qed.
Theorem C161_queue_refuted : forall n, exists l r, let s := grun (g_start two_members 0) l in
  attended (g_start two_members 0) l 0 /\ is_open s Collective 0 r /\ rf_deciding r = None /\ rf_submitted r + n <= gv_now s.
Proof.
  intros n. destruct h_waits_waits as (H1 & H2 & H3). destruct h_waits_open as (r & H4 & H5 & H6). exists (h_waits ++ replicate (N.to_nat n) GBlock), r. cbv zeta.
  destruct (only_blocks (grun (g_start two_members 0) h_waits) (N.to_nat n)) as [E1 E2]. split_and!; [|unfold is_open; rewrite grun_app, E1; exact H4|exact H5|].
  - apply never_attended, never_app; [exact H1|]. apply blocks_wait. exact H2.
  - rewrite grun_app, E2, H3, H6, N2Nat.id. lia.
Qed.
Print Assumptions C161_queue_refuted.
(** What holds: one looked at whenever its period ends is decided about for at most 57750 blocks (four days and fifteen minutes), and within
    28800 blocks (two days) of its submission it ended, is decided about, or waits for others; ... *)
Theorem C161_in_time_partial : forall ranks now l p r, let s := grun (g_start ranks now) l in
  attended (g_start ranks now) l p -> is_open s Collective p r ->
  match rf_deciding r with
  | None => rf_queued r = true \/ gv_now s <= rf_submitted r + 28800
  | Some (since, _) => since <= gv_now s /\ gv_now s <= since + 57750
  end.
Proof. exact ends_in_time. Qed.
Print Assumptions C161_in_time_partial.
(** ... so if it never waited for others, it is over 86550 blocks (about six days) after its submission. *)
Theorem C161_over_partial : forall ranks now l p r, let s0 := g_start ranks now in
  attended s0 l p -> is_open (grun s0 l) Collective p r -> ~ waited s0 l p ->
  gv_now (grun s0 l) <= rf_submitted r + 86550.
Proof. exact ends_in_all. Qed.
Print Assumptions C161_over_partial.

(** One that is decided about, voted on, and in the last block of its confirmation. *)
Definition h_confirms : list gstep :=
  [GTx g_env 5 (GSubmit Collective ORoot (GOther 1) (MAfter 0)); GTx g_env 5 (GPlaceDeposit Collective 0)] ++ replicate 150 GBlock ++
  [GService g_env Collective 0; GTx g_env 1 (GVote 0 true); GService g_env Collective 0] ++ replicate 150 GBlock.
Example C161_case : let s0 := g_start two_members 0 in attended s0 h_confirms 0 /\ ~ waited s0 h_confirms 0 /\ gv_now (grun s0 h_confirms) = 300 /\
  exists r, is_open (grun s0 h_confirms) Collective 0 r /\ rf_deciding r = Some (150, Some 300).
Proof.
  cbv zeta. split_and!; [apply looked_attended; vm_compute; reflexivity|apply never_waited; vm_compute; reflexivity|vm_compute; reflexivity|].
  eexists. split; [unfold is_open; vm_compute; reflexivity|reflexivity].
Qed.
(** Looked at in that block, it is over. *)
Example C161_over : let s0 := g_start two_members 0 in let l := h_confirms ++ [GService g_env Collective 0; GBlock] in
  attended s0 l 0 /\ forall r, ~ is_open (grun s0 l) Collective 0 r.
Proof.
  cbv zeta. split; [apply looked_attended; vm_compute; reflexivity|]. intros r.
  apply over_now. vm_compute. reflexivity.
Qed.

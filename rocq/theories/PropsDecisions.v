(** Property theorems C158: what a referendum approved is carried out. Words: DecisionsSpec.v, GovernanceSpec.v, SchedulerSpec.v. *)
From Verif Require Import BlocksModel BlocksSpec SchedulerModel SchedulerSpec SchedulerRefundsSpec SchedulerRefunds.
From stdpp Require Import gmap.
From Verif Require Import Base XcmTypes OriginTypes AccountsModel CommunitiesModel CommunitiesSpec CommunitiesExamples TracksModel TracksSpec ManagerModel ManagerSpec
  PropsManager GovernanceModel GovernanceSpec GovernanceProofs PropsGovernance DecisionsSpec Decisions.
Open Scope N_scope.

(** C158. An approved decision the scheduler takes waits, as proposed, for the block it is due in until it is carried out, or given up by the scheduler or
    withdrawn; it takes it if fewer than fifty tasks wait for that block and no decision of the same number waits; ... *)
Theorem C158_waits_partial : forall ranks now l e i p r ti sd what, let s := grun (g_start ranks now) l in
  gets_approved s e i p r -> track_info_of s i (rf_track r) = Some ti ->
  s_reachable sd -> sd_now sd = gv_now s -> let w := decision_block (gv_now s) (ti_enactment ti) (rf_enact r) in
  (waiting anything w sd < 50)%nat -> (forall w' k t, stands sd w' k t -> sk_name t <> sk_name (decision_task p what)) ->
  ge_sched_ok e = taken sd s (ti_enactment ti) r p what ->
  forall l', decision_waits (grun s (GService e i p :: l')) i p r w \/ gets_carried_out s (GService e i p :: l') i p \/ given_up s (GService e i p :: l') i p.
Proof. exact approved_waits. Qed.
Print Assumptions C158_waits_partial.
(** ... from that block on the scheduler can carry it out, which is then what was proposed; ... *)
Theorem C158_due_partial : forall s i p r w, decision_waits s i p r w -> w <= gv_now s ->
  exists n, forall e, carries_out s (GFire e n) i p /\ step_dispatch s (GFire e n) = Some (rf_origin r, rf_call r).
Proof. exact waits_due. Qed.
Print Assumptions C158_due_partial.
(** ... but a decision the scheduler does not take is approved for good and never carried out. *)
Theorem C158_lost : forall ranks now l e i p r ti, let s := grun (g_start ranks now) l in
  gets_approved s e i p r -> track_info_of s i (rf_track r) = Some ti -> ge_sched_ok e = false ->
  forall l', ended (grun s (GService e i p :: l')) i p (RApproved (gv_now s)) /\ ~ gets_carried_out s (GService e i p :: l') i p.
Proof. exact approved_lost. Qed.
Print Assumptions C158_lost.

(** The collective approves its first referendum, to take effect in ten days, ... *)
Definition h_far : list gstep :=
  [GTx g_env 5 (GSubmit Collective ORoot (GPromote 2) (MAfter 144000)); GTx g_env 5 (GPlaceDeposit Collective 0)] ++ replicate 150 GBlock ++
  [GService g_env Collective 0; GTx g_env 1 (GVote 0 true); GService g_env Collective 0] ++ replicate 150 GBlock ++ [GService g_env Collective 0].
(** ... and the members of a community approve the first one of communities before that, a week say. *)
Definition h_both : list gstep := h_far ++ h_agreed.
Definition s_both : gstate := grun (g_start two_members 0) h_both.
Definition nothing_costs : senv := SEnv (fun _ => true) (fun _ => BlocksModel.W 0 0) (fun _ => BlocksModel.W 0 0) (fun _ => []) (BlocksModel.W 0 0) (fun _ => BlocksModel.W 0 0) (fun _ => BlocksModel.W 0 0) (BlocksModel.W 0 0).
Definition sh_both : list sstep := replicate 300 (SNext nothing_costs) ++ [SAct (SPlace 144300 (decision_task 0 7))] ++ replicate 2 (SNext nothing_costs).
Definition r_both : referendum := Referendum 1 (OCommunity 1 None) (GUpdateTrack 1 (default_track [])) (MAfter 0) 300 true (Some (301, Some 302)) false.
Lemma both_approved e : ge_m e = ok_env -> ge_issuance e = (fun _ => 0) -> gets_approved s_both e Community 0 r_both.
Proof.
  destruct e as [m iss d sl ok]. cbn [ge_m ge_issuance]. intros -> ->. split; [vm_compute; reflexivity|]. destruct d, sl, ok; eexists; vm_compute; reflexivity.
Qed.
Lemma both_tasks : same_tasks s_both (srun (s_start 0) sh_both).
Proof.
  intros w. assert (E : gv_agenda s_both = [Task 144300 ORoot (GPromote 2) (Some (Collective, 0))]) by (vm_compute; reflexivity). rewrite E.
  assert (A : map_to_list (sd_agenda (srun (s_start 0) sh_both)) = [(144300, [Some (decision_task 0 7)])]) by (vm_compute; reflexivity).
  unfold waiting, agenda_of. cbn [List.filter tk_due]. destruct (N.eqb_spec 144300 w) as [<-|Hw].
  - replace (sd_agenda _ !! 144300) with (Some [Some (decision_task 0 7)]); [reflexivity|]. symmetry. apply elem_of_map_to_list. rewrite A. by left.
  - destruct (sd_agenda _ !! w) as [a|] eqn:Ea; [|reflexivity]. apply elem_of_map_to_list in Ea. rewrite A in Ea. apply elem_of_list_singleton in Ea. injection Ea as -> _. by destruct Hw.
Qed.
(** Refuted: decisions of the collective and of communities are scheduled under the same names if they have the same number. The community's decision is approved
    and never carried out: the scheduler, which has what governance has scheduled, that of the collective, does not take it. *)
Theorem C158_same_number_refuted : exists ranks now l sl i p r ti, let s := grun (g_start ranks now) l in let sd := srun (s_start now) sl in
  blocks sl = new_blocks l /\ sd_now sd = gv_now s /\ same_tasks s sd /\ length (gv_agenda s) = 1%nat /\ track_info_of s i (rf_track r) = Some ti /\
  forall what, exists e, ge_sched_ok e = taken sd s (ti_enactment ti) r p what /\ gets_approved s e i p r /\
    forall l', ended (grun s (GService e i p :: l')) i p (RApproved (gv_now s)) /\ ~ gets_carried_out s (GService e i p :: l') i p.
Proof.
  exists two_members, 0, h_both, sh_both, Community, 0, r_both, (default_track name_one). cbv zeta. split_and!.
  - vm_compute. reflexivity.
  - vm_compute. reflexivity.
  - exact both_tasks.
  - vm_compute. reflexivity.
  - vm_compute. reflexivity.
  - intros what. exists (GEnv ok_env (fun _ => 0) true true false). split; [|split; [exact (both_approved (GEnv ok_env (fun _ => 0) true true false) eq_refl eq_refl)|]].
    + vm_compute. reflexivity.
    + apply (approved_lost two_members 0 h_both _ Community 0 r_both (default_track name_one)); [exact (both_approved (GEnv ok_env (fun _ => 0) true true false) eq_refl eq_refl)|vm_compute; reflexivity|reflexivity].
Qed.
Print Assumptions C158_same_number_refuted.
(** Refuted as well when fifty tasks wait for the block it is due in. *)
Definition h_near : list gstep := removelast (removelast h_decision).
Definition r_near : referendum := Referendum 0 ORoot (GPromote 2) (MAfter 0) 0 true (Some (150, Some 300)) false.
Lemma near_approved e : ge_m e = ok_env -> ge_issuance e = (fun _ => 0) -> gets_approved (grun (g_start two_members 0) h_near) e Collective 0 r_near.
Proof.
  destruct e as [m iss d sl ok]. cbn [ge_m ge_issuance]. intros -> ->. split; [vm_compute; reflexivity|]. destruct d, sl, ok; eexists; vm_compute; reflexivity.
Qed.
Definition kind_two (x : option stask) : bool := match x with Some t => match sk_name t with Some (2, _) => true | _ => false end | None => true end.
Lemma crowd_kinds : forallb (fun wa => forallb kind_two wa.2) (map_to_list (sd_agenda (crowd 300 301))) = true.
Proof. vm_compute. reflexivity. Qed.
Lemma crowd_names w' k t : stands (crowd 300 301) w' k t -> exists n, sk_name t = Some (2, n).
Proof.
  generalize crowd_kinds. generalize (crowd 300 301). intros sd Hk Hs. unfold stands, agenda_of in Hs.
  destruct (sd_agenda sd !! w') as [a|] eqn:Ea; [|discriminate Hs]. apply elem_of_map_to_list, elem_of_list_In in Ea.
  rewrite forallb_forall in Hk. specialize (Hk _ Ea). cbn [snd] in Hk. rewrite forallb_forall in Hk. change (default [] (Some a)) with a in Hs.
  apply elem_of_list_lookup_2, elem_of_list_In in Hs. specialize (Hk _ Hs). cbn [kind_two] in Hk.
  destruct (sk_name t) as [[m n]|]; [|discriminate Hk]. destruct m as [|[?|[?|?|]|]]; try discriminate Hk. by exists n.
Qed.
Lemma near_track : exists ti, track_info_of (grun (g_start two_members 0) h_near) Collective (rf_track r_near) = Some ti /\ ti_enactment ti = 1.
Proof. eexists. split; vm_compute; reflexivity. Qed.
Lemma near_now : gv_now (grun (g_start two_members 0) h_near) = 300.
Proof. vm_compute. reflexivity. Qed.
Lemma crowd_full : waiting anything 301 (crowd 300 301) = 50%nat.
Proof. vm_compute. reflexivity. Qed.
Theorem C158_crowded_refuted : exists ranks now l sd i p r ti, let s := grun (g_start ranks now) l in
  s_reachable sd /\ sd_now sd = gv_now s /\ track_info_of s i (rf_track r) = Some ti /\ (forall w' k t, stands sd w' k t -> sk_name t <> sk_name (decision_task p 0)) /\
  forall what, exists e, ge_sched_ok e = taken sd s (ti_enactment ti) r p what /\ gets_approved s e i p r /\
    forall l', ended (grun s (GService e i p :: l')) i p (RApproved (gv_now s)) /\ ~ gets_carried_out s (GService e i p :: l') i p.
Proof.
  destruct near_track as (ti & Et & Ee). pose proof near_now as En.
  exists two_members, 0, h_near, (crowd 300 301), Collective, 0, r_near, ti. cbv zeta. generalize near_approved, (approved_lost two_members 0 h_near). cbv zeta. revert Et En.
  generalize (grun (g_start two_members 0) h_near). intros s Et En Ha Hl. split_and!.
  - apply crowd_reachable.
  - rewrite En. vm_compute. reflexivity.
  - exact Et.
  - intros w' k t Hs Hk. destruct (crowd_names _ _ _ Hs) as [n E]. rewrite E in Hk. discriminate Hk.
  - intros what. set (e := GEnv ok_env (fun _ => 0) true true false). specialize (Ha e eq_refl eq_refl). exists e. split_and!; [|exact Ha|exact (Hl e Collective 0 r_near ti Ha Et eq_refl)].
    symmetry. change (ge_sched_ok e) with false. apply crowd_refused; [apply crowd_reachable|]. rewrite Ee, En. exact crowd_full.
Qed.
Print Assumptions C158_crowded_refuted.
(** With nothing else scheduled the same decision is taken, and carried out a block later. *)
Example C158_case : let s := grun (g_start two_members 0) h_near in
  gets_approved s g_env Collective 0 r_near /\ s_reachable (s_start 300) /\ sd_now (s_start 300) = gv_now s /\
  waiting anything (decision_block 300 1 (MAfter 0)) (s_start 300) = 0%nat /\ taken (s_start 300) s 1 r_near 0 7 = true /\
  gets_carried_out s [GService g_env Collective 0; GBlock; GFire g_env 0] Collective 0.
Proof.
  cbv zeta. split; [exact (near_approved g_env eq_refl eq_refl)|]. split; [exists 300, []; reflexivity|]. split_and!; [vm_compute; reflexivity..|].
  exists [GService g_env Collective 0; GBlock], (GFire g_env 0), []. split; [reflexivity|]. exact decision_carried_out.
Qed.

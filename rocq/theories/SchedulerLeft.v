(** Blocks the scheduler has passed by. *)
From Verif Require Import Base BlocksModel BlocksSpec SchedulerModel SchedulerSpec SchedulerProofs.
From stdpp Require Import gmap.
Open Scope N_scope.

Lemma act_ran s a at_ w t : In (ERan at_ w t) (sd_log (do_act s a)) -> In (ERan at_ w t) (sd_log s).
Proof.
  unfold do_act. destruct a as [w' u|w' i|k].
  - unfold schedule. destruct (match sk_name u with Some _ => _ | None => _ end); [done|]. destruct (_ <=? _); [done|]. destruct (push _ _) as [[b q]|]; [|done].
    cbn [default]. destruct (sk_name u); cbn [slog sd_log In]; intros [H|H]; try discriminate H; exact H.
  - unfold cancel_at. destruct (agenda_of s w' !! i) as [[v|]|]; try done. cbn [default slog sd_log In]. intros [H|H]; [discriminate H|].
    destruct (agenda_of_forget_name (sk_name v) s) as (_ & _ & _ & E). unfold put_agenda in H. cbn [sset_agenda sd_log] in H. rewrite E in H. exact H.
  - unfold cancel_named. destruct (sd_lookup s !! k) as [[w' q]|]; [|done]. cbn [default]. destruct (agenda_of s w' !! q) as [[v|]|]; cbn [slog sd_log In]; [intros [H|H]; [discriminate H|exact H]|done|done].
Qed.
Lemma acts_ran l s at_ w t : In (ERan at_ w t) (sd_log (fold_left do_act l s)) -> In (ERan at_ w t) (sd_log s).
Proof. revert s. induction l as [|a l IH]; intros s H; [exact H|]. eapply act_ran, IH, H. Qed.

Lemma tasks_ran e w2 order x at_ w t : w <> w2 -> In (ERan at_ w t) (sd_log (lp_s (service_tasks e w2 order x))) -> In (ERan at_ w t) (sd_log (lp_s x)).
Proof.
  intros Hw. revert x. induction order as [|j order IH]; intros x; cbn [service_tasks]; [done|].
  destruct (lp_agenda x !! j) as [[u|]|]; [|apply IH|apply IH]. destruct (negb _); [done|].
  pose proof (service_task_cases e (lp_s x) (lp_m x) (lp_ran x =? 0)%nat w2 u) as C. destruct (service_task _ _ _ _ _ _) as [[[] s'] m']; intros H; apply IH in H; cbn [lp_s] in H.
  - subst s'. apply acts_ran in H. cbn [slog sd_log In] in H. destruct H as [H|H]; [congruence|]. rewrite forget_log in H. exact H.
  - destruct C as [-> _]. rewrite forget_log in H. exact H.
  - destruct C as [-> _]. rewrite forget_log in H. exact H.
Qed.
Lemma tasks_since e w2 order x : sd_since (lp_s (service_tasks e w2 order x)) = sd_since (lp_s x) /\ sd_now (lp_s (service_tasks e w2 order x)) = sd_now (lp_s x).
Proof.
  assert (A : forall l s, sd_since (fold_left do_act l s) = sd_since s /\ sd_now (fold_left do_act l s) = sd_now s).
  { intros l. induction l as [|a l IH]; intros s; [done|]. cbn [fold_left]. destruct (IH (do_act s a)) as [-> ->]. apply since_act. }
  revert x. induction order as [|j order IH]; intros x; cbn [service_tasks]; [done|].
  destruct (lp_agenda x !! j) as [[u|]|]; [|apply IH|apply IH]. destruct (negb _); [done|].
  pose proof (service_task_cases e (lp_s x) (lp_m x) (lp_ran x =? 0)%nat w2 u) as C. destruct (agenda_of_forget_name (sk_name u) (lp_s x)) as (_ & E2 & E3 & _).
  destruct (service_task _ _ _ _ _ _) as [[[] s'] m'].
  - destruct (IH (SLoop (<[j:=None]> (lp_agenda x)) s' m' (S (lp_ran x)) (lp_wait x) (lp_left x))) as [-> ->]. cbn [lp_s]. subst s'.
    destruct (A (se_acts e (sk_what u)) (slog (ERan (sd_now (lp_s x)) w2 u) (forget (sk_name u) (lp_s x)))) as [-> ->]. cbn [slog sd_since sd_now]. done.
  - destruct (IH (SLoop (lp_agenda x) s' m' (lp_ran x) (lp_wait x) true)) as [-> ->]. destruct C as [-> _]. done.
  - destruct (IH (SLoop (lp_agenda x) s' m' (lp_ran x) true (lp_left x))) as [-> ->]. destruct C as [-> _]. done.
Qed.

(** A walk that begins after block [w] leaves it alone and does not go back. *)
Lemma walk_passed e n s m ran inc w2 w at_ t : w < w2 -> In (ERan at_ w t) (sd_log (walk e s m ran inc w2 n)) -> In (ERan at_ w t) (sd_log s).
Proof.
  revert s m ran inc w2. induction n as [|n IH]; intros s m ran inc w2 Hw; cbn [walk]; [destruct (_ <=? _); done|].
  destruct (fits _ _); [|destruct (_ <=? _); done]. unfold service_agenda. set (y := service_tasks _ _ _ _). intros H. apply IH in H; [|lia]. cbn [sset_agenda sd_log] in H.
  apply tasks_ran in H; [|lia]. exact H.
Qed.
Lemma walk_forth e n s m ran inc w2 w : w <= inc -> w <= w2 -> sd_since s = None -> sd_now s + 1 >= w ->
  w <= oldest (walk e s m ran inc w2 n) /\ oldest (walk e s m ran inc w2 n) <= sd_now (walk e s m ran inc w2 n) + 1.
Proof.
  assert (Stop : forall s inc w2, w <= inc -> w <= w2 -> sd_since s = None -> sd_now s + 1 >= w ->
    let s' := if N.min inc w2 <=? sd_now s then sset_since (Some (N.min inc w2)) s else s in w <= oldest s' /\ oldest s' <= sd_now s' + 1).
  { clear. intros s inc w2 H1 H2 H3 H4. cbv zeta. destruct (N.leb_spec (N.min inc w2) (sd_now s)) as [H|H]; unfold oldest; [|rewrite H3]; cbn; lia. }
  revert s m ran inc w2. induction n as [|n IH]; intros s m ran inc w2 H1 H2 H3 H4; cbn [walk]; [apply Stop; assumption|].
  destruct (fits _ _); [|apply Stop; assumption]. unfold service_agenda. set (y := service_tasks _ _ _ _).
  destruct (tasks_since e w2 (ordered (agenda_of s w2)) (SLoop (agenda_of s w2) s (meter m (se_agenda e (length (ordered (agenda_of s w2))))) ran false false)) as [E1 E2]. fold y in E1, E2. cbn [lp_s] in E1, E2.
  apply IH; [destruct (negb _); lia|lia|exact (eq_trans E1 H3)|]. cbn [sset_agenda sd_now]. rewrite E2. exact H4.
Qed.

Lemma block_passed e s w at_ t : w < oldest s -> oldest s <= sd_now s + 1 ->
  (In (ERan at_ w t) (sd_log (next_block e s)) -> In (ERan at_ w t) (sd_log s)) /\ w < oldest (next_block e s) /\ oldest (next_block e s) <= sd_now (next_block e s) + 1.
Proof.
  intros Hw Ho. unfold next_block. destruct (negb _).
  - split; [done|]. unfold oldest in *. cbn [sset_now sd_since sd_now] in *. destruct (sd_since s) as [x|]; cbn in *; lia.
  - cbv zeta. set (s1 := sset_since None (sset_now (sd_now s + 1) s)). assert (E : default (sd_now s + 1) (sd_since (sset_now (sd_now s + 1) s)) = oldest s) by reflexivity. rewrite E. split.
    + intros H. apply walk_passed in H; [exact H|exact Hw].
    + destruct (walk_forth e (N.to_nat (sd_now s + 1 + 1 - oldest s)) s1 (meter (W 0 0) (se_walk e)) 0 (sd_now s + 1 + 1) (oldest s) (oldest s)) as [G1 G2].
      * lia.
      * lia.
      * reflexivity.
      * cbn [s1 sset_since sset_now sd_now]. lia.
      * split; [lia|exact G2].
Qed.

Lemma passed_by : forall s w t l at_, w < oldest s -> oldest s <= sd_now s + 1 -> In (ERan at_ w t) (sd_log (srun s l)) -> In (ERan at_ w t) (sd_log s).
Proof.
  intros s w t l at_. revert s. induction l as [|x l IH]; intros s Hw Ho H; [exact H|]. cbn [srun fold_left] in H. destruct x as [a|e]; cbn [do_sstep] in H.
  - apply (act_ran s a). destruct (since_act s a) as [E1 E2]. apply IH; [unfold oldest; rewrite E1, E2; exact Hw|unfold oldest; rewrite E1, E2; exact Ho|exact H].
  - destruct (block_passed e s w at_ t Hw Ho) as (G1 & G2 & G3). apply G1, IH; assumption.
Qed.
Lemma oldest_due : forall s, s_reachable s -> oldest s <= sd_now s + 1.
Proof. intros s R. unfold oldest. destruct (sd_since s) as [w|] eqn:E; cbn; [pose proof (since_past s w R E)|]; lia. Qed.
Lemma passed : forall s w t l at_, s_reachable s -> w < oldest s -> In (ERan at_ w t) (sd_log (srun s l)) -> In (ERan at_ w t) (sd_log s).
Proof. intros s w t l at_ R Hw. apply passed_by; [exact Hw|apply oldest_due, R]. Qed.

(** Two tasks for block 9 and one for block 11; looking at a block takes 30 percent of what the scheduler may use, each of the tasks 50 percent. *)
Definition laden : senv :=
  SEnv (fun _ => true) (fun _ => W 800000000000 0) (fun _ => W 800000000000 0) (fun _ => []) (W 0 0) (fun _ => W 480000000000 0) (fun _ => W 1000 0) (W 0 0).
Definition late_comer : stask := STask None 63 3.
Definition laden_state : sched :=
  srun (s_start 8) [SAct (SPlace 9 (STask None 63 1)); SAct (SPlace 9 (STask None 63 2)); SAct (SPlace 11 late_comer); SNext laden; SNext laden].
Lemma laden_runs t : can_run t laden.
Proof.
  split; [reflexivity|]. exists (W 1000 0). split; [intros; split; vm_compute; discriminate|]. split; [intros; split; vm_compute; discriminate|]. split; vm_compute; discriminate.
Qed.
Lemma left_for_good : exists s i t e, s_reachable s /\ stands s (sd_now s + 1) i t /\ (forall u, can_run u e) /\ (forall c, se_acts e c = []) /\
  waiting anything (sd_now s + 1) s = 1%nat /\ forall l at_, ~ In (ERan at_ (sd_now s + 1) t) (sd_log (srun s (SNext e :: l))).
Proof.
  exists laden_state, 0%nat, late_comer, laden. split_and!.
  - eexists _, _. reflexivity.
  - vm_compute. reflexivity.
  - exact laden_runs.
  - reflexivity.
  - vm_compute. reflexivity.
  - intros l at_ H. assert (E : sd_now laden_state + 1 = 11) by (vm_compute; reflexivity). rewrite E in H. cbn [srun fold_left do_sstep] in H. apply passed_by in H.
    + assert (L : sd_log (next_block laden laden_state) = sd_log laden_state) by (vm_compute; reflexivity). rewrite L in H.
      assert (L2 : sd_log laden_state = [ERan 10 9 (STask None 63 2); ERan 9 9 (STask None 63 1); EPlaced 11 late_comer; EPlaced 9 (STask None 63 2); EPlaced 9 (STask None 63 1)]) by (vm_compute; reflexivity).
      rewrite L2 in H. cbn [In] in H. repeat (destruct H as [H|H]; [discriminate H|]). exact H.
    + vm_compute. reflexivity.
    + vm_compute. discriminate.
Qed.

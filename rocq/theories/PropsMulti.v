(** Property theorems C172, C173: accounts of several signatories. The program is MultiModel.v; the words are in MultiSpec.v. *)
From stdpp Require Import gmap.
From Verif Require Import Base RuntimeModel DelayedModel MultiModel MultiSpec Multi.
Open Scope N_scope.

(* ------------------------------------------------------------------ *)
(** * C172: calls are made in the name of a group exactly when enough of it agree *)

(** Whenever a call is carried out as the account of a group, as many different members as the account asks for agreed to that very call since
    its opening, which counts for nothing else; and who opened it has back what they set aside, the deposit for that number of members. *)
Theorem C172_agreed : forall acct hash l before w sig t h d n after, accounts_differ acct ->
  m_record acct hash l = before ++ MExecuted w (acct sig t) h d n :: after ->
  n = multi_deposit t /\ exists rest who, opened before (acct sig t) h d n rest /\ NoDup who /\ t <= N.of_nat (length who) /\
    forall y, y ∈ who -> y ∈ sig /\ (y = d \/ MApproved y (acct sig t) h ∈ rest \/ y = w).
Proof. exact enough_agreed. Qed.
Print Assumptions C172_agreed.
(** The account for which any member alone is enough. *)
Theorem C172_one : forall acct hash l before w sig t after, accounts_differ acct ->
  m_record acct hash l = before ++ MExecuted1 w (acct sig t) :: after -> t = 1 /\ w ∈ sig.
Proof. exact one_enough. Qed.
Print Assumptions C172_one.
(** Nothing else is done in another's name. *)
Theorem C172_only : forall acct hash s at_ e who c id k, MDid id k ∈ snd (mstep_run acct hash s (MTx at_ e who c)) -> id <> who ->
  exists x, ((exists w h d n, x = MExecuted w id h d n) \/ (exists w, x = MExecuted1 w id)) /\ x ∈ snd (mstep_run acct hash s (MTx at_ e who c)).
Proof. exact only_executed. Qed.
Print Assumptions C172_only.
(** What is cancelled is cancelled by who opened it, who has back what they set aside. *)
Theorem C172_cancelled : forall acct hash l before w id h n after, accounts_differ acct ->
  m_record acct hash l = before ++ MCancelled w id h n :: after -> exists rest, opened before id h w n rest.
Proof. exact cancelled_own. Qed.
Print Assumptions C172_cancelled.

(** Enough members can: anyone of the group opens, anyone else of it approves, and with the last approval needed, given with the call, it is
    carried out. *)
Theorem C172_can : forall acct hash s at_ e who t l c, group l -> who ∈ l -> 2 <= t ->
  (op_of s (acct l t) (hash c) = None -> w_deposit e who = true ->
   let r := mstep_run acct hash s (MTx at_ e who (MApprove t (without who l) None (hash c))) in
   snd r = [MOpened who (acct l t) (hash c) (multi_deposit t)] /\ op_of (fst r) (acct l t) (hash c) = Some (MOp at_ (multi_deposit t) who [who])) /\
  (forall m, op_of s (acct l t) (hash c) = Some m -> who ∉ o_approvals m -> N.of_nat (length (o_approvals m)) < t ->
   let r := mstep_run acct hash s (MTx at_ e who (MApprove t (without who l) (Some (o_when m)) (hash c))) in
   snd r = [MApproved who (acct l t) (hash c)] /\
   exists m', op_of (fst r) (acct l t) (hash c) = Some m' /\ o_when m' = o_when m /\ length (o_approvals m') = S (length (o_approvals m)) /\
     forall y, y ∈ o_approvals m' <-> y = who \/ y ∈ o_approvals m) /\
  (forall m, op_of s (acct l t) (hash c) = Some m -> w_fits e c = true ->
   (t <= N.of_nat (length (o_approvals m)) \/ (who ∉ o_approvals m /\ t <= N.of_nat (length (o_approvals m)) + 1)) ->
   exists r, snd (mstep_run acct hash s (MTx at_ e who (MAsMulti t (without who l) (Some (o_when m)) c))) =
     MExecuted who (acct l t) (hash c) (o_depositor m) (o_deposit m) :: r /\
     (forall s' es, mrun acct hash e (acct l t) c (Mst at_ (delete (acct l t, hash c) (m_ops s))) = Some (s', es) -> r = es)).
Proof.
  intros acct hash s at_ e who t l c G Hin Ht. split_and!; [exact (opens acct hash s at_ e who t l (hash c) G Hin Ht)| |].
  - intros m. exact (approves acct hash s at_ e who t l (hash c) m G Hin Ht).
  - intros m. exact (carried_out acct hash s at_ e who t l c m G Hin Ht).
Qed.
Print Assumptions C172_can.

(** Two of 1, 2 and 3 have to agree. 2 opens, 2 alone gets nowhere, 4 is not of the group, 3 carries it out; a second time it does not work. *)
Definition m_env : menv := MEnv (fun _ => true) (fun _ _ => true) (fun _ => true).
Definition m_hash (c : mcall) : N := match c with MOther k => k | _ => 99 end.
(** An account for every list and number (an injective code). *)
Fixpoint m_code (l : list N) : positive := match l with [] => xH | a :: r => Pos.iter xO (xI (m_code r)) (N.succ_pos a) end.
Definition m_acct (l : list N) (t : N) : N := Npos (m_code (t :: l)).
Lemma m_code_run n p q : forall m, Pos.iter xO (xI p) n = Pos.iter xO (xI q) m -> n = m /\ p = q.
Proof.
  induction n as [|n IH] using Pos.peano_ind; intros m; destruct (Pos.peano_case (fun m => m = xH \/ exists k, m = Pos.succ k) (or_introl eq_refl)
    (fun k => or_intror (ex_intro _ k eq_refl)) m) as [->|[k ->]]; rewrite ?Pos.iter_succ; cbn.
  - intros H. injection H as ->. auto.
  - destruct (Pos.peano_case (fun m => m = xH \/ exists j, m = Pos.succ j) (or_introl eq_refl) (fun k => or_intror (ex_intro _ k eq_refl)) k) as [->|[j ->]];
      rewrite ?Pos.iter_succ; cbn; discriminate.
  - destruct (Pos.peano_case (fun m => m = xH \/ exists j, m = Pos.succ j) (or_introl eq_refl) (fun k => or_intror (ex_intro _ k eq_refl)) n) as [->|[j ->]];
      rewrite ?Pos.iter_succ; cbn; discriminate.
  - intros H. injection H as H. destruct (IH _ H) as [-> ->]. auto.
Qed.
Lemma m_code_inj : forall l l', m_code l = m_code l' -> l = l'.
Proof.
  induction l as [|a r IH]; intros [|a' r'] H; cbn [m_code] in H; [reflexivity| | |].
  - destruct (N.succ_pos a') as [|k _] using Pos.peano_ind; rewrite ?Pos.iter_succ in H; discriminate H.
  - destruct (N.succ_pos a) as [|k _] using Pos.peano_ind; rewrite ?Pos.iter_succ in H; discriminate H.
  - apply m_code_run in H as [H1 H2]. f_equal; [|exact (IH _ H2)]. apply (f_equal Npos) in H1. rewrite !N.succ_pos_spec in H1. lia.
Qed.
Lemma m_acct_differ : accounts_differ m_acct.
Proof. intros l t l' t' H. unfold m_acct in H. injection H as H. apply (m_code_inj (t :: l) (t' :: l')) in H. injection H as -> ->. auto. Qed.
Definition h_multi : list mstep :=
  [MTx (5, 1) m_env 2 (MAsMulti 2 [1; 3] None (MOther 7)); MTx (6, 1) m_env 2 (MAsMulti 2 [1; 3] (Some (5, 1)) (MOther 7));
   MTx (6, 2) m_env 4 (MAsMulti 2 [1; 3] (Some (5, 1)) (MOther 7)); MTx (6, 3) m_env 3 (MAsMulti 2 [1; 2] (Some (5, 1)) (MOther 7));
   MTx (6, 4) m_env 1 (MAsMulti 2 [2; 3] (Some (5, 1)) (MOther 7))].
Example C172_case : let id := m_acct [1; 2; 3] 2 in
  m_record m_acct m_hash h_multi = [MOpened 2 id 7 (multi_deposit 2); MExecuted 3 id 7 2 (multi_deposit 2); MDid id 7] /\ group [1; 2; 3] /\
  accounts_differ m_acct.
Proof. split; [vm_compute; reflexivity|]. split; [split; [reflexivity | cbn; lia] | exact m_acct_differ]. Qed.

(* ------------------------------------------------------------------ *)
(** * C173: who approved can withdraw the approval until the call is made *)

(** Refuted: whatever anyone signs, an approval stays and counts until the call is carried out or who opened the operation cancels it. *)
Theorem C173_withdraw_refuted : forall acct hash s x id h m w, op_of s id h = Some m -> w ∈ o_approvals m ->
  let r := mstep_run acct hash s x in
  (exists m', op_of (fst r) id h = Some m' /\ w ∈ o_approvals m' /\ o_depositor m' = o_depositor m) \/ (exists w' d n, MExecuted w' id h d n ∈ snd r) \/
  (exists n, MCancelled (o_depositor m) id h n ∈ snd r).
Proof. exact approval_stays. Qed.
Print Assumptions C173_withdraw_refuted.
(** What holds: who opened it can cancel it, with all approvals. *)
Theorem C173_withdraw_partial : forall acct hash s at_ e t l h m, group l -> o_depositor m ∈ l -> 2 <= t -> op_of s (acct l t) h = Some m ->
  let r := mstep_run acct hash s (MTx at_ e (o_depositor m) (MCancel t (without (o_depositor m) l) (o_when m) h)) in
  snd r = [MCancelled (o_depositor m) (acct l t) h (o_deposit m)] /\ op_of (fst r) (acct l t) h = None.
Proof. exact opener_cancels. Qed.
Print Assumptions C173_withdraw_partial.

(** Three of four: 1 opens, 2 approves and tries to cancel, in vain; 1 cancels. *)
Definition h_regret : list mstep :=
  [MTx (5, 1) m_env 1 (MApprove 3 [2; 3; 4] None 7); MTx (5, 2) m_env 2 (MApprove 3 [1; 3; 4] (Some (5, 1)) 7);
   MTx (6, 1) m_env 2 (MCancel 3 [1; 3; 4] (5, 1) 7); MTx (7, 1) m_env 1 (MCancel 3 [2; 3; 4] (5, 1) 7)].
Example C173_case : let id := m_acct [1; 2; 3; 4] 3 in
  m_record m_acct m_hash h_regret = [MOpened 1 id 7 (multi_deposit 3); MApproved 2 id 7; MCancelled 1 id 7 (multi_deposit 3)] /\
  op_of (fst (mrun_all m_acct m_hash m_start (take 3 h_regret))) id 7 = Some (MOp (5, 1) (multi_deposit 3) 1 [1; 2]).
Proof. vm_compute. auto. Qed.

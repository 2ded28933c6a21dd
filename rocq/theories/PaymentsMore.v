(** Further payment proofs: acting parties in fresh histories, disputes, fee summaries, shared ids. *)
From Verif Require Import BaseProofs XcmTypes OriginTypes PaymentIdModel FeesModel LedgerModel PaymentsModel PaymentsSpec LedgerProofs FeesProofs
  PaymentsProofs PaymentsInvariants PaymentsHistories PaymentsTheorems PaymentsAmounts.
From stdpp Require Import gmap sorting.
Open Scope N_scope.

Lemma run_app c st l1 l2 : run c st (l1 ++ l2) = run c (run c st l1) l2.
Proof. apply fold_left_app. Qed.

Lemma new_ids_app l1 l2 : new_ids (l1 ++ l2) = new_ids l1 ++ new_ids l2.
Proof. unfold new_ids. by rewrite map_app, concat_app. Qed.

(** A record's id was handed out by the generator. *)
Lemma unused_run c st steps id :
  finv st -> NoDup (new_ids steps) -> (forall i, i ∈ new_ids steps -> unused st i) -> unused st id -> id ∉ new_ids steps ->
  unused (run c st steps) id.
Proof.
  revert st. induction steps as [|s steps IH]; intros st F Hnd U Hu Hn; [done|]. cbn.
  rewrite new_ids_cons in *. apply NoDup_app in Hnd as (N1 & N2 & N3). apply not_elem_of_app in Hn as [Hn1 Hn2].
  apply IH; [|done| | |done].
  - apply finv_step; [done|]. intros i Hi. apply U, elem_of_app. by left.
  - intros i Hi. apply unused_step; [done|apply U, elem_of_app; by right|]. intros Hs. by eapply N2.
  - by apply unused_step.
Qed.

Lemma record_id_generated c f now steps s id d :
  NoDup (new_ids steps) -> st_pays (run c (genesis f now) steps) !! (s, id) = Some d -> id ∈ new_ids steps.
Proof.
  intros Hnd Hp. destruct (decide (id ∈ new_ids steps)) as [|Hn]; [done|exfalso].
  assert (Hg : forall i, unused (genesis f now) i) by (intros i; split; cbn; apply lookup_empty).
  pose proof (unused_run c (genesis f now) steps id (finv_genesis f now) Hnd (fun i _ => Hg i) (Hg id) Hn) as U.
  assert (F : finv (run c (genesis f now) steps)) by (apply (reachable_fresh_finv c); by exists f, now, steps).
  by rewrite (finv_unused_pays _ _ s F U) in Hp.
Qed.

Lemma who_may_act c f now steps step s id d :
  beneficiary_signs c -> NoDup (new_ids (steps ++ [step])) ->
  let st := run c (genesis f now) steps in
  st_pays st !! (s, id) = Some d -> st_pays (run_step c st step) !! (s, id) <> Some d ->
  may_act c st s id d step.
Proof.
  intros Hsig Hnd st Hp Hch. rewrite new_ids_app in Hnd. apply NoDup_app in Hnd as (N1 & N2 & N3).
  assert (Hf : reachable_fresh c st) by (by exists f, now, steps).
  pose proof (who_may_change c st step s id d Hsig (reachable_fresh_reachable _ _ Hf) Hp Hch) as Hm.
  inversion Hm as [o call e Ho Hc|o call e Ho Hc|e due Ha Hd|o r e w Ho|o call e Hs Hi]; subst step.
  - by apply ma_sender.
  - by apply ma_beneficiary.
  - assert (Hst : d_state d = RefundRequested due).
    { destruct (f_task _ (reachable_fresh_finv c st Hf) _ _ _ Ha _ _ Hp) as [[H _]|H]; [done|exfalso].
      apply Hch. destruct (stale_refund_harmless c st id e Hf) as (_ & -> & _); [|done].
      intros s' d' n Hp' Hs'. pose proof (f_one _ (reachable_fresh_finv c st Hf) _ _ _ Hp').
      pose proof (f_one _ (reachable_fresh_finv c st Hf) _ _ _ Hp). congruence. }
    by eapply ma_scheduled.
  - by eapply ma_resolver.
  - exfalso. apply (N2 id).
    + by eapply record_id_generated.
    + rewrite new_ids_cons, step_new_id_call. apply elem_of_app. by left.
Qed.

(* ------------------------------------------------------------------ *)
(** * Two payments of one extrinsic *)

(** Accounts 10 and 30 pay account 20 within the same extrinsic (for instance a batch), and get the same id. *)
Definition sh_id : N := 429496795136.
Definition sh_steps : list pstep :=
  [ SCall (OSigned 10) (CPay (AddrId 20) 1 200 None) (ex_env sh_id);
    SCall (OSigned 30) (CPay (AddrId 20) 1 300 None) (ex_env sh_id);
    SCall (OSigned 10) (CRequestRefund sh_id) (ex_env 0);
    SCall (OSigned 10) (CAcceptAndPay sh_id) (ex_env 0);
    SBlock; SBlock; SBlock; SBlock; SBlock ].
Definition sh_state : pstate := run ex_cfg ex0 sh_steps.

Lemma shared_id_cancels_other : exists c st id e,
  kreivo_id 100 1 20 id /\ reachable c st /\
  state_of st (10, id) = Some Finished /\ state_of st (30, id) = Some Created /\
  state_of (run_step c st (SFire id e)) (30, id) = None.
Proof.
  exists ex_cfg, sh_state, sh_id, (ex_env 0).
  split; [eexists; split; [reflexivity|vm_compute; reflexivity]|].
  split; [by exists ex_free, 100, sh_steps|].
  split_and!; vm_compute; reflexivity.
Qed.

(** The refund scheduled for one of them ends the other, which nobody asked to be refunded. *)
Lemma shared_id_bystander : exists c st s id d e,
  beneficiary_signs c /\ reachable c st /\ st_pays st !! (s, id) = Some d /\
  st_pays (run_step c st (SFire id e)) !! (s, id) <> Some d /\ ~ may_act c st s id d (SFire id e).
Proof.
  destruct (st_pays sh_state !! (30, sh_id)) as [d|] eqn:E; [|vm_compute in E; discriminate].
  assert (Hd : d_state d = Created) by (vm_compute in E; injection E as <-; reflexivity).
  exists ex_cfg, sh_state, 30, sh_id, d, (ex_env 0). split; [by left|]. split; [by exists ex_free, 100, sh_steps|]. split; [exact E|]. split.
  - assert (H : st_pays (run_step ex_cfg sh_state (SFire sh_id (ex_env 0))) !! (30, sh_id) = None) by (vm_compute; reflexivity). by rewrite H.
  - intros H. inversion H as [| |? ? Hs ?|]; subst. congruence.
Qed.

(* ------------------------------------------------------------------ *)
(** * Disputes *)

(** A fee schedule that lists account 50 twice with different flags. *)
Definition mixed_fees : fees := Fees [Fee 50 2 true; Fee 50 30 false] [].
Definition mixed_env (id : N) : penv := PEnv ex_ext (fun _ _ _ _ _ => mixed_fees) (Some id) true.
Definition mixed_steps : list pstep :=
  [ SCall (OSigned 10) (CPay (AddrId 20) 1 200 None) (mixed_env 7);
    SCall (OSigned 10) (CRequestRefund 7) (mixed_env 0); SCall (OSigned 20) (CDisputeRefund 7) (mixed_env 0) ].
Definition mixed_review : pstate := run ex_cfg ex0 mixed_steps.

Lemma optional_fee_charged : exists c st o id r e d st', reachable c st /\
  st_pays st !! (10, id) = Some d /\ d_state d = NeedsReview /\
  dispatch c e st o (CResolveDispute id r) = POk st' /\
  fees_to 50 (mandatory_fees (sender_pays (d_fees d))) = 2 /\ fees_to 50 (mandatory_fees (beneficiary_pays (d_fees d))) = 0 /\
  free (st_ledger st') 1 50 = free (st_ledger st) 1 50 + 32.
Proof.
  eexists ex_cfg, mixed_review, ORoot, 7, (DisputeResult 50 RBeneficiary), (mixed_env 0), _, _.
  split; [by exists ex_free, 100, mixed_steps|]. split; [vm_compute; reflexivity|]. split; [reflexivity|].
  split; [vm_compute; reflexivity|]. split_and!; vm_compute; reflexivity.
Qed.

Lemma sender_gets_percent_beneficiary : exists c st o id e d st', reachable c st /\
  st_pays st !! (10, id) = Some d /\ d_state d = NeedsReview /\ d_beneficiary d = 20 /\
  dispatch c e st o (CResolveDispute id (DisputeResult 100 RSender)) = POk st' /\
  share 100 (d_amount d) = 200 /\
  free (st_ledger st') 1 20 + 4 + 20 = free (st_ledger st) 1 20 + held (st_ledger st) 1 20 - 200.
Proof.
  eexists ex_cfg, ex_review, ORoot, 7, (ex_env 0), _, _.
  split; [eexists ex_free, 100, _; reflexivity|]. split; [vm_compute; reflexivity|]. split; [reflexivity|]. split; [reflexivity|].
  split; [vm_compute; reflexivity|]. split_and!; vm_compute; reflexivity.
Qed.

(** What the beneficiary keeps of the amount when favoured, with no fee account or resolver in the way. *)
Lemma beneficiary_keeps c e st o id p st' :
  reachable c st -> dispatch c e st o (CResolveDispute id (DisputeResult p RBeneficiary)) = POk st' -> p <= 100 ->
  exists resolver s d burnt, cfg_resolver_origin c o = Some resolver /\ st_pays st !! (s, id) = Some d /\
    (burnt = 0 \/ burnt < ext_min_balance (env_ext e) (d_asset d)) /\
    let ben := d_beneficiary d in let a := d_asset d in
    (fee_sum (sender_pays (d_fees d)) <= u128_max -> fee_sum (beneficiary_pays (d_fees d)) <= u128_max ->
     consistent_flags (sender_pays (d_fees d)) -> consistent_flags (beneficiary_pays (d_fees d)) ->
     ben <> s -> ben <> resolver -> fees_to ben (sender_pays (d_fees d)) = 0 -> fees_to ben (beneficiary_pays (d_fees d)) = 0 ->
     held (st_ledger st) a ben = held (st_ledger st') a ben + d_amount d + d_incentive d /\
     free (st_ledger st') a ben + fee_sum (mandatory_fees (beneficiary_pays (d_fees d))) + burnt =
     free (st_ledger st) a ben + d_incentive d + share p (d_amount d)).
Proof.
  intros Hr H Hp100. apply resolve_exact in H as (rs & s & d & b1 & b2 & Ho & Hp & Hst & Hpa & Hps & Hb1 & Hb2 & Hh & Hf & _); [|done].
  cbn [in_favor_of percent_beneficiary] in *. cbn zeta in *.
  exists rs, s, d, b2. split_and!; try done. cbn zeta. intros HS HB CS CB N1 N2 FS FB.
  specialize (Hf HS HB CS CB (d_beneficiary d)). specialize (Hh (d_beneficiary d)).
  rewrite N.eqb_refl in *. rewrite (proj2 (N.eqb_neq _ _) N1), (proj2 (N.eqb_neq _ _) N2) in *. cbn [ind] in *.
  assert (Hm : forall l, fees_to (d_beneficiary d) l = 0 -> fees_to (d_beneficiary d) (mandatory_fees l) = 0).
  { intros l. induction l as [|f l IH]; [done|]. rewrite fees_to_cons, mandatory_cons. intros H0.
    destruct (fee_mandatory f); [rewrite fees_to_cons, IH by lia; lia|apply IH; lia]. }
  rewrite (Hm _ FS), (Hm _ FB) in Hf.
  assert (share p (d_amount d) <= d_amount d).
  { unfold share. apply N.div_le_upper_bound; nia. }
  lia.
Qed.

(* ------------------------------------------------------------------ *)
(** * Fee summaries *)

Lemma fee_summary l dispute :
  exists m discount refund, get_summary l dispute = (m, discount, refund) /\
    StronglySorted N.lt (map fee_to m) /\ (forall x, x ∈ map fee_to m <-> x ∈ map fee_to l) /\
    (forall x, fees_to x m = N.min u128_max (fees_to x l)) /\
    (if dispute then discount = N.min u128_max (fee_sum (mandatory_fees l)) /\ refund = N.min u128_max (fee_sum (optional_fees l))
     else discount = N.min u128_max (fee_sum l) /\ refund = 0).
Proof.
  assert (Hs : forall x, sat128 x = N.min u128_max x) by (intros; unfold sat128; lia).
  destruct dispute.
  - rewrite get_summary_true, !Hs. eexists _, _, _. split; [done|]. split_and!; try done.
    + apply merge_sorted.
    + intros x. apply merge_accounts.
    + intros x. by rewrite merge_fees_to, Hs.
  - rewrite get_summary_false, !Hs. eexists _, _, _. split; [done|]. split_and!; try done.
    + apply merge_sorted.
    + intros x. apply merge_accounts.
    + intros x. by rewrite merge_fees_to, Hs.
Qed.

Lemma fee_summary_dispute l m discount refund :
  consistent_flags l -> get_summary l true = (m, discount, refund) ->
  forall x, fees_to x (mandatory_fees m) = N.min u128_max (fees_to x (mandatory_fees l)).
Proof.
  intros Hc H x. rewrite get_summary_true in H. injection H as <- _ _. rewrite mandatory_merge by done. rewrite merge_fees_to.
  unfold sat128. lia.
Qed.

Lemma fee_summary_mixed : exists l m discount refund, get_summary l true = (m, discount, refund) /\
  fees_to 50 (mandatory_fees l) = 2 /\ discount = 2 /\ fees_to 50 (mandatory_fees m) = 32.
Proof.
  eexists [Fee 50 2 true; Fee 50 30 false], _, _, _. split; [vm_compute; reflexivity|]. split_and!; vm_compute; reflexivity.
Qed.

Lemma request_moves_nothing c e st o s a amount : st_ledger (exec c e st o (CRequestPayment s a amount)) = st_ledger st.
Proof.
  unfold exec. cbn [dispatch]. destruct (request_payment c e st o s a amount) as [st'|] eqn:E; [|done].
  by apply request_payment_inv in E as (? & ? & ? & ? & _ & _ & _ & ->).
Qed.

Lemma request_creates c e st o sa a amount st' :
  dispatch c e st o (CRequestPayment sa a amount) = POk st' ->
  exists s ben id d, cfg_beneficiary_origin c o = Some ben /\ cfg_lookup c sa = Some s /\ env_next_id e = Some id /\
    st_pays st' = <[(s, id) := d]> (st_pays st) /\ st_parties st' !! id = Some (s, ben) /\
    d_state d = PaymentRequested /\ d_asset d = a /\ d_amount d = amount /\ d_beneficiary d = ben /\
    d_incentive d = share (cfg_incentive_pct c) amount /\ d_fees d = env_fees e a s ben amount None /\
    (forall d0, st_pays st !! (s, id) = Some d0 -> d_state d0 = PaymentRequested).
Proof.
  cbn. intros H. apply request_payment_inv in H as (s & ben & id & d & Ho & Hs & Hc & ->).
  pose proof (cr_d _ _ _ _ _ _ _ _ _ _ _ Hc) as Hd. exists s, ben, id, d. cbn. rewrite lookup_insert.
  split_and!; try done; try (by rewrite Hd).
  - by eapply cr_id.
  - rewrite Hd; cbn. unfold percent_mul_floor, share. f_equal. lia.
  - intros d0. by apply (cr_old _ _ _ _ _ _ _ _ _ _ _ Hc).
Qed.

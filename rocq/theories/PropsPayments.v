(** Property theorems C15-C32 about payments (pallets/payments). The words used in the statements are defined in
    PaymentsSpec.v; the program is [dispatch], [exec], [run_step] and [run] of PaymentsModel.v. *)
From Verif Require Import Base XcmTypes OriginTypes FeesModel LedgerModel PaymentsModel PaymentsSpec
  PaymentsTheorems PaymentsAmounts PaymentsMore.
From stdpp Require Import gmap sorting.
Open Scope N_scope.

(** C15. A call changes no asset's total, except for at most two remainders of less than the minimum balance, and only for
    accept, cancel and resolve. *)
Theorem C15_funds_conserved : forall c e st o call a,
  exists b1 b2,
    issuance (st_ledger (exec c e st o call)) a + b1 + b2 = issuance (st_ledger st) a /\
    (b1 = 0 \/ b1 < ext_min_balance (env_ext e) a) /\ (b2 = 0 \/ b2 < ext_min_balance (env_ext e) a) /\
    (may_burn call = false -> b1 = 0 /\ b2 = 0) /\
    (b2 <> 0 -> exists id r, call = CResolveDispute id r).
Proof. exact funds_conserved. Qed.
Print Assumptions C15_funds_conserved.

Example C15_case : issuance (st_ledger ex_created) 1 = 3000 /\ held (st_ledger ex_created) 1 20 = 200 /\
  call_ok (dispatch ex_cfg (ex_env 0) ex_created (OSigned 20) (CCancel 7)) = true.
Proof. vm_compute. repeat split. Qed.

(** C16. *)
Theorem C16_escrow_backed : forall c st, reachable c st -> forall a x, escrow st a x <= held (st_ledger st) a x.
Proof. exact escrow_backed. Qed.
Print Assumptions C16_escrow_backed.

Example C16_case : reachable ex_cfg ex_created /\ escrow ex_created 1 10 = 25 /\ escrow ex_created 1 20 = 200.
Proof. split; [exact ex_created_reachable|]. vm_compute. repeat split. Qed.

(** C17 is false of the code: accepting an already created payment strands its escrow, whatever happens afterwards. *)
Theorem C17_no_stranded_escrow_refuted : exists c st a x, reachable c st /\
  forall steps, escrow (run c st steps) a x < held (st_ledger (run c st steps)) a x.
Proof. exact stranded_forever. Qed.
Print Assumptions C17_no_stranded_escrow_refuted.

(** C17 for histories that never accept a payment with funds in escrow. *)
Theorem C17_no_stranded_escrow_partial : forall c f now steps, no_accept_on_open c (genesis f now) steps ->
  forall a x, held (st_ledger (run c (genesis f now) steps)) a x = escrow (run c (genesis f now) steps) a x.
Proof. exact holds_exact_genesis. Qed.
Print Assumptions C17_no_stranded_escrow_partial.

Example C17_case : no_accept_on_open ex_cfg ex0 [ex_pay] /\ held (st_ledger (run ex_cfg ex0 [ex_pay])) 1 20 = 200.
Proof. split; [|vm_compute; reflexivity]. split; [|exact I]. discriminate. Qed.

(** C18 is false of the code: a payment whose refund was requested can become finished. *)
Theorem C18_life_cycle_refuted : exists c st s k, reachable c st /\
  ~ life_cycle (state_of st k) (state_of (run_step c st s) k).
Proof. destruct lifecycle_broken as (c & _ & _ & k & _ & _ & _ & _ & st & s & H1 & H2). by exists c, st, s, k. Qed.
Print Assumptions C18_life_cycle_refuted.

(** C18 for all steps but accepting something that is not a request. *)
Theorem C18_life_cycle_partial : forall c st s k,
  life_cycle (state_of st k) (state_of (run_step c st s) k) \/ accept_finishes_open c st s k.
Proof. exact step_lifecycle. Qed.
Print Assumptions C18_life_cycle_partial.

Example C18_case : state_of ex_created (10, 7) = Some Created /\ state_of ex_refund (10, 7) = Some (RefundRequested 105) /\
  state_of ex_review (10, 7) = Some NeedsReview /\ state_of ex_finished (10, 7) = Some Finished.
Proof. vm_compute. repeat split. Qed.

(** C19 is false of the code: accepting a created payment succeeds and pays the amount a second time. *)
Theorem C19_accept_only_requests_refuted : exists c st o id e d st', reachable c st /\
  st_pays st !! (10, id) = Some d /\ d_state d = Created /\ dispatch c e st o (CAcceptAndPay id) = POk st' /\
  free (st_ledger st') 1 20 = free (st_ledger st) 1 20 + 200 - 4.
Proof. exact accept_pays_created. Qed.
Print Assumptions C19_accept_only_requests_refuted.

(** C19: what does hold: the call needs a payment of the caller, and finishes that one. *)
Theorem C19_accept_only_requests_partial : forall c e st o id st', dispatch c e st o (CAcceptAndPay id) = POk st' ->
  exists s d p b, cfg_sender_origin c o = Some s /\ st_pays st !! (s, id) = Some d /\ st_parties st !! id = Some (p, b) /\
    st_pays st' !! (s, id) = Some (set_state d Finished).
Proof. exact accept_needs_own_record. Qed.
Print Assumptions C19_accept_only_requests_partial.

Example C19_case : call_ok (dispatch ex_cfg (ex_env 0) ex_requested (OSigned 10) (CAcceptAndPay 7)) = true.
Proof. vm_compute. reflexivity. Qed.

(** C20 is false of the code: accepting a finished payment pays amount and fees again. *)
Theorem C20_finished_never_pays_refuted : exists c st o id e d st', reachable c st /\
  st_pays st !! (10, id) = Some d /\ d_state d = Finished /\ dispatch c e st o (CAcceptAndPay id) = POk st' /\
  free (st_ledger st') 1 10 + 200 + 5 = free (st_ledger st) 1 10.
Proof. exact finished_pays_again. Qed.
Print Assumptions C20_finished_never_pays_refuted.

(** C20 for all calls but accept_and_pay: they have no effect at all. *)
Theorem C20_finished_never_pays_partial : forall c e st o s id d,
  st_pays st !! (s, id) = Some d -> d_state d = Finished ->
  (cfg_sender_origin c o = Some s -> exec c e st o (CRelease id) = st /\ exec c e st o (CRequestRefund id) = st) /\
  (forall b, st_parties st !! id = Some (s, b) ->
     exec c e st o (CCancel id) = st /\ exec c e st o (CDisputeRefund id) = st /\
     (forall r, exec c e st o (CResolveDispute id r) = st)).
Proof. exact finished_is_dead. Qed.
Print Assumptions C20_finished_never_pays_partial.

Example C20_case : state_of ex_finished (10, 7) = Some Finished /\ st_parties ex_finished !! 7 = Some (10, 20).
Proof. vm_compute. repeat split. Qed.

(** C21, in histories whose payment ids are all different: an existing record changes only through its parties. *)
Theorem C21_who_may_act_partial : forall c f now steps step s id d,
  beneficiary_signs c -> NoDup (new_ids (steps ++ [step])) ->
  let st := run c (genesis f now) steps in
  st_pays st !! (s, id) = Some d -> st_pays (run_step c st step) !! (s, id) <> Some d ->
  may_act c st s id d step.
Proof. exact who_may_act. Qed.
Print Assumptions C21_who_may_act_partial.

(** C21 in all histories. Missing: a payment request (no funds involved) may be replaced by a call that is given the same id,
    and the scheduled cancel may stem from another payment with the same id. *)
Theorem C21_who_may_change_partial : forall c st step s id d,
  beneficiary_signs c -> reachable c st -> st_pays st !! (s, id) = Some d -> st_pays (run_step c st step) !! (s, id) <> Some d ->
  may_change c st s id d step.
Proof. exact who_may_change. Qed.
Print Assumptions C21_who_may_change_partial.

(** Refuted where ids repeat: a payment ends by the refund that was requested for another with the same id. *)
Theorem C21_who_may_act_refuted : exists c st s id d e,
  beneficiary_signs c /\ reachable c st /\ st_pays st !! (s, id) = Some d /\
  st_pays (run_step c st (SFire id e)) !! (s, id) <> Some d /\ ~ may_act c st s id d (SFire id e).
Proof. exact shared_id_bystander. Qed.
Print Assumptions C21_who_may_act_refuted.

Example C21_case : beneficiary_signs ex_cfg /\ NoDup (new_ids ([ex_pay] ++ [SCall (OSigned 10) (CRelease 7) (ex_env 0)])) /\
  st_pays (run_step ex_cfg ex_created (SCall (OSigned 10) (CRelease 7) (ex_env 0))) !! (10, 7) <> st_pays ex_created !! (10, 7).
Proof.
  split; [by left|]. split; [|vm_compute; discriminate]. cbn. apply NoDup_singleton.
Qed.

(** C22. All balances are as before, but for dust of the beneficiary. *)
Theorem C22_cancel_undoes_pay : forall c e1 e2 st o1 o2 b a amount remark id st1 st2,
  reachable c st ->
  dispatch c e1 st o1 (CPay b a amount remark) = POk st1 -> env_next_id e1 = Some id ->
  dispatch c e2 st1 o2 (CCancel id) = POk st2 ->
  exists s ben burnt, cfg_sender_origin c o1 = Some s /\ cfg_lookup c b = Some ben /\ cfg_beneficiary_origin c o2 = Some ben /\
    (burnt = 0 \/ burnt < ext_min_balance (env_ext e2) a) /\
    (forall a' x, held (st_ledger st2) a' x = held (st_ledger st) a' x) /\
    (forall a' x, free (st_ledger st2) a' x + ind ((a' =? a) && (x =? ben)) burnt = free (st_ledger st) a' x) /\
    st_pays st2 !! (s, id) = None /\ st_parties st2 !! id = None /\
    (forall k, k <> (s, id) -> st_pays st2 !! k = st_pays st !! k).
Proof. exact pay_then_cancel. Qed.
Print Assumptions C22_cancel_undoes_pay.

Example C22_case : call_ok (dispatch ex_cfg (ex_env 7) ex0 (OSigned 10) (CPay (AddrId 20) 1 200 None)) = true /\
  call_ok (dispatch ex_cfg (ex_env 0) ex_created (OSigned 20) (CCancel 7)) = true.
Proof. split; vm_compute; reflexivity. Qed.

(** Exact effect of [pay] itself (used with C22 and C23). *)
Theorem C23_pay_exact : forall c e st o b a amount remark st',
  dispatch c e st o (CPay b a amount remark) = POk st' ->
  exists s ben id d, cfg_sender_origin c o = Some s /\ cfg_lookup c b = Some ben /\ env_next_id e = Some id /\
    st_pays st' !! (s, id) = Some d /\ d_state d = Created /\ d_asset d = a /\ d_amount d = amount /\ d_beneficiary d = ben /\
    d_incentive d = share (cfg_incentive_pct c) amount /\ d_fees d = env_fees e a s ben amount remark /\
    st_parties st' !! id = Some (s, ben) /\
    (forall x, free (st_ledger st') a x + ind (x =? s) (sender_escrow d + amount) = free (st_ledger st) a x) /\
    (forall x, held (st_ledger st') a x = held (st_ledger st) a x + ind (x =? s) (sender_escrow d) + ind (x =? ben) amount) /\
    (forall a' x, a' <> a -> free (st_ledger st') a' x = free (st_ledger st) a' x /\ held (st_ledger st') a' x = held (st_ledger st) a' x).
Proof. exact pay_exact. Qed.
Print Assumptions C23_pay_exact.

(** C23. The sender gets the hold back and pays the sender fees; the beneficiary gets the amount and pays the beneficiary
    fees; each account receives exactly the fees addressed to it; nothing else moves. *)
Theorem C23_release_exact : forall c e st o id st',
  dispatch c e st o (CRelease id) = POk st' ->
  exists s d, cfg_sender_origin c o = Some s /\ st_pays st !! (s, id) = Some d /\ d_state d = Created /\
    st_pays st' = <[(s, id) := set_state d Finished]> (st_pays st) /\
    let ben := d_beneficiary d in let S := sender_pays (d_fees d) in let B := beneficiary_pays (d_fees d) in
    (forall x, held (st_ledger st') (d_asset d) x + ind (x =? s) (sender_escrow d) + ind (x =? ben) (d_amount d) =
               held (st_ledger st) (d_asset d) x) /\
    (fee_sum S <= u128_max -> fee_sum B <= u128_max ->
     forall x, free (st_ledger st') (d_asset d) x + ind (x =? s) (fee_sum S) + ind (x =? ben) (fee_sum B) =
               free (st_ledger st) (d_asset d) x + ind (x =? s) (sender_escrow d) + ind (x =? ben) (d_amount d)
               + fees_to x S + fees_to x B) /\
    (forall a x, a <> d_asset d -> free (st_ledger st') a x = free (st_ledger st) a x /\ held (st_ledger st') a x = held (st_ledger st) a x).
Proof. exact release_exact. Qed.
Print Assumptions C23_release_exact.

Example C23_case : free (st_ledger ex_finished) 1 10 = 795 /\ free (st_ledger ex_finished) 1 20 = 1196 /\
  free (st_ledger ex_finished) 1 50 = 6 /\ free (st_ledger ex_finished) 1 51 = 3 /\
  call_ok (dispatch ex_cfg (ex_env 0) ex_created (OSigned 10) (CRelease 7)) = true.
Proof. vm_compute. repeat split. Qed.

(** C24 is false of the code for fee schedules naming an account twice, once mandatory and once optional: here an optional fee of 30 is
    charged on a dispute. *)
Theorem C24_dispute_exact_refuted : exists c st o id r e d st', reachable c st /\
  st_pays st !! (10, id) = Some d /\ d_state d = NeedsReview /\
  dispatch c e st o (CResolveDispute id r) = POk st' /\
  fees_to 50 (mandatory_fees (sender_pays (d_fees d))) = 2 /\ fees_to 50 (mandatory_fees (beneficiary_pays (d_fees d))) = 0 /\
  free (st_ledger st') 1 50 = free (st_ledger st) 1 50 + 32.
Proof. exact optional_fee_charged. Qed.
Print Assumptions C24_dispute_exact_refuted.

(** C24 for fee schedules with consistent flags whose sums fit in a balance. The share sent to the sender is the code's; C25 is about
    whether it is the right one. *)
Theorem C24_dispute_exact_partial : forall c e st o id r st',
  reachable c st -> dispatch c e st o (CResolveDispute id r) = POk st' ->
  exists resolver s d b1 b2, cfg_resolver_origin c o = Some resolver /\ st_pays st !! (s, id) = Some d /\ d_state d = NeedsReview /\
    st_parties st !! id = Some (s, d_beneficiary d) /\
    st_pays st' = <[(s, id) := set_state d Finished]> (st_pays st) /\
    (b1 = 0 \/ b1 < ext_min_balance (env_ext e) (d_asset d)) /\ (b2 = 0 \/ b2 < ext_min_balance (env_ext e) (d_asset d)) /\
    let ben := d_beneficiary d in let S := sender_pays (d_fees d) in let B := beneficiary_pays (d_fees d) in
    let loser := match in_favor_of r with RSender => ben | RBeneficiary => s end in
    let to_sender := match in_favor_of r with
                     | RSender => share (percent_beneficiary r) (d_amount d)
                     | RBeneficiary => d_amount d - share (percent_beneficiary r) (d_amount d)
                     end in
    (forall x, held (st_ledger st') (d_asset d) x + ind (x =? s) (sender_escrow d) + ind (x =? ben) (d_amount d + d_incentive d) =
               held (st_ledger st) (d_asset d) x) /\
    (fee_sum S <= u128_max -> fee_sum B <= u128_max -> consistent_flags S -> consistent_flags B ->
     forall x, free (st_ledger st') (d_asset d) x
               + ind (x =? s) (fee_sum (mandatory_fees S)) + ind (x =? ben) (fee_sum (mandatory_fees B))
               + ind (x =? loser) (d_incentive d + b1) + ind (x =? ben) (to_sender + b2) =
               free (st_ledger st) (d_asset d) x
               + ind (x =? s) (sender_escrow d) + ind (x =? ben) (d_amount d + d_incentive d)
               + ind (x =? resolver) (d_incentive d) + ind (x =? s) to_sender
               + fees_to x (mandatory_fees S) + fees_to x (mandatory_fees B)) /\
    (forall a x, a <> d_asset d -> free (st_ledger st') a x = free (st_ledger st) a x /\ held (st_ledger st') a x = held (st_ledger st) a x).
Proof. exact resolve_exact. Qed.
Print Assumptions C24_dispute_exact_partial.

Example C24_case : reachable ex_cfg ex_review /\
  call_ok (dispatch ex_cfg (ex_env 0) ex_review ORoot (CResolveDispute 7 (DisputeResult 30 RBeneficiary))) = true /\
  consistent_flags (sender_pays ex_fees) /\ consistent_flags (beneficiary_pays ex_fees).
Proof.
  split; [by eexists ex_free, 100, _|]. split; [vm_compute; reflexivity|].
  split; intros f g; cbn; rewrite !elem_of_cons, !elem_of_nil; naive_solver.
Qed.

(** C25 is false of the code: resolved for the sender with percent_beneficiary = 100, the beneficiary loses all of the amount (and the fee
    of 4 and the incentive of 20). *)
Theorem C25_percent_beneficiary_refuted : exists c st o id e d st', reachable c st /\
  st_pays st !! (10, id) = Some d /\ d_state d = NeedsReview /\ d_beneficiary d = 20 /\
  dispatch c e st o (CResolveDispute id (DisputeResult 100 RSender)) = POk st' /\
  share 100 (d_amount d) = 200 /\
  free (st_ledger st') 1 20 + 4 + 20 = free (st_ledger st) 1 20 + held (st_ledger st) 1 20 - 200.
Proof. exact sender_gets_percent_beneficiary. Qed.
Print Assumptions C25_percent_beneficiary_refuted.

(** C25 when the beneficiary is favoured: it keeps its share, its incentive, and pays its mandatory fees. *)
Theorem C25_percent_beneficiary_partial : forall c e st o id p st',
  reachable c st -> dispatch c e st o (CResolveDispute id (DisputeResult p RBeneficiary)) = POk st' -> p <= 100 ->
  exists resolver s d burnt, cfg_resolver_origin c o = Some resolver /\ st_pays st !! (s, id) = Some d /\
    (burnt = 0 \/ burnt < ext_min_balance (env_ext e) (d_asset d)) /\
    let ben := d_beneficiary d in let a := d_asset d in
    (fee_sum (sender_pays (d_fees d)) <= u128_max -> fee_sum (beneficiary_pays (d_fees d)) <= u128_max ->
     consistent_flags (sender_pays (d_fees d)) -> consistent_flags (beneficiary_pays (d_fees d)) ->
     ben <> s -> ben <> resolver -> fees_to ben (sender_pays (d_fees d)) = 0 -> fees_to ben (beneficiary_pays (d_fees d)) = 0 ->
     held (st_ledger st) a ben = held (st_ledger st') a ben + d_amount d + d_incentive d /\
     free (st_ledger st') a ben + fee_sum (mandatory_fees (beneficiary_pays (d_fees d))) + burnt =
     free (st_ledger st) a ben + d_incentive d + share p (d_amount d)).
Proof. exact beneficiary_keeps. Qed.
Print Assumptions C25_percent_beneficiary_partial.

Example C25_case :
  let st' := exec ex_cfg (ex_env 0) ex_review ORoot (CResolveDispute 7 (DisputeResult 30 RBeneficiary)) in
  free (st_ledger st') 1 20 = free (st_ledger ex_review) 1 20 + 20 + 60 - 4.
Proof. vm_compute. reflexivity. Qed.

(** C26, last part, is false of the code: a disputed payment is ended by its sender with accept_and_pay. *)
Theorem C26_refund_timing_refuted : exists c st s k, reachable c st /\
  state_of st k = Some NeedsReview /\ state_of (run_step c st s) k = Some Finished /\
  (forall o id r e, s <> SCall o (CResolveDispute id r) e).
Proof. destruct lifecycle_broken as (c & st & s & k & H1 & H2 & H3 & H4 & _). by exists c, st, s, k. Qed.
Print Assumptions C26_refund_timing_refuted.

(** C26. (1) The deadline is the request block plus the buffer. (2) The scheduler cannot end the payment before the deadline. (3) It can be
    disputed exactly before the deadline (if the beneficiary can afford the incentive). (4) A dispute unschedules the refund. (5) Then only
    the resolver can end it, except for the sender's accept_and_pay. *)
Theorem C26_refund_timing_partial :
  (forall c e st o id st', dispatch c e st o (CRequestRefund id) = POk st' ->
     exists s d, cfg_sender_origin c o = Some s /\ st_pays st !! (s, id) = Some d /\ d_state d = Created /\
       st_pays st' !! (s, id) = Some (set_state d (RefundRequested (st_now st + cfg_cancel_buffer c))) /\
       st_ledger st' = st_ledger st) /\
  (forall c st s id d n e, reachable c st -> st_pays st !! (s, id) = Some d -> d_state d = RefundRequested n ->
     st_pays (run_step c st (SFire id e)) !! (s, id) <> Some d -> n <= st_now st) /\
  (forall c f now steps st s id d n o e,
     NoDup (new_ids steps) -> no_drop steps -> st = run c (genesis f now) steps ->
     st_pays st !! (s, id) = Some d -> d_state d = RefundRequested n ->
     cfg_beneficiary_origin c o = Some (d_beneficiary d) ->
     (exists l, ledger_hold (env_ext e) (st_ledger st) (d_asset d) (d_beneficiary d) (d_incentive d) = Some l) ->
     ((exists st', dispatch c e st o (CDisputeRefund id) = POk st') <-> st_now st < n)) /\
  (forall c e st o id st', dispatch c e st o (CDisputeRefund id) = POk st' ->
     st_agenda st' !! id = None /\ exists s d, st_pays st' !! (s, id) = Some d /\ d_state d = NeedsReview) /\
  (forall c st s id d step, st_pays st !! (s, id) = Some d -> d_state d = NeedsReview ->
     st_pays (run_step c st step) !! (s, id) <> Some d ->
     (exists o r e w, step = SCall o (CResolveDispute id r) e /\ cfg_resolver_origin c o = Some w) \/
     (exists o e, step = SCall o (CAcceptAndPay id) e /\ cfg_sender_origin c o = Some s)).
Proof.
  split; [exact refund_block|]. split; [exact refund_not_early|]. split; [exact dispute_window|].
  split; [exact dispute_unschedules|exact review_ended_by].
Qed.
Print Assumptions C26_refund_timing_partial.

Example C26_case : reachable_fresh ex_cfg ex_refund /\ state_of ex_refund (10, 7) = Some (RefundRequested 105) /\
  (exists l, ledger_hold ex_ext (st_ledger ex_refund) 1 20 20 = Some l) /\
  state_of (run ex_cfg ex_refund [SBlock; SBlock; SBlock; SBlock; SFire 7 (ex_env 0)]) (10, 7) = Some (RefundRequested 105) /\
  state_of (run ex_cfg ex_refund [SBlock; SBlock; SBlock; SBlock; SBlock; SFire 7 (ex_env 0)]) (10, 7) = None.
Proof.
  split; [apply ex_fresh; cbn; apply NoDup_singleton|]. split; [vm_compute; reflexivity|].
  split; [eexists; vm_compute; reflexivity|]. split; vm_compute; reflexivity.
Qed.

(** C27 is false when two payments of one extrinsic get the same id: the scheduled refund of a finished payment of account 10 cancels a
    payment of account 30. *)
Theorem C27_stale_refund_refuted : exists c st id e,
  kreivo_id 100 1 20 id /\ reachable c st /\
  state_of st (10, id) = Some Finished /\ state_of st (30, id) = Some Created /\
  state_of (run_step c st (SFire id e)) (30, id) = None.
Proof. exact shared_id_cancels_other. Qed.
Print Assumptions C27_stale_refund_refuted.

(** C27 in histories whose payment ids are all different. *)
Theorem C27_stale_refund_partial : forall c st id e,
  reachable_fresh c st ->
  (forall s d n, st_pays st !! (s, id) = Some d -> d_state d <> RefundRequested n) ->
  let st' := run_step c st (SFire id e) in
  st_ledger st' = st_ledger st /\ st_pays st' = st_pays st /\ st_parties st' = st_parties st /\
  (forall i, i <> id -> st_agenda st' !! i = st_agenda st !! i).
Proof. exact stale_refund_harmless. Qed.
Print Assumptions C27_stale_refund_partial.

Example C27_case :
  let st := run ex_cfg ex_refund [SCall (OSigned 20) (CCancel 7) (ex_env 0); SBlock; SBlock; SBlock; SBlock; SBlock] in
  st_agenda st !! 7 = Some (105, 20) /\ state_of st (10, 7) = None.
Proof. vm_compute. repeat split. Qed.

(** C28. *)
Theorem C28_request_moves_nothing : forall c e st o s a amount,
  st_ledger (exec c e st o (CRequestPayment s a amount)) = st_ledger st.
Proof. exact request_moves_nothing. Qed.
Print Assumptions C28_request_moves_nothing.

(** C28, what the request records; it never replaces anything but a request. *)
Theorem C28_request_creates : forall c e st o sa a amount st',
  dispatch c e st o (CRequestPayment sa a amount) = POk st' ->
  exists s ben id d, cfg_beneficiary_origin c o = Some ben /\ cfg_lookup c sa = Some s /\ env_next_id e = Some id /\
    st_pays st' = <[(s, id) := d]> (st_pays st) /\ st_parties st' !! id = Some (s, ben) /\
    d_state d = PaymentRequested /\ d_asset d = a /\ d_amount d = amount /\ d_beneficiary d = ben /\
    d_incentive d = share (cfg_incentive_pct c) amount /\ d_fees d = env_fees e a s ben amount None /\
    (forall d0, st_pays st !! (s, id) = Some d0 -> d_state d0 = PaymentRequested).
Proof. exact request_creates. Qed.
Print Assumptions C28_request_creates.

Example C28_case : state_of ex_requested (10, 7) = Some PaymentRequested.
Proof. vm_compute. reflexivity. Qed.

(** C29. *)
Theorem C29_accept_exact : forall c e st o id st' s d,
  cfg_sender_origin c o = Some s -> st_pays st !! (s, id) = Some d -> st_parties st !! id = Some (s, d_beneficiary d) ->
  dispatch c e st o (CAcceptAndPay id) = POk st' ->
  exists burnt, (burnt = 0 \/ burnt < ext_min_balance (env_ext e) (d_asset d)) /\
    st_pays st' = <[(s, id) := set_state d Finished]> (st_pays st) /\
    let ben := d_beneficiary d in let S := sender_pays (d_fees d) in let B := beneficiary_pays (d_fees d) in
    (fee_sum S <= u128_max -> fee_sum B <= u128_max ->
     forall x, free (st_ledger st') (d_asset d) x + ind (x =? s) (d_amount d + fee_sum S + burnt) + ind (x =? ben) (fee_sum B) =
               free (st_ledger st) (d_asset d) x + ind (x =? ben) (d_amount d) + fees_to x S + fees_to x B) /\
    (forall a x, held (st_ledger st') a x = held (st_ledger st) a x) /\
    (forall a x, a <> d_asset d -> free (st_ledger st') a x = free (st_ledger st) a x).
Proof. exact accept_exact. Qed.
Print Assumptions C29_accept_exact.

(** C29's hypothesis on the parties holds in every history whose ids are all different. *)
Theorem C29_parties_agree : forall c st s id d, reachable_fresh c st -> st_pays st !! (s, id) = Some d ->
  st_parties st !! id = Some (s, d_beneficiary d).
Proof. intros c st s id d H. apply PaymentsHistories.f_one. by apply (PaymentsHistories.reachable_fresh_finv c). Qed.
Print Assumptions C29_parties_agree.

Example C29_case : let st' := exec ex_cfg (ex_env 0) ex_requested (OSigned 10) (CAcceptAndPay 7) in
  free (st_ledger st') 1 10 = 795 /\ free (st_ledger st') 1 20 = 1196.
Proof. vm_compute. repeat split. Qed.

(** C30, last part, is false of the code when an account is listed with both flags. *)
Theorem C30_fee_summary_refuted : exists l m discount refund, get_summary l true = (m, discount, refund) /\
  fees_to 50 (mandatory_fees l) = 2 /\ discount = 2 /\ fees_to 50 (mandatory_fees m) = 32.
Proof. exact fee_summary_mixed. Qed.
Print Assumptions C30_fee_summary_refuted.

(** C30, totals and accounts, for every list of fees (amounts are capped at the largest balance). *)
Theorem C30_fee_summary_totals_partial : forall l dispute,
  exists m discount refund, get_summary l dispute = (m, discount, refund) /\
    StronglySorted N.lt (map fee_to m) /\ (forall x, x ∈ map fee_to m <-> x ∈ map fee_to l) /\
    (forall x, fees_to x m = N.min u128_max (fees_to x l)) /\
    (if dispute then discount = N.min u128_max (fee_sum (mandatory_fees l)) /\ refund = N.min u128_max (fee_sum (optional_fees l))
     else discount = N.min u128_max (fee_sum l) /\ refund = 0).
Proof. exact fee_summary. Qed.
Print Assumptions C30_fee_summary_totals_partial.

(** C30, last part, for lists whose flags are consistent per account. *)
Theorem C30_fee_summary_partial : forall l m discount refund,
  consistent_flags l -> get_summary l true = (m, discount, refund) ->
  forall x, fees_to x (mandatory_fees m) = N.min u128_max (fees_to x (mandatory_fees l)).
Proof. exact fee_summary_dispute. Qed.
Print Assumptions C30_fee_summary_partial.

Example C30_case : get_summary [Fee 9 3 true; Fee 4 2 false; Fee 9 4 true] true = ([Fee 4 2 false; Fee 9 7 true], 7, 2).
Proof. vm_compute. reflexivity. Qed.

(** C31. *)
Theorem C31_payments_independent : forall c e st o call,
  (exists k, forall k', k' <> k -> st_pays (exec c e st o call) !! k' = st_pays st !! k') /\
  (forall s id, call_id e call <> Some id ->
     st_pays (exec c e st o call) !! (s, id) = st_pays st !! (s, id) /\
     st_parties (exec c e st o call) !! id = st_parties st !! id /\
     st_agenda (exec c e st o call) !! id = st_agenda st !! id).
Proof. exact one_record. Qed.
Print Assumptions C31_payments_independent.

Example C31_case :
  let st := run ex_cfg ex_created [SCall (OSigned 30) (CPay (AddrId 20) 1 10 None) (ex_env 8)] in
  state_of st (10, 7) = Some Created /\ state_of st (30, 8) = Some Created.
Proof. vm_compute. repeat split. Qed.

(** C32. The escrow of a created (or to be refunded) payment is there, for both parties at once even if they are the same account. *)
Theorem C32_escrow_available : forall c st s id d,
  reachable c st -> st_pays st !! (s, id) = Some d -> (d_state d = Created \/ exists n, d_state d = RefundRequested n) ->
  forall x, ind (x =? s) (sender_escrow d) + ind (x =? d_beneficiary d) (d_amount d) <= held (st_ledger st) (d_asset d) x.
Proof. exact escrow_available. Qed.
Print Assumptions C32_escrow_available.

(** C32. So the beneficiary can cancel, unless the ledger refuses for reasons of its own. *)
Theorem C32_cancel_possible : forall c e st o s id d,
  reachable c st -> st_pays st !! (s, id) = Some d -> (d_state d = Created \/ exists n, d_state d = RefundRequested n) ->
  st_parties st !! id = Some (s, d_beneficiary d) -> cfg_beneficiary_origin c o = Some (d_beneficiary d) ->
  permissive e -> issuance (st_ledger st) (d_asset d) <= u128_max ->
  exists st', dispatch c e st o (CCancel id) = POk st'.
Proof. exact cancel_possible. Qed.
Print Assumptions C32_cancel_possible.

(** C32. And the sender can release, if the beneficiary's fees can be paid out of the amount. *)
Theorem C32_release_possible : forall c e st o s id d,
  reachable c st -> st_pays st !! (s, id) = Some d -> d_state d = Created ->
  cfg_sender_origin c o = Some s -> permissive e -> issuance (st_ledger st) (d_asset d) <= u128_max ->
  fee_sum (sender_pays (d_fees d)) + d_incentive d <= u128_max ->
  fee_sum (beneficiary_pays (d_fees d)) <= d_amount d ->
  (s = d_beneficiary d -> fee_sum (sender_pays (d_fees d)) + fee_sum (beneficiary_pays (d_fees d)) <= d_amount d) ->
  exists st', dispatch c e st o (CRelease id) = POk st'.
Proof. exact release_possible. Qed.
Print Assumptions C32_release_possible.

Example C32_case : reachable ex_cfg ex_created /\ permissive (ex_env 0) /\ issuance (st_ledger ex_created) 1 <= u128_max /\
  st_parties ex_created !! 7 = Some (10, 20).
Proof. split; [exact ex_created_reachable|]. split; [done|]. split; vm_compute; [discriminate|reflexivity]. Qed.

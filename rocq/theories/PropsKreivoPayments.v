(** Property theorem C33 and Kreivo versions of C06, C21, C24, C27. Words: KreivoPaymentsSpec.v, PaymentsSpec.v, AccountsSpec.v. *)
From Verif Require Import Base XcmTypes OriginTypes PaymentIdModel FeesModel LedgerModel PaymentsModel PaymentsSpec
  AccountsModel AccountsSpec KreivoPaymentsModel KreivoPaymentsSpec PaymentsTheorems PaymentsMore PaymentsAmounts KreivoPaymentsProofs.
From stdpp Require Import gmap.
Open Scope N_scope.

(** C33. q1 is 1% and q3 is 3% of the amount, rounded down. *)
Theorem C33_kreivo_fees :
  has_bytes treasury_account (derived_bytes str_modl str_treasury 0) /\
  forall min a s b amount remark, account_wf s -> account_wf b ->
  exists q1 q3, 100 * q1 <= amount < 100 * (q1 + 1) /\ 100 * q3 <= 3 * amount < 100 * (q3 + 1) /\
    let f := kreivo_fees min a s b amount remark in
    ((exists c, c <= u16_max /\ s = community_account c) -> sender_pays f = []) /\
    ((exists c, c <= u16_max /\ b = community_account c) -> beneficiary_pays f = []) /\
    (~ (exists c, c <= u16_max /\ s = community_account c) -> sender_pays f = [Fee treasury_account (N.max (min a) q1) true]) /\
    (~ (exists c, c <= u16_max /\ b = community_account c) -> beneficiary_pays f = [Fee treasury_account (N.max (min a) q3) true]) /\
    (forall x, x ∈ sender_pays f ++ beneficiary_pays f -> fee_amount x <= N.max (min a) amount).
Proof. split; [split; vm_compute; done|exact kreivo_fees_spec]. Qed.
Print Assumptions C33_kreivo_fees.

Example C33_case : kreivo_fees (fun _ => 5) 1 10 (community_account 3) 1099 None = Fees [Fee treasury_account 10 true] [].
Proof. vm_compute. reflexivity. Qed.

(** C33 in histories: whatever happened, the fees recorded with a payment on Kreivo are all mandatory and fit in a balance. *)
Theorem C33_recorded_fees : forall st s id d, kreivo_reachable st -> st_pays st !! (s, id) = Some d ->
  Forall (fun f => fee_mandatory f = true) (sender_pays (d_fees d)) /\ Forall (fun f => fee_mandatory f = true) (beneficiary_pays (d_fees d)) /\
  fee_sum (sender_pays (d_fees d)) <= u128_max /\ fee_sum (beneficiary_pays (d_fees d)) <= u128_max.
Proof. exact kreivo_fee_lists. Qed.
Print Assumptions C33_recorded_fees.

(** C24 on Kreivo, where all fees are mandatory: exact for every dispute in every history. (What the sender gets is the code's share; C25 is
    about whether it is the right one.) *)
Theorem C24_dispute_exact_kreivo_partial : forall e st o id r st',
  kreivo_reachable st -> dispatch kreivo_payments e st o (CResolveDispute id r) = POk st' ->
  exists s d b1 b2, o = ORoot /\ st_pays st !! (s, id) = Some d /\ d_state d = NeedsReview /\
    st_pays st' = <[(s, id) := set_state d Finished]> (st_pays st) /\
    (b1 = 0 \/ b1 < ext_min_balance (env_ext e) (d_asset d)) /\ (b2 = 0 \/ b2 < ext_min_balance (env_ext e) (d_asset d)) /\
    let ben := d_beneficiary d in let fs := fee_sum (sender_pays (d_fees d)) in let fb := fee_sum (beneficiary_pays (d_fees d)) in
    let loser := match in_favor_of r with RSender => ben | RBeneficiary => s end in
    let to_sender := match in_favor_of r with
                     | RSender => share (percent_beneficiary r) (d_amount d)
                     | RBeneficiary => d_amount d - share (percent_beneficiary r) (d_amount d)
                     end in
    (forall x, held (st_ledger st') (d_asset d) x + ind (x =? s) (sender_escrow d) + ind (x =? ben) (d_amount d + d_incentive d) =
               held (st_ledger st) (d_asset d) x) /\
    (forall x, free (st_ledger st') (d_asset d) x + ind (x =? s) fs + ind (x =? ben) fb
               + ind (x =? loser) (d_incentive d + b1) + ind (x =? ben) (to_sender + b2) =
               free (st_ledger st) (d_asset d) x
               + ind (x =? s) (sender_escrow d) + ind (x =? ben) (d_amount d + d_incentive d)
               + ind (x =? treasury_account) (d_incentive d + fs + fb) + ind (x =? s) to_sender).
Proof. exact kreivo_resolve. Qed.
Print Assumptions C24_dispute_exact_kreivo_partial.

(** A Kreivo history: account 10 pays account 20, requests a refund, account 20 disputes. *)
Definition kr_ext : ext := Ext (fun _ _ => true) (fun _ _ => true) (fun _ => 2).
Definition kr_env (id : option N) : penv := PEnv kr_ext (kreivo_fees (fun _ => 2)) id true.
Definition kr_id : option N := kreivo_id_number 100 (Some 1) 20.
Definition kr_steps : list (pstep * option N) :=
  [(SCall (OSigned 10) (CPay (AddrId 20) 1 200 None) (kr_env kr_id), Some 1);
   (SCall (OSigned 10) (CRequestRefund (default 0 kr_id)) (kr_env None), Some 2);
   (SCall (OSigned 20) (CDisputeRefund (default 0 kr_id)) (kr_env None), Some 3)].
Definition kr_state : pstate := run kreivo_payments (genesis ex_free 100) (map fst kr_steps).

Lemma kr_state_reachable : kreivo_reachable kr_state.
Proof.
  exists ex_free, 100, (map fst kr_steps). split; [|done].
  cbn [map fst kr_steps]. repeat constructor; try (intros; vm_compute; discriminate).
Qed.

Example C24_kreivo_case : kreivo_reachable kr_state /\ state_of kr_state (10, default 0 kr_id) = Some NeedsReview /\
  call_ok (dispatch kreivo_payments (kr_env None) kr_state ORoot (CResolveDispute (default 0 kr_id) (DisputeResult 30 RBeneficiary))) = true.
Proof. split; [exact kr_state_reachable|]. split; vm_compute; reflexivity. Qed.

(** C06 and C27 on Kreivo: if no extrinsic makes more than one payment or request, all ids of a history are different, so the theorems about
    histories with distinct ids apply. *)
Theorem C06_ids_distinct_kreivo_partial : forall st steps,
  kreivo_id_history st steps -> NoDup (made_in st steps) -> NoDup (new_ids (map fst steps)).
Proof. exact kreivo_ids_distinct. Qed.
Print Assumptions C06_ids_distinct_kreivo_partial.

Lemma kr_id_history : kreivo_id_history (genesis ex_free 100) kr_steps.
Proof.
  cbn [kreivo_id_history kr_steps]. unfold kreivo_id_step.
  split_and!; cbn [fst snd]; try exact I; try (intros i E; injection E as <-); try (vm_compute; discriminate).
  exists 20. split; [by intros x [= <-]|done].
Qed.

Example C06_kreivo_case : kreivo_id_history (genesis ex_free 100) kr_steps /\ made_in (genesis ex_free 100) kr_steps = [(100, Some 1)].
Proof. split; [exact kr_id_history|]. reflexivity. Qed.

(** C21 on Kreivo, under that condition. *)
Theorem C21_who_may_act_kreivo_partial : forall f now steps step s id d,
  kreivo_id_history (genesis f now) (steps ++ [step]) -> NoDup (made_in (genesis f now) (steps ++ [step])) ->
  let st := run kreivo_payments (genesis f now) (map fst steps) in
  st_pays st !! (s, id) = Some d -> st_pays (run_step kreivo_payments st (fst step)) !! (s, id) <> Some d ->
  may_act kreivo_payments st s id d (fst step).
Proof.
  intros f now steps step s id d H1 H2. apply who_may_act; [exact kreivo_beneficiary_signs|].
  change (NoDup (new_ids (map fst steps ++ map fst [step]))). rewrite <- map_app. by apply (kreivo_ids_distinct (genesis f now)).
Qed.
Print Assumptions C21_who_may_act_kreivo_partial.

(** C27 on Kreivo, under that condition. *)
Theorem C27_stale_refund_kreivo_partial : forall f now steps id e,
  kreivo_id_history (genesis f now) steps -> NoDup (made_in (genesis f now) steps) ->
  let st := run kreivo_payments (genesis f now) (map fst steps) in
  (forall s d n, st_pays st !! (s, id) = Some d -> d_state d <> RefundRequested n) ->
  let st' := run_step kreivo_payments st (SFire id e) in
  st_ledger st' = st_ledger st /\ st_pays st' = st_pays st /\ st_parties st' = st_parties st /\
  (forall i, i <> id -> st_agenda st' !! i = st_agenda st !! i).
Proof.
  intros f now steps id e H1 H2 st H. apply stale_refund_harmless; [|done].
  exists f, now, (map fst steps). split; [|done]. by apply (kreivo_ids_distinct (genesis f now)).
Qed.
Print Assumptions C27_stale_refund_kreivo_partial.

Example C27_kreivo_case : state_of kr_state (10, default 0 kr_id) = Some NeedsReview /\ st_agenda kr_state !! default 0 kr_id = None.
Proof. split; vm_compute; reflexivity. Qed.

(** Invariants about scheduled refunds and fresh ids; which records a call may change. *)
From Verif Require Import BaseProofs XcmTypes OriginTypes FeesModel LedgerModel PaymentsModel PaymentsSpec LedgerProofs FeesProofs
  PaymentsProofs PaymentsInvariants.
From stdpp Require Import gmap.
Open Scope N_scope.

(** What a successful call does to records, parties and agenda, in one statement. *)
Inductive record_change (c : pconfig) (e : penv) (st : pstate) (o : origin) : pcall -> pstate -> Prop :=
| rc_pay b a amount remark s ben id d l :
    cfg_sender_origin c o = Some s -> cfg_lookup c b = Some ben ->
    created c e st s ben id a amount Created remark d ->
    record_change c e st o (CPay b a amount remark)
      (PState l (<[(s, id) := d]> (st_pays st)) (<[id := (s, ben)]> (st_parties st)) (st_agenda st) (st_now st))
| rc_request b a amount s ben id d l :
    cfg_beneficiary_origin c o = Some ben -> cfg_lookup c b = Some s ->
    created c e st s ben id a amount PaymentRequested None d ->
    record_change c e st o (CRequestPayment b a amount)
      (PState l (<[(s, id) := d]> (st_pays st)) (<[id := (s, ben)]> (st_parties st)) (st_agenda st) (st_now st))
| rc_release id s d l :
    cfg_sender_origin c o = Some s -> st_pays st !! (s, id) = Some d -> d_state d = Created ->
    record_change c e st o (CRelease id)
      (PState l (<[(s, id) := set_state d Finished]> (st_pays st)) (st_parties st) (st_agenda st) (st_now st))
| rc_refund id s d l :
    cfg_sender_origin c o = Some s -> st_pays st !! (s, id) = Some d -> d_state d = Created ->
    st_agenda st !! id = None ->
    record_change c e st o (CRequestRefund id)
      (PState l (<[(s, id) := set_state d (RefundRequested (st_now st + cfg_cancel_buffer c))]> (st_pays st)) (st_parties st)
         (<[id := (st_now st + cfg_cancel_buffer c, d_beneficiary d)]> (st_agenda st)) (st_now st))
| rc_accept id s p ben d l :
    cfg_sender_origin c o = Some s -> st_parties st !! id = Some (p, ben) -> st_pays st !! (s, id) = Some d ->
    record_change c e st o (CAcceptAndPay id)
      (PState l (<[(s, id) := set_state d Finished]> (st_pays st)) (st_parties st) (st_agenda st) (st_now st))
| rc_cancel id s ben d l :
    cfg_beneficiary_origin c o = Some ben -> st_parties st !! id = Some (s, ben) -> st_pays st !! (s, id) = Some d ->
    (d_state d = Created \/ exists cb, d_state d = RefundRequested cb) ->
    record_change c e st o (CCancel id)
      (PState l (delete (s, id) (st_pays st)) (delete id (st_parties st)) (st_agenda st) (st_now st))
| rc_dispute id s ben d cb due l :
    cfg_beneficiary_origin c o = Some ben -> st_parties st !! id = Some (s, ben) -> st_pays st !! (s, id) = Some d ->
    d_state d = RefundRequested cb -> st_now st < cb -> st_agenda st !! id = Some due ->
    record_change c e st o (CDisputeRefund id)
      (PState l (<[(s, id) := set_state d NeedsReview]> (st_pays st)) (st_parties st) (delete id (st_agenda st)) (st_now st))
| rc_resolve id r rs s ben d l :
    cfg_resolver_origin c o = Some rs -> st_parties st !! id = Some (s, ben) -> st_pays st !! (s, id) = Some d ->
    d_state d = NeedsReview ->
    record_change c e st o (CResolveDispute id r)
      (PState l (<[(s, id) := set_state d Finished]> (st_pays st)) (st_parties st) (st_agenda st) (st_now st)).

Lemma pstate_eta st l p pa ag n :
  st_ledger st = l -> st_pays st = p -> st_parties st = pa -> st_agenda st = ag -> st_now st = n -> st = PState l p pa ag n.
Proof. destruct st; cbn. congruence. Qed.

Lemma dispatch_record c e st o call st' : dispatch c e st o call = POk st' -> record_change c e st o call st'.
Proof.
  destruct call; cbn [dispatch]; intros H.
  - apply pay_inv in H as (s & ben & id & d & l1 & l2 & Hs & Hb & Hc & _ & _ & ->). by econstructor.
  - apply release_call_effect in H as (s & d & Hs & Hp & Hst & H1 & H2 & H3 & H4 & _).
    rewrite (pstate_eta st' _ _ _ _ _ eq_refl H1 H2 H3 H4). by econstructor.
  - apply request_refund_inv in H as (s & d & Hs & Hp & Hst & _ & _ & Hag & _ & ->). by econstructor.
  - apply accept_effect in H as (s & p & ben & d & b & Hs & Hpa & Hp & H1 & H2 & H3 & H4 & _).
    rewrite (pstate_eta st' _ _ _ _ _ eq_refl H1 H2 H3 H4). by econstructor.
  - apply cancel_inv in H as (s & ben & d & l & Ho & Hpa & Hp & Hst & _ & ->). by econstructor.
  - apply dispute_refund_inv in H as (s & ben & d & cb & l & due & Ho & Hpa & Hp & Hst & Hn & Hag & _ & ->). by econstructor.
  - apply request_payment_inv in H as (s & ben & id & d & Hs & Hb & Hc & ->). by econstructor.
  - apply resolve_effect in H as (rs & s & ben & d & b1 & b2 & Ho & Hpa & Hp & Hst & H1 & H2 & H3 & H4 & _).
    rewrite (pstate_eta st' _ _ _ _ _ eq_refl H1 H2 H3 H4). by econstructor.
Qed.

(* ------------------------------------------------------------------ *)
(** * Refund timing, in every history *)

Definition timing_ok (c : pconfig) (st : pstate) : Prop :=
  (forall s id d cb, st_pays st !! (s, id) = Some d -> d_state d = RefundRequested cb -> cb <= st_now st + cfg_cancel_buffer c) /\
  (forall s id d cb due who, st_pays st !! (s, id) = Some d -> d_state d = RefundRequested cb ->
     st_agenda st !! id = Some (due, who) -> cb <= due).

Lemma timing_insert_other c st s id d l pa :
  timing_ok c st -> (forall cb, d_state d <> RefundRequested cb) ->
  timing_ok c (PState l (<[(s, id) := d]> (st_pays st)) pa (st_agenda st) (st_now st)).
Proof.
  intros [T1 T2] Hd. split; cbn.
  - intros s' id' d' cb H Hs. apply lookup_insert_Some in H as [[E <-]|[E H]]; [by apply Hd in Hs|]. eauto.
  - intros s' id' d' cb due who H Hs. apply lookup_insert_Some in H as [[E <-]|[E H]]; [by apply Hd in Hs|]. eauto.
Qed.

Lemma timing_agenda_delete c st l p pa id :
  timing_ok c (PState l p pa (st_agenda st) (st_now st)) ->
  timing_ok c (PState l p pa (delete id (st_agenda st)) (st_now st)).
Proof.
  intros [T1 T2]. split; cbn in *; [done|]. intros s id' d cb due who H Hs Hag.
  apply lookup_delete_Some in Hag as [_ Hag]. eauto.
Qed.

Lemma timing_record c e st o call st' : record_change c e st o call st' -> timing_ok c st -> timing_ok c st'.
Proof.
  intros H T. destruct H.
  - apply timing_insert_other; [done|]. rewrite (cr_d _ _ _ _ _ _ _ _ _ _ _ H1). done.
  - apply timing_insert_other; [done|]. rewrite (cr_d _ _ _ _ _ _ _ _ _ _ _ H1). done.
  - by apply timing_insert_other.
  - destruct T as [T1 T2]. split; cbn.
    + intros s' id' d' cb Hp Hs. apply lookup_insert_Some in Hp as [[E <-]|[E Hp]]; [cbn in Hs; injection Hs; lia|]. eauto.
    + intros s' id' d' cb due who Hp Hs Hag. apply lookup_insert_Some in Hag as [[<- [= <- <-]]|[Hne Hag]].
      * apply lookup_insert_Some in Hp as [[E <-]|[E Hp]]; [cbn in Hs; injection Hs; lia|]. eapply T1; eauto.
      * apply lookup_insert_Some in Hp as [[[= <- <-] <-]|[E Hp]]; [done|]. eauto.
  - by apply timing_insert_other.
  - destruct T as [T1 T2]. split; cbn.
    + intros s' id' d' cb Hp Hs. apply lookup_delete_Some in Hp as [_ Hp]; eauto.
    + intros s' id' d' cb due who Hp Hs. apply lookup_delete_Some in Hp as [_ Hp]; eauto.
  - apply timing_agenda_delete. by apply timing_insert_other.
  - by apply timing_insert_other.
Qed.

Lemma timing_exec c e st o call : timing_ok c st -> timing_ok c (exec c e st o call).
Proof.
  intros T. unfold exec. destruct (dispatch _ _ _ _ _) eqn:E; [|done]. eapply timing_record; [by eapply dispatch_record|done].
Qed.

Lemma timing_step c st s : timing_ok c st -> timing_ok c (run_step c st s).
Proof.
  intros T. destruct s; cbn [run_step].
  - by apply timing_exec.
  - destruct (st_agenda st !! id) as [[due who]|]; [|done]. destruct (due <=? st_now st); [|done].
    apply timing_exec. apply timing_agenda_delete. by destruct st.
  - apply timing_agenda_delete. by destruct st.
  - destruct T as [T1 T2]. split; cbn; [|done]. intros s id d cb H Hs. specialize (T1 _ _ _ _ H Hs). lia.
  - done.
Qed.

Lemma timing_reachable c st : reachable c st -> timing_ok c st.
Proof.
  intros (f & now & steps & ->). revert f.
  assert (forall st, timing_ok c st -> timing_ok c (run c st steps)) as H.
  { induction steps as [|s steps IH]; intros st T; [done|]. cbn. apply IH. by apply timing_step. }
  intros f. apply H. split; cbn; intros *; by rewrite lookup_empty.
Qed.

(* ------------------------------------------------------------------ *)
(** * Histories with fresh ids *)

Record finv (st : pstate) : Prop := {
  f_one : forall s id d, st_pays st !! (s, id) = Some d -> st_parties st !! id = Some (s, d_beneficiary d);
  f_task : forall id due who, st_agenda st !! id = Some (due, who) ->
    forall s d, st_pays st !! (s, id) = Some d ->
      (d_state d = RefundRequested due /\ who = d_beneficiary d) \/ d_state d = Finished;
}.

Definition unused (st : pstate) (id : N) : Prop := st_parties st !! id = None /\ st_agenda st !! id = None.

Lemma finv_unused_pays st id s : finv st -> unused st id -> st_pays st !! (s, id) = None.
Proof.
  intros F [U _]. destruct (st_pays st !! (s, id)) as [d|] eqn:E; [|done]. apply (f_one _ F) in E. congruence.
Qed.

Lemma finv_insert_new st s id d ben l :
  finv st -> unused st id -> d_beneficiary d = ben ->
  finv (PState l (<[(s, id) := d]> (st_pays st)) (<[id := (s, ben)]> (st_parties st)) (st_agenda st) (st_now st)).
Proof.
  intros F U Hb. split; cbn.
  - intros s' id' d' H. apply lookup_insert_Some in H as [[[= <- <-] <-]|[E H]].
    + rewrite lookup_insert. by rewrite Hb.
    + destruct (decide (id' = id)) as [->|Hne].
      * by rewrite (finv_unused_pays st id s' F U) in H.
      * rewrite lookup_insert_ne by done. by apply (f_one _ F).
  - intros id' due who Hag s' d' H. apply lookup_insert_Some in H as [[[= <- <-] <-]|[E H]].
    + destruct U as [_ U]. congruence.
    + by eapply f_task.
Qed.

Lemma finv_update st s id d d' l :
  finv st -> st_pays st !! (s, id) = Some d -> d_beneficiary d' = d_beneficiary d ->
  (st_agenda st !! id = None \/ d_state d' = Finished) ->
  finv (PState l (<[(s, id) := d']> (st_pays st)) (st_parties st) (st_agenda st) (st_now st)).
Proof.
  intros F Hd Hb Hag. split; cbn.
  - intros s' id' d'' H. apply lookup_insert_Some in H as [[[= <- <-] <-]|[E H]].
    + rewrite Hb. by apply (f_one _ F).
    + by apply (f_one _ F).
  - intros id' due who Ha s' d'' H. apply lookup_insert_Some in H as [[[= <- <-] <-]|[E H]].
    + destruct Hag as [Hag|Hag]; [congruence|by right].
    + by eapply f_task.
Qed.

Lemma finv_agenda_delete st id : finv st -> finv (with_agenda st (delete id (st_agenda st))).
Proof.
  intros F. split; cbn; [by apply (f_one _ F)|]. intros id' due who H. apply lookup_delete_Some in H as [_ H].
  by eapply f_task.
Qed.

Lemma finv_record c e st o call st' :
  record_change c e st o call st' -> finv st -> (forall id, id ∈ call_new_id e call -> unused st id) -> finv st'.
Proof.
  intros H F U. destruct H; cbn [call_new_id] in U.
  - apply finv_insert_new; [done| |].
    + apply U. rewrite (cr_id _ _ _ _ _ _ _ _ _ _ _ H1). apply elem_of_list_here.
    + by rewrite (cr_d _ _ _ _ _ _ _ _ _ _ _ H1).
  - apply finv_insert_new; [done| |].
    + apply U. rewrite (cr_id _ _ _ _ _ _ _ _ _ _ _ H1). apply elem_of_list_here.
    + by rewrite (cr_d _ _ _ _ _ _ _ _ _ _ _ H1).
  - eapply finv_update; [done|done|done|by right].
  - split; cbn.
    + intros s' id' d'' Hp. apply lookup_insert_Some in Hp as [[[= <- <-] <-]|[E Hp]]; [exact (f_one _ F _ _ _ H0)|by apply (f_one _ F)].
    + intros id' due who Ha s' d'' Hp. apply lookup_insert_Some in Hp as [[[= <- <-] <-]|[E Hp]].
      * rewrite lookup_insert in Ha. injection Ha as <- <-. by left.
      * destruct (decide (id' = id)) as [->|Hne].
        -- apply (f_one _ F) in Hp. apply (f_one _ F) in H0. congruence.
        -- rewrite lookup_insert_ne in Ha by done. by eapply f_task.
  - eapply finv_update; [done|done|done|by right].
  - split; cbn.
    + intros s' id' d'' Hp. apply lookup_delete_Some in Hp as [Hne Hp].
      apply (f_one _ F) in Hp as Hpa. rewrite lookup_delete_ne; [done|]. intros ->. congruence.
    + intros id' due who Ha s' d'' Hp. apply lookup_delete_Some in Hp as [Hne Hp]. by eapply f_task.
  - assert (F2 : finv (with_agenda st (delete id (st_agenda st)))) by (by apply finv_agenda_delete).
    eapply (finv_update (with_agenda st (delete id (st_agenda st))) s id d (set_state d NeedsReview) l F2); [done|done|].
    left. cbn. apply lookup_delete.
  - eapply finv_update; [done|done|done|by right].
Qed.

Lemma unused_record c e st o call st' id :
  record_change c e st o call st' -> finv st -> unused st id -> id ∉ call_new_id e call -> unused st' id.
Proof.
  intros H F [U1 U2] Hn. destruct H; cbn [call_new_id] in Hn; unfold unused; cbn.
  - rewrite (cr_id _ _ _ _ _ _ _ _ _ _ _ H1) in Hn. rewrite elem_of_list_singleton in Hn.
    by rewrite lookup_insert_ne by congruence.
  - rewrite (cr_id _ _ _ _ _ _ _ _ _ _ _ H1) in Hn. rewrite elem_of_list_singleton in Hn.
    by rewrite lookup_insert_ne by congruence.
  - done.
  - split; [done|]. rewrite lookup_insert_ne; [done|]. intros ->. apply (f_one _ F) in H0. congruence.
  - done.
  - split; [by rewrite lookup_delete_None; right|done].
  - split; [done|]. by rewrite lookup_delete_None; right.
  - done.
Qed.

Lemma finv_exec c e st o call :
  finv st -> (forall id, id ∈ call_new_id e call -> unused st id) -> finv (exec c e st o call).
Proof.
  intros F U. unfold exec. destruct (dispatch _ _ _ _ _) eqn:E; [|done].
  eapply finv_record; [by eapply dispatch_record|done|done].
Qed.

Lemma unused_exec c e st o call id :
  finv st -> unused st id -> id ∉ call_new_id e call -> unused (exec c e st o call) id.
Proof.
  intros F U Hn. unfold exec. destruct (dispatch _ _ _ _ _) eqn:E; [|done].
  eapply unused_record; [by eapply dispatch_record|done|done|done].
Qed.

Lemma step_new_id_call o call e : step_new_id (SCall o call e) = call_new_id e call.
Proof. by destruct call. Qed.

Lemma finv_step c st s : finv st -> (forall id, id ∈ step_new_id s -> unused st id) -> finv (run_step c st s).
Proof.
  intros F U. destruct s; cbn [run_step].
  - apply finv_exec; [done|]. by rewrite <-(step_new_id_call o).
  - destruct (st_agenda st !! id) as [[due who]|]; [|done]. destruct (due <=? st_now st); [|done].
    apply finv_exec; [by apply finv_agenda_delete|]. cbn. intros id' H. by apply elem_of_nil in H.
  - by apply finv_agenda_delete.
  - by destruct F.
  - by destruct F.
Qed.

Lemma unused_step c st s id : finv st -> unused st id -> id ∉ step_new_id s -> unused (run_step c st s) id.
Proof.
  intros F U Hn. destruct s; cbn [run_step].
  - apply unused_exec; [done|done|]. by rewrite <-(step_new_id_call o).
  - destruct (st_agenda st !! id0) as [[due who]|]; [|done]. destruct (due <=? st_now st); [|done].
    apply unused_exec; [by apply finv_agenda_delete| |cbn; apply not_elem_of_nil].
    destruct U as [U1 U2]. split; [done|]. cbn. by rewrite lookup_delete_None; right.
  - destruct U as [U1 U2]. split; [done|]. cbn. by rewrite lookup_delete_None; right.
  - done.
  - done.
Qed.

Lemma new_ids_cons s steps : new_ids (s :: steps) = step_new_id s ++ new_ids steps.
Proof. done. Qed.

Lemma finv_run c st steps :
  finv st -> NoDup (new_ids steps) -> (forall id, id ∈ new_ids steps -> unused st id) -> finv (run c st steps).
Proof.
  revert st. induction steps as [|s steps IH]; intros st F Hnd U; [done|]. cbn.
  rewrite new_ids_cons in *. apply NoDup_app in Hnd as (N1 & N2 & N3).
  apply IH; [|done|].
  - apply finv_step; [done|]. intros id Hid. apply U, elem_of_app. by left.
  - intros id Hid. apply unused_step; [done|apply U, elem_of_app; by right|]. intros Hs. by eapply N2.
Qed.

Lemma finv_genesis f now : finv (genesis f now).
Proof. split; cbn; intros *; by rewrite lookup_empty. Qed.

Lemma reachable_fresh_finv c st : reachable_fresh c st -> finv st.
Proof.
  intros (f & now & steps & Hnd & ->). apply finv_run; [apply finv_genesis|done|].
  intros id _. split; cbn; apply lookup_empty.
Qed.

Lemma reachable_fresh_reachable c st : reachable_fresh c st -> reachable c st.
Proof. intros (f & now & steps & _ & ->). by exists f, now, steps. Qed.

(** A refund request whose time has not come is still scheduled, unless the scheduler dropped it. *)
Definition scheduled_ok (st : pstate) : Prop :=
  forall s id d cb, st_pays st !! (s, id) = Some d -> d_state d = RefundRequested cb ->
    st_agenda st !! id = Some (cb, d_beneficiary d) \/ cb <= st_now st.

Lemma scheduled_record c e st o call st' :
  record_change c e st o call st' -> finv st -> (forall id, id ∈ call_new_id e call -> unused st id) ->
  scheduled_ok st -> scheduled_ok st'.
Proof.
  intros H F U S. destruct H; intros s' id' d' cb'; cbn.
  - rewrite lookup_insert_Some. intros [[E <-]|[E Hp]] Hs; [by rewrite (cr_d _ _ _ _ _ _ _ _ _ _ _ H1) in Hs|]. eauto.
  - rewrite lookup_insert_Some. intros [[E <-]|[E Hp]] Hs; [by rewrite (cr_d _ _ _ _ _ _ _ _ _ _ _ H1) in Hs|]. eauto.
  - rewrite lookup_insert_Some. intros [[E <-]|[E Hp]] Hs; [done|]. eauto.
  - rewrite lookup_insert_Some. intros [[[= <- <-] <-]|[E Hp]] Hs.
    + cbn in Hs. injection Hs as <-. left. by rewrite lookup_insert.
    + destruct (decide (id = id')) as [->|Hne]; [apply (f_one _ F) in Hp; apply (f_one _ F) in H0; congruence|].
      rewrite lookup_insert_ne by done. eauto.
  - rewrite lookup_insert_Some. intros [[E <-]|[E Hp]] Hs; [done|]. eauto.
  - rewrite lookup_delete_Some. intros [E Hp] Hs. eauto.
  - rewrite lookup_insert_Some. intros [[E <-]|[E Hp]] Hs; [done|].
    destruct (decide (id = id')) as [->|Hne]; [apply (f_one _ F) in Hp; apply (f_one _ F) in H1; congruence|].
    rewrite lookup_delete_ne by done. eauto.
  - rewrite lookup_insert_Some. intros [[E <-]|[E Hp]] Hs; [done|]. eauto.
Qed.

Lemma scheduled_exec c e st o call :
  finv st -> (forall id, id ∈ call_new_id e call -> unused st id) -> scheduled_ok st -> scheduled_ok (exec c e st o call).
Proof.
  intros F U S. unfold exec. destruct (dispatch _ _ _ _ _) eqn:E; [|done].
  eapply scheduled_record; [by eapply dispatch_record|done|done|done].
Qed.

Lemma scheduled_step c st s :
  finv st -> (forall id, id ∈ step_new_id s -> unused st id) -> (forall id, s <> SDrop id) ->
  scheduled_ok st -> scheduled_ok (run_step c st s).
Proof.
  intros F U Hd S. destruct s; cbn [run_step].
  - apply scheduled_exec; [done| |done]. by rewrite <-(step_new_id_call o).
  - destruct (st_agenda st !! id) as [[due who]|] eqn:Ea; [|done]. destruct (due <=? st_now st) eqn:Ed; [|done].
    apply N.leb_le in Ed. apply scheduled_exec; [by apply finv_agenda_delete| |].
    { cbn. intros id' H. by apply elem_of_nil in H. }
    intros s id' d cb Hp Hs. cbn in *. destruct (S _ _ _ _ Hp Hs) as [H|H]; [|by right].
    destruct (decide (id = id')) as [->|Hne]; [|left; by rewrite lookup_delete_ne].
    right. rewrite Ea in H. injection H as -> _. done.
  - by destruct (Hd id).
  - intros s id d cb Hp Hs. cbn in *. destruct (S _ _ _ _ Hp Hs) as [H|H]; [by left|right; lia].
  - done.
Qed.

Lemma scheduled_run c st steps :
  finv st -> NoDup (new_ids steps) -> (forall id, id ∈ new_ids steps -> unused st id) -> no_drop steps ->
  scheduled_ok st -> scheduled_ok (run c st steps).
Proof.
  revert st. induction steps as [|s steps IH]; intros st F Hnd U Hd S; [done|]. cbn.
  rewrite new_ids_cons in *. apply NoDup_app in Hnd as (N1 & N2 & N3).
  assert (U1 : forall id, id ∈ step_new_id s -> unused st id) by (intros; apply U, elem_of_app; by left).
  apply IH; [by apply finv_step|done| | |].
  - intros id Hid. apply unused_step; [done|apply U, elem_of_app; by right|]. intros Hs. by eapply N2.
  - intros id Hin. apply (Hd id). by apply elem_of_list_further.
  - apply scheduled_step; [done|done| |done]. intros id ->. apply (Hd id). apply elem_of_list_here.
Qed.

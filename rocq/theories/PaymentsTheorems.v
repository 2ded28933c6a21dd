(** Proofs of the payment properties in the form used by PropsPayments.v. *)
From Verif Require Import BaseProofs XcmTypes OriginTypes FeesModel LedgerModel PaymentsModel PaymentsSpec LedgerProofs FeesProofs
  PaymentsProofs PaymentsInvariants PaymentsHistories.
From stdpp Require Import gmap sorting.
Open Scope N_scope.

(* ------------------------------------------------------------------ *)
(** * A small world for examples and counterexamples *)

Definition ex_cfg : pconfig := PConfig
  (fun o => match o with OSigned w => Some w | _ => None end)
  (fun o => match o with OSigned w => Some w | _ => None end)
  (fun o => match o with ORoot => Some 77 | _ => None end)
  (fun ad => match ad with AddrId a => Some a | _ => None end) 10 5.
Definition ex_ext : ext := Ext (fun _ _ => true) (fun _ _ => true) (fun _ => 2).
Definition ex_fees : fees := Fees [Fee 50 2 true; Fee 51 3 false] [Fee 50 4 true].
Definition ex_env (id : N) : penv := PEnv ex_ext (fun _ _ _ _ _ => ex_fees) (Some id) true.
Definition ex_free : gmap (N * N) N := {[ (1, 10) := 1000; (1, 20) := 1000; (1, 30) := 1000 ]}.
Definition ex0 : pstate := genesis ex_free 100.
(** Account 10 pays 200 of asset 1 to account 20, as payment 7. *)
Definition ex_pay : pstep := SCall (OSigned 10) (CPay (AddrId 20) 1 200 None) (ex_env 7).
Definition ex_created : pstate := run ex_cfg ex0 [ex_pay].
Definition ex_refund : pstate := run ex_cfg ex0 [ex_pay; SCall (OSigned 10) (CRequestRefund 7) (ex_env 0)].
Definition ex_review : pstate := run ex_cfg ex0
  [ex_pay; SCall (OSigned 10) (CRequestRefund 7) (ex_env 0); SCall (OSigned 20) (CDisputeRefund 7) (ex_env 0)].
Definition ex_requested : pstate := run ex_cfg ex0 [SCall (OSigned 20) (CRequestPayment (AddrId 10) 1 200) (ex_env 7)].
Definition ex_finished : pstate := run ex_cfg ex0 [ex_pay; SCall (OSigned 10) (CRelease 7) (ex_env 0)].

Lemma ex_created_reachable : reachable ex_cfg ex_created. Proof. by exists ex_free, 100, [ex_pay]. Qed.
Lemma ex_fresh steps : NoDup (new_ids steps) -> reachable_fresh ex_cfg (run ex_cfg ex0 steps).
Proof. intros H. by exists ex_free, 100, steps. Qed.

Definition call_ok {A} (r : presult A) : bool := match r with POk _ => true | PErr _ => false end.

(* ------------------------------------------------------------------ *)
(** * Funds *)

Lemma funds_conserved c e st o call a :
  exists b1 b2,
    issuance (st_ledger (exec c e st o call)) a + b1 + b2 = issuance (st_ledger st) a /\
    (b1 = 0 \/ b1 < ext_min_balance (env_ext e) a) /\ (b2 = 0 \/ b2 < ext_min_balance (env_ext e) a) /\
    (may_burn call = false -> b1 = 0 /\ b2 = 0) /\
    (b2 <> 0 -> exists id r, call = CResolveDispute id r).
Proof.
  unfold exec. destruct (dispatch c e st o call) as [st'|] eqn:E; [|exists 0, 0; split_and!; try lia; intros; done].
  assert (H0 : issuance (st_ledger st') a = issuance (st_ledger st) a -> exists b1 b2,
    issuance (st_ledger st') a + b1 + b2 = issuance (st_ledger st) a /\
    (b1 = 0 \/ b1 < ext_min_balance (env_ext e) a) /\ (b2 = 0 \/ b2 < ext_min_balance (env_ext e) a) /\
    (may_burn call = false -> b1 = 0 /\ b2 = 0) /\
    (b2 <> 0 -> exists id r, call = CResolveDispute id r)).
  { intros H. exists 0, 0. split_and!; try lia; done. }
  destruct call; cbn [dispatch] in E.
  - apply pay_effect in E as (s & ben & id & d & _ & _ & _ & _ & _ & _ & _ & (_ & _ & _ & Ei) & _).
    apply H0. specialize (Ei a). unfold none1 in Ei. lia.
  - apply release_call_effect in E as (s & d & _ & _ & _ & _ & _ & _ & _ & (_ & _ & _ & Ei)).
    apply H0. specialize (Ei a). unfold none1 in Ei. lia.
  - apply request_refund_inv in E as (s & d & _ & _ & _ & _ & _ & _ & _ & ->). by apply H0.
  - apply accept_effect in E as (s & p & ben & d & b & _ & _ & _ & _ & _ & _ & _ & (_ & _ & _ & Ei) & Hb).
    specialize (Ei a). unfold at1 in Ei. destruct (N.eqb_spec (d_asset d) a) as [Ha|]; cbn [ind] in Ei; [rewrite Ha in *|].
    + exists b, 0. cbn. split_and!; try done; try lia.
    + apply H0. lia.
  - apply cancel_effect in E as (s & d & ben & b & _ & _ & _ & _ & _ & _ & _ & _ & (_ & _ & _ & Ei) & Hb).
    specialize (Ei a). unfold at1 in Ei. destruct (N.eqb_spec (d_asset d) a) as [Ha|]; cbn [ind] in Ei; [rewrite Ha in *|].
    + exists b, 0. cbn. split_and!; try done; try lia.
    + apply H0. lia.
  - apply dispute_effect in E as (s & ben & d & cb & due & _ & _ & _ & _ & _ & _ & _ & _ & _ & _ & (_ & _ & _ & Ei) & _).
    apply H0. specialize (Ei a). unfold none1 in Ei. lia.
  - apply request_payment_inv in E as (s & ben & id & d & _ & _ & _ & ->). by apply H0.
  - apply resolve_effect in E as (rs & s & ben & d & b1 & b2 & _ & _ & _ & _ & _ & _ & _ & _ & (_ & _ & _ & Ei) & Hb1 & Hb2 & _).
    specialize (Ei a). unfold plus1, at1 in Ei. destruct (N.eqb_spec (d_asset d) a) as [Ha|]; cbn [ind] in Ei; [rewrite Ha in *|].
    + exists b1, b2. cbn. split_and!; try done; try lia. eauto.
    + apply H0. lia.
Qed.

Lemma escrow_backed c st : reachable c st -> forall a x, escrow st a x <= held (st_ledger st) a x.
Proof. intros H a x. apply (reachable_inv c st H). Qed.

Definition ex_stranded : pstate := run ex_cfg ex0 [ex_pay; SCall (OSigned 10) (CAcceptAndPay 7) (ex_env 0)].

Lemma stranded_forever : exists c st a x, reachable c st /\
  forall steps, escrow (run c st steps) a x < held (st_ledger (run c st steps)) a x.
Proof.
  exists ex_cfg, ex_stranded, 1, 20.
  assert (Hr : reachable ex_cfg ex_stranded) by (by exists ex_free, 100, [ex_pay; SCall (OSigned 10) (CAcceptAndPay 7) (ex_env 0)]).
  split; [done|]. intros steps.
  pose proof (run_surplus ex_cfg ex_stranded steps 1 20 (reachable_inv _ _ Hr)) as H.
  replace (escrow ex_stranded 1 20) with 0 in H by (vm_compute; reflexivity).
  replace (held (st_ledger ex_stranded) 1 20) with 200 in H by (vm_compute; reflexivity). lia.
Qed.

Lemma step_holds_exact c st s a x : inv st ->
  (forall o id e who d, s = SCall o (CAcceptAndPay id) e -> cfg_sender_origin c o = Some who ->
     st_pays st !! (who, id) = Some d -> is_open (d_state d) = false) ->
  held (st_ledger (run_step c st s)) a x + escrow st a x = held (st_ledger st) a x + escrow (run_step c st s) a x.
Proof.
  intros [Hp Hb] Hno. destruct s; cbn [run_step].
  - unfold exec. destruct (dispatch c e st o call) as [st'|] eqn:E; [|done].
    destruct (dispatch_holds c e st o call st' Hp Hb E) as (_ & _ & H). specialize (H a x). rewrite H.
    assert (stranded_by c st o call a x = 0) as ->; [|lia].
    destruct call; try done. cbn [stranded_by].
    destruct (cfg_sender_origin c o) as [who|] eqn:Eo; [|done]. destruct (st_pays st !! (who, id)) as [d|] eqn:Ed; [|done].
    cbn. apply escrow_of_closed. by eapply Hno.
  - destruct (st_agenda st !! id) as [[due who]|]; [|done]. destruct (due <=? st_now st); [|done].
    unfold exec. destruct (dispatch c e (with_agenda st _) (OSigned who) (CCancel id)) as [st'|] eqn:E; [|done].
    destruct (dispatch_holds c e (with_agenda st (delete id (st_agenda st))) _ _ st' Hp Hb E) as (_ & _ & H).
    specialize (H a x). cbn [stranded_by] in H. unfold escrow in *. cbn [with_agenda st_pays st_ledger] in H. lia.
  - done.
  - done.
  - done.
Qed.

Lemma holds_exact c st steps : inv st -> (forall a x, held (st_ledger st) a x = escrow st a x) ->
  no_accept_on_open c st steps -> forall a x, held (st_ledger (run c st steps)) a x = escrow (run c st steps) a x.
Proof.
  revert st. induction steps as [|s steps IH]; intros st Hi H0 Hn a x; [apply H0|].
  cbn [no_accept_on_open] in Hn. destruct Hn as [Hn1 Hn2]. cbn [run fold_left].
  apply (IH (run_step c st s)); [by apply run_step_inv| |done].
  intros a' x'. pose proof (step_holds_exact c st s a' x' Hi Hn1) as H. specialize (H0 a' x'). lia.
Qed.

Lemma holds_exact_genesis c f now steps : no_accept_on_open c (genesis f now) steps ->
  forall a x, held (st_ledger (run c (genesis f now) steps)) a x = escrow (run c (genesis f now) steps) a x.
Proof.
  apply holds_exact; [apply genesis_inv|]. intros a x. unfold escrow, held, genesis; cbn. by rewrite gsum_empty, lookup_empty.
Qed.

(* ------------------------------------------------------------------ *)
(** * Records *)

Lemma record_lifecycle c e st o call st' k : record_change c e st o call st' ->
  life_cycle (state_of st k) (state_of st' k) \/
  (exists d, call = CAcceptAndPay (snd k) /\ cfg_sender_origin c o = Some (fst k) /\ st_pays st !! k = Some d /\
     d_state d <> PaymentRequested /\ state_of st' k = Some Finished).
Proof.
  assert (Hsame : forall st' , st_pays st' !! k = st_pays st !! k -> life_cycle (state_of st k) (state_of st' k)).
  { intros st2 E. unfold state_of. rewrite E. constructor. }
  intros H. destruct H.
  - left. destruct (decide ((s, id) = k)) as [<-|Hne]; [|apply Hsame; cbn; by rewrite lookup_insert_ne].
    unfold state_of; cbn. rewrite lookup_insert. cbn. rewrite (cr_d _ _ _ _ _ _ _ _ _ _ _ H1). cbn.
    destruct (st_pays st !! (s, id)) as [d0|] eqn:E; cbn; [|constructor].
    rewrite (cr_old _ _ _ _ _ _ _ _ _ _ _ H1 _ E). constructor.
  - left. destruct (decide ((s, id) = k)) as [<-|Hne]; [|apply Hsame; cbn; by rewrite lookup_insert_ne].
    unfold state_of; cbn. rewrite lookup_insert. cbn. rewrite (cr_d _ _ _ _ _ _ _ _ _ _ _ H1). cbn.
    destruct (st_pays st !! (s, id)) as [d0|] eqn:E; cbn; [|constructor].
    rewrite (cr_old _ _ _ _ _ _ _ _ _ _ _ H1 _ E). constructor.
  - left. destruct (decide ((s, id) = k)) as [<-|Hne]; [|apply Hsame; cbn; by rewrite lookup_insert_ne].
    unfold state_of; cbn. rewrite lookup_insert, H0. cbn. rewrite H1. constructor.
  - left. destruct (decide ((s, id) = k)) as [<-|Hne]; [|apply Hsame; cbn; by rewrite lookup_insert_ne].
    unfold state_of; cbn. rewrite lookup_insert, H0. cbn. rewrite H1. constructor.
  - destruct (decide ((s, id) = k)) as [<-|Hne]; [|left; apply Hsame; cbn; by rewrite lookup_insert_ne].
    destruct (decide (d_state d = PaymentRequested)) as [E|E].
    + left. unfold state_of; cbn. rewrite lookup_insert, H1. cbn. rewrite E. constructor.
    + right. exists d. cbn. unfold state_of; cbn. by rewrite lookup_insert.
  - left. destruct (decide ((s, id) = k)) as [<-|Hne]; [|apply Hsame; cbn; by rewrite lookup_delete_ne].
    unfold state_of; cbn. rewrite lookup_delete, H1. cbn. destruct H2 as [->|[cb ->]]; constructor.
  - left. destruct (decide ((s, id) = k)) as [<-|Hne]; [|apply Hsame; cbn; by rewrite lookup_insert_ne].
    unfold state_of; cbn. rewrite lookup_insert, H1. cbn. rewrite H2. constructor.
  - left. destruct (decide ((s, id) = k)) as [<-|Hne]; [|apply Hsame; cbn; by rewrite lookup_insert_ne].
    unfold state_of; cbn. rewrite lookup_insert, H1. cbn. rewrite H2. constructor.
Qed.

Lemma step_lifecycle c st s k :
  life_cycle (state_of st k) (state_of (run_step c st s) k) \/ accept_finishes_open c st s k.
Proof.
  destruct s; cbn [run_step]; try (left; constructor).
  - unfold exec. destruct (dispatch c e st o call) as [st'|] eqn:E; [|left; constructor].
    destruct (record_lifecycle _ _ _ _ _ _ k (dispatch_record _ _ _ _ _ _ E)) as [H|(d & -> & H1 & H2 & H3 & H4)]; [by left|].
    right. exists o, e, d. split_and!; try done. cbn [run_step]. unfold exec. by rewrite E.
  - destruct (st_agenda st !! id) as [[due who]|]; [|left; constructor]. destruct (due <=? st_now st); [|left; constructor].
    unfold exec. destruct (dispatch c e _ (OSigned who) _) as [st'|] eqn:E; [|left; constructor].
    destruct (record_lifecycle _ _ _ _ _ _ k (dispatch_record _ _ _ _ _ _ E)) as [H|(d & Hc & _)]; [by left|done].
Qed.

Lemma lifecycle_broken : exists c st s k, reachable c st /\
  state_of st k = Some NeedsReview /\ state_of (run_step c st s) k = Some Finished /\
  (forall o id r e, s <> SCall o (CResolveDispute id r) e) /\
  exists st1 s1, reachable c st1 /\ ~ life_cycle (state_of st1 k) (state_of (run_step c st1 s1) k).
Proof.
  exists ex_cfg, ex_review, (SCall (OSigned 10) (CAcceptAndPay 7) (ex_env 0)), (10, 7).
  split; [by eexists ex_free, 100, _|]. split; [vm_compute; reflexivity|]. split; [vm_compute; reflexivity|]. split; [done|].
  exists ex_refund, (SCall (OSigned 10) (CAcceptAndPay 7) (ex_env 0)). split; [by eexists ex_free, 100, _|].
  replace (state_of ex_refund (10, 7)) with (Some (RefundRequested 105)) by (vm_compute; reflexivity).
  replace (state_of _ (10, 7)) with (Some Finished) by (vm_compute; reflexivity).
  intros H. inversion H.
Qed.

Lemma accept_pays_created : exists c st o id e d st', reachable c st /\
  st_pays st !! (10, id) = Some d /\ d_state d = Created /\ dispatch c e st o (CAcceptAndPay id) = POk st' /\
  free (st_ledger st') 1 20 = free (st_ledger st) 1 20 + 200 - 4.
Proof.
  eexists ex_cfg, ex_created, (OSigned 10), 7, (ex_env 0), _, _. split; [apply ex_created_reachable|].
  split; [vm_compute; reflexivity|]. split; [reflexivity|].
  split; [vm_compute; reflexivity|]. vm_compute. reflexivity.
Qed.

Lemma accept_needs_own_record c e st o id st' : dispatch c e st o (CAcceptAndPay id) = POk st' ->
  exists s d p b, cfg_sender_origin c o = Some s /\ st_pays st !! (s, id) = Some d /\ st_parties st !! id = Some (p, b) /\
    st_pays st' !! (s, id) = Some (set_state d Finished).
Proof.
  cbn. intros H. apply accept_effect in H as (s & p & ben & d & b & Hs & Hpa & Hp & Hps & _).
  exists s, d, p, ben. split_and!; try done. rewrite Hps. apply lookup_insert.
Qed.

Lemma finished_pays_again : exists c st o id e d st', reachable c st /\
  st_pays st !! (10, id) = Some d /\ d_state d = Finished /\ dispatch c e st o (CAcceptAndPay id) = POk st' /\
  free (st_ledger st') 1 10 + 200 + 5 = free (st_ledger st) 1 10.
Proof.
  eexists ex_cfg, ex_finished, (OSigned 10), 7, (ex_env 0), _, _. split; [by eexists ex_free, 100, _|].
  split; [vm_compute; reflexivity|]. split; [reflexivity|].
  split; [vm_compute; reflexivity|]. vm_compute. reflexivity.
Qed.

Lemma finished_is_dead c e st o s id d :
  st_pays st !! (s, id) = Some d -> d_state d = Finished ->
  (cfg_sender_origin c o = Some s -> exec c e st o (CRelease id) = st /\ exec c e st o (CRequestRefund id) = st) /\
  (forall b, st_parties st !! id = Some (s, b) ->
     exec c e st o (CCancel id) = st /\ exec c e st o (CDisputeRefund id) = st /\
     (forall r, exec c e st o (CResolveDispute id r) = st)).
Proof.
  intros Hp Hf. split.
  - intros Ho. unfold exec; cbn [dispatch]. split.
    + destruct (release c e st o id) eqn:E; [|done]. apply release_inv in E as (s' & d' & Hs & Hp' & Hst & _). congruence.
    + destruct (request_refund c e st o id) eqn:E; [|done]. apply request_refund_inv in E as (s' & d' & Hs & Hp' & Hst & _). congruence.
  - intros b Hb. unfold exec; cbn [dispatch]. split_and!.
    + destruct (cancel_call c e st o id) eqn:E; [|done]. apply cancel_inv in E as (s' & b' & d' & l & _ & Hpa & Hp' & Hst & _).
      rewrite Hb in Hpa. injection Hpa as <- <-. rewrite Hp in Hp'. injection Hp' as <-. destruct Hst as [?|[? ?]]; congruence.
    + destruct (dispute_refund c e st o id) eqn:E; [|done]. apply dispute_refund_inv in E as (s' & b' & d' & l & ? & ? & _ & Hpa & Hp' & Hst & _).
      rewrite Hb in Hpa. injection Hpa as <- <-. rewrite Hp in Hp'. injection Hp' as <-. congruence.
    + intros r. destruct (resolve_dispute c e st o id r) eqn:E; [|done].
      apply resolve_dispute_inv in E as (? & s' & b' & d' & _ & Hpa & Hp' & Hst & _).
      rewrite Hb in Hpa. injection Hpa as <- <-. rewrite Hp in Hp'. injection Hp' as <-. congruence.
Qed.

Lemma record_may_change c e st o call st' s id d :
  parties_ok st -> record_change c e st o call st' -> st_pays st !! (s, id) = Some d -> st_pays st' !! (s, id) <> Some d ->
  may_change c st s id d (SCall o call e).
Proof.
  intros Hpo H Hp Hch. destruct H; cbn in Hch.
  - destruct (decide ((s0, id0) = (s, id))) as [[= -> ->]|Hne]; [|by rewrite lookup_insert_ne in Hch].
    apply mc_same_id; [by apply (cr_old _ _ _ _ _ _ _ _ _ _ _ H1)|]. cbn. rewrite (cr_id _ _ _ _ _ _ _ _ _ _ _ H1). apply elem_of_list_here.
  - destruct (decide ((s0, id0) = (s, id))) as [[= -> ->]|Hne]; [|by rewrite lookup_insert_ne in Hch].
    apply mc_same_id; [by apply (cr_old _ _ _ _ _ _ _ _ _ _ _ H1)|]. cbn. rewrite (cr_id _ _ _ _ _ _ _ _ _ _ _ H1). apply elem_of_list_here.
  - destruct (decide ((s0, id0) = (s, id))) as [[= -> ->]|Hne]; [|by rewrite lookup_insert_ne in Hch]. apply mc_sender; auto.
  - destruct (decide ((s0, id0) = (s, id))) as [[= -> ->]|Hne]; [|by rewrite lookup_insert_ne in Hch]. apply mc_sender; auto.
  - destruct (decide ((s0, id0) = (s, id))) as [[= -> ->]|Hne]; [|by rewrite lookup_insert_ne in Hch]. apply mc_sender; auto.
  - destruct (decide ((s0, id0) = (s, id))) as [[= -> ->]|Hne]; [|by rewrite lookup_delete_ne in Hch].
    destruct (Hpo _ _ _ H0) as (d1 & Hd1 & Hb1). rewrite Hp in Hd1. injection Hd1 as <-. apply mc_beneficiary; [congruence|auto].
  - destruct (decide ((s0, id0) = (s, id))) as [[= -> ->]|Hne]; [|by rewrite lookup_insert_ne in Hch].
    destruct (Hpo _ _ _ H0) as (d1 & Hd1 & Hb1). rewrite Hp in Hd1. injection Hd1 as <-. apply mc_beneficiary; [congruence|auto].
  - destruct (decide ((s0, id0) = (s, id))) as [[= -> ->]|Hne]; [|by rewrite lookup_insert_ne in Hch].
    by eapply mc_resolver.
Qed.

Lemma who_may_change c st step s id d :
  (forall w, cfg_beneficiary_origin c (OSigned w) = Some w \/ cfg_beneficiary_origin c (OSigned w) = None) ->
  reachable c st -> st_pays st !! (s, id) = Some d -> st_pays (run_step c st step) !! (s, id) <> Some d ->
  may_change c st s id d step.
Proof.
  intros Hsig Hr Hp Hch. destruct (reachable_inv c st Hr) as [Hpo _]. destruct step; cbn [run_step] in Hch; try done.
  - unfold exec in Hch. destruct (dispatch c e st o call) as [st'|] eqn:E; [|done].
    eapply record_may_change; [done|by eapply dispatch_record|done|done].
  - destruct (st_agenda st !! id0) as [[due who]|] eqn:Ea; [|done]. destruct (due <=? st_now st) eqn:Ed; [|done].
    apply N.leb_le in Ed. unfold exec in Hch. destruct (dispatch c e _ (OSigned who) _) as [st'|] eqn:E; [|done].
    assert (Hm : may_change c (with_agenda st (delete id0 (st_agenda st))) s id d (SCall (OSigned who) (CCancel id0) e)).
    { eapply record_may_change; [done|by eapply dispatch_record|done|done]. }
    inversion Hm; subst.
    + destruct H3 as [?|[?|?]]; discriminate.
    + destruct H3 as [H3|H3]; [|done]. injection H3 as ->.
      destruct (Hsig who) as [Hw|Hw]; rewrite Hw in H1; [|done]. injection H1 as ->. by eapply mc_scheduled.
    + cbn in H3. by apply elem_of_nil in H3.
Qed.

Lemma one_record c e st o call :
  (exists k, forall k', k' <> k -> st_pays (exec c e st o call) !! k' = st_pays st !! k') /\
  (forall s id, call_id e call <> Some id ->
     st_pays (exec c e st o call) !! (s, id) = st_pays st !! (s, id) /\
     st_parties (exec c e st o call) !! id = st_parties st !! id /\
     st_agenda (exec c e st o call) !! id = st_agenda st !! id).
Proof.
  unfold exec. destruct (dispatch c e st o call) as [st'|] eqn:E; [|split; [by exists (0, 0)|done]].
  apply dispatch_record in E. destruct E; cbn [call_id st_pays st_parties st_agenda].
  - rewrite (cr_id _ _ _ _ _ _ _ _ _ _ _ H1). split.
    + exists (s, id). intros k' Hk. by rewrite lookup_insert_ne.
    + intros s' id' Hne. rewrite !lookup_insert_ne by congruence. done.
  - rewrite (cr_id _ _ _ _ _ _ _ _ _ _ _ H1). split.
    + exists (s, id). intros k' Hk. by rewrite lookup_insert_ne.
    + intros s' id' Hne. rewrite !lookup_insert_ne by congruence. done.
  - split; [exists (s, id); intros k' Hk; by rewrite lookup_insert_ne|].
    intros s' id' Hne. rewrite lookup_insert_ne by congruence. done.
  - split; [exists (s, id); intros k' Hk; by rewrite lookup_insert_ne|].
    intros s' id' Hne. rewrite !lookup_insert_ne by congruence. done.
  - split; [exists (s, id); intros k' Hk; by rewrite lookup_insert_ne|].
    intros s' id' Hne. rewrite lookup_insert_ne by congruence. done.
  - split; [exists (s, id); intros k' Hk; by rewrite lookup_delete_ne|].
    intros s' id' Hne. rewrite !lookup_delete_ne by congruence. done.
  - split; [exists (s, id); intros k' Hk; by rewrite lookup_insert_ne|].
    intros s' id' Hne. rewrite lookup_insert_ne, lookup_delete_ne by congruence. done.
  - split; [exists (s, id); intros k' Hk; by rewrite lookup_insert_ne|].
    intros s' id' Hne. rewrite lookup_insert_ne by congruence. done.
Qed.

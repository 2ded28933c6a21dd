From Verif Require Import BaseProofs XcmTypes OriginTypes PaymentIdModel FeesModel LedgerModel PaymentsModel PaymentsSpec LedgerProofs FeesProofs
  PaymentsProofs PaymentsInvariants PaymentsHistories PaymentsTheorems PaymentsAmounts PaymentsMore PaymentsEventsModel PaymentsEventsSpec.
From stdpp Require Import gmap.
Open Scope N_scope.

Definition learn_opt (m : gmap N pay_state) (o : option pevent) : gmap N pay_state :=
  match o with Some ev => learn m ev | None => m end.

(** The map says of every id in which state its payment is. *)
Definition agrees (st : pstate) (m : gmap N pay_state) : Prop :=
  forall id x, m !! id = Some x <-> exists s, state_of st (s, id) = Some x.

Lemma state_of_some st k x : state_of st k = Some x <-> exists d, st_pays st !! k = Some d /\ d_state d = x.
Proof.
  unfold state_of. split.
  - intros H. apply fmap_Some in H as (d & Hd & ->). eauto.
  - intros (d & -> & <-). done.
Qed.

(** Changing the one record of an id. *)
Lemma agrees_insert st m s id d l p a n :
  agrees st m -> (forall s', s' <> s -> st_pays st !! (s', id) = None) ->
  agrees (PState l (<[(s, id) := d]> (st_pays st)) p a n) (<[id := d_state d]> m).
Proof.
  intros A U id' x. destruct (decide (id' = id)) as [->|Hne].
  - rewrite lookup_insert. split.
    + intros [= <-]. exists s. apply state_of_some. exists d. cbn. by rewrite lookup_insert.
    + intros [s' Hs]. apply state_of_some in Hs as (d' & Hd & <-). cbn in Hd.
      destruct (decide (s' = s)) as [->|Hs]; [rewrite lookup_insert in Hd; by injection Hd as <-|].
      rewrite lookup_insert_ne in Hd by congruence. rewrite (U _ Hs) in Hd. discriminate.
  - rewrite lookup_insert_ne by done. rewrite (A id' x). split; intros [s' Hs]; exists s'; revert Hs; unfold state_of; cbn;
      rewrite lookup_insert_ne by congruence; done.
Qed.

Lemma agrees_delete st m s id l p a n :
  agrees st m -> (forall s', s' <> s -> st_pays st !! (s', id) = None) ->
  agrees (PState l (delete (s, id) (st_pays st)) p a n) (delete id m).
Proof.
  intros A U id' x. destruct (decide (id' = id)) as [->|Hne].
  - rewrite lookup_delete. split; [done|]. intros [s' Hs]. apply state_of_some in Hs as (d' & Hd & <-). cbn in Hd.
    destruct (decide (s' = s)) as [->|Hs]; [by rewrite lookup_delete in Hd|].
    rewrite lookup_delete_ne in Hd by congruence. rewrite (U _ Hs) in Hd. discriminate.
  - rewrite lookup_delete_ne by done. rewrite (A id' x). split; intros [s' Hs]; exists s'; revert Hs; unfold state_of; cbn;
      rewrite lookup_delete_ne by congruence; done.
Qed.

Lemma others_none st s id d : finv st -> st_pays st !! (s, id) = Some d -> forall s', s' <> s -> st_pays st !! (s', id) = None.
Proof.
  intros F Hp s' Hne. destruct (st_pays st !! (s', id)) as [d'|] eqn:E; [|done].
  pose proof (f_one _ F _ _ _ Hp). pose proof (f_one _ F _ _ _ E). congruence.
Qed.

Lemma agrees_exec c e st o call m :
  finv st -> (forall id, id ∈ call_new_id e call -> unused st id) -> agrees st m ->
  agrees (exec c e st o call) (learn_opt m (call_event c e st o call)).
Proof.
  intros F U A. unfold exec, call_event. destruct (dispatch _ _ _ _ _) as [st'|] eqn:E; [|done].
  apply dispatch_record in E. destruct E; cbn [learn_opt learn call_new_id] in *.
  - rewrite (cr_id _ _ _ _ _ _ _ _ _ _ _ H1) in *. cbn [mbind option_bind learn_opt learn].
    replace Created with (d_state d) by (by rewrite (cr_d _ _ _ _ _ _ _ _ _ _ _ H1)). apply agrees_insert; [done|].
    intros s' _. apply finv_unused_pays; [done|]. apply U. apply elem_of_list_here.
  - rewrite (cr_id _ _ _ _ _ _ _ _ _ _ _ H1) in *. cbn [mbind option_bind learn_opt learn].
    replace PaymentRequested with (d_state d) by (by rewrite (cr_d _ _ _ _ _ _ _ _ _ _ _ H1)). apply agrees_insert; [done|].
    intros s' _. apply finv_unused_pays; [done|]. apply U. apply elem_of_list_here.
  - change Finished with (d_state (set_state d Finished)) at 2. apply agrees_insert; [done|]. by eapply others_none.
  - set (x := RefundRequested _). change x with (d_state (set_state d x)) at 2. apply agrees_insert; [done|]. by eapply others_none.
  - change Finished with (d_state (set_state d Finished)) at 2. apply agrees_insert; [done|]. by eapply others_none.
  - rewrite H0. cbn [mbind option_bind fst]. rewrite H1. cbn [mbind option_bind].
    assert (agrees (PState l (delete (s, id) (st_pays st)) (delete id (st_parties st)) (st_agenda st) (st_now st)) (delete id m)).
    { apply agrees_delete; [done|]. by eapply others_none. }
    destruct H2 as [->|[cb ->]]; done.
  - change NeedsReview with (d_state (set_state d NeedsReview)) at 2. apply agrees_insert; [done|]. by eapply others_none.
  - change Finished with (d_state (set_state d Finished)) at 2. apply agrees_insert; [done|]. by eapply others_none.
Qed.

Lemma agrees_step c st x m :
  finv st -> (forall id, id ∈ step_new_id x -> unused st id) -> agrees st m ->
  agrees (run_step c st x) (learn_opt m (step_event c st x)).
Proof.
  intros F U A. destruct x; cbn [run_step step_event]; try done.
  - apply agrees_exec; [done| |done]. by rewrite <- (step_new_id_call o).
  - destruct (st_agenda st !! id) as [[due who]|]; [|done]. destruct (due <=? st_now st); [|done].
    apply agrees_exec; [by apply finv_agenda_delete| |done]. cbn. intros id' H. by apply elem_of_nil in H.
Qed.

Lemma agrees_run c st steps m :
  finv st -> NoDup (new_ids steps) -> (forall id, id ∈ new_ids steps -> unused st id) -> agrees st m ->
  agrees (run c st steps) (fold_left learn (event_log c st steps) m).
Proof.
  revert st m. induction steps as [|x steps IH]; intros st m F Hnd U A; [done|]. cbn [event_log run fold_left].
  rewrite new_ids_cons in *. apply NoDup_app in Hnd as (N1 & N2 & N3).
  assert (U1 : forall id, id ∈ step_new_id x -> unused st id) by (intros; apply U, elem_of_app; by left).
  rewrite fold_left_app.
  assert (Hl : fold_left learn match step_event c st x with Some ev => [ev] | None => [] end m = learn_opt m (step_event c st x))
    by (by destruct (step_event c st x)).
  rewrite Hl. apply IH; [by apply finv_step|done| |by apply agrees_step].
  intros id Hid. apply unused_step; [done|apply U, elem_of_app; by right|]. intros Hs. by eapply N2.
Qed.

Lemma events_tell c f now steps id x :
  NoDup (new_ids steps) ->
  told (event_log c (genesis f now) steps) !! id = Some x <-> exists s, state_of (run c (genesis f now) steps) (s, id) = Some x.
Proof.
  intros Hnd. apply (agrees_run c (genesis f now) steps ∅); [apply finv_genesis|done| |].
  - intros id' _. split; cbn; apply lookup_empty.
  - intros id' y. rewrite lookup_empty. split; [done|]. intros [s Hs]. unfold state_of in Hs. cbn in Hs. by rewrite lookup_empty in Hs.
Qed.

(** One event for every call that succeeds, none for one that fails. *)
Lemma one_event c e st o call : call_event c e st o call = None <-> exists err, dispatch c e st o call = PErr err.
Proof.
  unfold call_event. destruct (dispatch _ _ _ _ _) as [st'|err] eqn:E; [|split; eauto].
  split; [|intros [err H]; discriminate]. intros H. exfalso. apply dispatch_record in E. destruct E; try discriminate.
  - rewrite (cr_id _ _ _ _ _ _ _ _ _ _ _ H2) in H. discriminate.
  - rewrite (cr_id _ _ _ _ _ _ _ _ _ _ _ H2) in H. discriminate.
  - rewrite H1 in H. cbn [mbind option_bind fst] in H. rewrite H2 in H. cbn [mbind option_bind] in H.
    destruct H3 as [Hd|[cb Hd]]; rewrite Hd in H; discriminate.
Qed.

(** What a new payment's event says is what is recorded, and the amount lies with the beneficiary. *)
Lemma created_event c e st o call id a amount remark :
  call_event c e st o call = Some (EvCreated id a amount remark) ->
  exists s d, cfg_sender_origin c o = Some s /\ st_pays (exec c e st o call) !! (s, id) = Some d /\
    st_parties (exec c e st o call) !! id = Some (s, d_beneficiary d) /\ d_state d = Created /\ d_asset d = a /\ d_amount d = amount.
Proof.
  unfold call_event, exec. destruct (dispatch _ _ _ _ _) as [st'|err] eqn:E; [|done]. intros H.
  apply dispatch_record in E. destruct E; try discriminate.
  - rewrite (cr_id _ _ _ _ _ _ _ _ _ _ _ H2) in H. cbn in H. injection H as <- <- <- <-.
    exists s, d. cbn. rewrite !lookup_insert. rewrite (cr_d _ _ _ _ _ _ _ _ _ _ _ H2). by split_and!.
  - rewrite (cr_id _ _ _ _ _ _ _ _ _ _ _ H2) in H. discriminate.
  - rewrite H1 in H. cbn [mbind option_bind fst] in H. rewrite H2 in H. cbn [mbind option_bind] in H.
    destruct H3 as [Hd|[cb Hd]]; rewrite Hd in H; discriminate.
Qed.

(** Invariants of payment histories. *)
From Verif Require Import BaseProofs XcmTypes OriginTypes FeesModel LedgerModel PaymentsModel PaymentsSpec LedgerProofs FeesProofs PaymentsProofs.
From stdpp Require Import gmap.
Open Scope N_scope.

(** The parties recorded for an id are those of an existing payment. *)
Definition parties_ok (st : pstate) : Prop :=
  forall id s b, st_parties st !! id = Some (s, b) -> exists d, st_pays st !! (s, id) = Some d /\ d_beneficiary d = b.

Definition backed (st : pstate) : Prop :=
  forall a x, escrow st a x <= held (st_ledger st) a x /\ held (st_ledger st) a x <= u128_max.

Definition inv (st : pstate) : Prop := parties_ok st /\ backed st.

(** What accept_and_pay leaves on hold without an open payment to account for it. *)
Definition stranded_by (c : pconfig) (st : pstate) (o : origin) (call : pcall) (a x : N) : N :=
  match call with
  | CAcceptAndPay id =>
      match cfg_sender_origin c o with
      | Some s => from_option (escrow_of a x (s, id)) 0 (st_pays st !! (s, id))
      | None => 0
      end
  | _ => 0
  end.

Lemma escrow_insert pays k d a x :
  gsum (escrow_of a x) (<[k := d]> pays) + from_option (escrow_of a x k) 0 (pays !! k) = gsum (escrow_of a x) pays + escrow_of a x k d.
Proof. apply gsum_insert. Qed.

Lemma escrow_of_requested a x k d : d_state d = PaymentRequested -> escrow_of a x k d = 0.
Proof. intros H. unfold escrow_of, sender_escrow, beneficiary_escrow. rewrite H. cbn. cases_ind; lia. Qed.

Lemma set_state_fields d s : d_asset (set_state d s) = d_asset d /\ d_amount (set_state d s) = d_amount d /\
  d_beneficiary (set_state d s) = d_beneficiary d /\ d_incentive (set_state d s) = d_incentive d /\
  d_state (set_state d s) = s /\ d_fees (set_state d s) = d_fees d.
Proof. done. Qed.

Lemma parties_ok_insert st s id d b l ag n :
  parties_ok st -> d_beneficiary d = b ->
  parties_ok (PState l (<[(s, id) := d]> (st_pays st)) (<[id := (s, b)]> (st_parties st)) ag n).
Proof.
  intros H Hb id' s' b'. cbn [st_parties st_pays]. destruct (decide (id = id')) as [->|Hne].
  - rewrite lookup_insert. intros [= <- <-]. exists d. by rewrite lookup_insert.
  - rewrite lookup_insert_ne by done. intros Hp. destruct (H _ _ _ Hp) as (d' & Hd & Hb').
    exists d'. rewrite lookup_insert_ne by congruence. done.
Qed.

Lemma parties_ok_update st st' s id d d' :
  parties_ok st -> st_pays st !! (s, id) = Some d -> d_beneficiary d' = d_beneficiary d ->
  st_pays st' = <[(s, id) := d']> (st_pays st) -> st_parties st' = st_parties st -> parties_ok st'.
Proof.
  intros H Hd Hb Hp Hpa id' s' b'. rewrite Hpa, Hp. intros Hl. destruct (H _ _ _ Hl) as (d0 & H0 & Hb0).
  destruct (decide ((s, id) = (s', id'))) as [E|E].
  - exists d'. rewrite E, lookup_insert. split; [done|]. rewrite <-E in H0. congruence.
  - exists d0. by rewrite lookup_insert_ne.
Qed.

Lemma parties_ok_delete st s id l ag n :
  parties_ok st -> parties_ok (PState l (delete (s, id) (st_pays st)) (delete id (st_parties st)) ag n).
Proof.
  intros H id' s' b'. cbn [st_parties st_pays]. intros Hl. apply lookup_delete_Some in Hl as [Hne Hl].
  destruct (H _ _ _ Hl) as (d0 & H0 & Hb0). exists d0. rewrite lookup_delete_ne by congruence. done.
Qed.

Lemma escrow_of_created a x s id d b : d_state d = Created \/ (exists cb, d_state d = RefundRequested cb) ->
  escrow_of a x (s, id) d = at2 (d_asset d) s (total_hold d b) a x + at2 (d_asset d) (d_beneficiary d) (d_amount d) a x.
Proof.
  intros H. rewrite total_hold_eq. unfold escrow_of, sender_escrow, beneficiary_escrow, at2. cbn [fst].
  destruct H as [->|[cb ->]]; cbn [is_open]; cases_ind; lia.
Qed.

Lemma escrow_of_review a x s id d b : d_state d = NeedsReview ->
  escrow_of a x (s, id) d = at2 (d_asset d) s (total_hold d b) a x + at2 (d_asset d) (d_beneficiary d) (d_amount d) a x
    + at2 (d_asset d) (d_beneficiary d) (d_incentive d) a x.
Proof.
  intros H. rewrite total_hold_eq. unfold escrow_of, sender_escrow, beneficiary_escrow, at2. cbn [fst].
  rewrite H; cbn [is_open]; cases_ind; lia.
Qed.

Lemma escrow_of_closed a x k d : is_open (d_state d) = false -> escrow_of a x k d = 0.
Proof.
  unfold escrow_of, sender_escrow, beneficiary_escrow. destruct (d_state d); cbn [is_open]; intros; try done; cases_ind; lia.
Qed.

Lemma total_hold_set_state d s b : total_hold (set_state d s) b = total_hold d b.
Proof. done. Qed.

Lemma at2_plus a x n m a' x' : at2 a x (n + m) a' x' = at2 a x n a' x' + at2 a x m a' x'.
Proof. unfold at2. cases_ind; lia. Qed.

Ltac esc := unfold plus2, none2 in *.

(** Every call changes holds exactly as it changes the escrow of open payments, except for what accept_and_pay strands. *)
Lemma dispatch_holds c e st o call st' :
  parties_ok st -> backed st -> dispatch c e st o call = POk st' ->
  parties_ok st' /\ (forall a x, held (st_ledger st') a x <= u128_max) /\
  forall a x, held (st_ledger st') a x + escrow st a x =
              held (st_ledger st) a x + escrow st' a x + stranded_by c st o call a x.
Proof.
  intros Hpo Hb. assert (Hu : forall a x, held (st_ledger st) a x <= u128_max) by (intros; apply Hb).
  destruct call; cbn [dispatch stranded_by]; intros H.
  - apply pay_effect in H as (s & ben & id & d & Hs & Hl & Hc & Hp & Hpa & Hag & Hn & (_ & Eh & _) & Hm).
    pose proof (cr_d _ _ _ _ _ _ _ _ _ _ _ Hc) as Hd.
    split_and!; [|intros; apply Hm, Hu|].
    { destruct st'; cbn in *; subst. by apply parties_ok_insert. }
    intros a' x. specialize (Eh a' x). unfold escrow. rewrite Hp.
    pose proof (escrow_insert (st_pays st) (s, id) d a' x) as Hi.
    assert (Hold : from_option (escrow_of a' x (s, id)) 0 (st_pays st !! (s, id)) = 0).
    { destruct (st_pays st !! (s, id)) as [d0|] eqn:E; [|done]. cbn.
      apply escrow_of_requested. by eapply cr_old. }
    rewrite Hold in Hi.
    assert (He : escrow_of a' x (s, id) d = at2 a s (total_hold d false) a' x + at2 a ben amount a' x).
    { rewrite (escrow_of_created a' x s id d false) by (left; by subst d). by rewrite Hd. }
    unfold plus2, none2 in Eh. lia.
  - apply release_call_effect in H as (s & d & Hs & Hp & Hst & Hps & Hpa & Hag & Hn & (_ & Eh & _)).
    split_and!.
    + eapply parties_ok_update; [done|exact Hp| |exact Hps|done]. done.
    + intros a x. specialize (Eh a x). specialize (Hu a x). unfold none2 in Eh. lia.
    + intros a x. specialize (Eh a x). unfold escrow. rewrite Hps.
      pose proof (escrow_insert (st_pays st) (s, id) (set_state d Finished) a x) as Hi. rewrite Hp in Hi. cbn [from_option] in Hi.
      rewrite (escrow_of_created a x s id d false) in Hi by auto. rewrite (escrow_of_closed a x _ (set_state d Finished)) in Hi by done. esc. lia.
  - apply request_refund_inv in H as (s & d & Hs & Hp & Hst & Hlt & _ & Hag & _ & ->). cbn [st_ledger].
    split_and!.
    + eapply parties_ok_update; [done|exact Hp| |reflexivity|done]. done.
    + done.
    + intros a x. unfold escrow. cbn [st_pays].
      pose proof (escrow_insert (st_pays st) (s, id) (set_state d (RefundRequested (st_now st + cfg_cancel_buffer c))) a x) as Hi.
      rewrite Hp in Hi. cbn [from_option] in Hi. rewrite (escrow_of_created a x s id d false) in Hi by auto.
      rewrite (escrow_of_created a x s id (set_state _ _) false) in Hi by (right; eauto). cbn [set_state d_asset d_amount d_beneficiary] in Hi. rewrite total_hold_set_state in Hi. lia.
  - apply accept_effect in H as (s & p & ben & d & b & Hs & Hpa & Hp & Hps & Hpa' & Hag & Hn & (_ & Eh & _) & _).
    split_and!.
    + eapply parties_ok_update; [done|exact Hp| |exact Hps|done]. done.
    + intros a x. specialize (Eh a x). specialize (Hu a x). unfold none2 in Eh. lia.
    + intros a x. specialize (Eh a x). unfold escrow. rewrite Hps, Hs, Hp. cbn [from_option].
      pose proof (escrow_insert (st_pays st) (s, id) (set_state d Finished) a x) as Hi. rewrite Hp in Hi. cbn [from_option] in Hi.
      assert (He : escrow_of a x (s, id) (set_state d Finished) = 0) by (by apply escrow_of_closed).
      unfold none2 in Eh. lia.
  - apply cancel_effect in H as (s & d & ben & b & Ho & Hpa & Hp & Hst & Hps & Hpa' & Hag & Hn & (_ & Eh & _) & _).
    split_and!.
    + destruct st'; cbn in *; subst. by apply parties_ok_delete.
    + intros a x. specialize (Eh a x). specialize (Hu a x). unfold none2 in Eh. lia.
    + intros a x. specialize (Eh a x). unfold escrow. rewrite Hps.
      pose proof (gsum_delete (escrow_of a x) (s, id) d (st_pays st) Hp) as Hi.
      rewrite (escrow_of_created a x s id d false) in Hi by done. esc. lia.
  - apply dispute_effect in H as (s & ben & d & cb & due & Ho & Hpa & Hp & Hst & Hlt & Hag & Hps & Hpa' & Hag' & Hn & (_ & Eh & _) & Hm).
    destruct (Hpo _ _ _ Hpa) as (d' & Hp' & Hben). rewrite Hp in Hp'. injection Hp' as <-.
    split_and!.
    + eapply parties_ok_update; [done|exact Hp| |exact Hps|done]. done.
    + intros; apply Hm, Hu.
    + intros a x. specialize (Eh a x). unfold escrow. rewrite Hps.
      pose proof (escrow_insert (st_pays st) (s, id) (set_state d NeedsReview) a x) as Hi.
      rewrite Hp in Hi. cbn [from_option] in Hi. rewrite (escrow_of_created a x s id d false) in Hi by eauto.
      rewrite (escrow_of_review a x s id (set_state _ _) false) in Hi by done. rewrite total_hold_set_state in Hi.
      cbn [set_state d_asset d_amount d_beneficiary d_incentive] in Hi. rewrite Hben in *. esc. lia.
  - apply request_payment_inv in H as (s & ben & id & d & Hs & Hl & Hc & ->). cbn [st_ledger].
    pose proof (cr_d _ _ _ _ _ _ _ _ _ _ _ Hc) as Hd.
    split_and!; [|done|].
    { apply parties_ok_insert; [done|]. by subst d. }
    intros a' x. unfold escrow. cbn [st_pays].
    pose proof (escrow_insert (st_pays st) (s, id) d a' x) as Hi.
    assert (Hold : from_option (escrow_of a' x (s, id)) 0 (st_pays st !! (s, id)) = 0).
    { destruct (st_pays st !! (s, id)) as [d0|] eqn:E; [|done]. cbn.
      apply escrow_of_requested. by eapply cr_old. }
    rewrite (escrow_of_requested a' x (s, id) d) in Hi by (by subst d). lia.
  - apply resolve_effect in H as (rs & s & ben & d & b1 & b2 & Ho & Hpa & Hp & Hst & Hps & Hpa' & Hag & Hn & (_ & Eh & _) & _ & _ & _).
    destruct (Hpo _ _ _ Hpa) as (d' & Hp' & Hben). rewrite Hp in Hp'. injection Hp' as <-.
    split_and!.
    + eapply parties_ok_update; [done|exact Hp| |exact Hps|done]. done.
    + intros a x. specialize (Eh a x). specialize (Hu a x). unfold none2 in Eh. lia.
    + assert (Hfit : d_amount d + d_incentive d <= u128_max).
      { pose proof (gsum_ge (escrow_of (d_asset d) ben) (s, id) d (st_pays st) Hp) as Hg.
        destruct (Hb (d_asset d) ben) as [H1 H2]. unfold escrow in H1.
        rewrite (escrow_of_review _ _ s id d true Hst), Hben in Hg. unfold at2 in Hg. rewrite !N.eqb_refl in Hg. cbn [andb ind] in Hg. lia. }
      intros a x. specialize (Eh a x). unfold escrow. rewrite Hps.
      pose proof (escrow_insert (st_pays st) (s, id) (set_state d Finished) a x) as Hi. rewrite Hp in Hi. cbn [from_option] in Hi.
      assert (Hs128 : sat128 (d_amount d + d_incentive d) = d_amount d + d_incentive d) by (unfold sat128; lia).
      rewrite Hs128 in Eh. rewrite (escrow_of_review a x s id d true) in Hi by done.
      rewrite (escrow_of_closed a x _ (set_state d Finished)) in Hi by done. rewrite Hben in *. esc. rewrite at2_plus in Eh. lia.
Qed.

Lemma exec_holds c e st o call :
  inv st -> inv (exec c e st o call) /\
  forall a x, held (st_ledger (exec c e st o call)) a x + escrow st a x >= held (st_ledger st) a x + escrow (exec c e st o call) a x.
Proof.
  intros [Hp Hb]. unfold exec. destruct (dispatch c e st o call) as [st'|] eqn:E; [|split; [done|lia]].
  destruct (dispatch_holds c e st o call st' Hp Hb E) as (H1 & H2 & H3).
  split; [split; [done|]|].
  - intros a x. specialize (H2 a x). specialize (H3 a x). destruct (Hb a x). lia.
  - intros a x. specialize (H3 a x). lia.
Qed.

Lemma inv_with_agenda st ag : inv st -> inv (with_agenda st ag).
Proof. done. Qed.

Lemma run_step_inv c st s : inv st -> inv (run_step c st s).
Proof.
  intros H. destruct s; cbn [run_step].
  - by apply exec_holds.
  - destruct (st_agenda st !! id) as [[due who]|]; [|done]. destruct (due <=? st_now st); [|done].
    by apply exec_holds.
  - done.
  - done.
  - done.
Qed.

Lemma run_inv c st steps : inv st -> inv (run c st steps).
Proof. revert st. induction steps as [|s steps IH]; intros st H; [done|]. cbn. apply IH. by apply run_step_inv. Qed.

Lemma genesis_inv f now : inv (genesis f now).
Proof.
  split.
  - intros id s b H. cbn [genesis st_parties] in H. by rewrite lookup_empty in H.
  - intros a x. unfold escrow, genesis, held; cbn. rewrite gsum_empty, lookup_empty. cbn. unfold u128_max. lia.
Qed.

Lemma reachable_inv c st : reachable c st -> inv st.
Proof. intros (f & now & steps & ->). apply run_inv, genesis_inv. Qed.

Lemma reachable_step c st s : reachable c st -> reachable c (run_step c st s).
Proof.
  intros (f & now & steps & ->). exists f, now, (steps ++ [s]). unfold run. by rewrite fold_left_app.
Qed.

Lemma reachable_exec c st o call e : reachable c st -> reachable c (exec c e st o call).
Proof. intros H. exact (reachable_step c st (SCall o call e) H). Qed.

(** Stranded funds never become available again. *)
Lemma run_step_surplus c st s a x : inv st ->
  held (st_ledger st) a x + escrow (run_step c st s) a x <= held (st_ledger (run_step c st s)) a x + escrow st a x.
Proof.
  intros H. destruct s; cbn [run_step].
  - pose proof (proj2 (exec_holds c e st o call H) a x). lia.
  - destruct (st_agenda st !! id) as [[due who]|]; [|lia]. destruct (due <=? st_now st); [|lia].
    pose proof (proj2 (exec_holds c e (with_agenda st (delete id (st_agenda st))) (OSigned who) (CCancel id) H) a x) as H1.
    unfold escrow in *. cbn [with_agenda st_pays st_ledger] in H1. lia.
  - unfold escrow. cbn. lia.
  - unfold escrow. cbn. lia.
  - unfold escrow. cbn. unfold held. cbn. lia.
Qed.

Lemma run_surplus c st steps a x : inv st ->
  held (st_ledger st) a x + escrow (run c st steps) a x <= held (st_ledger (run c st steps)) a x + escrow st a x.
Proof.
  revert st. induction steps as [|s steps IH]; intros st H; [cbn; lia|].
  cbn [run fold_left]. pose proof (run_step_surplus c st s a x H) as H1.
  pose proof (IH (run_step c st s) (run_step_inv c st s H)) as H2. unfold run in H2. lia.
Qed.

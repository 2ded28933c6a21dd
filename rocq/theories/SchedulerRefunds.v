(** Refunds of payments and the scheduler. *)
From Verif Require Import BlocksModel BlocksSpec BlocksProofs SchedulerModel SchedulerSpec SchedulerProofs SchedulerRefundsSpec.
From Verif Require Import Base XcmTypes OriginTypes PaymentIdModel FeesModel LedgerModel AccountsModel PaymentsModel PaymentsSpec KreivoPaymentsModel KreivoPaymentsSpec PaymentsProofs WritesModel.
From stdpp Require Import gmap.
Open Scope N_scope.

Lemma refund_taken : forall c e st o sender id d s x,
  s_reachable s -> sd_now s = st_now st ->
  cfg_sender_origin c o = Some sender -> st_pays st !! (sender, id) = Some d -> d_state d = Created ->
  0 < cfg_cancel_buffer c -> st_now st + cfg_cancel_buffer c <= 2 ^ 32 - 1 ->
  st_agenda st !! id = None -> (forall w i t, stands s w i t -> sk_name t <> Some (0, id)) ->
  (waiting anything (st_now st + cfg_cancel_buffer c) s < 50)%nat ->
  env_sched_ok e = (if schedule s (st_now st + cfg_cancel_buffer c) (STask (Some (0, id)) 63 x) then true else false) ->
  exists st', request_refund c e st o id = POk st'.
Proof.
  intros c e st o sender id d s x R Hn Ho Hp Hd Hb Hu Ha Hs Hw He.
  destruct (accepted s (st_now st + cfg_cancel_buffer c) (STask (Some (0, id)) 63 x) R) as (s' & Es & _); [lia|exact Hw| |].
  { intros w i t Ht Hk. destruct (Hs w i t Ht Hk). }
  rewrite Es in He. unfold request_refund. rewrite Ho. cbn [ok_or pbind]. rewrite Hp. cbn [ok_or pbind]. rewrite Hd.
  change (2 ^ 32 - 1) with u32_max in Hu. rewrite (proj2 (N.leb_le _ _) Hu), He, Ha, (proj2 (N.ltb_lt _ _)) by lia. cbn. eexists. reflexivity.
Qed.

Lemma refund_refused : forall c e st o id s x,
  s_reachable s -> waiting anything (st_now st + cfg_cancel_buffer c) s = 50%nat ->
  env_sched_ok e = (if schedule s (st_now st + cfg_cancel_buffer c) (STask (Some (0, id)) 63 x) then true else false) ->
  forall st', request_refund c e st o id <> POk st'.
Proof.
  intros c e st o id s x R Hw He st' H. rewrite (refused s _ _ R (or_intror Hw)) in He.
  destruct (request_refund_inv _ _ _ _ _ _ H) as (? & ? & _ & _ & _ & _ & _ & _ & E & _). congruence.
Qed.

Lemma crowd_reachable now w : s_reachable (crowd now w).
Proof. eexists _, _. reflexivity. Qed.

Lemma refunds_grow l b : Forall asks l -> refunds_in b l * 159279 + w_proof (b_normal b) <= w_proof (b_normal (brun b (map fst l))).
Proof.
  intros H. revert b. induction H as [|[x r] l Hx Hl IH]; intros b; [cbn; lia|]. cbn [refunds_in map fst brun fold_left]. specialize (IH (do_bstep b x)).
  change (fold_left do_bstep (map fst l) (do_bstep b x)) with (brun (do_bstep b x) (map fst l)).
  enough (match x with BTx c w len _ => match check_weight b c w len with Some _ => r | None => 0 end | BHook _ => 0 end * 159279 + w_proof (b_normal b) <= w_proof (b_normal (do_bstep b x))) by lia.
  clear IH. destruct x as [w|c w len used]; cbn [do_bstep]; [cbn; lia|]. destruct (check_weight b c w len) as [b'|] eqn:E; [|lia].
  assert (Eb : b' = change (fun y => wadd y (wadd w base_extrinsic)) c (set_length (b_length b + len) b)).
  { unfold check_weight in E. destruct (_ <? _); [discriminate E|]. unfold consume in E. destruct (beyond _ _); [discriminate E|]. destruct (_ && _); [discriminate E|]. destruct (_ && _); [|discriminate E]. injection E as <-. reflexivity. }
  rewrite Eb. unfold give_back, change, set_length. cbn [asks] in Hx. change (snd (benched_weight (pcall_benched (CRequestRefund 0)))) with 159279 in Hx.
  destruct c; cbn [b_normal b_operational b_mandatory w_proof wadd wsub wmin]; destruct Hx as [->|(? & Hx & Hu)]; try discriminate; lia.
Qed.

Lemma refunds_few : forall l, Forall asks l -> refunds_in empty_block l <= 24.
Proof.
  intros l H. pose proof (refunds_grow l empty_block H) as G. destruct (classes_fit (map fst l)) as ([_ C] & _).
  rewrite normal_share_v in C. cbn [w_proof empty_block b_normal] in *. lia.
Qed.

(** Fewer than fifty are waiting if fewer than fifty were scheduled. *)
Lemma few_placed : forall s w, s_reachable s -> (placed anything w s < 50)%nat -> (waiting anything w s < 50)%nat.
Proof. intros s w R H. pose proof (never_twice s w anything R). lia. Qed.

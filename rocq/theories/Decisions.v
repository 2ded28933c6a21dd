(** Approved decisions and the scheduler. *)
From Verif Require Import BlocksModel BlocksSpec SchedulerModel SchedulerSpec SchedulerProofs.
From stdpp Require Import gmap.
From Verif Require Import Base XcmTypes OriginTypes CommunitiesModel TracksModel ManagerModel GovernanceModel GovernanceSpec GovernanceProofs GovernanceMore DecisionsSpec.
Open Scope N_scope.

Lemma decision_block_is now ti m : enact_at now ti m = decision_block now (ti_enactment ti) m.
Proof.
  unfold enact_at, decision_block. cbv zeta. destruct m as [n|n]; [destruct (N.ltb_spec n (now + N.max (ti_enactment ti) 1))|destruct (N.ltb_spec (now + n) (now + N.max (ti_enactment ti) 1))]; lia.
Qed.
Lemma decision_block_later now en m : now < decision_block now en m.
Proof.
  unfold decision_block. cbv zeta. destruct m as [n|n]; [destruct (N.ltb_spec n (now + N.max en 1))|destruct (N.ltb_spec (now + n) (now + N.max en 1))]; lia.
Qed.

(** What the approval of a referendum does. *)
Lemma approval_effect s e i p r ti : gets_approved s e i p r -> track_info_of s i (rf_track r) = Some ti ->
  ended (g_service e s i p) i p (RApproved (gv_now s)) /\
  gv_agenda (g_service e s i p) = gv_agenda s ++ (if ge_sched_ok e then [Task (decision_block (gv_now s) (ti_enactment ti) (rf_enact r)) (rf_origin r) (rf_call r) (Some (i, p))] else []).
Proof.
  intros [Ho [n Hn]] Hti. cbn [gstep_run] in Hn. unfold is_open in Ho. unfold g_service in *. rewrite Ho in *.
  destruct (gtally s i p) as [t|]; [|congruence]. rewrite Hti in *. cbv zeta in *.
  set (x := service e (gv_now s) (undeciding_timeout i) ti (approval t) (gsupport e s i (rf_track r) t) r) in *.
  assert (Ex : x = RApproved (gv_now s)).
  { destruct (put_status_fields s i p x) as (F & _).
    assert (Hx : x = RApproved n).
    { destruct x; try (rewrite F, lookup_insert in Hn; congruence). destruct (ge_sched_ok e); unfold gset_agenda in Hn; cbn [gv_refs] in Hn; rewrite F, lookup_insert in Hn; congruence. }
    subst x. destruct (service_cases e (gv_now s) (undeciding_timeout i) ti (approval t) (gsupport e s i (rf_track r) t) r)
      as [(since & until & _ & _ & _ & E)|[E|[E|(d & q & E & _)]]]; congruence. }
  rewrite Ex. destruct (put_status_fields s i p (RApproved (gv_now s))) as (F & _ & _ & _ & A & _). rewrite <- decision_block_is.
  destruct (ge_sched_ok e).
  - split; [split; [|done]|cbn; by rewrite A]. change (gv_refs (put_status s i p (RApproved (gv_now s))) !! (i, p) = Some (RApproved (gv_now s))). by rewrite F, lookup_insert.
  - split; [split; [|done]|by rewrite A, app_nil_r]. by rewrite F, lookup_insert.
Qed.

(** Before its approval nothing of a referendum is scheduled. *)
Lemma open_unscheduled s i p r : ginv s -> is_open s i p r -> forall t, In t (gv_agenda s) -> tk_source t <> Some (i, p).
Proof.
  intros I Ho t Hin Hs. pose proof (gi_tasks _ I t Hin) as Ht. rewrite Hs in Ht. destruct Ht as [[m Hm] _]. unfold is_open in Ho. rewrite Ho in Hm. discriminate Hm.
Qed.

Lemma approved_lost : forall ranks now l e i p r ti, let s := grun (g_start ranks now) l in
  gets_approved s e i p r -> track_info_of s i (rf_track r) = Some ti -> ge_sched_ok e = false ->
  forall l', ended (grun s (GService e i p :: l')) i p (RApproved (gv_now s)) /\ ~ gets_carried_out s (GService e i p :: l') i p.
Proof.
  intros ranks now l e i p r ti s Ha Hti He l'. pose proof (ginv_run _ l (ginv_start ranks now)) as I. fold s in I.
  destruct (approval_effect s e i p r ti Ha Hti) as [En Eg]. rewrite He, app_nil_r in Eg.
  assert (I1 : ginv (gstep_run s (GService e i p))) by (by apply ginv_step).
  assert (Sp : spent (gstep_run s (GService e i p)) i p).
  { split; [by eexists|]. cbn [gstep_run]. rewrite Eg. destruct Ha as [Ho _]. by apply (open_unscheduled s i p r). }
  split.
  - change (ended (grun (gstep_run s (GService e i p)) l') i p (RApproved (gv_now s))). clear Sp. revert I1 En. cbn [gstep_run]. generalize (g_service e s i p). intros s1.
    revert s1. induction l' as [|y l' IH]; intros s1 I1 En; [done|]. cbn [grun fold_left]. apply IH; [by apply ginv_step|by apply ended_step].
  - intros (l1 & x & l2 & El & e' & n & t & -> & Hn & _ & Hs). destruct l1 as [|y l1]; [discriminate El|]. injection El as <- _.
    change (grun s (GService e i p :: l1)) with (grun (gstep_run s (GService e i p)) l1) in Hn.
    destruct (spent_run _ l1 i p I1 Sp) as [_ Ht]. apply (Ht t); [|done]. apply elem_of_list_In. by eapply elem_of_list_lookup_2.
Qed.

(** A task stays unless it is carried out or given up. *)
Lemma in_delete {A} (l : list A) n x : In x l -> In x (delete n l) \/ l !! n = Some x.
Proof.
  revert n. induction l as [|y l IH]; intros [|n]; cbn; [tauto|tauto| |].
  - intros [->|H]; auto.
  - intros [->|H]; auto. destruct (IH n H); auto.
Qed.
Lemma task_stays s x t : In t (gv_agenda s) -> In t (gv_agenda (gstep_run s x)) \/
  (exists e n, x = GFire e n /\ gv_agenda s !! n = Some t /\ tk_due t <= gv_now s) \/ (exists n, x = GGiveUp n /\ gv_agenda s !! n = Some t).
Proof.
  intros Hin. apply (step_induct (fun s' => In t (gv_agenda s') \/ (exists e n, x = GFire e n /\ gv_agenda s !! n = Some t /\ tk_due t <= gv_now s) \/ (exists n, x = GGiveUp n /\ gv_agenda s !! n = Some t))).
  - by left.
  - intros s1 o1 k1 e s2 _ Hl [H1|H1] Hc; [|by right]. apply leaf_kind_of in Hc; [|done]. left.
    destruct (leaf_agenda _ _ _ _ _ Hc) as [->|(n & k' & _ & _ & _ & ->)]; [done|]. apply in_or_app. by left.
  - intros e n t' -> Hn Hd. destruct (in_delete (gv_agenda s) n t Hin) as [H|H]; [by left|]. right. left. rewrite Hn in H. injection H as ->. eauto.
  - intros n ->. destruct (in_delete (gv_agenda s) n t Hin) as [H|H]; [by left|]. right. right. eauto.
  - intros e i p _. left. destruct (service_effect e s i p) as [->|(r & t0 & ti & y & _ & _ & _ & _ & _ & [->|[_ ->]])]; [done| |].
    + destruct (put_status_fields s i p y) as (_ & _ & _ & _ & -> & _). done.
    + cbn. apply in_or_app. by left.
  - intros e i p _. left. destruct (next_effect e s i p) as [->|(r & t0 & ti & _ & _ & _ & _ & _ & ->)]; [done|].
    destruct (put_status_fields s i p (ROngoing (begin_deciding (gv_now s) ti (approval t0) (gsupport e s i (rf_track r) t0) r))) as (_ & _ & _ & _ & -> & _). done.
  - intros _. by left.
  - intros y _ _. by left.
Qed.
Lemma task_until l s i p r w : decision_waits s i p r w -> decision_waits (grun s l) i p r w \/ gets_carried_out s l i p \/ given_up s l i p.
Proof.
  revert s. induction l as [|x l IH]; intros s H; [by left|].
  destruct (task_stays s x _ H) as [H1|[(e & n & -> & Hn & Hd)|(n & -> & Hn)]].
  - destruct (IH _ H1) as [?|[(l1 & y & l2 & -> & Hc)|(l1 & n & l2 & t & -> & Hn & Hs)]]; [by left| |].
    + right. left. exists (x :: l1), y, l2. done.
    + right. right. exists (x :: l1), n, l2, t. done.
  - right. left. exists [], (GFire e n), l. split; [done|]. eexists _, _, _. split_and!; [done..|exact Hn|exact Hd|done].
  - right. right. exists [], n, l. eexists. split_and!; [done|exact Hn|done].
Qed.

Lemma approved_waits : forall ranks now l e i p r ti sd what, let s := grun (g_start ranks now) l in
  gets_approved s e i p r -> track_info_of s i (rf_track r) = Some ti ->
  s_reachable sd -> sd_now sd = gv_now s -> let w := decision_block (gv_now s) (ti_enactment ti) (rf_enact r) in
  (waiting anything w sd < 50)%nat -> (forall w' k t, stands sd w' k t -> sk_name t <> sk_name (decision_task p what)) ->
  ge_sched_ok e = taken sd s (ti_enactment ti) r p what ->
  forall l', decision_waits (grun s (GService e i p :: l')) i p r w \/ gets_carried_out s (GService e i p :: l') i p \/ given_up s (GService e i p :: l') i p.
Proof.
  intros ranks now l e i p r ti sd what s Ha Hti R Hnow w Hw Hs He l'.
  destruct (accepted sd w (decision_task p what) R) as (sd' & Es & _); [rewrite Hnow; apply decision_block_later|exact Hw| |].
  { intros w' k t Ht Hk. destruct (Hs w' k t Ht Hk). }
  unfold taken in He. fold w in He. rewrite Es in He.
  destruct (approval_effect s e i p r ti Ha Hti) as [_ Eg]. rewrite He in Eg.
  assert (H : decision_waits (gstep_run s (GService e i p)) i p r w).
  { unfold decision_waits. cbn [gstep_run]. rewrite Eg. apply in_or_app. right. by left. }
  destruct (task_until l' _ _ _ _ _ H) as [?|[(l1 & y & l2 & -> & Hc)|(l1 & n & l2 & t & -> & Hn & Hs')]]; [by left| |].
  - right. left. exists (GService e i p :: l1), y, l2. done.
  - right. right. exists (GService e i p :: l1), n, l2, t. done.
Qed.

Lemma waits_due : forall s i p r w, decision_waits s i p r w -> w <= gv_now s ->
  exists n, forall e, carries_out s (GFire e n) i p /\ step_dispatch s (GFire e n) = Some (rf_origin r, rf_call r).
Proof.
  intros s i p r w H Hw. unfold decision_waits in H. apply elem_of_list_In, elem_of_list_lookup in H as [n Hn]. exists n. intros e. split.
  - exists e, n. eexists. split_and!; [done|exact Hn|exact Hw|done].
  - cbn [step_dispatch]. rewrite Hn. cbn. by rewrite (proj2 (N.leb_le _ _) Hw).
Qed.

(** The scheduler refuses a decision if fifty tasks wait for the block. *)
Lemma crowd_refused sd s en r p what : s_reachable sd -> waiting anything (decision_block (gv_now s) en (rf_enact r)) sd = 50%nat -> taken sd s en r p what = false.
Proof. intros R H. unfold taken. by rewrite (refused sd _ _ R (or_intror H)). Qed.

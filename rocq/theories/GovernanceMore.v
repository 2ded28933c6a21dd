(** Kreivo's governance: where tasks, origins and ranks come from, and how referenda end. *)
From stdpp Require Import gmap.
From Verif Require Import Base XcmTypes OriginTypes AccountsModel CommunitiesModel CommunitiesSpec CommunitiesProofs CommunitiesTally CommunitiesRegistry TracksModel TracksSpec
  TracksProofs ManagerModel ManagerSpec ManagerProofs XcmConfigModel GovernanceModel GovernanceSpec GovernanceProofs.
Open Scope N_scope.

Local Opaque community_account treasury_account community_deposit kreivo_tracks.

Ltac leaf_cases H :=
  destruct H as [i po k' w t E0 H1 H2 H3|i p r t ti E0 Ho Hr Hd Ht Hti E|i p r E0 Ho Hr E|i p r E0 Ho Hr E|p aye who rank r t E0 E1 Hk Hk1 Hr Ht E
    |who r E0 Eo Hk Hle E|who r E0 Eo Hk E|who r m E0 Eo Hk Hle E|who r w E0 Eo Hk Hw E|m' E0 E Hm Hj|n k' E0 Eo Hn E|n E0 E].

(* ------------------------------------------------------------------ *)
(** * Dispatching *)

Lemma executes_leads e s o k s' o' k' : executes e s o k s' o' k' -> leads o k o' k'.
Proof. induction 1; eauto using leads. Qed.
Lemma leads_trans o k o1 k1 o2 k2 : leads o k o1 k1 -> leads o1 k1 o2 k2 -> leads o k o2 k2.
Proof. induction 1; eauto using leads. Qed.
Lemma leads_not_root o k o' k' : leads o k o' k' -> o <> ORoot -> o' = o \/ signed o'.
Proof.
  induction 1; intros Ho; try done; auto.
  destruct IHleads as [->|?]; [done|right; by eexists|by right].
Qed.
Lemma leads_to_root o k o' k' : leads o k o' k' -> privileged o' -> o = o' \/ o = ORoot.
Proof.
  intros H Hp. destruct (decide (o = ORoot)) as [->|Hn]; [by right|]. left.
  destruct (leads_not_root _ _ _ _ H Hn) as [->|[a ->]]; [done|]. destruct Hp as [?|[? ?]]; discriminate.
Qed.
Lemma leads_unprivileged o k o' k' : leads o k o' k' -> ~ privileged o -> ~ privileged o'.
Proof. intros H Hn Hp. destruct (leads_to_root _ _ _ _ H Hp) as [->| ->]; [done|]. apply Hn. by left. Qed.
Lemma signed_unprivileged a : ~ privileged (OSigned a).
Proof. intros [?|[? ?]]; discriminate. Qed.
Lemma remote_unprivileged r : ~ privileged (runtime_origin r).
Proof. destruct r; intros [?|[? ?]]; discriminate. Qed.
Lemma remote_not_community r g sub : runtime_origin r <> OCommunity g sub.
Proof. by destruct r. Qed.

(** The call dispatched at the top of a step. *)
Lemma happens_top s x s' o' k' : happens s x s' o' k' -> exists o k, step_dispatch s x = Some (o, k) /\ leads o k o' k'.
Proof.
  intros H. destruct H as [e who k s' o' k' H|e l kind r k s' o' k' Hr H|e n t s' o' k' Hn Hd H]; cbn.
  - eauto using executes_leads.
  - rewrite Hr. eauto using executes_leads.
  - rewrite Hn. apply N.leb_le in Hd. rewrite Hd. eauto using executes_leads.
Qed.
(** Privileged calls come from the agenda. *)
Lemma happens_source s x s' o' k' : happens s x s' o' k' -> ~ (exists a, o' = OSigned a) -> (forall r, o' <> runtime_origin r) ->
  exists e n t, x = GFire e n /\ gv_agenda s !! n = Some t /\ tk_due t <= gv_now s /\ leads (tk_origin t) (tk_call t) o' k'.
Proof.
  intros H Hs Hr. destruct H as [e who k s' o' k' H|e l kind r k s' o' k' Hk H|e n t s' o' k' Hn Hd H].
  - exfalso. apply Hs. apply executes_leads in H. destruct (leads_not_root _ _ _ _ H) as [->|?]; [done|by eexists|done].
  - exfalso. apply executes_leads in H. destruct (leads_not_root _ _ _ _ H) as [->|?]; [by destruct r|by eapply Hr|done].
  - eauto 10 using executes_leads.
Qed.

(* ------------------------------------------------------------------ *)
(** * How referenda change *)

Inductive ref_move (s s' : gstate) (j : inst) (q : N) : Prop :=
| RMSame : gv_refs s' !! (j, q) = gv_refs s !! (j, q) -> ref_move s s' j q
| RMMove r x : is_open s j q r -> gv_refs s' !! (j, q) = Some x -> (forall r', x = ROngoing r' -> same_proposal r r') -> ref_move s s' j q.

Lemma put_move s i p r x j q : is_open s i p r -> (forall r', x = ROngoing r' -> same_proposal r r') -> ref_move s (put_status s i p x) j q.
Proof.
  intros Hr Hx. destruct (put_status_fields s i p x) as (E1 & _). destruct (decide ((j, q) = (i, p))) as [[= -> ->]|Hn].
  - eapply RMMove; [done| |done]. by rewrite E1, lookup_insert.
  - apply RMSame. by rewrite E1, lookup_insert_ne.
Qed.

Lemma service_keeps e now timeout ti app sup r r' : service e now timeout ti app sup r = ROngoing r' -> same_proposal r r' /\ rf_deposit r' = rf_deposit r.
Proof.
  intros H. destruct (service_cases e now timeout ti app sup r) as [(since & until & _ & _ & _ & E)|[E|[E|(d & q & E & _)]]];
    rewrite E in H; try discriminate. by injection H as <-.
Qed.

(** What a service does to the referendum and the agenda. *)
Lemma service_effect e s i p : g_service e s i p = s \/ exists r t ti x, is_open s i p r /\ gtally s i p = Some t /\ track_info_of s i (rf_track r) = Some ti /\
  x = service e (gv_now s) (undeciding_timeout i) ti (approval t) (gsupport e s i (rf_track r) t) r /\
  (forall r', x = ROngoing r' -> same_proposal r r') /\
  (g_service e s i p = put_status s i p x \/
   (x = RApproved (gv_now s) /\ g_service e s i p = gset_agenda (gv_agenda s ++ [Task (enact_at (gv_now s) ti (rf_enact r)) (rf_origin r) (rf_call r) (Some (i, p))])
      (put_status s i p x))).
Proof.
  unfold g_service. destruct (gv_refs s !! (i, p)) as [[r| | | | |]|] eqn:Hr; try by left.
  destruct (gtally s i p) as [t|] eqn:Ht; [|by left]. destruct (track_info_of s i (rf_track r)) as [ti|] eqn:Hti; [|by left]. right.
  exists r, t, ti, (service e (gv_now s) (undeciding_timeout i) ti (approval t) (gsupport e s i (rf_track r) t) r). split_and!; try done.
  { intros r' H. by apply service_keeps in H as [? _]. }
  destruct (service_cases e (gv_now s) (undeciding_timeout i) ti (approval t) (gsupport e s i (rf_track r) t) r)
    as [(since & until & _ & _ & _ & E)|[E|[E|(d & q & E & _)]]]; rewrite E; try by left.
  destruct (ge_sched_ok e); [right|by left]. split; [done|]. by destruct (put_status_fields s i p (RApproved (gv_now s))) as (_ & _ & _ & _ & -> & _).
Qed.
Lemma service_refs e s i p j q : ref_move s (g_service e s i p) j q.
Proof.
  destruct (service_effect e s i p) as [->|(r & t & ti & x & Hr & _ & _ & _ & Hx & [->|[_ ->]])]; [by apply RMSame|by eapply put_move|].
  pose proof (put_move s i p r x j q Hr Hx) as [E|r0 x0 H1 H2 H3]; [by apply RMSame|by eapply RMMove].
Qed.
Lemma next_effect e s i p : g_next e s i p = s \/ exists r t ti, is_open s i p r /\ gtally s i p = Some t /\ track_info_of s i (rf_track r) = Some ti /\
  rf_queued r = true /\ rf_deciding r = None /\
  g_next e s i p = put_status s i p (ROngoing (begin_deciding (gv_now s) ti (approval t) (gsupport e s i (rf_track r) t) r)).
Proof.
  unfold g_next. destruct (gv_refs s !! (i, p)) as [[r| | | | |]|] eqn:Hr; try by left.
  destruct (gtally s i p) as [t|] eqn:Ht; [|by left]. destruct (track_info_of s i (rf_track r)) as [ti|] eqn:Hti; [|by left].
  destruct (rf_queued r) eqn:Hq; [|by left]. destruct (rf_deciding r) eqn:Hd; [by left|]. right. cbn. exists r, t, ti. by split_and!.
Qed.
Lemma next_refs e s i p j q : ref_move s (g_next e s i p) j q.
Proof.
  destruct (next_effect e s i p) as [->|(r & t & ti & Hr & _ & _ & _ & _ & ->)]; [by apply RMSame|]. eapply put_move; [done|]. by intros r' [= <-].
Qed.

Lemma leaf_refs e s o k s' : leaf_kind e s o k s' -> forall j q, ref_move s s' j q \/
  (exists po k' w t, k = GSubmit j po k' w /\ q = gv_count s j /\ submit_origin s j o po <> None /\ track_for s j po = Some t /\
    gv_refs s' !! (j, q) = Some (ROngoing (Referendum t po k' w (gv_now s) false None false))).
Proof.
  intros H j q. leaf_cases H; try (left; rewrite E; by apply RMSame).
  - destruct (submit_fields _ _ _ _ _ _ _ _ H3) as (t' & Ht' & F1 & _). rewrite H2 in Ht'. injection Ht' as <-.
    destruct (decide ((j, q) = (i, gv_count s i))) as [[= -> ->]|Hn].
    + right. rewrite F1, lookup_insert. eauto 10.
    + left. apply RMSame. by rewrite F1, lookup_insert_ne.
  - left. rewrite E. eapply put_move; [done|]. intros r' H. apply service_keeps in H as [? _]. done.
  - left. rewrite E. by eapply put_move.
  - left. rewrite E. by eapply put_move.
Qed.

(** The agenda: tasks are added by approval and by root's own scheduling. *)
Lemma leaf_agenda e s o k s' : leaf_kind e s o k s' -> gv_agenda s' = gv_agenda s \/
  exists n k', k = GSchedule n k' /\ o = ORoot /\ gv_now s < n /\ gv_agenda s' = gv_agenda s ++ [Task n ORoot k' None].
Proof.
  intros H. leaf_cases H; try (left; rewrite E; done).
  - left. by destruct (submit_fields _ _ _ _ _ _ _ _ H3) as (t' & _ & _ & _ & _ & _ & _ & _ & -> & _).
  - left. rewrite E. by destruct (put_status_fields s i p (service e (gv_now s) (undeciding_timeout i) ti (approval t) (gsupport e s i (rf_track r) t) (rset_deposit r))) as (_ & _ & _ & _ & -> & _).
  - left. rewrite E. by destruct (put_status_fields s i p (RCancelled (gv_now s))) as (_ & _ & _ & _ & -> & _).
  - left. rewrite E. by destruct (put_status_fields s i p (RKilled (gv_now s))) as (_ & _ & _ & _ & -> & _).
  - right. rewrite E. eauto 10.
Qed.

Lemma leaf_now e s o k s' : leaf_kind e s o k s' -> gv_now s' = gv_now s.
Proof.
  intros H. leaf_cases H; try (rewrite E; done).
  - by destruct (submit_fields _ _ _ _ _ _ _ _ H3) as (t' & _ & _ & _ & _ & _ & _ & _ & _ & -> & _).
  - rewrite E. by destruct (put_status_fields s i p (service e (gv_now s) (undeciding_timeout i) ti (approval t) (gsupport e s i (rf_track r) t) (rset_deposit r))) as (_ & _ & _ & _ & _ & -> & _).
  - rewrite E. by destruct (put_status_fields s i p (RCancelled (gv_now s))) as (_ & _ & _ & _ & _ & -> & _).
  - rewrite E. by destruct (put_status_fields s i p (RKilled (gv_now s))) as (_ & _ & _ & _ & _ & -> & _).
Qed.

(* ------------------------------------------------------------------ *)
(** * Ended referenda stay ended *)

Lemma ref_move_ended s s' j q x : ref_move s s' j q -> ended s j q x -> ended s' j q x.
Proof.
  intros [E|r y Hr _ _] [H1 H2]; [split; congruence|]. unfold is_open in Hr. rewrite H1 in Hr. injection Hr as ->. by exfalso; eapply H2.
Qed.
Lemma ended_step s x j q y : ginv s -> ended s j q y -> ended (gstep_run s x) j q y.
Proof.
  intros I He. cut (ginv (gstep_run s x) /\ ended (gstep_run s x) j q y); [tauto|].
  apply (step_induct (fun s' => ginv s' /\ ended s' j q y)); try done.
  - intros s1 o1 k1 e s2 _ Hl [I1 H1] Hc. apply leaf_kind_of in Hc; [|done]. split; [by eapply ginv_leaf|].
    destruct (leaf_refs _ _ _ _ _ Hc j q) as [Hm|(po & k' & w & t & _ & -> & _)]; [by eapply ref_move_ended|].
    destruct H1 as [H1 _]. apply (gi_index _ I1) in H1. lia.
  - intros. split; [by apply ginv_take|done].
  - intros. split; [by apply ginv_take|done].
  - intros. split; [by apply ginv_service|]. eapply ref_move_ended; [apply service_refs|done].
  - intros. split; [by apply ginv_next|]. eapply ref_move_ended; [apply next_refs|done].
  - intros. split; [by apply ginv_now|done].
  - intros z _ Hz. split; [|done]. unfold gset_c. apply ginv_m; [|done]. by apply outside_m_change.
Qed.
Lemma ended_run s l j q y : ginv s -> ended s j q y -> ended (grun s l) j q y.
Proof. revert s. induction l as [|x l IH]; intros s I H; [done|]. cbn. apply IH; [by apply ginv_step|by apply ended_step]. Qed.

(* ------------------------------------------------------------------ *)
(** * Where tasks come from *)

Definition approves (s : gstate) (x : gstep) (i : inst) (p : N) (r : referendum) : Prop :=
  exists e, x = GService e i p /\ approved_at s e i p r /\ gv_refs (gstep_run s x) !! (i, p) = Some (RApproved (gv_now s)).

Lemma passing_approved ti n app sup : is_passing ti n app sup = true -> approved ti (period_part ti n) app sup.
Proof. unfold is_passing, approved, period_part. intros [H1 H2]%andb_true_iff. done. Qed.

Lemma service_approves e s i p r t ti :
  is_open s i p r -> gtally s i p = Some t -> track_info_of s i (rf_track r) = Some ti ->
  service e (gv_now s) (undeciding_timeout i) ti (approval t) (gsupport e s i (rf_track r) t) r = RApproved (gv_now s) ->
  approved_at s e i p r.
Proof.
  intros Hr Ht Hti Hx. split; [done|].
  destruct (service_cases e (gv_now s) (undeciding_timeout i) ti (approval t) (gsupport e s i (rf_track r) t) r)
    as [(since & until & Hd & Hu & Hp & _)|[E|[E|(d & q & E & _)]]]; [|congruence..].
  exists since, until. split_and!; [done..|]. exists t, ti. split_and!; [done..|]. by apply passing_approved.
Qed.

Lemma gets_approved_at s e i p r : gets_approved s e i p r -> approved_at s e i p r.
Proof.
  intros [Ho [n Hn]]. cbn [gstep_run] in Hn. unfold is_open in Ho.
  destruct (service_effect e s i p) as [E|(r1 & t0 & ti & y & Hr & Ht & Hti & Hy & Hk & Hs)].
  { rewrite E, Ho in Hn. discriminate. }
  unfold is_open in Hr. rewrite Ho in Hr. injection Hr as <-.
  assert (Ey : y = RApproved n).
  { destruct (put_status_fields s i p y) as (F1 & _). destruct Hs as [E|[_ E]]; rewrite E in Hn; cbn in Hn; rewrite F1, lookup_insert in Hn; by injection Hn. }
  assert (En : n = gv_now s).
  { destruct (service_cases e (gv_now s) (undeciding_timeout i) ti (approval t0) (gsupport e s i (rf_track r) t0) r)
      as [(since & until & _ & _ & _ & E)|[E|[E|(d & q & E & _)]]]; rewrite <- Hy, Ey in E; congruence. }
  eapply service_approves; [done..|]. by rewrite <- Hy, Ey, En.
Qed.

Definition new_task (s : gstate) (x : gstep) (t : task) : Prop :=
  (exists s1 n k', happens s x s1 ORoot (GSchedule n k') /\ gv_now s < n /\ t = Task n ORoot k' None) \/
  (exists i p r ti, approves s x i p r /\ track_info_of s i (rf_track r) = Some ti /\
    t = Task (enact_at (gv_now s) ti (rf_enact r)) (rf_origin r) (rf_call r) (Some (i, p))).
Lemma step_tasks s x t : In t (gv_agenda (gstep_run s x)) -> In t (gv_agenda s) \/ new_task s x t.
Proof.
  cut ((x <> GBlock -> gv_now (gstep_run s x) = gv_now s) /\ forall t, In t (gv_agenda (gstep_run s x)) -> In t (gv_agenda s) \/ new_task s x t).
  { intros [_ H]. apply H. }
  apply (step_induct (fun s' => (x <> GBlock -> gv_now s' = gv_now s) /\ forall t, In t (gv_agenda s') -> In t (gv_agenda s) \/ new_task s x t)).
  - split; [done|]. by left.
  - intros s1 o1 k1 e s2 Hh Hl [Hn IH] Hc. apply leaf_kind_of in Hc; [|done]. pose proof (leaf_now _ _ _ _ _ Hc) as En.
    assert (Hx : x <> GBlock) by (intros ->; inversion Hh). specialize (Hn Hx). split; [by intros _; rewrite En|].
    destruct (leaf_agenda _ _ _ _ _ Hc) as [E|(n & k' & -> & -> & Hlt & E)]; rewrite E; [done|].
    intros t' [Ht|[<-|[]]]%in_app_or; [by apply IH|]. right. left. rewrite Hn in Hlt. eauto 10.
  - intros e n t' _ _ _. split; [done|]. cbn. intros t2 H2. left. eapply in_sublist; [apply delete_sublist|done].
  - intros n _. split; [done|]. cbn. intros t2 H2. left. eapply in_sublist; [apply delete_sublist|done].
  - intros e i p Hx. destruct (service_effect e s i p) as [E|(r & t0 & ti & y & Hr & Ht & Hti & Hy & Hk & [E|[Ey E]])].
    + rewrite E. split; [done|by left].
    + rewrite E. destruct (put_status_fields s i p y) as (_ & _ & _ & _ & -> & -> & _). split; [done|by left].
    + rewrite E. destruct (put_status_fields s i p y) as (F1 & _ & _ & _ & _ & F6 & _). cbn. rewrite F6. split; [done|].
      intros t2 [H2|[<-|[]]]%in_app_or; [by left|]. right. right. exists i, p, r, ti. split_and!; [|done..].
      exists e. split_and!; [done| |].
      * eapply service_approves; [done..|]. by rewrite <- Hy.
      * rewrite Hx. cbn [gstep_run]. rewrite E. cbn. by rewrite F1, lookup_insert, Ey.
  - intros e i p _. destruct (next_effect e s i p) as [->|(r & t0 & ti & _ & _ & _ & _ & _ & ->)]; [split; [done|by left]|].
    destruct (put_status_fields s i p (ROngoing (begin_deciding (gv_now s) ti (approval t0) (gsupport e s i (rf_track r) t0) r))) as (_ & _ & _ & _ & -> & -> & _). split; [done|by left].
  - intros ->. split; [done|by left].
  - intros y _ _. split; [done|by left].
Qed.

Lemma approves_was s0 l x i p r : approves (grun s0 l) x i p r -> was_approved s0 (l ++ [x]) i p r.
Proof. intros (e & -> & Ha & Hr). exists l, e, []. split_and!; [done..|]. by rewrite grun_snoc. Qed.
Lemma was_approved_more s0 l l' i p r : was_approved s0 l i p r -> was_approved s0 (l ++ l') i p r.
Proof. intros (l1 & e & l2 & -> & Ha & Hr). exists l1, e, (l2 ++ l'). split_and!; [by rewrite <- app_assoc|done..]. Qed.

(** Every task is what a decision was about, or was scheduled by root in carrying out a decision. *)
Definition task_decided (s0 : gstate) (l : list gstep) (t : task) : Prop :=
  match tk_source t with
  | Some (i, p) => exists r, was_approved s0 l i p r /\ tk_origin t = rf_origin r /\ tk_call t = rf_call r
  | None => exists p r, was_approved s0 l Collective p r /\ tk_origin t = ORoot /\ rf_origin r = ORoot /\ leads ORoot (rf_call r) ORoot (tk_call t)
  end.
Lemma task_decided_more s0 l l' t : task_decided s0 l t -> task_decided s0 (l ++ l') t.
Proof.
  unfold task_decided. destruct (tk_source t) as [[i p]|].
  - intros (r & H & ?). exists r. split; [by apply was_approved_more|done].
  - intros (p & r & H & ?). exists p, r. split; [by apply was_approved_more|done].
Qed.

(** The decision behind a task with this origin. *)
Lemma task_root s0 l t o k : ginv (grun s0 l) -> task_decided s0 l t -> In t (gv_agenda (grun s0 l)) -> leads (tk_origin t) (tk_call t) o k -> privileged o ->
  exists p r, was_approved s0 l Collective p r /\ leads (rf_origin r) (rf_call r) o k.
Proof.
  intros I Hd Hin Hl Hp. unfold task_decided in Hd. pose proof (gi_tasks _ I t Hin) as Ht. destruct (tk_source t) as [[i p]|].
  - destruct Hd as (r & Ha & E1 & E2). destruct i; [exists p, r; by rewrite <- E1, <- E2|].
    destruct Ht as [_ [g Hg]]. rewrite Hg in Hl. destruct (leads_to_root _ _ _ _ Hl Hp) as [<-|?]; [|done]. destruct Hp as [?|[? ?]]; discriminate.
  - destruct Hd as (p & r & Ha & E1 & E2 & Hl2). exists p, r. split; [done|]. rewrite E2. eapply leads_trans; [done|]. by rewrite <- E1.
Qed.

Lemma tasks_decided s0 l : ginv s0 -> gv_agenda s0 = [] -> forall t, In t (gv_agenda (grun s0 l)) -> task_decided s0 l t.
Proof.
  intros I0 H0. induction l as [|x l IH] using rev_ind; intros t Ht; [cbn in Ht; by rewrite H0 in Ht|].
  rewrite grun_snoc in Ht. pose proof (ginv_run s0 l I0) as I.
  apply step_tasks in Ht as [Ht|[(s1 & n & k' & Hh & _ & ->)|(i & p & r & ti & Ha & _ & ->)]].
  - by apply task_decided_more, IH.
  - destruct (happens_source _ _ _ _ _ Hh) as (e & m & t0 & -> & Hm & _ & Hl); [by intros [a ?]|by intros [] |].
    apply elem_of_list_lookup_2, elem_of_list_In in Hm.
    destruct (task_root s0 l t0 ORoot (GSchedule n k') I (IH t0 Hm) Hm Hl) as (p & r & Ha & Hl2); [by left|].
    exists p, r. cbn. destruct (leads_to_root _ _ _ _ Hl2) as [E|E]; [by left|..]; rewrite E in Hl2; split_and!; try done.
    all: try (by apply was_approved_more).
    all: eapply leads_trans; [done|]; apply leads_schedule, leads_here.
  - exists r. cbn. split; [by apply approves_was|done].
Qed.

(* ------------------------------------------------------------------ *)
(** * Who acts with which origin *)

Lemma start_agenda ranks now : gv_agenda (g_start ranks now) = [].
Proof. done. Qed.

(** A privileged call is part of an approved decision of the collective. *)
Lemma privileged_decided : forall ranks now l x s o k,
  happens (grun (g_start ranks now) l) x s o k -> privileged o ->
  exists p r, was_approved (g_start ranks now) l Collective p r /\ (rf_origin r = o \/ rf_origin r = ORoot) /\ leads (rf_origin r) (rf_call r) o k.
Proof.
  intros ranks now l x s o k Hh Hp.
  destruct (happens_source _ _ _ _ _ Hh) as (e & n & t & -> & Hn & _ & Hl).
  { intros [a ->]. by apply signed_unprivileged in Hp. } { intros r ->. by apply remote_unprivileged in Hp. }
  apply elem_of_list_lookup_2, elem_of_list_In in Hn. pose proof (ginv_run _ l (ginv_start ranks now)) as I.
  destruct (task_root _ l t o k I (tasks_decided _ l (ginv_start _ _) (start_agenda _ _) t Hn) Hn Hl Hp) as (p & r & Ha & Hl2).
  exists p, r. split_and!; [done| |done]. by apply leads_to_root in Hl2.
Qed.

(** A call with a community's origin is part of an approved decision of that community, or of one of the collective's with root. *)
Lemma community_decided : forall ranks now l x s g sub k,
  happens (grun (g_start ranks now) l) x s (OCommunity g sub) k ->
  (exists p r, was_approved (g_start ranks now) l Community p r /\ carries_out (grun (g_start ranks now) l) x Community p /\ sub = None /\
    rf_origin r = OCommunity g None /\ rf_track r = g /\ leads (OCommunity g None) (rf_call r) (OCommunity g None) k) \/
  (exists p r, was_approved (g_start ranks now) l Collective p r /\ rf_origin r = ORoot /\ leads ORoot (rf_call r) (OCommunity g sub) k).
Proof.
  intros ranks now l x s g sub k Hh.
  destruct (happens_source _ _ _ _ _ Hh) as (e & n & t & -> & Hn & Hdue & Hl).
  { by intros [a ?]. } { intros r E. by apply (remote_not_community r g sub). }
  pose proof Hn as Hn'. apply elem_of_list_lookup_2, elem_of_list_In in Hn. pose proof (ginv_run _ l (ginv_start ranks now)) as I.
  pose proof (tasks_decided _ l (ginv_start _ _) (start_agenda _ _) t Hn) as Hd. pose proof (gi_tasks _ I t Hn) as Ht.
  unfold task_decided in Hd. destruct (tk_source t) as [[i p]|] eqn:Es.
  - destruct Hd as (r & Ha & E1 & E2). destruct (decide (tk_origin t = ORoot)) as [Er|Er].
    + right. exists p, r. rewrite Er, E2 in Hl. destruct i; [split_and!; congruence|]. destruct Ht as [_ [g' Hg]]. congruence.
    + destruct (leads_not_root _ _ _ _ Hl Er) as [E|[a ?]]; [|discriminate]. rewrite <- E in *.
      destruct i; [by destruct Ht as [_ Ht]|]. destruct Ht as [_ [g' Hg]]. injection Hg as -> ->.
      left. exists p, r. destruct (Ha) as (l1 & e1 & l2 & _ & [Ho _] & _).
      pose proof (gi_community _ (ginv_run _ l1 (ginv_start ranks now)) p r Ho) as [Hg' _].
      assert (rf_track r = g') as Et by congruence. split_and!; try done; [by exists e, n, t|]. by rewrite <- E2.
  - destruct Hd as (p & r & Ha & E1 & E2 & Hl2). right. exists p, r. split_and!; [done..|]. eapply leads_trans; [done|]. by rewrite <- E1.
Qed.

(* ------------------------------------------------------------------ *)
(** * Decisions are carried out at most once *)

Definition spent (s : gstate) (i : inst) (p : N) : Prop :=
  (exists y, ended s i p y) /\ forall t, In t (gv_agenda s) -> tk_source t <> Some (i, p).

Lemma spent_step s x i p : ginv s -> spent s i p -> spent (gstep_run s x) i p.
Proof.
  intros I [[y Hy] Ht]. split; [exists y; by apply ended_step|]. intros t Hin.
  apply step_tasks in Hin as [Hin|[(s1 & n & k' & _ & _ & ->)|(j & q & r & ti & (e & _ & [Ho _] & _) & _ & ->)]]; [by apply Ht|done|].
  cbn. intros [= -> ->]. destruct Hy as [H1 H2]. unfold is_open in Ho. rewrite H1 in Ho. injection Ho as ->. by eapply H2.
Qed.
Lemma spent_run s l i p : ginv s -> spent s i p -> spent (grun s l) i p.
Proof. revert s. induction l as [|x l IH]; intros s I H; [done|]. cbn. apply IH; [by apply ginv_step|by apply spent_step]. Qed.

Lemma delete_omap_gone {A B} (f : A -> option B) (l : list A) n x b : NoDup (omap f l) -> l !! n = Some x -> f x = Some b -> b ∉ omap f (delete n l).
Proof.
  revert n. induction l as [|y l IH]; intros [|n] Hnd Hn Hb; cbn in *; try discriminate.
  - injection Hn as ->. rewrite Hb in Hnd. by apply NoDup_cons in Hnd as [? _].
  - destruct (f y) as [c|] eqn:E.
    + apply NoDup_cons in Hnd as [H1 H2]. rewrite elem_of_cons. intros [->|H]; [|by eapply IH].
      apply H1. apply elem_of_list_omap. exists x. split; [by eapply elem_of_list_lookup_2|done].
    + by eapply IH.
Qed.

Lemma carried_spent s x i p : ginv s -> carries_out s x i p -> spent (gstep_run s x) i p.
Proof.
  intros I (e & n & t & -> & Hn & Hd & Hs). cbn [gstep_run]. rewrite Hn. rewrite (proj2 (N.leb_le _ _) Hd).
  set (s1 := gset_agenda (delete n (gv_agenda s)) s).
  assert (I1 : ginv s1) by (by apply ginv_take).
  assert (S1 : spent s1 i p).
  { pose proof (elem_of_list_lookup_2 _ _ _ Hn) as Hin. apply elem_of_list_In in Hin. pose proof (gi_tasks _ I t Hin) as Ht. rewrite Hs in Ht.
    destruct Ht as [[m Hm] _]. split; [by exists (RApproved m)|]. intros t' Ht' Hs'.
    apply (delete_omap_gone tk_source _ _ _ _ (gi_once _ I) Hn Hs). apply elem_of_list_omap. exists t'. split; [by apply elem_of_list_In|done]. }
  cut (ginv (g_dispatch e s1 (tk_origin t) (tk_call t)) /\ spent (g_dispatch e s1 (tk_origin t) (tk_call t)) i p); [tauto|].
  apply (dispatch_induct (fun s' => ginv s' /\ spent s' i p)); [done|]. intros s2 o1 k1 s3 _ Hl [I2 [[y Hy] S2]] Hc. apply leaf_kind_of in Hc; [|done].
  split; [by eapply ginv_leaf|]. split.
  - exists y. destruct (leaf_refs _ _ _ _ _ Hc i p) as [Hm|(po & k' & w & t' & _ & -> & _)]; [by eapply ref_move_ended|].
    destruct Hy as [H1 _]. apply (gi_index _ I2) in H1. lia.
  - destruct (leaf_agenda _ _ _ _ _ Hc) as [->|(m & k' & _ & _ & _ & ->)]; [done|]. intros t' [H'|[<-|[]]]%in_app_or; [by apply S2|done].
Qed.

Lemma carried_once : forall ranks now l1 x l2 y i p,
  carries_out (grun (g_start ranks now) l1) x i p -> ~ carries_out (grun (g_start ranks now) (l1 ++ x :: l2)) y i p.
Proof.
  intros ranks now l1 x l2 y i p H1 (e & n & t & -> & Hn & _ & Hs). pose proof (ginv_run _ l1 (ginv_start ranks now)) as I.
  apply carried_spent in H1; [|done].
  apply (spent_run _ l2) in H1 as [_ H1]; [|by apply ginv_step].
  rewrite grun_app in Hn. cbn in Hn. apply elem_of_list_lookup_2, elem_of_list_In in Hn. by apply (H1 _ Hn).
Qed.

(** What is carried out was approved, exactly as it stands. *)
Lemma carried_approved : forall ranks now l x i p, carries_out (grun (g_start ranks now) l) x i p ->
  exists r, was_approved (g_start ranks now) l i p r /\ step_dispatch (grun (g_start ranks now) l) x = Some (rf_origin r, rf_call r).
Proof.
  intros ranks now l x i p (e & n & t & -> & Hn & Hd & Hs).
  pose proof (elem_of_list_lookup_2 _ _ _ Hn) as Hin. apply elem_of_list_In in Hin.
  pose proof (tasks_decided _ l (ginv_start ranks now) (start_agenda _ _) t Hin) as H. unfold task_decided in H. rewrite Hs in H.
  destruct H as (r & Ha & E1 & E2). exists r. split; [done|]. cbn. rewrite Hn, (proj2 (N.leb_le _ _) Hd). by rewrite E1, E2.
Qed.

(* ------------------------------------------------------------------ *)
(** * Where referenda come from *)

Definition submits (s : gstate) (x : gstep) (i : inst) (p : N) (r : referendum) : Prop :=
  exists s1 o, happens s x s1 o (GSubmit i (rf_origin r) (rf_call r) (rf_enact r)) /\ p = gv_count s1 i /\
    submit_origin s1 i o (rf_origin r) <> None /\ track_for s1 i (rf_origin r) = Some (rf_track r) /\ rf_submitted r = gv_now s /\ gv_now s1 = gv_now s.

Lemma step_open s x i p r : is_open (gstep_run s x) i p r -> (exists r0, is_open s i p r0 /\ same_proposal r0 r) \/ submits s x i p r.
Proof.
  cut ((x <> GBlock -> gv_now (gstep_run s x) = gv_now s) /\ forall r, is_open (gstep_run s x) i p r -> (exists r0, is_open s i p r0 /\ same_proposal r0 r) \/ submits s x i p r).
  { intros [_ H]. apply H. }
  assert (Hmv : forall s1 s2, ref_move s1 s2 i p -> (forall r, is_open s1 i p r -> (exists r0, is_open s i p r0 /\ same_proposal r0 r) \/ submits s x i p r) ->
    forall r, is_open s2 i p r -> (exists r0, is_open s i p r0 /\ same_proposal r0 r) \/ submits s x i p r).
  { intros s1 s2 [E|r1 y Hr1 E Hk] IH r2 Hr2; unfold is_open in Hr2; rewrite E in Hr2; [by apply IH|]. injection Hr2 as ->. specialize (Hk r2 eq_refl).
    destruct Hk as (K1 & K2 & K3 & K4 & K5). destruct (IH r1 Hr1) as [(r0 & H0 & (J1 & J2 & J3 & J4 & J5))|(s1' & o & H1 & H2 & H3 & H4 & H5 & H6)].
    - left. exists r0. split; [done|]. unfold same_proposal. split_and!; congruence.
    - right. exists s1', o. rewrite K1, K2, K3, K4, K5. by split_and!. }
  assert (Hid : forall r, is_open s i p r -> (exists r0, is_open s i p r0 /\ same_proposal r0 r) \/ submits s x i p r).
  { intros r0 H0. left. exists r0. by split. }
  apply (step_induct (fun s' => (x <> GBlock -> gv_now s' = gv_now s) /\ forall r, is_open s' i p r -> (exists r0, is_open s i p r0 /\ same_proposal r0 r) \/ submits s x i p r)).
  - done.
  - intros s1 o1 k1 e s2 Hh Hl [Hn IH] Hc. apply leaf_kind_of in Hc; [|done]. pose proof (leaf_now _ _ _ _ _ Hc) as En.
    assert (Hx : x <> GBlock) by (intros ->; inversion Hh). specialize (Hn Hx). split; [by intros _; rewrite En|].
    destruct (leaf_refs _ _ _ _ _ Hc i p) as [Hm|(po & k' & w & t & -> & -> & Hso & Htf & E)]; [by eapply Hmv|].
    intros r2 Hr2. unfold is_open in Hr2. rewrite E in Hr2. injection Hr2 as <-. right. exists s1, o1. cbn. by split_and!.
  - done.
  - done.
  - intros e j q _. split; [|eapply Hmv; [apply service_refs|done]]. intros _.
    destruct (service_effect e s j q) as [->|(r0 & t & ti & y & _ & _ & _ & _ & _ & [->|[_ ->]])]; [done|..];
      by destruct (put_status_fields s j q y) as (_ & _ & _ & _ & _ & ? & _).
  - intros e j q _. split; [|eapply Hmv; [apply next_refs|done]]. intros _.
    destruct (next_effect e s j q) as [->|(r0 & t & ti & _ & _ & _ & _ & _ & ->)]; [done|].
    by destruct (put_status_fields s j q (ROngoing (begin_deciding (gv_now s) ti (approval t) (gsupport e s j (rf_track r0) t) r0))) as (_ & _ & _ & _ & _ & ? & _).
  - intros ->. split; [done|]. done.
  - done.
Qed.

Lemma was_submitted_more s0 l l' i p o po k w s : was_submitted s0 l i p o po k w s -> was_submitted s0 (l ++ l') i p o po k w s.
Proof. intros (l1 & x & l2 & -> & H). exists l1, x, (l2 ++ l'). split; [by rewrite <- app_assoc|done]. Qed.

(** Whoever proposed it. *)
Lemma proposed : forall ranks now l i p r, is_open (grun (g_start ranks now) l) i p r ->
  exists o s, was_submitted (g_start ranks now) l i p o (rf_origin r) (rf_call r) (rf_enact r) s /\ rf_submitted r = gv_now s /\
    match i with
    | Collective => signed o
    | Community => o = ORoot \/ exists who, o = OSigned who /\ holds_membership (gv_m s) (rf_track r) who
    end.
Proof.
  intros ranks now l i p. induction l as [|x l IH] using rev_ind; intros r Hr; [done|]. rewrite grun_snoc in Hr.
  apply step_open in Hr as [(r0 & Hr0 & (K1 & K2 & K3 & K4 & K5))|(s1 & o & H1 & H2 & H3 & H4 & H5 & H6)].
  - destruct (IH r0 Hr0) as (o & s & Hw & Hn & Hi). exists o, s. rewrite K1, K2, K3, K4, K5. split_and!; [by apply was_submitted_more|done..].
  - exists o, s1. split_and!; [by exists l, x, []|congruence|]. destruct i; cbn in H3.
    + destruct o; try done. by eexists.
    + destruct o as [| |who|? ?| | |]; cbn in H3; [by left|..]; unfold ensure_community_member in H3; cbn in H4; rewrite H4 in H3; try done.
      right. exists who. split; [done|]. destruct (is_member_of _ _ _) eqn:Em; [|done]. by apply is_member_of_iff.
Qed.

(** The decision a step carries out was proposed by someone entitled to. *)
Lemma carried_proposed : forall ranks now l x i p, carries_out (grun (g_start ranks now) l) x i p ->
  exists r o s, was_submitted (g_start ranks now) l i p o (rf_origin r) (rf_call r) (rf_enact r) s /\ was_approved (g_start ranks now) l i p r /\
    step_dispatch (grun (g_start ranks now) l) x = Some (rf_origin r, rf_call r) /\
    match i with
    | Collective => signed o
    | Community => o = ORoot \/ exists who, o = OSigned who /\ holds_membership (gv_m s) (rf_track r) who
    end.
Proof.
  intros ranks now l x i p H. destruct (carried_approved _ _ _ _ _ _ H) as (r & Ha & Hs). pose proof Ha as (l1 & e & l2 & E & [Ho _] & _).
  destruct (proposed _ _ _ _ _ _ Ho) as (o & s & Hw & _ & Hi). exists r, o, s. split_and!; try done. rewrite E. by apply was_submitted_more.
Qed.

(** What ended stays as it ended. *)
Lemma ended_for_good : forall ranks now l l' i p y, ended (grun (g_start ranks now) l) i p y -> ended (grun (g_start ranks now) (l ++ l')) i p y.
Proof. intros ranks now l l' i p y H. rewrite grun_app. apply ended_run; [apply ginv_run, ginv_start|done]. Qed.

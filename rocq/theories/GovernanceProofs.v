(** Kreivo's governance: how steps come about, and what holds of every state. *)
From stdpp Require Import gmap.
From Verif Require Import Base XcmTypes OriginTypes AccountsModel CommunitiesModel CommunitiesSpec CommunitiesProofs CommunitiesTally TracksModel TracksSpec
  ManagerModel ManagerSpec ManagerProofs XcmConfigModel GovernanceModel GovernanceSpec.
Open Scope N_scope.

Local Opaque community_account treasury_account community_deposit kreivo_tracks.

(* ------------------------------------------------------------------ *)
(** * A dispatch is a sequence of calls that dispatch nothing *)

Definition leaf (k : gcall) : bool := match k with GAsCommunity _ | GDispatchAs _ _ | GBatch _ _ => false | _ => true end.

Inductive leaf_of (e : genv) (s0 : gstate) (o0 : origin) (k0 : gcall) (s s' : gstate) : Prop :=
| leaf_of_intro o k : executes e s0 o0 k0 s o k -> leaf k = true -> g_call e s o k = Some s' -> leaf_of e s0 o0 k0 s s'.

Lemma rtc_leaf_lift e s0 o0 k0 s1 o1 k1 :
  (forall s o k, executes e s1 o1 k1 s o k -> executes e s0 o0 k0 s o k) ->
  forall s s', rtc (leaf_of e s1 o1 k1) s s' -> rtc (leaf_of e s0 o0 k0) s s'.
Proof.
  intros H s s'. induction 1 as [|s s2 s3 [o k Hx Hl Hc] _ IH]; [by apply rtc_refl|].
  eapply rtc_l; [|exact IH]. econstructor; eauto.
Qed.

Lemma g_call_leaves e k : forall s og s', g_call e s og k = Some s' -> rtc (leaf_of e s og k) s s'.
Proof.
  induction k; intros s og s' H;
    try (apply rtc_once; econstructor; [apply ex_here|reflexivity|exact H]).
  - cbn [g_call] in H. unfold dispatch_as_account in H. destruct (cc_mgmt_origin _ _ og) as [g|] eqn:E; [|discriminate].
    apply IHk in H. eapply rtc_leaf_lift; [|exact H]. intros. by eapply ex_community.
  - cbn [g_call] in H. destruct og; try discriminate. cbn in H. injection H as <-.
    destruct (g_call e s o k) as [s1|] eqn:E; cbn; [|by apply rtc_refl].
    apply IHk in E. eapply rtc_leaf_lift; [|exact E]. intros. by apply ex_dispatch_as.
  - cbn [g_call] in H. destruct (g_call e s og k1) as [s1|] eqn:E; [|discriminate].
    eapply rtc_transitive.
    + eapply rtc_leaf_lift; [|by apply IHk1, E]. intros. by apply ex_batch_first.
    + eapply rtc_leaf_lift; [|by apply IHk2, H]. intros. by eapply ex_batch_second.
Qed.

(** To show something of the state after a step, show that every call dispatched on the way keeps it, and the rest of what the step does. *)
Lemma dispatch_induct (P : gstate -> Prop) e s o k :
  P s -> (forall s1 o1 k1 s2, executes e s o k s1 o1 k1 -> leaf k1 = true -> P s1 -> g_call e s1 o1 k1 = Some s2 -> P s2) ->
  P (g_dispatch e s o k).
Proof.
  intros Hs Hl. unfold g_dispatch. destruct (g_call e s o k) as [s'|] eqn:E; [|done]. cbn. apply g_call_leaves in E.
  assert (forall a b, rtc (leaf_of e s o k) a b -> P a -> P b) as Hr; [|by eapply Hr].
  intros a b. induction 1 as [|a b c [o1 k1 Hx Hf Hc] _ IH]; eauto.
Qed.

Definition is_fire (x : gstep) : option nat := match x with GFire _ n => Some n | _ => None end.
Lemma step_induct_env (P : gstate -> Prop) s x :
  P s ->
  (forall s1 o1 k1 e s2, happens s x s1 o1 k1 -> gstep_env x = Some e -> leaf k1 = true -> P s1 -> g_call e s1 o1 k1 = Some s2 -> P s2) ->
  (forall e n t, x = GFire e n -> gv_agenda s !! n = Some t -> tk_due t <= gv_now s -> P (gset_agenda (delete n (gv_agenda s)) s)) ->
  (forall n, x = GGiveUp n -> P (gset_agenda (delete n (gv_agenda s)) s)) ->
  (forall e i p, x = GService e i p -> P (g_service e s i p)) ->
  (forall e i p, x = GNext e i p -> P (g_next e s i p)) ->
  (x = GBlock -> P (gset_now (gv_now s + 1) s)) ->
  (forall y, x = GOutside y -> outside_step y = true -> P (gset_c (cstep_run kreivo_communities (mg_c (gv_m s)) y) s)) ->
  P (gstep_run s x).
Proof.
  intros Hs Hl Hf Hg Hsv Hn Hb Ho. destruct x as [e who k|e l kind k|e i p|e i p|e n|n| |y]; cbn [gstep_run]; eauto.
  - apply dispatch_induct; [done|]. intros. eapply Hl; eauto using hap_tx.
  - destruct (transact_origin l kind) as [r|] eqn:E; [|done]. apply dispatch_induct; [done|]. intros. eapply Hl; eauto using hap_remote.
  - destruct (gv_agenda s !! n) as [t|] eqn:E; [|done]. destruct (tk_due t <=? gv_now s) eqn:Hd; [|done]. apply N.leb_le in Hd.
    apply dispatch_induct; [by eapply Hf|]. intros. eapply Hl; eauto using hap_fire.
  - destruct (outside_step y) eqn:E; [|done]. by apply Ho.
Qed.

Lemma step_induct (P : gstate -> Prop) s x :
  P s ->
  (forall s1 o1 k1 e s2, happens s x s1 o1 k1 -> leaf k1 = true -> P s1 -> g_call e s1 o1 k1 = Some s2 -> P s2) ->
  (forall e n t, x = GFire e n -> gv_agenda s !! n = Some t -> tk_due t <= gv_now s -> P (gset_agenda (delete n (gv_agenda s)) s)) ->
  (forall n, x = GGiveUp n -> P (gset_agenda (delete n (gv_agenda s)) s)) ->
  (forall e i p, x = GService e i p -> P (g_service e s i p)) ->
  (forall e i p, x = GNext e i p -> P (g_next e s i p)) ->
  (x = GBlock -> P (gset_now (gv_now s + 1) s)) ->
  (forall y, x = GOutside y -> outside_step y = true -> P (gset_c (cstep_run kreivo_communities (mg_c (gv_m s)) y) s)) ->
  P (gstep_run s x).
Proof. intros Hs Hl. apply step_induct_env; [done|]. intros s1 o1 k1 e s2 Hh _. by apply Hl. Qed.

(* ------------------------------------------------------------------ *)
(** * What leaves referenda alone *)

Definition poll_class (x : poll) : option N := match x with Ongoing _ g => Some g | Completed => None end.
Definition polls_kept (s s' : cstate) : Prop := forall p, poll_class <$> c_polls s' !! p = poll_class <$> c_polls s !! p.

Lemma polls_kept_same s s' : c_polls s' = c_polls s -> polls_kept s s'.
Proof. by intros E p; rewrite E. Qed.
Lemma polls_kept_insert s t t' g p s' : c_polls s !! p = Some (Ongoing t g) -> c_polls s' = <[p := Ongoing t' g]> (c_polls s) -> polls_kept s s'.
Proof.
  intros H E q. rewrite E. destruct (decide (q = p)) as [->|]; [by rewrite lookup_insert, H|by rewrite lookup_insert_ne].
Qed.
Lemma polls_kept_trans s1 s2 s3 : polls_kept s1 s2 -> polls_kept s2 s3 -> polls_kept s1 s3.
Proof. intros H1 H2 p. by rewrite H2, H1. Qed.

Lemma vote_moves_polls e s who m p v s' : vote_moves e s who m p v s' -> polls_kept s s'.
Proof.
  intros (g & t & s1 & _ & _ & _ & Hs1 & Hp & _ & ->).
  eapply (polls_kept_trans s s1).
  - destruct Hs1 as [[_ ->]|(t0 & v0 & w0 & _ & Hp0 & ->)]; [done|].
    destruct (vote_removed_fields s g m p t0 v0 w0 (method_of s g)) as (_ & _ & E & _). by eapply polls_kept_insert.
  - destruct (vote_recorded_fields s1 g who m p t v) as (_ & _ & E & _). by eapply polls_kept_insert.
Qed.

Lemma ccall_polls c e s o k s' evs : ccall_run c e s o k = COk (s', evs) -> polls_kept s s'.
Proof.
  intros E. destruct k; cbn [ccall_run] in E.
  - unfold call_create in E. cinv E. injection E as <- <-. apply register_same in H0 as [(_ & _ & _ & ?) _]. by apply polls_kept_same.
  - unfold call_set_admin in E. cinv E. injection E as <- <-. by apply polls_kept_same.
  - unfold call_add_member in E. cinv E. injection E as <- <-. unfold assign in H2. cinv H2. injection H2 as <-. by apply polls_kept_same.
  - unfold call_remove_member in E. cinv E. injection E as <- <-. unfold release in H2. cinv H2. injection H2 as <-. by apply polls_kept_same.
  - unfold call_promote in E. cinv E. injection E as <- <-. unfold set_rank in H1. cinv H1. injection H1 as <-. by apply polls_kept_same.
  - unfold call_demote in E. cinv E. injection E as <- <-. unfold set_rank in H1. cinv H1. injection H1 as <-. by apply polls_kept_same.
  - apply call_set_method_ok in E as (A & w & _ & -> & _). by apply polls_kept_same.
  - apply call_vote_ok in E as (who & g & t & s1 & -> & Hc & Hw & Hf & -> & Hs1 & Hp & Hl & ->).
    eapply (vote_moves_polls e s who m p v). unfold vote_moves. eauto 15.
  - apply call_remove_vote_ok in E as (who & g & t & v & voter & -> & Hc & -> & Hp & Hv & ->).
    destruct (vote_removed_fields s g m p t v voter (method_of s g)) as (_ & _ & Hq & _). by eapply polls_kept_insert.
  - apply call_unlock_ok in E as (who & v & -> & -> & Hl & Hp & ->). destruct (lock_removed_fields s who p v) as (_ & _ & _ & _ & ? & _).
    by apply polls_kept_same.
Qed.

(** A change of communities, tracks and memberships that opens no poll, ends none, and ranks nobody. *)
Record m_change (m m' : mstate) : Prop := MChange {
  mch_polls : polls_kept (mg_c m) (mg_c m');
  mch_track_of : forall o g, mg_track_of m' o = Some g -> mg_track_of m o = Some g \/ o = OCommunity g None;
  mch_collective : forall who, mg_collective m' !! who = mg_collective m !! who \/
    (mg_collective m !! who = None /\ mg_collective m' !! who = Some 0)
}.

Lemma m_change_refl m : m_change m m.
Proof. constructor; eauto. by intros p. Qed.
Lemma m_change_c m c' : polls_kept (mg_c m) c' -> m_change m (mset_c c' m).
Proof. constructor; cbn; eauto. Qed.

Lemma register_m_change e s o id name a dm ti s' evs :
  mg_register kreivo_manager e s o id name a dm ti = MOk (s', evs) -> m_change s s'.
Proof.
  intros E. apply register_complete in E as (d & a' & _ & _ & _ & Hi & _ & Hc & Ht & Hk & E1 & _ & _ & _ & _ & Hv & _ & E2 & _ & E3 & E4 & E5 & E6 & _).
  constructor.
  - apply polls_kept_same. by destruct Hv as (_ & _ & _ & ?).
  - intros o' g Ho'. destruct (decide (o' = OCommunity id None)) as [->|]; [right; congruence|]. rewrite E5 in Ho' by done. by left.
  - intros who. rewrite E6. destruct (decide (who = cc_account (mc_c kreivo_manager) id)) as [->|]; [right; by rewrite lookup_insert|].
    left. by rewrite lookup_insert_ne.
Qed.
Lemma create_memberships_m_change e s o n i p s' evs :
  mg_create_memberships kreivo_manager e s o n i p = MOk (s', evs) -> m_change s s'.
Proof.
  intros E. unfold mg_create_memberships in E. minv. destruct a1 as [s1 k]. minv.
  match goal with H : mint_loop _ _ _ _ _ _ _ = _ |- _ => apply mint_loop_frame in H as (G1 & G2 & G3 & G4 & G5) end.
  constructor; rewrite ?G1, ?G4, ?G5; eauto. by intros q.
Qed.
Lemma outside_m_change s y : outside_step y = true -> m_change s (mset_c (cstep_run kreivo_communities (mg_c s) y) s).
Proof. intros H. apply m_change_c. destruct y; try discriminate; cbn; by apply polls_kept_same. Qed.

(** The calls whose only effect is such a change. *)
Definition m_call (k : gcall) : bool :=
  match k with GUpdateTrack _ _ | GRegister _ _ _ _ _ | GCreateMemberships _ _ _ | GCommunityCall _ => true | _ => false end.
Definition joins (k : gcall) (who : N) : Prop := exists id name a dm ti, k = GRegister id name a dm ti /\ who = community_account id.
Lemma m_call_change e s o k s' : m_call k = true -> g_call e s o k = Some s' -> exists m', s' = gset_m m' s /\ m_change (gv_m s) m' /\
  forall who, mg_collective m' !! who <> mg_collective (gv_m s) !! who -> joins k who.
Proof.
  intros Hk H. destruct k; try discriminate; cbn [g_call] in H.
  - unfold g_update_track in H. destruct (ensure_origin_to_track _ _ _); [|discriminate]. destruct (mg_tracks (gv_m s) !! id); [|discriminate].
    injection H as <-. eexists. split; [done|]. split; [constructor; cbn; eauto; by intros q|done].
  - unfold from_m in H. destruct (mg_register _ _ _ _ _ _ _ _ _) as [[m' evs]|] eqn:E; [|discriminate]. injection H as <-.
    eexists. split; [done|]. split; [by eapply register_m_change|]. intros who Hw.
    apply register_complete in E as (d & a' & _ & _ & _ & _ & _ & _ & _ & _ & _ & _ & _ & _ & _ & _ & _ & _ & _ & _ & _ & _ & E6 & _).
    rewrite E6 in Hw. unfold joins. eexists _, _, _, _, _. split; [done|]. change (cc_account (mc_c kreivo_manager) id) with (community_account id) in Hw.
    destruct (decide (who = community_account id)); [done|]. by rewrite lookup_insert_ne in Hw.
  - unfold from_m in H. destruct (mg_create_memberships _ _ _ _ _ _ _) as [[m' evs]|] eqn:E; [|discriminate]. injection H as <-.
    eexists. split; [done|]. split; [by eapply create_memberships_m_change|]. intros who Hw.
    unfold mg_create_memberships in E. minv. destruct a1 as [s1 k]. minv.
    match goal with H : mint_loop _ _ _ _ _ _ _ = _ |- _ => apply mint_loop_frame in H as (G1 & G2 & G3 & G4 & G5) end. by rewrite G5 in Hw.
  - destruct (ccall_run _ _ _ _ _) as [[c' evs]|] eqn:E; [|discriminate]. injection H as <-. eexists. split; [reflexivity|].
    split; [|done]. apply m_change_c. by eapply ccall_polls.
Qed.

(* ------------------------------------------------------------------ *)
(** * Kinds of calls *)

(** What a call that dispatches nothing does. *)
Inductive leaf_kind (e : genv) (s : gstate) (o : origin) (k : gcall) (s' : gstate) : Prop :=
| LKSubmit i po k' w t : k = GSubmit i po k' w -> submit_origin s i o po <> None -> track_for s i po = Some t ->
    g_submit e s o i po k' w = Some s' -> leaf_kind e s o k s'
| LKDeposit i p r t ti : k = GPlaceDeposit i p -> signed o -> is_open s i p r -> rf_deposit r = false -> gtally s i p = Some t ->
    track_info_of s i (rf_track r) = Some ti ->
    s' = put_status s i p (service e (gv_now s) (undeciding_timeout i) ti (approval t) (gsupport e s i (rf_track r) t) (rset_deposit r)) ->
    leaf_kind e s o k s'
| LKCancel i p r : k = GCancel i p -> cancel_origin i o = true -> is_open s i p r -> s' = put_status s i p (RCancelled (gv_now s)) -> leaf_kind e s o k s'
| LKKill i p r : k = GKill i p -> kill_origin i o = true -> is_open s i p r -> s' = put_status s i p (RKilled (gv_now s)) -> leaf_kind e s o k s'
| LKVote p aye who rank r t : k = GVote p aye -> o = OSigned who -> collective_rank s who = Some rank -> 1 <= rank -> is_open s Collective p r ->
    gv_tally s !! p = Some t ->
    s' = gset_votes (<[(p, who) := (aye, rank)]> (gv_votes s))
           (gset_tally (<[p := tally_in (tally_out t (gv_votes s !! (p, who))) aye rank]> (gv_tally s)) s) -> leaf_kind e s o k s'
| LKPromote who r : k = GPromote who -> o = ORoot -> collective_rank s who = Some r -> r + 1 <= 65535 ->
    s' = gset_collective (<[who := r + 1]> (mg_collective (gv_m s))) s -> leaf_kind e s o k s'
| LKDemote who r : k = GDemote who -> o = ORoot -> collective_rank s who = Some r -> 
    s' = gset_collective (if r =? 0 then delete who (mg_collective (gv_m s)) else <[who := r - 1]> (mg_collective (gv_m s))) s -> leaf_kind e s o k s'
| LKRemove who r m : k = GRemove who m -> o = ORoot -> collective_rank s who = Some r -> r <= m ->
    s' = gset_collective (delete who (mg_collective (gv_m s))) s -> leaf_kind e s o k s'
| LKExchange who r w : k = GExchange who w -> o = ORoot -> collective_rank s who = Some r -> collective_rank s w = None ->
    s' = gset_collective (<[w := r]> (delete who (mg_collective (gv_m s)))) s -> leaf_kind e s o k s'
| LKChange m' : m_call k = true -> s' = gset_m m' s -> m_change (gv_m s) m' ->
    (forall who, mg_collective m' !! who <> mg_collective (gv_m s) !! who -> joins k who) -> leaf_kind e s o k s'
| LKSchedule n k' : k = GSchedule n k' -> o = ORoot -> gv_now s < n -> s' = gset_agenda (gv_agenda s ++ [Task n ORoot k' None]) s -> leaf_kind e s o k s'
| LKOther n : k = GOther n -> s' = s -> leaf_kind e s o k s'.

Lemma root_origin o x : ensure_root o = Some x -> o = ORoot.
Proof. by destruct o. Qed.
Ltac root H := destruct (ensure_root _) eqn:Hroot in H; [|discriminate]; apply root_origin in Hroot; subst; cbn in H.

Lemma leaf_kind_of e s o k s' : leaf k = true -> g_call e s o k = Some s' -> leaf_kind e s o k s'.
Proof.
  intros Hl H. destruct (m_call k) eqn:Hk.
  { destruct (m_call_change e s o k s' Hk H) as (m' & -> & Hm & Hj). by eapply LKChange. }
  destruct k; try discriminate; cbn [g_call] in H; clear Hk.
  - pose proof H as H0. unfold g_submit in H. destruct (submit_origin s i o proposal_origin) eqn:E1; [|discriminate]. cbn in H.
    destruct (track_for s i proposal_origin) eqn:E2; [|discriminate]. eapply LKSubmit; eauto. congruence.
  - unfold g_place_deposit in H. destruct o; try discriminate. cbn in H. destruct (gv_refs s !! (i, p)) as [[r| | | | |]|] eqn:E1; try discriminate.
    destruct (gtally s i p) as [t|] eqn:E2; [|discriminate]. destruct (rf_deposit r) eqn:E3; [discriminate|].
    destruct (ge_deposit_ok e); [|discriminate]. cbn in H. destruct (track_info_of _ _ _) as [ti|] eqn:E4; [|discriminate]. injection H as <-.
    eapply LKDeposit; eauto. by eexists.
  - unfold g_cancel in H. destruct (cancel_origin i o) eqn:E; [|discriminate]. destruct (gv_refs s !! (i, p)) as [[r| | | | |]|] eqn:E1; try discriminate.
    injection H as <-. by eapply LKCancel.
  - unfold g_kill in H. destruct (kill_origin i o) eqn:E; [|discriminate]. destruct (gv_refs s !! (i, p)) as [[r| | | | |]|] eqn:E1; try discriminate.
    injection H as <-. by eapply LKKill.
  - unfold g_vote in H. destruct o; try discriminate. cbn in H. destruct (mg_collective (gv_m s) !! who) as [rank|] eqn:E1; [|discriminate]. cbn in H.
    destruct (gv_refs s !! (Collective, p)) as [[r| | | | |]|] eqn:E2; try discriminate. destruct (gv_tally s !! p) as [t|] eqn:E3; [|discriminate].
    destruct (rank <? 1) eqn:E4; [discriminate|]. apply N.ltb_ge in E4. injection H as <-.
    assert (collective_votes rank = rank) as -> by (unfold collective_votes; lia). by eapply LKVote.
  - unfold g_promote in H. root H. destruct (mg_collective (gv_m s) !! who) as [r|] eqn:E; [|discriminate]. cbn in H.
    destruct (r + 1 <=? 65535) eqn:E1; [|discriminate]. apply N.leb_le in E1. injection H as <-. by eapply LKPromote.
  - unfold g_demote in H. root H. destruct (mg_collective (gv_m s) !! who) as [r|] eqn:E; [|discriminate]. cbn in H. injection H as <-. by eapply LKDemote.
  - unfold g_remove in H. root H. destruct (mg_collective (gv_m s) !! who) as [r|] eqn:E; [|discriminate]. cbn in H.
    destruct (r <=? min_rank) eqn:E1; [|discriminate]. apply N.leb_le in E1. injection H as <-. by eapply LKRemove.
  - unfold g_exchange in H. root H. destruct (mg_collective (gv_m s) !! who) as [r|] eqn:E; [|discriminate]. cbn in H.
    destruct (mg_collective (gv_m s) !! new_who) as [r'|] eqn:E1; [discriminate|]. injection H as <-. by eapply LKExchange.
  - root H. destruct (gv_now s <? when) eqn:E; [|discriminate]. apply N.ltb_lt in E. injection H as <-. by eapply LKSchedule.
  - injection H as <-. by eapply LKOther.
Qed.

(* ------------------------------------------------------------------ *)
(** * What looking at a referendum does *)

Definition same_proposal (r r' : referendum) : Prop :=
  rf_track r' = rf_track r /\ rf_origin r' = rf_origin r /\ rf_call r' = rf_call r /\ rf_enact r' = rf_enact r /\ rf_submitted r' = rf_submitted r.

(** How an open referendum changes when it is looked at and goes on: the new [rf_deciding] and [rf_queued]. *)
Inductive goes_on (now : N) (ti : track_info) (app sup : N) (r : referendum) : option (N * option N) -> bool -> Prop :=
| GoWaiting : rf_deciding r = None -> goes_on now ti app sup r None (rf_queued r)
| GoQueued : rf_deciding r = None -> rf_queued r = false -> rf_deposit r = true -> rf_submitted r + ti_prepare ti <= now -> goes_on now ti app sup r None true
| GoBegin : rf_deciding r = None -> rf_queued r = false -> rf_deposit r = true -> rf_submitted r + ti_prepare ti <= now ->
    goes_on now ti app sup r (Some (now, if is_passing ti 0 app sup then Some (now + ti_confirm ti) else None)) false
| GoConfirming since until : rf_deciding r = Some (since, Some until) -> is_passing ti (now - since) app sup = true -> now < until ->
    goes_on now ti app sup r (Some (since, Some until)) (rf_queued r)
| GoConfirm since : rf_deciding r = Some (since, None) -> is_passing ti (now - since) app sup = true ->
    goes_on now ti app sup r (Some (since, Some (now + ti_confirm ti))) (rf_queued r)
| GoAbort since c : rf_deciding r = Some (since, c) -> is_passing ti (now - since) app sup = false ->
    goes_on now ti app sup r (Some (since, None)) (rf_queued r).

Lemma rset_deciding_id r : rset_deciding (rf_deciding r) (rf_queued r) r = r.
Proof. by destruct r. Qed.

Lemma service_cases e now timeout ti app sup r :
  let x := service e now timeout ti app sup r in
  (exists since until, rf_deciding r = Some (since, Some until) /\ until <= now /\ is_passing ti (now - since) app sup = true /\ x = RApproved now) \/
  x = RRejected now \/ x = RTimedOut now \/
  (exists d q, x = ROngoing (rset_deciding d q r) /\ goes_on now ti app sup r d q).
Proof.
  cbv zeta. unfold service. destruct (rf_deciding r) as [[since c]|] eqn:Ed.
  - destruct (is_passing _ _ _ _) eqn:Ep.
    + destruct c as [t|].
      * destruct (t <=? now) eqn:Et; [apply N.leb_le in Et; left; eauto 10|]. apply N.leb_gt in Et.
        right; right; right. exists (rf_deciding r), (rf_queued r). rewrite rset_deciding_id. split; [done|]. rewrite Ed. by eapply GoConfirming.
      * right; right; right. eexists _, _. split; [done|]. by eapply GoConfirm.
    + destruct (_ <=? now); [by (right; left)|]. right; right; right. eexists _, _. split; [done|]. by eapply GoAbort.
  - destruct (rf_queued r) eqn:Eq.
    { right; right; right. exists (rf_deciding r), (rf_queued r). rewrite rset_deciding_id. split; [done|]. rewrite Ed. by apply GoWaiting. }
    destruct (rf_deposit r && _) eqn:E.
    + apply andb_true_iff in E as [E1 E2]. apply N.leb_le in E2. destruct (ge_slot e).
      * right; right; right. eexists _, _. split; [done|]. by eapply GoBegin.
      * right; right; right. exists None, true. split; [unfold rset_queued; by rewrite Ed|]. by eapply GoQueued.
    + destruct (_ + timeout <=? now); [by (right; right; left)|]. right; right; right. exists (rf_deciding r), (rf_queued r).
      rewrite rset_deciding_id. split; [done|]. rewrite Ed. by apply GoWaiting.
Qed.

Lemma put_status_fields s i p x : let s' := put_status s i p x in
  gv_refs s' = <[(i, p) := x]> (gv_refs s) /\ gv_count s' = gv_count s /\ gv_tally s' = gv_tally s /\ gv_votes s' = gv_votes s /\
  gv_agenda s' = gv_agenda s /\ gv_now s' = gv_now s /\ mg_tracks (gv_m s') = mg_tracks (gv_m s) /\ mg_track_of (gv_m s') = mg_track_of (gv_m s) /\
  mg_collective (gv_m s') = mg_collective (gv_m s) /\
  (c_polls (mg_c (gv_m s')) = c_polls (mg_c (gv_m s)) \/
   ((forall r, x <> ROngoing r) /\ i = Community /\ c_polls (mg_c (gv_m s')) = <[p := Completed]> (c_polls (mg_c (gv_m s))))).
Proof.
  destruct i, x; cbn; split_and!; try done; eauto; right; done.
Qed.

(* ------------------------------------------------------------------ *)
(** * The invariant *)

Record ginv (s : gstate) : Prop := GInv {
  gi_index : forall i p x, gv_refs s !! (i, p) = Some x -> p < gv_count s i;
  gi_collective : forall p r, is_open s Collective p r -> kreivo_track_for (rf_origin r) = Some (rf_track r) /\ exists t, gv_tally s !! p = Some t;
  gi_community : forall p r, is_open s Community p r -> rf_origin r = OCommunity (rf_track r) None /\
    exists t, c_polls (mg_c (gv_m s)) !! p = Some (Ongoing t (rf_track r));
  gi_polls : forall p, c_polls (mg_c (gv_m s)) !! p <> None -> p < gv_count s Community;
  gi_tracks : forall o g, mg_track_of (gv_m s) o = Some g -> o = OCommunity g None;
  gi_tasks : forall t, In t (gv_agenda s) -> match tk_source t with
    | None => tk_origin t = ORoot
    | Some (i, p) => (exists n, gv_refs s !! (i, p) = Some (RApproved n)) /\
        match i with Collective => kreivo_track_for (tk_origin t) <> None | Community => exists g, tk_origin t = OCommunity g None end
    end;
  gi_once : NoDup (omap tk_source (gv_agenda s))
}.

Lemma ginv_start ranks now : ginv (g_start ranks now).
Proof.
  constructor; cbn; try done; unfold is_open; cbn.
  - constructor.
Qed.

Lemma ginv_m s m' : m_change (gv_m s) m' -> ginv s -> ginv (gset_m m' s).
Proof.
  intros [Hp Ht Hc] [I1 I2 I3 I4 I5 I6 I7]. constructor; cbn; try done.
  - intros p r Hr. destruct (I3 p r Hr) as [E [t Et]]. split; [done|]. specialize (Hp p). rewrite Et in Hp. cbn in Hp.
    destruct (c_polls (mg_c m') !! p) as [[t' g|]|]; try discriminate. cbn in Hp. injection Hp as ->. eauto.
  - intros p H. apply I4. specialize (Hp p). destruct (c_polls (mg_c m') !! p) as [x|]; [|done]. cbn in Hp.
    destruct (c_polls (mg_c (gv_m s)) !! p); done.
  - intros o g Hg. apply Ht in Hg as [?| ->]; [by apply I5|done].
Qed.
Lemma ginv_collective s x : ginv s -> ginv (gset_collective x s).
Proof. intros [I1 I2 I3 I4 I5 I6 I7]. by constructor. Qed.
Lemma ginv_now s n : ginv s -> ginv (gset_now n s).
Proof. intros [I1 I2 I3 I4 I5 I6 I7]. by constructor. Qed.

Lemma delete_sublist {A} n (l : list A) : sublist (delete n l) l.
Proof. revert n. induction l as [|x l IH]; intros [|n]; cbn; try by constructor; eauto. Qed.
Lemma omap_sublist {A B} (f : A -> option B) l l' : sublist l l' -> sublist (omap f l) (omap f l').
Proof. induction 1; cbn; [constructor| |]; destruct (f x); [by constructor|done|by constructor|done]. Qed.
Lemma in_sublist {A} (l l' : list A) x : sublist l l' -> In x l -> In x l'.
Proof. induction 1; cbn; tauto. Qed.

Lemma NoDup_sublist {A} (l l' : list A) : sublist l l' -> NoDup l' -> NoDup l.
Proof.
  induction 1; [done| |]; intros [Hx Hl]%NoDup_cons.
  - constructor; [|by apply IHsublist]. intros Hin. apply Hx. apply elem_of_list_In. eapply in_sublist; [done|]. by apply elem_of_list_In.
  - by apply IHsublist.
Qed.

Lemma ginv_take s n : ginv s -> ginv (gset_agenda (delete n (gv_agenda s)) s).
Proof.
  intros [I1 I2 I3 I4 I5 I6 I7]. pose proof (delete_sublist n (gv_agenda s)) as Hs. constructor; cbn; try done.
  - intros t Ht. apply I6. by eapply in_sublist.
  - eapply NoDup_sublist; [by apply omap_sublist|done].
Qed.

Lemma ginv_put s i p r x : ginv s -> is_open s i p r -> (forall r', x = ROngoing r' -> same_proposal r r') -> ginv (put_status s i p x).
Proof.
  intros [I1 I2 I3 I4 I5 I6 I7] Hr Hx. destruct (put_status_fields s i p x) as (E1 & E2 & E3 & E4 & E5 & E6 & E7 & E8 & E9 & E10).
  constructor; rewrite ?E1, ?E2, ?E3, ?E4, ?E5, ?E6, ?E7, ?E8; unfold is_open in *; try rewrite E1.
  - intros j q y. rewrite lookup_insert_Some. intros [[[= <- <-] <-]|[_ H]]; eauto.
  - intros q y. rewrite lookup_insert_Some. intros [[[= -> ->] ->]|[_ H]]; [|eauto].
    destruct (Hx y eq_refl) as (T1 & T2 & _). rewrite T1, T2. by apply I2.
  - intros q y. rewrite lookup_insert_Some. intros [[[= -> ->] ->]|[Hn H]].
    + destruct (Hx y eq_refl) as (T1 & T2 & _). rewrite T1, T2. destruct E10 as [->|[Hf _]]; [by apply I3|]. by exfalso; eapply Hf.
    + destruct E10 as [->|(_ & -> & ->)]; [by apply I3|]. rewrite lookup_insert_ne by congruence. by apply I3.
  - intros q H. destruct E10 as [E|(_ & -> & E)]; rewrite E in H; [by apply I4|].
    destruct (decide (q = p)) as [->|]; [by eapply I1|]. rewrite lookup_insert_ne in H by done. by apply I4.
  - done.
  - intros t Ht. specialize (I6 t Ht). destruct (tk_source t) as [[j q]|]; [|done]. destruct I6 as [[n Hn] H6]. split; [|done].
    exists n. rewrite lookup_insert_ne; [done|]. intros [= -> ->]. congruence.
  - done.
Qed.

Lemma ginv_service e s i p : ginv s -> ginv (g_service e s i p).
Proof.
  intros I. unfold g_service. destruct (gv_refs s !! (i, p)) as [[r| | | | |]|] eqn:Hr; try done.
  destruct (gtally s i p) as [t|] eqn:Ht; [|done]. destruct (track_info_of s i (rf_track r)) as [ti|] eqn:Hti; [|done].
  destruct (service_cases e (gv_now s) (undeciding_timeout i) ti (approval t) (gsupport e s i (rf_track r) t) r)
    as [(since & until & _ & _ & _ & E)|[E|[E|(d & q & E & _)]]]; rewrite E; try (eapply ginv_put; [done|done|done]).
  2: { eapply ginv_put; [done..|]. by intros r' [= <-]. }
  assert (I' : ginv (put_status s i p (RApproved (gv_now s)))) by (by eapply ginv_put).
  destruct (ge_sched_ok e); [|done].
  destruct (put_status_fields s i p (RApproved (gv_now s))) as (E1 & E2 & E3 & E4 & E5 & E6 & E7 & E8 & E9 & E10).
  set (s1 := put_status _ _ _ _) in *. destruct I' as [I1 I2 I3 I4 I5 I6 I7]. constructor; cbn; try done.
  - intros t' [Ht'|[<-|[]]]%in_app_or; [by apply I6|]. cbn. rewrite E1, lookup_insert. split; [by eexists|].
    destruct i; [destruct (gi_collective _ I p r Hr) as [-> _]; done|destruct (gi_community _ I p r Hr) as [-> _]; by eexists].
  - rewrite omap_app. cbn. apply NoDup_app. split_and!; [done| |apply NoDup_singleton].
    intros [j q] Hin Hin'. apply elem_of_list_singleton in Hin' as [= -> ->]. apply elem_of_list_omap in Hin as (t' & Hin & Hs).
    rewrite E5 in Hin. apply elem_of_list_In in Hin. pose proof (gi_tasks _ I t' Hin) as H. rewrite Hs in H. destruct H as [[n Hn] _]. congruence.
Qed.
Lemma ginv_next e s i p : ginv s -> ginv (g_next e s i p).
Proof.
  intros I. unfold g_next. destruct (gv_refs s !! (i, p)) as [[r| | | | |]|] eqn:Hr; try done.
  destruct (gtally s i p) as [t|] eqn:Ht; [|done]. destruct (track_info_of s i (rf_track r)) as [ti|] eqn:Hti; [|done].
  destruct (_ && _); [|done]. eapply ginv_put; [done..|]. by intros r' [= <-].
Qed.

Lemma submit_fields e s o i po k w s' : g_submit e s o i po k w = Some s' -> exists t,
  track_for s i po = Some t /\ gv_refs s' = <[(i, gv_count s i) := ROngoing (Referendum t po k w (gv_now s) false None false)]> (gv_refs s) /\
  gv_count s' i = gv_count s i + 1 /\ (forall j, j <> i -> gv_count s' j = gv_count s j) /\
  gv_tally s' = (match i with Collective => <[gv_count s i := empty_tally]> (gv_tally s) | Community => gv_tally s end) /\
  c_polls (mg_c (gv_m s')) = (match i with Collective => c_polls (mg_c (gv_m s)) | Community => <[gv_count s i := Ongoing empty_tally t]> (c_polls (mg_c (gv_m s))) end) /\
  gv_votes s' = gv_votes s /\ gv_agenda s' = gv_agenda s /\ gv_now s' = gv_now s /\ mg_tracks (gv_m s') = mg_tracks (gv_m s) /\
  mg_track_of (gv_m s') = mg_track_of (gv_m s) /\ mg_collective (gv_m s') = mg_collective (gv_m s).
Proof.
  unfold g_submit. destruct (submit_origin s i o po) as [w0|]; [|discriminate]. cbn. destruct (track_for s i po) as [t|] eqn:Et; [|discriminate]. cbn.
  destruct (ge_deposit_ok e); [|discriminate]. cbn. intros [= <-]. exists t.
  destruct i; cbn; split_and!; try done; try (intros [] ?; done).
Qed.

Lemma ginv_submit e s o i po k w s' : g_submit e s o i po k w = Some s' -> ginv s -> ginv s'.
Proof.
  intros H [I1 I2 I3 I4 I5 I6 I7]. apply submit_fields in H as (t & Ht & E1 & E2 & E3 & E4 & E5 & E6 & E7 & E8 & E9 & E10 & E11).
  assert (Hcnt : forall j q, q < gv_count s j -> q < gv_count s' j).
  { intros j q Hq. destruct (decide (j = i)) as [->|]; [rewrite E2; lia|by rewrite E3]. }
  constructor; unfold is_open; rewrite ?E1, ?E4, ?E5, ?E6, ?E7, ?E8, ?E9, ?E10, ?E11; try done.
  - intros j q y. rewrite lookup_insert_Some. intros [[[= <- <-] <-]|[_ H]]; [rewrite E2; lia|]. eauto.
  - intros q y. rewrite lookup_insert_Some. intros [[[= -> <-] [= <-]]|[Hn H]].
    + cbn. split; [done|]. exists empty_tally. by rewrite lookup_insert.
    + destruct (I2 q y H) as [? [t' Ht']]. split; [done|]. destruct i; [|eauto]. rewrite lookup_insert_ne by congruence. eauto.
  - intros q y. rewrite lookup_insert_Some. intros [[[= -> <-] [= <-]]|[Hn H]].
    + cbn. split; [by apply I5|]. exists empty_tally. by rewrite lookup_insert.
    + destruct (I3 q y H) as [? [t' Ht']]. split; [done|]. destruct i; [eauto|]. rewrite lookup_insert_ne by congruence. eauto.
  - intros q H. destruct i; [by apply Hcnt, I4|]. destruct (decide (q = gv_count s Community)) as [->|]; [rewrite E2; lia|].
    rewrite lookup_insert_ne in H by done. by apply Hcnt, I4.
  - intros t' Ht'. specialize (I6 t' Ht'). destruct (tk_source t') as [[j q]|]; [|done]. destruct I6 as [[n Hn] H6]. split; [|done]. exists n.
    rewrite lookup_insert_ne; [done|]. intros [= -> <-]. apply I1 in Hn. lia.
Qed.

Lemma ginv_leaf e s o k s' : leaf_kind e s o k s' -> ginv s -> ginv s'.
Proof.
  intros H I. destruct H as [i po k' w t E0 H1 H2 H3|i p r t ti E0 Ho Hr Hd Ht Hti E|i p r E0 Ho Hr E|i p r E0 Ho Hr E|p aye who rank r t E0 E1 Hk Hk1 Hr Ht E
    |who r E0 Eo Hk Hle E|who r E0 Eo Hk E|who r m E0 Eo Hk Hle E|who r w E0 Eo Hk Hw E|m' E0 E Hm Hj|n k' E0 Eo Hn E|n E0 E].
  - by eapply ginv_submit.
  - rewrite E. destruct (service_cases e (gv_now s) (undeciding_timeout i) ti (approval t) (gsupport e s i (rf_track r) t) (rset_deposit r))
      as [(since & until & _ & _ & _ & ->)|[->|[->|(d & q & -> & _)]]]; eapply ginv_put; try done. by intros r' [= <-].
  - rewrite E. by eapply ginv_put.
  - rewrite E. by eapply ginv_put.
  - rewrite E. destruct I as [I1 I2 I3 I4 I5 I6 I7]. constructor; cbn; try done. intros q y Hy. destruct (I2 q y Hy) as [? [t' Ht']].
    split; [done|]. destruct (decide (q = p)) as [->|]; [rewrite lookup_insert; by eexists|rewrite lookup_insert_ne by done; by eexists].
  - rewrite E. by apply ginv_collective.
  - rewrite E. by apply ginv_collective.
  - rewrite E. by apply ginv_collective.
  - rewrite E. by apply ginv_collective.
  - rewrite E. by apply ginv_m.
  - rewrite E. destruct I as [I1 I2 I3 I4 I5 I6 I7]. constructor; cbn; try done.
    + intros t [Ht|[<-|[]]]%in_app_or; [by apply I6|done].
    + rewrite omap_app. cbn. by rewrite app_nil_r.
  - by rewrite E.
Qed.

Lemma ginv_step s x : ginv s -> ginv (gstep_run s x).
Proof.
  intros I. apply step_induct; try done.
  - intros s1 o1 k1 e s2 _ Hl I1 Hc. eapply ginv_leaf; [by apply leaf_kind_of|done].
  - intros. by apply ginv_take.
  - intros. by apply ginv_take.
  - intros. by apply ginv_service.
  - intros. by apply ginv_next.
  - intros. by apply ginv_now.
  - intros y _ Hy. unfold gset_c. apply ginv_m; [|done]. by apply outside_m_change.
Qed.
Lemma ginv_run s l : ginv s -> ginv (grun s l).
Proof. revert s. induction l as [|x l IH]; intros s I; [done|]. cbn. by apply IH, ginv_step. Qed.
Lemma grun_app s l l' : grun s (l ++ l') = grun (grun s l) l'.
Proof. apply fold_left_app. Qed.
Lemma grun_snoc s l x : grun s (l ++ [x]) = gstep_run (grun s l) x.
Proof. by rewrite grun_app. Qed.

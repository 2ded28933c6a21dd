(** Whatever happens with membership ids that repeat also happens with ids that are told apart: the histories of SharedIdsModel.v are those
    of CommunitiesModel.v under other ids. *)
From stdpp Require Import gmap.
From Verif Require Import Base XcmTypes OriginTypes AccountsModel CommunitiesModel CommunitiesSpec CommunitiesProofs CommunitiesTally SharedIdsModel SharedIds.
Open Scope N_scope.

(** One number for the membership [m] of community [g]. *)
Definition code (g m : N) : N := Npos (encode (g, m)).
Lemma code_inj g m g' m' : code g m = code g' m' -> g = g' /\ m = m'.
Proof. unfold code. intros [= H]. apply (inj encode) in H. by injection H as -> ->. Qed.

Definition put_mv (M : gmap N membership) (V : gmap (N * N) (vote * N)) (s : cstate) : cstate := set_members M (set_votes V s).

(** [cls]: the community of each poll there was. *)
Record twin (cls : gmap N N) (s : istate) (t : cstate) : Prop := Twin {
  tw_same : t = put_mv (c_members t) (c_votes t) (is_c s);
  tw_class : forall p y g, c_polls (is_c s) !! p = Some (Ongoing y g) -> cls !! p = Some g;
  tw_polls : forall p, c_polls (is_c s) !! p = None -> cls !! p = None;
  tw_voted : forall p m x, c_votes (is_c s) !! (p, m) = Some x -> exists g, cls !! p = Some g;
  tw_votes : forall p m g, cls !! p = Some g -> c_votes t !! (p, code g m) = c_votes (is_c s) !! (p, m);
  tw_only : forall p i x, c_votes t !! (p, i) = Some x -> exists g m, cls !! p = Some g /\ i = code g m;
  tw_members : forall g m, c_members t !! code g m = (fun x => Membership g x.1 x.2) <$> is_h s !! (g, m);
  tw_others : forall i x, c_members t !! i = Some x -> exists g m, i = code g m
}.

Lemma max_locked_same s s' k w : c_locks s' = c_locks s -> max_locked s' k w = max_locked s k w.
Proof. intros E. unfold max_locked. by rewrite E. Qed.

(** Locks and frozen amounts do not depend on votes and members. *)
Lemma add_lock_mv e s M V who p v : add_lock e (put_mv M V s) who p v = match add_lock e s who p v with COk s' => COk (put_mv M V s') | CErr er => CErr er end.
Proof.
  unfold add_lock. destruct (vote_lock v) as [[k n]|]; [|done]. unfold set_frozen, get_frozen, censure; cbn.
  by destruct (_ && _).
Qed.
Lemma remove_lock_mv e s M V who p v : remove_lock e (put_mv M V s) who p v = match remove_lock e s who p v with COk s' => COk (put_mv M V s') | CErr er => CErr er end.
Proof.
  unfold remove_lock. destruct (vote_lock v) as [[k n]|]; [|done]. unfold set_frozen, censure. cbn.
  rewrite (max_locked_same (set_locks (delete (who, p) (c_locks s)) s) (set_locks (delete (who, p) (c_locks s)) (put_mv M V s))) by done.
  by destruct (_ && _).
Qed.

Lemma memberless_mv s M V x : memberless x = true ->
  cstep_run kreivo_communities (put_mv M V s) x = put_mv M V (cstep_run kreivo_communities s x).
Proof.
  intros Hx. destruct x as [e o k|e admin id d|p g|p|id st|m y|a n|a y]; cbn in Hx |- *; try discriminate Hx.
  - destruct k as [admin id|admin|who|who m|m|m|id dm|m p v|m p|p]; try discriminate Hx; unfold cdispatch; cbn.
    + done.
    + unfold call_set_admin. cbn. change (kreivo_admin_origin (put_mv M V s) o) with (kreivo_admin_origin s o).
      destruct (kreivo_admin_origin s o) as [i|]; cbn; [|done]. unfold censure. by destruct (bool_decide _).
    + unfold call_set_method. cbn. change (kreivo_admin_origin (put_mv M V s) o) with (kreivo_admin_origin s o).
      destruct (kreivo_admin_origin s o) as [i|]; cbn; [|done]. destruct dm; try done. unfold create_asset. cbn. destruct (c_assets s !! _); [done|].
      by destruct (_ =? 0).
    + unfold call_unlock. destruct (ensure_signed o) as [w|]; cbn; [|done].
      destruct (censure _ _); cbn; [|done]. destruct (c_locks s !! (w, p)) as [v|]; cbn; [|done].
      rewrite remove_lock_mv. by destruct (remove_lock e s w p v).
  - unfold register, transfer. cbn. destruct (censure _ _); cbn; [|done]. destruct (censure _ _); cbn; [|done].
    destruct d as [[[n from] to]|]; cbn; [|done]. unfold balance; cbn. by destruct (censure _ _).
  - by destruct (c_polls s !! p).
  - by destruct (c_polls s !! p).
  - unfold force_state. cbn. by destruct (c_info s !! id).
  - done.
  - done.
Qed.

(* ------------------------------------------------------------------ *)
(** * Votes *)

Lemma rank_twin cls s t g m : twin cls s t -> forall dm, vote_multiplier t dm g (code g m) = vote_multiplier (set_members (members_of g (is_h s)) (is_c s)) dm g m.
Proof.
  intros T dm. unfold vote_multiplier, rank_of. destruct dm; try done. cbn. by rewrite (tw_members _ _ _ T), members_of_lookup.
Qed.

Lemma twin_votes cls s t : twin cls s t -> forall X, set_votes X t = put_mv (c_members t) X (is_c s).
Proof. intros T X. pose proof (tw_same _ _ _ T) as E. rewrite E at 1. done. Qed.

Lemma try_remove_twin cls s t e g dm m p s1 M0 : twin cls s t ->
  try_remove_vote e (set_members (members_of g (is_h s)) (is_c s)) g dm m p = COk s1 ->
  exists t1, try_remove_vote e t g dm (code g m) p = COk t1 /\ twin cls (IState (set_members M0 s1) (is_h s)) t1 /\
    c_members s1 = members_of g (is_h s) /\ c_members t1 = c_members t.
Proof.
  intros T. unfold try_remove_vote, ongoing. cbn.
  assert (Et : c_polls t = c_polls (is_c s)) by (rewrite (tw_same _ _ _ T); done). rewrite Et.
  destruct (c_polls (is_c s) !! p) as [[y g0|]|] eqn:Hp; cbn; try discriminate.
  unfold censure. destruct (N.eqb_spec g g0) as [<-|]; cbn; [|discriminate].
  pose proof (tw_class _ _ _ T _ _ _ Hp) as Hc. rewrite (tw_votes _ _ _ T p m g Hc).
  destruct (c_votes (is_c s) !! (p, m)) as [[v voter]|] eqn:Hv; cbn; [|discriminate].
  rewrite (rank_twin _ _ _ g m T dm).
  set (mult := vote_multiplier _ dm g m). set (y' := remove_vote_tally y _ _ _).
  replace (set_votes (delete (p, m) (c_votes (is_c s))) (set_members (members_of g (is_h s)) (is_c s)))
    with (put_mv (members_of g (is_h s)) (delete (p, m) (c_votes (is_c s))) (is_c s)) by done.
  rewrite (twin_votes _ _ _ T).
  rewrite !remove_lock_mv. destruct (remove_lock e (is_c s) voter p v) as [s2|] eqn:E; cbn; [|discriminate]. intros [= <-].
  eexists. split; [reflexivity|]. split_and!; [|done|done].
  apply remove_lock_ok in E. assert (c_polls s2 = c_polls (is_c s)) as EP.
  { rewrite E. unfold lock_removed. by destruct (vote_lock v) as [[]|]. }
  split; cbn.
  - done.
  - intros q y0 g0 H. rewrite EP in H. apply lookup_insert_Some in H as [[<- [= <- <-]]|[Hne H]]; [done|]. by apply (tw_class _ _ _ T) in H.
  - intros q H. rewrite EP in H. apply lookup_insert_None in H as [H _]. by apply (tw_polls _ _ _ T).
  - intros q m0 x H. apply lookup_delete_Some in H as [_ H]. by apply (tw_voted _ _ _ T) in H.
  - intros q m0 g0 H. destruct (decide ((q, m0) = (p, m))) as [[= -> ->]|Hne].
    + assert (g0 = g) as -> by congruence. by rewrite !lookup_delete.
    + rewrite (lookup_delete_ne (c_votes (is_c s))) by congruence. rewrite lookup_delete_ne; [by apply (tw_votes _ _ _ T)|].
      intros E0. assert (p = q /\ code g m = code g0 m0) as [<- HE] by (split; congruence). apply code_inj in HE as [<- <-]. done.
  - intros q i x H. apply lookup_delete_Some in H as [_ H]. by apply (tw_only _ _ _ T) in H.
  - exact (tw_members _ _ _ T).
  - exact (tw_others _ _ _ T).
Qed.

Lemma try_vote_twin cls s t e g dm who m p v s1 M0 : twin cls s t ->
  try_vote e (set_members (members_of g (is_h s)) (is_c s)) g dm who m p v = COk s1 ->
  exists t1, try_vote e t g dm who (code g m) p v = COk t1 /\ twin cls (IState (set_members M0 s1) (is_h s)) t1.
Proof.
  intros T. unfold try_vote, ongoing. cbn.
  assert (Et : c_polls t = c_polls (is_c s)) by (rewrite (tw_same _ _ _ T); done). rewrite Et.
  destruct (c_polls (is_c s) !! p) as [[y g0|]|] eqn:Hp; cbn; try discriminate.
  unfold censure. destruct (N.eqb_spec g g0) as [<-|]; cbn; [|discriminate].
  pose proof (tw_class _ _ _ T _ _ _ Hp) as Hc.
  assert (Em : method_of t g = method_of (is_c s) g) by (rewrite (tw_same _ _ _ T); done).
  change (method_of (set_members (members_of g (is_h s)) (is_c s)) g) with (method_of (is_c s) g). rewrite Em.
  rewrite (rank_twin _ _ _ g m T). set (mult := vote_multiplier _ _ g m).
  destruct (check_vote_type v dm) as [say|] eqn:Hs; cbn; [|discriminate].
  replace (set_votes (<[(p, m) := (v, who)]> (c_votes (is_c s))) (set_members (members_of g (is_h s)) (is_c s)))
    with (put_mv (members_of g (is_h s)) (<[(p, m) := (v, who)]> (c_votes (is_c s))) (is_c s)) by done.
  rewrite (twin_votes _ _ _ T).
  rewrite !add_lock_mv. destruct (add_lock e (is_c s) who p v) as [s2|] eqn:E; cbn; [|discriminate]. intros [= <-].
  eexists. split; [reflexivity|].
  apply add_lock_ok in E. assert (c_polls s2 = c_polls (is_c s)) as EP.
  { rewrite E. unfold lock_added. by destruct (vote_lock v) as [[]|]. }
  split; cbn.
  - done.
  - intros q y0 g0 H. rewrite EP in H. apply lookup_insert_Some in H as [[<- [= <- <-]]|[Hne H]]; [done|]. by apply (tw_class _ _ _ T) in H.
  - intros q H. rewrite EP in H. apply lookup_insert_None in H as [H _]. by apply (tw_polls _ _ _ T).
  - intros q m0 x H. apply lookup_insert_Some in H as [[[= <- <-] _]|[_ H]]; [by exists g|]. by apply (tw_voted _ _ _ T) in H.
  - intros q m0 g0 H. destruct (decide ((q, m0) = (p, m))) as [[= -> ->]|Hne].
    + assert (g0 = g) as -> by congruence. by rewrite !lookup_insert.
    + rewrite (lookup_insert_ne (c_votes (is_c s))) by congruence. rewrite lookup_insert_ne; [by apply (tw_votes _ _ _ T)|].
      intros E0. assert (p = q /\ code g m = code g0 m0) as [<- HE] by (split; congruence). apply code_inj in HE as [<- <-]. done.
  - intros q i x H. apply lookup_insert_Some in H as [[[= <- <-] _]|[_ H]]; [by exists g, m|]. by apply (tw_only _ _ _ T) in H.
  - exact (tw_members _ _ _ T).
  - exact (tw_others _ _ _ T).
Qed.

Lemma check_twin cls s t who g m r : twin cls s t -> is_h s !! (g, m) = Some (who, r) ->
  check_membership t who (code g m) = Some g /\ check_membership (set_members (members_of g (is_h s)) (is_c s)) who m = Some g.
Proof.
  intros T H. unfold check_membership. cbn. rewrite (tw_members _ _ _ T), members_of_lookup, H. cbn. by rewrite N.eqb_refl.
Qed.

Lemma twin_members cls s t M : twin cls s t -> twin cls (IState (set_members M (is_c s)) (is_h s)) t.
Proof. intros T. destruct T as [T1 T2 T3 T4 T5 T6 T7 T8]. split; cbn; try done. Qed.

Lemma vote_twin order cls s t e o m p v s' : twin cls s t -> vote_in order e s o m p v = COk s' ->
  exists g t' evs, call_vote e t o (code g m) p v = COk (t', evs) /\ twin cls s' t'.
Proof.
  intros T H. apply vote_in_ok in H as (who & g & r & u & evs & -> & F & Hr & H & ->). exists g.
  destruct (check_twin _ _ _ _ _ _ _ T Hr) as [C1 C2].
  unfold call_vote in *. destruct (censure (0 <? vote_weight v) EVoteBelowMinimum); cbn in *; [|discriminate H].
  rewrite C1. rewrite C2 in H. cbn in *.
  assert (Em : method_of t g = method_of (is_c s) g) by (rewrite (tw_same _ _ _ T); done).
  change (method_of (set_members (members_of g (is_h s)) (is_c s)) g) with (method_of (is_c s) g) in H. rewrite Em.
  assert (exists y, c_polls (is_c s) !! p = Some (Ongoing y g)) as [y Hp].
  { destruct (c_votes (is_c s) !! (p, m)).
    - destruct (try_remove_vote _ _ _ _ _ _) as [s1|] eqn:E1; cbn in H; [|discriminate H]. apply try_remove_vote_ok in E1 as (y & ? & ? & Hp & _). by eauto.
    - cbn in H. destruct (try_vote _ _ _ _ _ _ _ _) as [s2|] eqn:E2; cbn in H; [|discriminate H]. apply try_vote_ok in E2 as (y & Hp & _). by exists y. }
  pose proof (tw_class _ _ _ T _ _ _ Hp) as Hc. rewrite (tw_votes _ _ _ T p m g Hc).
  destruct (c_votes (is_c s) !! (p, m)).
  - destruct (try_remove_vote _ _ _ _ _ _) as [s1|] eqn:E1; cbn in H; [|discriminate H].
    eapply (try_remove_twin _ _ _ _ _ _ _ _ _ (c_members (is_c s)) T) in E1 as (t1 & E1' & T1 & Em1 & _). rewrite E1'. cbn.
    destruct (try_vote _ s1 _ _ _ _ _ _) as [s2|] eqn:E2; cbn in H; [|discriminate H]. injection H as <- <-.
    assert (s1 = set_members (members_of g (is_h s)) (set_members (c_members (is_c s)) s1)) as Es1 by (destruct s1; cbn in *; by subst).
    rewrite Es1 in E2.
    eapply (try_vote_twin _ (IState (set_members (c_members (is_c s)) s1) (is_h s)) _ _ _ _ _ _ _ _ _ (c_members (is_c s)) T1) in E2 as (t2 & E2' & T2).
    rewrite E2'. cbn. by exists t2, [EvVoteCasted who p v].
  - cbn in H |- *. destruct (try_vote _ _ _ _ _ _ _ _) as [s2|] eqn:E2; cbn in H; [|discriminate H]. injection H as <- <-.
    eapply (try_vote_twin _ _ _ _ _ _ _ _ _ _ _ (c_members (is_c s)) T) in E2 as (t2 & E2' & T2).
    rewrite E2'. cbn. by exists t2, [EvVoteCasted who p v].
Qed.
Lemma remove_twin order cls s t e o m p s' : twin cls s t -> remove_in order e s o m p = COk s' ->
  exists g t' evs, call_remove_vote e t o (code g m) p = COk (t', evs) /\ twin cls s' t'.
Proof.
  intros T H. apply remove_in_ok in H as (who & g & r & u & evs & -> & F & Hr & H & ->). exists g.
  destruct (check_twin _ _ _ _ _ _ _ T Hr) as [C1 C2].
  unfold call_remove_vote in *. cbn in *. rewrite C1. rewrite C2 in H. cbn in *.
  assert (Em : method_of t g = method_of (is_c s) g) by (rewrite (tw_same _ _ _ T); done).
  change (method_of (set_members (members_of g (is_h s)) (is_c s)) g) with (method_of (is_c s) g) in H. rewrite Em.
  destruct (try_remove_vote _ _ _ _ _ _) as [s1|] eqn:E1; cbn in H; [|discriminate H]. injection H as <- <-.
  eapply (try_remove_twin _ _ _ _ _ _ _ _ _ (c_members (is_c s)) T) in E1 as (t1 & E1' & T1 & _). rewrite E1'. cbn.
  by exists t1, [EvVoteRemoved who p].
Qed.

(* ------------------------------------------------------------------ *)
(** * Histories *)

Lemma twin_empty : twin ∅ i_empty c_empty.
Proof. split; cbn; done. Qed.

(** What goes on beside the memberships. *)
Lemma twin_other cls s t x : twin cls s t -> memberless x = true ->
  exists cls', twin cls' (IState (cstep_run kreivo_communities (is_c s) x) (is_h s)) (cstep_run kreivo_communities t x).
Proof.
  intros T Hx. pose proof (tw_same _ _ _ T) as E. rewrite E. rewrite (memberless_mv _ _ _ _ Hx).
  pose proof (step_kind_of kreivo_communities (is_c s) x) as HS. set (s' := cstep_run kreivo_communities (is_c s) x) in *. clearbody s'.
  destruct HS as [(E1 & _ & _ & E4)|e who m p v -> _|e who m p -> _|e who p _ (v & _ & _ & ->)|p g Hp ->|p y Hp ->]; try discriminate Hx.
  - exists cls. destruct T as [T1 T2 T3 T4 T5 T6 T7 T8]. split; cbn; rewrite ?E1, ?E4; done.
  - exists cls. destruct (lock_removed_fields (is_c s) who p v) as (_ & _ & _ & E4 & E5 & _).
    destruct T as [T1 T2 T3 T4 T5 T6 T7 T8]. split; cbn; rewrite ?E4, ?E5; done.
  - exists (<[p := g]> cls). pose proof (tw_polls _ _ _ T _ Hp) as Hc.
    destruct T as [T1 T2 T3 T4 T5 T6 T7 T8]. split; cbn; try done.
    + intros q y0 g0 H. apply lookup_insert_Some in H as [[<- [= _ <-]]|[Hne H]]; [by rewrite lookup_insert|].
      rewrite lookup_insert_ne by done. by apply T2 in H.
    + intros q H. apply lookup_insert_None in H as [H Hne]. rewrite lookup_insert_ne by done. by apply T3.
    + intros q m x0 H. apply T4 in H as [g0 H]. destruct (decide (p = q)) as [<-|Hne]; [congruence|]. exists g0. by rewrite lookup_insert_ne.
    + intros q m g0 H. apply lookup_insert_Some in H as [[<- <-]|[Hne H]]; [|by apply T5].
      destruct (c_votes t !! (p, code g m)) eqn:E1; [apply T6 in E1 as (? & ? & ? & _); congruence|].
      destruct (c_votes (is_c s) !! (p, m)) eqn:E2; [apply T4 in E2 as (? & ?); congruence|done].
    + intros q i x0 H. apply T6 in H as (g0 & m & H & ->). exists g0, m. split; [|done].
      destruct (decide (p = q)) as [<-|Hne]; [congruence|]. by rewrite lookup_insert_ne.
  - exists cls. destruct T as [T1 T2 T3 T4 T5 T6 T7 T8]. split; cbn; try done.
    + intros q y0 g0 H. apply lookup_insert_Some in H as [[<- [=]]|[Hne H]]. by apply T2 in H.
    + intros q H. apply lookup_insert_None in H as [H Hne]. by apply T3.
Qed.

Lemma twin_item cls s t g m x : twin cls s t ->
  twin cls (istep_run kreivo_communities [] s (IItem g m x))
    (cstep_run kreivo_communities t (StMember (code g m) ((fun y => Membership g y.1 y.2) <$> x))).
Proof.
  intros T. pose proof (tw_same _ _ _ T) as E. destruct T as [T1 T2 T3 T4 T5 T6 T7 T8]. split; cbn; try done.
  - rewrite E at 1. done.
  - intros g0 m0. destruct x as [y|]; cbn.
    + destruct (decide ((g0, m0) = (g, m))) as [[= -> ->]|Hne]; [by rewrite !lookup_insert|].
      rewrite (lookup_insert_ne (is_h s)) by done. rewrite lookup_insert_ne; [done|]. intros HE. apply code_inj in HE as [-> ->]. done.
    + destruct (decide ((g0, m0) = (g, m))) as [[= -> ->]|Hne]; [by rewrite !lookup_delete|].
      rewrite (lookup_delete_ne (is_h s)) by done. rewrite lookup_delete_ne; [done|]. intros HE. apply code_inj in HE as [-> ->]. done.
  - intros i x0 H. destruct x as [y|]; cbn in H.
    + apply lookup_insert_Some in H as [[<- _]|[_ H]]; [by exists g, m|by apply T8 in H].
    + apply lookup_delete_Some in H as [_ H]. by apply T8 in H.
Qed.

(** Every step has at most one counterpart. *)
Lemma twin_step order cls s t x : twin cls s t -> let s' := istep_run kreivo_communities order s x in
  (s' = s) \/ exists cls' y, twin cls' s' (cstep_run kreivo_communities t y).
Proof.
  intros T. destruct x as [e o m p v|e o m p|g m x|x]; cbn zeta; cbn [istep_run].
  - destruct (vote_in order e s o m p v) as [s'|] eqn:E; [|by left]. right.
    apply (vote_twin _ _ _ _ _ _ _ _ _ _ T) in E as (g & t' & evs & E & T'). exists cls, (StCall e o (CVote (code g m) p v)).
    cbn. unfold cdispatch. cbn. by rewrite E.
  - destruct (remove_in order e s o m p) as [s'|] eqn:E; [|by left]. right.
    apply (remove_twin _ _ _ _ _ _ _ _ _ T) in E as (g & t' & evs & E & T'). exists cls, (StCall e o (CRemoveVote (code g m) p)).
    cbn. unfold cdispatch. cbn. by rewrite E.
  - right. exists cls, (StMember (code g m) ((fun y => Membership g y.1 y.2) <$> x)). by apply twin_item.
  - destruct (memberless x) eqn:Hx; [|by left]. right. destruct (twin_other _ _ _ _ T Hx) as [cls' T']. by exists cls', x.
Qed.

Lemma irun_app c order s l x : irun c order s (l ++ [x]) = istep_run c order (irun c order s l) x.
Proof. unfold irun. by rewrite fold_left_app. Qed.

Lemma twin_run order l : exists cls l', twin cls (irun kreivo_communities order i_empty l) (crun kreivo_communities c_empty l').
Proof.
  induction l as [|x l IH] using rev_ind; [exists ∅, []; exact twin_empty|]. destruct IH as (cls & l' & T). rewrite irun_app.
  destruct (twin_step order _ _ _ x T) as [E|(cls' & y & T')]; cbn zeta in *.
  - rewrite E. by exists cls, l'.
  - exists cls', (l' ++ [y]). by rewrite crun_app.
Qed.

(** Kreivo's governance: ranks, votes and what an approval takes. *)
From stdpp Require Import gmap.
From Verif Require Import Base XcmTypes OriginTypes AccountsModel CommunitiesModel CommunitiesSpec CommunitiesProofs CommunitiesTally CommunitiesRegistry TracksModel TracksSpec
  TracksProofs ManagerModel ManagerSpec ManagerProofs XcmConfigModel GovernanceModel GovernanceSpec GovernanceProofs GovernanceMore.
Open Scope N_scope.

Local Opaque community_account treasury_account community_deposit kreivo_tracks.

(* ------------------------------------------------------------------ *)
(** * Ranks *)

Lemma service_collective e s i p : mg_collective (gv_m (g_service e s i p)) = mg_collective (gv_m s).
Proof.
  destruct (service_effect e s i p) as [->|(r0 & t & ti & y & _ & _ & _ & _ & _ & [->|[_ ->]])]; [done|..];
    by destruct (put_status_fields s i p y) as (_ & _ & _ & _ & _ & _ & _ & _ & ? & _).
Qed.
Lemma next_collective e s i p : mg_collective (gv_m (g_next e s i p)) = mg_collective (gv_m s).
Proof.
  destruct (next_effect e s i p) as [->|(r0 & t & ti & _ & _ & _ & _ & _ & ->)]; [done|].
  by destruct (put_status_fields s i p (ROngoing (begin_deciding (gv_now s) ti (approval t) (gsupport e s i (rf_track r0) t) r0))) as (_ & _ & _ & _ & _ & _ & _ & _ & ? & _).
Qed.
Lemma outside_collective s y : mg_collective (gv_m (gset_c (cstep_run kreivo_communities (mg_c (gv_m s)) y) s)) = mg_collective (gv_m s).
Proof. done. Qed.

(** What a call does to the rank of [who]. *)
Lemma leaf_rank e s o k s' acc : leaf_kind e s o k s' ->
  collective_rank s' acc = collective_rank s acc \/ (o = ORoot /\ ranks_call k acc) \/
  (collective_rank s acc = None /\ collective_rank s' acc = Some 0 /\ joins k acc).
Proof.
  unfold collective_rank. intros H. leaf_cases H; try (left; rewrite E; done).
  - left. by destruct (submit_fields _ _ _ _ _ _ _ _ H3) as (t' & _ & _ & _ & _ & _ & _ & _ & _ & _ & _ & _ & ->).
  - left. rewrite E. by destruct (put_status_fields s i p (service e (gv_now s) (undeciding_timeout i) ti (approval t) (gsupport e s i (rf_track r) t) (rset_deposit r))) as (_ & _ & _ & _ & _ & _ & _ & _ & -> & _).
  - left. rewrite E. by destruct (put_status_fields s i p (RCancelled (gv_now s))) as (_ & _ & _ & _ & _ & _ & _ & _ & -> & _).
  - left. rewrite E. by destruct (put_status_fields s i p (RKilled (gv_now s))) as (_ & _ & _ & _ & _ & _ & _ & _ & -> & _).
  - destruct (decide (who = acc)) as [->|]; [right; left; split; [done|]; unfold ranks_call; subst; eauto 8|]. left. rewrite E. cbn. by rewrite lookup_insert_ne.
  - destruct (decide (who = acc)) as [->|]; [right; left; split; [done|]; unfold ranks_call; subst; eauto 8|]. left. rewrite E. cbn.
    destruct (r =? 0); [by rewrite lookup_delete_ne|by rewrite lookup_insert_ne].
  - destruct (decide (who = acc)) as [->|]; [right; left; split; [done|]; unfold ranks_call; subst; eauto 8|]. left. rewrite E. cbn. by rewrite lookup_delete_ne.
  - destruct (decide (who = acc)) as [->|]; [right; left; split; [done|]; unfold ranks_call; subst; eauto 8|].
    destruct (decide (w = acc)) as [->|]; [right; left; split; [done|]; unfold ranks_call; subst; eauto 8|]. left. rewrite E. cbn. by rewrite lookup_insert_ne, lookup_delete_ne.
  - rewrite E. cbn. destruct Hm as [_ _ Hc]. destruct (Hc acc) as [Hc'|[Hc1 Hc2]]; [by left|]. right; right. split_and!; [done..|]. apply Hj. congruence.
Qed.

(** A rank changes because root said so; an account joins, at rank 0, because it is that of a community that is registered. *)
Lemma ranks_by_root : forall s x who,
  collective_rank (gstep_run s x) who <> collective_rank s who ->
  (exists s1 k, happens s x s1 ORoot k /\ ranks_call k who) \/
  (collective_rank s who = None /\ collective_rank (gstep_run s x) who = Some 0 /\
   exists s1 o id name a dm ti, happens s x s1 o (GRegister id name a dm ti) /\ who = community_account id).
Proof.
  intros s x who Hne.
  cut (collective_rank (gstep_run s x) who = collective_rank s who \/ (exists s1 k, happens s x s1 ORoot k /\ ranks_call k who) \/
    (collective_rank s who = None /\ collective_rank (gstep_run s x) who = Some 0 /\
     exists s1 o id name a dm ti, happens s x s1 o (GRegister id name a dm ti) /\ who = community_account id)); [tauto|]. clear Hne.
  apply (step_induct (fun s' => collective_rank s' who = collective_rank s who \/ (exists s1 k, happens s x s1 ORoot k /\ ranks_call k who) \/
    (collective_rank s who = None /\ collective_rank s' who = Some 0 /\
     exists s1 o id name a dm ti, happens s x s1 o (GRegister id name a dm ti) /\ who = community_account id))); unfold collective_rank; try (by left).
  - intros s1 o1 k1 e s2 Hh Hl IH Hc. apply leaf_kind_of in Hc; [|done].
    destruct (leaf_rank _ _ _ _ _ who Hc) as [E|[[-> Hk]|(E1 & E2 & (id & name & a & dm & ti & -> & Hid))]]; unfold collective_rank in *.
    + by rewrite E.
    + right. left. eauto.
    + destruct IH as [IH|[IH|(IH & IH2 & _)]]; [|by right; left|congruence]. right. right. rewrite <- IH. split_and!; [done..|]. eauto 12.
  - intros e i p _. left. by rewrite service_collective.
  - intros e i p _. left. by rewrite next_collective.
Qed.

(** Ranks are u16. *)
Definition ranks_fit (s : gstate) : Prop := forall who r, collective_rank s who = Some r -> r <= 65535.
Lemma ranks_fit_leaf e s o k s' : leaf_kind e s o k s' -> ranks_fit s -> ranks_fit s'.
Proof.
  intros H Hf acc rw. unfold collective_rank, ranks_fit, collective_rank in *. leaf_cases H; try (rewrite E; cbn; apply Hf).
  - destruct (submit_fields _ _ _ _ _ _ _ _ H3) as (t' & _ & _ & _ & _ & _ & _ & _ & _ & _ & _ & _ & ->). apply Hf.
  - rewrite E. destruct (put_status_fields s i p (service e (gv_now s) (undeciding_timeout i) ti (approval t) (gsupport e s i (rf_track r) t) (rset_deposit r))) as (_ & _ & _ & _ & _ & _ & _ & _ & -> & _). apply Hf.
  - rewrite E. destruct (put_status_fields s i p (RCancelled (gv_now s))) as (_ & _ & _ & _ & _ & _ & _ & _ & -> & _). apply Hf.
  - rewrite E. destruct (put_status_fields s i p (RKilled (gv_now s))) as (_ & _ & _ & _ & _ & _ & _ & _ & -> & _). apply Hf.
  - rewrite E. cbn. rewrite lookup_insert_Some. intros [[_ <-]|[_ ?]]; [done|by eapply Hf].
  - rewrite E. cbn. destruct (r =? 0); [rewrite lookup_delete_Some; intros [_ ?]; by eapply Hf|].
    rewrite lookup_insert_Some. intros [[_ <-]|[_ ?]]; [|by eapply Hf]. apply Hf in Hk. lia.
  - rewrite E. cbn. rewrite lookup_delete_Some. intros [_ ?]. by eapply Hf.
  - rewrite E. cbn. rewrite lookup_insert_Some. intros [[_ <-]|[_ H]]; [by eapply Hf|]. apply lookup_delete_Some in H as [_ H]. by eapply Hf.
  - rewrite E. cbn. destruct Hm as [_ _ Hc]. destruct (Hc acc) as [->|[_ ->]]; [apply Hf|]. intros [= <-]. lia.
Qed.
Lemma ranks_fit_step s x : ranks_fit s -> ranks_fit (gstep_run s x).
Proof.
  intros Hf. apply step_induct; try done.
  - intros. eapply ranks_fit_leaf; [by apply leaf_kind_of|done].
  - intros e i p _ w r. unfold collective_rank. rewrite service_collective. apply Hf.
  - intros e i p _ w r. unfold collective_rank. rewrite next_collective. apply Hf.
Qed.

(* ------------------------------------------------------------------ *)
(** * Approval takes ayes *)

Lemma no_ayes_no_approval t : ayes t = 0 -> approval t = 0.
Proof.
  intros E. unfold approval, perbill_from_rational. rewrite E. destruct (_ || _) eqn:H; [|done].
  apply orb_true_iff in H as [H|H]; [apply N.eqb_eq in H|apply N.leb_le in H]; lia.
Qed.
Lemma approval_needs_ayes ti x t sup : 0 < threshold (ti_min_approval ti) x -> approved ti x (approval t) sup -> 0 < ayes t.
Proof.
  intros Ht [Ha _]. unfold curve_passing in Ha. apply N.leb_le in Ha. destruct (N.eq_dec (ayes t) 0) as [E|]; [|lia].
  rewrite (no_ayes_no_approval t E) in Ha. lia.
Qed.

Lemma kreivo_track_listed s t ti : track_info_of s Collective t = Some ti -> In (t, ti) kreivo_tracks.
Proof.
  unfold track_info_of. destruct (find (fun x => fst x =? t) kreivo_tracks) as [[t' ti']|] eqn:E; [|discriminate]. cbn. intros [= <-].
  apply find_some in E as [Hin Ht]. cbn in Ht. apply N.eqb_eq in Ht as ->. done.
Qed.
(** Whatever the collective decides, at least half of the votes are ayes; nine tenths unless it is about memberships. *)
Lemma collective_thresholds s r ti x t sup :
  kreivo_track_for (rf_origin r) = Some (rf_track r) -> track_info_of s Collective (rf_track r) = Some ti -> approved ti x (approval t) sup ->
  (rf_origin r = OCustom CreateMemberships /\ percent 50 <= approval t /\ percent 50 <= sup) \/ percent 90 <= approval t.
Proof.
  intros Hk Hti Ha. apply kreivo_track_listed in Hti. destruct (kreivo_tracks_need _ _ _ _ _ _ Hk Hti Ha) as [H1 H2].
  destruct (decide (rf_origin r = OCustom CreateMemberships)) as [E|E]; [left; split; auto|right; auto].
Qed.

(* ------------------------------------------------------------------ *)
(** * Nobody left to govern *)

Lemma ungoverned_approves s x p r : ginv s -> ungoverned s -> ~ approves s x Collective p r.
Proof.
  intros I (_ & H2 & _) (e & -> & [Ho (since & until & _ & _ & (t & ti & Ht & Hti & Ha))] & _).
  destruct (gi_collective _ I p r Ho) as [Hk _]. pose proof (collective_thresholds _ _ _ _ _ _ Hk Hti Ha) as Hth.
  rewrite (no_ayes_no_approval t (H2 p r t Ho Ht)) in Hth. unfold percent in Hth. destruct Hth as [(_ & ? & _)|?]; lia.
Qed.
Lemma ungoverned_happens s x s' o k : ungoverned s -> happens s x s' o k -> ~ privileged o.
Proof.
  intros (_ & _ & H3) Hh Hp. destruct (happens_source _ _ _ _ _ Hh) as (e & n & t & -> & Hn & _ & Hl).
  { intros [a ->]. by apply signed_unprivileged in Hp. } { intros r ->. by apply remote_unprivileged in Hp. }
  apply elem_of_list_lookup_2, elem_of_list_In in Hn. by apply (leads_unprivileged _ _ _ _ Hl (H3 _ Hn)).
Qed.
(** No votes, no ayes: as long as no root call happens. *)
Definition no_ayes (s : gstate) : Prop := (forall who, ~ votes_in_collective s who) /\
  (forall p r t, is_open s Collective p r -> gv_tally s !! p = Some t -> ayes t = 0).
Lemma leaf_tally e s o k s' : leaf_kind e s o k s' -> gv_tally s' = gv_tally s \/
  (exists po k' w, k = GSubmit Collective po k' w /\ gv_tally s' = <[gv_count s Collective := empty_tally]> (gv_tally s)) \/
  (exists p aye who rank t, k = GVote p aye /\ o = OSigned who /\ collective_rank s who = Some rank /\ 1 <= rank /\ gv_tally s !! p = Some t /\
    gv_tally s' = <[p := tally_in (tally_out t (gv_votes s !! (p, who))) aye rank]> (gv_tally s)).
Proof.
  intros H. leaf_cases H; try (left; rewrite E; done).
  - destruct (submit_fields _ _ _ _ _ _ _ _ H3) as (t' & _ & _ & _ & _ & -> & _). destruct i; [|by left]. right; left. subst. eauto.
  - left. rewrite E. by destruct (put_status_fields s i p (service e (gv_now s) (undeciding_timeout i) ti (approval t) (gsupport e s i (rf_track r) t) (rset_deposit r))) as (_ & _ & -> & _).
  - left. rewrite E. by destruct (put_status_fields s i p (RCancelled (gv_now s))) as (_ & _ & -> & _).
  - left. rewrite E. by destruct (put_status_fields s i p (RKilled (gv_now s))) as (_ & _ & -> & _).
  - right; right. rewrite E. cbn. eauto 12.
Qed.
Lemma no_ayes_leaf e s o k s' : leaf_kind e s o k s' -> o <> ORoot -> no_ayes s -> no_ayes s'.
Proof.
  intros H Ho [N1 N2]. split.
  - intros who (r & Hr & Hle). destruct (leaf_rank _ _ _ _ _ who H) as [E|[[-> _]|(_ & E & _)]]; [|done|rewrite E in Hr; injection Hr as <-; lia].
    apply (N1 who). exists r. by rewrite <- E.
  - intros p r t Hr Ht.
    destruct (leaf_tally _ _ _ _ _ H) as [E|[(po & k' & w & -> & E)|(p' & aye & who & rank & t' & -> & -> & Hk & Hle & _)]].
    + rewrite E in Ht. destruct (leaf_refs _ _ _ _ _ H Collective p) as [[E2|r0 x0 Hr0 _ _]|(po & k' & w & t0 & -> & -> & _)].
      * unfold is_open in Hr. rewrite E2 in Hr. by eapply N2.
      * by eapply N2.
      * inversion H as [i1 po1 k1 w1 t1 E0 H1 H2 H3| | | | | | | | | | |]; try discriminate. injection E0 as <- <- <- <-.
        destruct (submit_fields _ _ _ _ _ _ _ _ H3) as (t' & _ & _ & _ & _ & F & _).
        rewrite <- E, F, lookup_insert in Ht. by injection Ht as <-.
    + rewrite E in Ht. destruct (decide (p = gv_count s Collective)) as [->|Hn]; [rewrite lookup_insert in Ht; by injection Ht as <-|].
      rewrite lookup_insert_ne in Ht by done. destruct (leaf_refs _ _ _ _ _ H Collective p) as [[E2|r0 x0 Hr0 _ _]|(po' & k2 & w2 & t0 & _ & -> & _)]; [|by eapply N2|done].
      unfold is_open in Hr. rewrite E2 in Hr. by eapply N2.
    + exfalso. apply (N1 who). by exists rank.
Qed.

Lemma no_ayes_move s s' : no_ayes s -> mg_collective (gv_m s') = mg_collective (gv_m s) -> gv_tally s' = gv_tally s ->
  (forall p, ref_move s s' Collective p) -> no_ayes s'.
Proof.
  intros [N1 N2] E1 E2 Hm. split.
  - intros who (r & Hr & Hle). apply (N1 who). exists r. unfold collective_rank in *. by rewrite <- E1.
  - intros p r t Hr Ht. rewrite E2 in Ht. destruct (Hm p) as [E|r0 x0 Hr0 _ _]; [|by eapply N2]. unfold is_open in Hr. rewrite E in Hr. by eapply N2.
Qed.
Lemma service_tally e s i p : gv_tally (g_service e s i p) = gv_tally s /\ gv_votes (g_service e s i p) = gv_votes s.
Proof.
  destruct (service_effect e s i p) as [->|(r0 & t & ti & y & _ & _ & _ & _ & _ & [->|[_ ->]])]; [done|..];
    by destruct (put_status_fields s i p y) as (_ & _ & ? & ? & _).
Qed.
Lemma next_tally e s i p : gv_tally (g_next e s i p) = gv_tally s /\ gv_votes (g_next e s i p) = gv_votes s.
Proof.
  destruct (next_effect e s i p) as [->|(r0 & t & ti & _ & _ & _ & _ & _ & ->)]; [done|].
  by destruct (put_status_fields s i p (ROngoing (begin_deciding (gv_now s) ti (approval t) (gsupport e s i (rf_track r0) t) r0))) as (_ & _ & ? & ? & _).
Qed.

Lemma ungoverned_step s x : ginv s -> ungoverned s -> ungoverned (gstep_run s x).
Proof.
  intros I U. assert (no_ayes (gstep_run s x)) as [N1 N2].
  { destruct U as (U1 & U2 & U3). apply step_induct; try done.
    - intros s1 o1 k1 e s2 Hh Hl Hn Hc. eapply no_ayes_leaf; [by apply leaf_kind_of| |done]. intros ->.
      eapply (ungoverned_happens s x); [|done|by left]. done.
    - intros e i p _. eapply no_ayes_move; [done|apply service_collective|apply service_tally|intros; apply service_refs].
    - intros e i p _. eapply no_ayes_move; [done|apply next_collective|apply next_tally|intros; apply next_refs]. }
  split_and!; [done..|]. intros t Hin Hp.
  apply step_tasks in Hin as [Hin|[(s1 & n & k' & Hh & _)|(i & p & r & ti & Ha & _ & ->)]].
  - by apply (proj2 (proj2 U) t Hin).
  - eapply ungoverned_happens; [done|done|by left].
  - destruct i; [by eapply ungoverned_approves|]. destruct Ha as (e & _ & [Ho _] & _). destruct (gi_community _ I p r Ho) as [E _]. cbn in Hp.
    rewrite E in Hp. destruct Hp as [?|[? ?]]; discriminate.
Qed.
Lemma ungoverned_run s l : ginv s -> ungoverned s -> ungoverned (grun s l).
Proof. revert s. induction l as [|x l IH]; intros s I H; [done|]. cbn. apply IH; [by apply ginv_step|by apply ungoverned_step]. Qed.

(** Once nobody can vote in the collective, nothing privileged ever happens again, and nobody is ever ranked again. *)
Lemma never_governed_again : forall ranks now l l' x s o k,
  ungoverned (grun (g_start ranks now) l) ->
  (happens (grun (g_start ranks now) (l ++ l')) x s o k -> ~ privileged o) /\
  (forall who, ~ votes_in_collective (grun (g_start ranks now) (l ++ l')) who).
Proof.
  intros ranks now l l' x s o k U. rewrite grun_app. pose proof (ginv_run _ l (ginv_start ranks now)) as I.
  apply (ungoverned_run _ l') in U; [|done]. split; [by apply ungoverned_happens|]. by destruct U.
Qed.
Lemma unranked_start : forall ranks now, (forall who r, ranks !! who = Some r -> r = 0) -> ungoverned (g_start ranks now).
Proof.
  intros ranks now Hr. split_and!; [|done|done]. intros who (r & E & Hle). apply Hr in E. lia.
Qed.

(* ------------------------------------------------------------------ *)
(** * The collective's tallies *)

Definition csum (V : gmap (N * N) (bool * N)) (p : N) (f : bool -> N -> N) : N :=
  map_fold (fun pw v acc => (if pw.1 =? p then f v.1 v.2 else 0) + acc) 0 V.
Lemma csum_insert V p m b n q f :
  V !! (p, m) = None -> csum (<[(p, m) := (b, n)]> V) q f = (if p =? q then f b n else 0) + csum V q f.
Proof.
  intros Hn. unfold csum. rewrite map_fold_insert_L; [done| |done].
  intros [p1 m1] [p2 m2] x1 x2 y _ _ _. cbn. lia.
Qed.
Lemma csum_update V p m b n q f :
  csum (<[(p, m) := (b, n)]> V) q f = (if p =? q then f b n else 0) + csum (delete (p, m) V) q f.
Proof. rewrite <- insert_delete_insert. by rewrite csum_insert by apply lookup_delete. Qed.
Lemma csum_old V p m q f :
  csum V q f = match V !! (p, m) with Some (b, n) => if p =? q then f b n else 0 | None => 0 end + csum (delete (p, m) V) q f.
Proof.
  destruct (V !! (p, m)) as [[b n]|] eqn:E; [|by rewrite delete_notin].
  rewrite <- (insert_delete V (p, m) (b, n)) at 1 by done. by rewrite csum_insert by apply lookup_delete.
Qed.
Lemma csum_le V p f g : (forall m b n, V !! (p, m) = Some (b, n) -> f b n <= g b n) -> csum V p f <= csum V p g.
Proof.
  induction V as [|[q m] [b n] V Hn IH] using map_ind; [done|]. intros H. rewrite !csum_insert by done.
  assert (csum V p f <= csum V p g) as Hi.
  { apply IH. intros m' b' n' H'. eapply H. rewrite lookup_insert_ne; [exact H'|]. intros [= -> ->]. congruence. }
  destruct (N.eqb_spec q p) as [->|]; [|lia]. pose proof (H m b n ltac:(by rewrite lookup_insert)). lia.
Qed.
Lemma csum_scale V p c : csum V p (fun _ _ => c) = c * csum V p (fun _ _ => 1).
Proof.
  induction V as [|[q m] [b n] V Hn IH] using map_ind; [unfold csum; rewrite !map_fold_empty; lia|]. rewrite !csum_insert by done. destruct (q =? p); lia.
Qed.
Lemma csum_add V p f g : csum V p (fun b n => f b n + g b n) = csum V p f + csum V p g.
Proof.
  induction V as [|[q m] [b n] V Hn IH] using map_ind; [done|]. rewrite !csum_insert by done. destruct (q =? p); lia.
Qed.
Lemma csum_none V p f : (forall m, V !! (p, m) = None) -> csum V p f = 0.
Proof.
  induction V as [|[q m] [b n] V Hn IH] using map_ind; [done|]. intros H. rewrite csum_insert by done.
  destruct (N.eqb_spec q p) as [->|]; [specialize (H m); by rewrite lookup_insert in H|]. rewrite IH; [done|].
  intros m'. specialize (H m'). by apply lookup_insert_None in H as [? _].
Qed.

Record vinv (s : gstate) : Prop := VInv {
  vi_ginv : ginv s;
  vi_ranks : ranks_fit s;
  vi_fresh : forall p who v, gv_votes s !! (p, who) = Some v -> p < gv_count s Collective;
  vi_votes : forall p who b n, gv_votes s !! (p, who) = Some (b, n) -> n <= 65535;
  vi_tally : forall p t, gv_tally s !! p = Some t -> p < gv_count s Collective /\
    (voters s p <= 65537 -> ayes t = cast_ayes s p /\ nays t = cast_nays s p /\ bare_ayes t = aye_voters s p)
}.

Lemma vinv_same s s' : vinv s -> ginv s' -> ranks_fit s' -> gv_votes s' = gv_votes s -> gv_tally s' = gv_tally s ->
  gv_count s Collective <= gv_count s' Collective -> vinv s'.
Proof.
  intros [I1 I2 I3 I4 I5] G R E1 E2 E3. constructor; try done.
  - intros p who v. rewrite E1. intros H. apply I3 in H. lia.
  - intros p who b n. rewrite E1. apply I4.
  - intros p t. rewrite E2. intros H. destruct (I5 p t H) as [H1 H2]. unfold voters, cast_ayes, cast_nays, aye_voters, cast_sum in *. rewrite E1. split; [lia|done].
Qed.

Lemma tally_update a n b t V p who rank aye :
  (forall w b' n', V !! (p, w) = Some (b', n') -> n' <= 65535) -> rank <= 65535 ->
  let V' := <[(p, who) := (aye, rank)]> V in
  csum V' p (fun _ _ => 1) <= 65537 ->
  a = csum V p (fun b n => if b then n else 0) -> n = csum V p (fun b n => if b then 0 else n) -> b = csum V p (fun b _ => if b then 1 else 0) ->
  t = Tally a n b ->
  let t' := tally_in (tally_out t (V !! (p, who))) aye rank in
  ayes t' = csum V' p (fun b n => if b then n else 0) /\ nays t' = csum V' p (fun b n => if b then 0 else n) /\
  bare_ayes t' = csum V' p (fun b _ => if b then 1 else 0).
Proof.
  cbv zeta. intros HV Hr Hc -> -> -> ->.
  assert (HV' : forall w b' n', <[(p, who) := (aye, rank)]> V !! (p, w) = Some (b', n') -> n' <= 65535).
  { intros w b' n'. rewrite lookup_insert_Some. intros [[_ [= <- <-]]|[_ H]]; [done|by eapply HV]. }
  assert (Hs : csum (<[(p, who) := (aye, rank)]> V) p (fun b n => if b then n else 0) + csum (<[(p, who) := (aye, rank)]> V) p (fun b n => if b then 0 else n) <= u32_max).
  { rewrite <- csum_add. etransitivity; [apply (csum_le _ _ _ (fun _ _ => 65535))|rewrite csum_scale; unfold u32_max; lia].
    intros m b' n' H. apply HV' in H. destruct b'; lia. }
  assert (Hb : csum (<[(p, who) := (aye, rank)]> V) p (fun b _ => if b then 1 else 0) <= u32_max).
  { etransitivity; [apply (csum_le _ _ _ (fun _ _ => 1))|unfold u32_max; lia]. intros m b' n' H. destruct b'; lia. }
  rewrite !csum_update, !N.eqb_refl in *. 
  rewrite !(csum_old V p who p), !N.eqb_refl.
  unfold tally_in, tally_out, sat32. destruct (V !! (p, who)) as [[[] n]|]; destruct aye; cbn [ayes nays bare_ayes] in *; split_and!; lia.
Qed.

Lemma vinv_leaf e s o k s' : leaf_kind e s o k s' -> vinv s -> vinv s'.
Proof.
  intros H V. pose proof V as [I1 I2 I3 I4 I5]. assert (G : ginv s') by (by eapply ginv_leaf). assert (R : ranks_fit s') by (by eapply ranks_fit_leaf).
  leaf_cases H; try (eapply vinv_same; [done..| | |]; rewrite E; cbn; done || lia).
  - destruct (submit_fields _ _ _ _ _ _ _ _ H3) as (t' & _ & _ & F2 & F3 & F4 & _ & F5 & _). destruct i.
    + constructor; try done.
      * intros p who v. rewrite F5. intros H. apply I3 in H. lia.
      * intros p who b n. rewrite F5. apply I4.
      * intros p t0. rewrite F4. unfold voters, cast_ayes, cast_nays, aye_voters, cast_sum in *. rewrite F5. rewrite lookup_insert_Some. intros [[<- <-]|[Hn H]].
        -- split; [lia|]. intros _.
           assert (Hno : forall m, gv_votes s !! (gv_count s Collective, m) = None).
           { intros m. destruct (gv_votes s !! (gv_count s Collective, m)) as [v|] eqn:Ev; [|done]. apply I3 in Ev. lia. }
           split_and!; symmetry; [exact (csum_none (gv_votes s) (gv_count s Collective) (fun b n => if b then n else 0) Hno)
             |exact (csum_none (gv_votes s) (gv_count s Collective) (fun b n => if b then 0 else n) Hno)
             |exact (csum_none (gv_votes s) (gv_count s Collective) (fun b _ => if b then 1 else 0) Hno)].
        -- destruct (I5 p t0 H). split; [lia|done].
    + eapply vinv_same; try done. rewrite F3; done.
  - eapply vinv_same; [done..| | |]; rewrite E;
      destruct (put_status_fields s i p (service e (gv_now s) (undeciding_timeout i) ti (approval t) (gsupport e s i (rf_track r) t) (rset_deposit r))) as (_ & F2 & F3 & F4 & _); rewrite ?F2, ?F3, ?F4; done.
  - eapply vinv_same; [done..| | |]; rewrite E; destruct (put_status_fields s i p (RCancelled (gv_now s))) as (_ & F2 & F3 & F4 & _); rewrite ?F2, ?F3, ?F4; done.
  - eapply vinv_same; [done..| | |]; rewrite E; destruct (put_status_fields s i p (RKilled (gv_now s))) as (_ & F2 & F3 & F4 & _); rewrite ?F2, ?F3, ?F4; done.
  - rewrite E in G, R |- *. pose proof (I2 _ _ Hk) as Hrk. constructor; try done.
    + cbn. intros q w v. rewrite lookup_insert_Some. intros [[[= <- <-] _]|[_ H]]; [by apply (I5 p t)|by eapply I3].
    + cbn. intros q w b n. rewrite lookup_insert_Some. intros [[[= <- <-] [= <- <-]]|[_ H]]; [done|by eapply I4].
    + unfold voters, cast_ayes, cast_nays, aye_voters, cast_sum in *. cbn. intros q t0.
      set (V' := <[(p, who) := (aye, rank)]> (gv_votes s)).
      rewrite lookup_insert_Some. intros [[<- <-]|[Hn H]].
      * destruct (I5 p t Ht) as [Hlt Hold]. split; [done|]. intros Hv.
        assert (Hv0 : csum (gv_votes s) p (fun _ _ => 1) <= 65537).
        { unfold V' in Hv. change (csum (<[(p, who) := (aye, rank)]> (gv_votes s)) p (fun _ _ => 1) <= 65537) in Hv. rewrite csum_update, N.eqb_refl in Hv.
          rewrite (csum_old (gv_votes s) p who p), N.eqb_refl. destruct (gv_votes s !! (p, who)) as [[]|]; lia. }
        destruct (Hold Hv0) as (O1 & O2 & O3). destruct t as [a n b]. cbn in O1, O2, O3.
        apply (tally_update a n b); try done. intros w b' n'. apply I4.
      * destruct (I5 q t0 H) as [Hlt Hold]. split; [done|].
        assert (forall f, csum V' q f = csum (gv_votes s) q f) as Es.
        { intros f. unfold V'. rewrite csum_update, (csum_old (gv_votes s) p who q). apply N.eqb_neq in Hn. rewrite Hn.
          destruct (gv_votes s !! (p, who)) as [[]|]; done. }
        pose proof (Es (fun _ _ => 1)) as Ev. pose proof (Es (fun b n => if b then n else 0)) as Ea. pose proof (Es (fun b n => if b then 0 else n)) as En.
        pose proof (Es (fun b _ => if b then 1 else 0)) as Eb. unfold csum in Ev, Ea, En, Eb. rewrite Ev, Ea, En, Eb. done.
Qed.
Lemma vinv_step s x : vinv s -> vinv (gstep_run s x).
Proof.
  intros V. apply step_induct; try done.
  - intros. eapply vinv_leaf; [by apply leaf_kind_of|done].
  - intros e n t _ _ _. destruct V. eapply vinv_same; try done. by apply ginv_take.
  - intros n _. destruct V. eapply vinv_same; try done. by apply ginv_take.
  - intros e i p _. destruct (service_tally e s i p) as [E1 E2]. eapply vinv_same; try done.
    + apply ginv_service. apply V.
    + intros w r. unfold collective_rank. rewrite service_collective. apply V.
    + destruct (service_effect e s i p) as [->|(r0 & t & ti & y & _ & _ & _ & _ & _ & [->|[_ ->]])]; [done|..];
        destruct (put_status_fields s i p y) as (_ & F & _); cbn; by rewrite F.
  - intros e i p _. destruct (next_tally e s i p) as [E1 E2]. eapply vinv_same; try done.
    + apply ginv_next. apply V.
    + intros w r. unfold collective_rank. rewrite next_collective. apply V.
    + destruct (next_effect e s i p) as [->|(r0 & t & ti & _ & _ & _ & _ & _ & ->)]; [done|].
      destruct (put_status_fields s i p (ROngoing (begin_deciding (gv_now s) ti (approval t) (gsupport e s i (rf_track r0) t) r0))) as (_ & F & _); by rewrite F.
  - intros _. eapply vinv_same; try done; [by apply ginv_now, V|apply V].
  - intros y _ Hy. eapply vinv_same; try done; [|apply V]. unfold gset_c. apply ginv_m; [|apply V]. by apply outside_m_change.
Qed.
Lemma vinv_start ranks now : (forall who r, ranks !! who = Some r -> r <= 65535) -> vinv (g_start ranks now).
Proof. intros H. constructor; try done. by apply ginv_start. Qed.
Lemma vinv_run s l : vinv s -> vinv (grun s l).
Proof. revert s. induction l as [|x l IH]; intros s V; [done|]. cbn. by apply IH, vinv_step. Qed.

(** Kreivo's governance: with more votes than 32 bits can count, a proposal that almost everybody rejects is approved. *)
From stdpp Require Import gmap.
From Verif Require Import Base XcmTypes OriginTypes AccountsModel CommunitiesModel CommunitiesSpec CommunitiesProofs TracksModel TracksSpec
  TracksProofs ManagerModel ManagerSpec ManagerProofs XcmConfigModel GovernanceModel GovernanceSpec GovernanceProofs GovernanceMore GovernanceRanks GovernanceLive CommunitiesExamples.
Open Scope N_scope.

(** A collective of account 1, of rank 1, and [n] accounts of the highest rank. *)
Fixpoint crowd (n : nat) : gmap N N := match n with O => {[1 := 1]} | S n => <[N.of_nat n + 2 := 65535]> (crowd n) end.
Lemma crowd_one n : crowd n !! 1 = Some 1.
Proof. induction n as [|n IH]; [done|]. cbn [crowd]. rewrite lookup_insert_ne; [done|lia]. Qed.
Lemma crowd_high n i : (i < n)%nat -> crowd n !! (N.of_nat i + 2) = Some 65535.
Proof.
  induction n as [|n IH]; [lia|]. intros Hi. cbn [crowd]. destruct (Nat.eq_dec i n) as [->|]; [by rewrite lookup_insert|].
  rewrite lookup_insert_ne by lia. apply IH. lia.
Qed.
Lemma crowd_fits n who r : crowd n !! who = Some r -> r <= 65535.
Proof.
  induction n as [|n IH]; cbn [crowd].
  - rewrite lookup_singleton_Some. intros [_ <-]. lia.
  - rewrite lookup_insert_Some. intros [[_ <-]|[_ H]]; [lia|by apply IH].
Qed.

(** All of the highest rank vote nay, account 1 votes aye. *)
Fixpoint nay_votes (e : genv) (n : nat) : list gstep := match n with O => [] | S n => nay_votes e n ++ [GTx e (N.of_nat n + 2) (GVote 0 false)] end.
Definition contested (e : genv) (n : nat) (k : gcall) : list gstep :=
  [GTx e 1 (GSubmit Collective ORoot k (MAfter 0)); GTx e 1 (GPlaceDeposit Collective 0)] ++ replicate (N.to_nat 150) GBlock ++
  [GService e Collective 0] ++ nay_votes e n ++ [GTx e 1 (GVote 0 true)] ++ replicate (N.to_nat 57600) GBlock ++
  [GService e Collective 0] ++ replicate (N.to_nat 150) GBlock.

Fixpoint nay_map (n : nat) : gmap (N * N) (bool * N) := match n with O => ∅ | S n => <[(0, N.of_nat n + 2) := (false, 65535)]> (nay_map n) end.
Lemma nay_map_fresh n i : (i < 2 \/ N.of_nat n + 2 <= i) -> nay_map n !! (0, i) = None.
Proof.
  induction n as [|n IH]; [done|]. intros Hi. cbn [nay_map]. rewrite lookup_insert_ne; [apply IH; lia|]. intros [= E]. lia.
Qed.
Lemma nay_map_sum n f : csum (nay_map n) 0 f = N.of_nat n * f false 65535.
Proof.
  induction n as [|n IH]; [done|]. cbn [nay_map]. rewrite csum_insert by (apply nay_map_fresh; lia). rewrite IH, N.eqb_refl, Nat2N.inj_succ, N.mul_succ_l. lia.
Qed.

Lemma grun_nil s : grun s [] = s.
Proof. done. Qed.
Lemma one_vote e s r t v a n who aye rank : mg_collective (gv_m s) !! who = Some rank -> 1 <= rank -> v !! (gv_count s Collective, who) = None ->
  gstep_run (at_campaign s (ROngoing r) t v a n) (GTx e who (GVote (gv_count s Collective) aye)) =
  at_campaign s (ROngoing r) (tally_in t aye rank) (<[(gv_count s Collective, who) := (aye, rank)]> v) a n.
Proof.
  intros Hr H1 Hv. cbn [gstep_run]. unfold g_dispatch. cbn [g_call]. unfold g_vote. cbn [ensure_signed mbind option_bind]. cbn [at_campaign gv_m].
  rewrite Hr. cbn [mbind option_bind at_campaign gv_m gv_count gv_agenda gv_now gv_refs gv_tally gv_votes gset_votes gset_tally]. rewrite !lookup_insert.
  rewrite (proj2 (N.ltb_ge _ _)) by lia. rewrite Hv. cbn [default]. unfold gset_votes, gset_tally. cbn [gv_m gv_refs gv_count gv_tally gv_votes gv_agenda gv_now].
  rewrite insert_insert. unfold collective_votes. replace (rank - 1 + 1) with rank by lia. done.
Qed.

Lemma nay_votes_run e ranks now r n a at_ : (forall i, (i < n)%nat -> ranks !! (N.of_nat i + 2) = Some 65535) -> N.of_nat n * 65535 <= u32_max ->
  grun (at_campaign (g_start ranks now) (ROngoing r) empty_tally ∅ a at_) (nay_votes e n) =
  at_campaign (g_start ranks now) (ROngoing r) (Tally 0 (N.of_nat n * 65535) 0) (nay_map n) a at_.
Proof.
  intros Hr Hn. induction n as [|n IH]; [done|]. cbn [nay_votes nay_map]. rewrite grun_app, IH; [|intros i Hi; apply Hr; lia|lia]. rewrite grun_cons.
  change (GVote 0 false) with (GVote (gv_count (g_start ranks now) Collective) false).
  rewrite (one_vote e (g_start ranks now) r _ _ a at_ (N.of_nat n + 2) false 65535); [|apply Hr; lia|lia|apply nay_map_fresh; lia].
  cbn [grun fold_left]. f_equal. unfold tally_in, sat32. cbn [ayes nays bare_ayes]. f_equal. lia.
Qed.

Lemma outvoted_passes n sup : 57600 <= n -> is_passing root_track n (approval (Tally 1 u32_max 1)) sup = true.
Proof.
  intros Hn. unfold is_passing. rewrite root_decision, (N.min_r n 57600) by done. apply andb_true_iff. split; [|by vm_compute].
  unfold curve_passing. apply N.leb_le. replace (threshold (ti_min_support root_track) _) with 0 by (by vm_compute). lia.
Qed.

Lemma outvoted_when e k n : ge_deposit_ok e = true -> ge_slot e = true -> N.of_nat n * 65535 = u32_max ->
  let s := grun (g_start (crowd n) 0) (contested e n k) in
  gets_approved s e Collective 0 (Referendum 0 ORoot k (MAfter 0) 0 true (Some (150, Some 57900)) false) /\
  cast_ayes s 0 = 1 /\ cast_nays s 0 = u32_max.
Proof.
  intros Hdep Hslot Hn s.
  set (s0 := g_start (crowd n) 0) in *.
  set (r0 := Referendum 0 ORoot k (MAfter 0) 0 false None false).
  set (r1 := Referendum 0 ORoot k (MAfter 0) 0 true None false).
  set (r2 := Referendum 0 ORoot k (MAfter 0) 0 true (Some (150, None)) false).
  set (r3 := Referendum 0 ORoot k (MAfter 0) 0 true (Some (150, Some 57900)) false).
  set (v1 := <[(0, 1) := (true, 1)]> (nay_map n)).
  assert (E : s = at_campaign s0 (ROngoing r3) (Tally 1 u32_max 1) v1 [] 57900).
  { subst s. unfold contested. change (N.to_nat 150) with 150%nat. set (m := N.to_nat 57600).
    assert (Hm : N.of_nat m = 57600) by (subst m; by rewrite N2Nat.id).
    rewrite !grun_app, !grun_cons.
    assert (E1 : gstep_run s0 (GTx e 1 (GSubmit Collective ORoot k (MAfter 0))) = at_campaign s0 (ROngoing r0) empty_tally ∅ [] 0).
    { cbn. unfold g_dispatch. cbn. unfold g_submit. cbn. rewrite Hdep. done. }
    rewrite E1.
    assert (E2 : gstep_run (at_campaign s0 (ROngoing r0) empty_tally ∅ [] 0) (GTx e 1 (GPlaceDeposit Collective 0)) =
                 at_campaign s0 (ROngoing r1) empty_tally ∅ [] 0).
    { cbn [gstep_run]. unfold g_dispatch. cbn [g_call]. unfold g_place_deposit. cbn [ensure_signed mbind option_bind].
      cbn [at_campaign gv_refs gv_tally gtally gv_now gv_agenda gv_count s0 g_start].
      rewrite !lookup_insert. cbn [rf_deposit r0 orb negb rf_track]. rewrite Hdep. cbn [negb]. rewrite root_track_of. cbn [mbind option_bind].
      assert (Es : forall app sup, service e 0 (undeciding_timeout Collective) root_track app sup (rset_deposit r0) = ROngoing r1).
      { intros app sup. unfold service. cbn [rf_deciding rset_deposit r0 rf_queued rf_deposit rf_submitted andb]. rewrite root_prepare.
        rewrite (proj2 (N.leb_gt _ _)) by lia. rewrite (proj2 (N.leb_gt _ _)) by (replace (undeciding_timeout Collective) with 28800 by (by vm_compute); lia). done. }
      rewrite Es. cbn. unfold at_campaign, gset_refs. cbn. by rewrite insert_insert. }
    rewrite E2, !grun_nil.
    rewrite campaign_blocks. change (N.of_nat 150) with 150. change (0 + 150) with 150.
    assert (E3 : gstep_run (at_campaign s0 (ROngoing r1) empty_tally ∅ [] 150) (GService e Collective 0) =
                 at_campaign s0 (ROngoing r2) empty_tally ∅ [] 150).
    { cbn [gstep_run]. change 0 with (gv_count s0 Collective) at 1. unfold g_service. cbn [at_campaign gv_refs gv_tally gtally gv_now gv_agenda]. rewrite !lookup_insert.
      cbn [rf_track r1]. rewrite root_track_of.
      assert (Es : forall sup, service e 150 (undeciding_timeout Collective) root_track (approval empty_tally) sup r1 = ROngoing r2).
      { intros sup. unfold service. cbn [rf_deciding r1 rf_queued rf_deposit rf_submitted andb]. rewrite root_prepare.
        rewrite (proj2 (N.leb_le _ _)) by lia. rewrite Hslot. unfold begin_deciding. rewrite root_unvoted. done. }
      rewrite Es. cbn. unfold at_campaign, gset_refs. cbn. by rewrite insert_insert. }
    rewrite E3. pose proof (nay_votes_run e (crowd n) 0 r2 n [] 150 (crowd_high n) ltac:(by rewrite Hn)) as En. fold s0 in En. rewrite En, Hn.
    change (GVote 0 true) with (GVote (gv_count s0 Collective) true).
    rewrite (one_vote e s0 r2 _ (nay_map n) [] 150 1 true 1); [|apply crowd_one|lia|apply nay_map_fresh; lia].
    replace (tally_in (Tally 0 u32_max 0) true 1) with (Tally 1 u32_max 1) by (by vm_compute).
    change (gv_count s0 Collective) with 0. fold v1. rewrite campaign_blocks, Hm. change (150 + 57600) with 57750.
    assert (E5 : gstep_run (at_campaign s0 (ROngoing r2) (Tally 1 u32_max 1) v1 [] 57750) (GService e Collective 0) =
                 at_campaign s0 (ROngoing r3) (Tally 1 u32_max 1) v1 [] 57750).
    { cbn [gstep_run]. unfold g_service. cbn [at_campaign gv_refs gv_tally gtally gv_now gv_agenda gv_count s0 g_start]. rewrite !lookup_insert.
      cbn [rf_track r2]. rewrite root_track_of.
      assert (Es : forall sup, service e 57750 (undeciding_timeout Collective) root_track (approval (Tally 1 u32_max 1)) sup r2 = ROngoing r3).
      { intros sup. unfold service. cbn [rf_deciding r2]. rewrite outvoted_passes by lia. rewrite root_confirm. done. }
      rewrite Es. cbn. unfold at_campaign, gset_refs. cbn. by rewrite insert_insert. }
    rewrite E5, campaign_blocks. done. }
  clearbody s. subst s. split_and!.
  - split; [apply (lookup_insert (gv_refs s0) (Collective, 0) (ROngoing r3))|]. exists 57900. cbn [gstep_run]. unfold g_service.
    cbn [at_campaign gv_refs gv_tally gtally gv_now gv_agenda gv_count s0 g_start]. rewrite !lookup_insert. cbn [rf_track r3]. rewrite root_track_of.
    assert (Es : forall sup, service e 57900 (undeciding_timeout Collective) root_track (approval (Tally 1 u32_max 1)) sup r3 = RApproved 57900).
    { intros sup. unfold service. cbn [rf_deciding r3]. rewrite outvoted_passes by lia. by rewrite (proj2 (N.leb_le _ _)) by lia. }
    rewrite Es. destruct (ge_sched_ok e); apply lookup_insert.
  - change (csum v1 0 (fun b n => if b then n else 0) = 1). unfold v1. rewrite csum_insert by (apply nay_map_fresh; lia). rewrite nay_map_sum, N.eqb_refl. lia.
  - change (csum v1 0 (fun b n => if b then 0 else n) = u32_max). unfold v1. rewrite csum_insert by (apply nay_map_fresh; lia). rewrite nay_map_sum, N.eqb_refl. lia.
Qed.

(** 65537 of the highest rank against one of rank 1. *)
Lemma outvoted_approved : exists ranks l e r, (forall who r, ranks !! who = Some r -> r <= 65535) /\
  let s := grun (g_start ranks 0) l in
  gets_approved s e Collective 0 r /\ rf_origin r = ORoot /\ cast_ayes s 0 = 1 /\ cast_nays s 0 = u32_max.
Proof.
  assert (Hn : N.of_nat (N.to_nat 65537) * 65535 = u32_max) by (rewrite N2Nat.id; by vm_compute). revert Hn. generalize (N.to_nat 65537). intros n Hn.
  set (e := GEnv (MEnv easy_env true true true (fun _ => true)) (fun _ => 0) true true true).
  eexists (crowd n), (contested e n (GOther 0)), e, _. split; [apply crowd_fits|]. cbv zeta.
  destruct (outvoted_when e (GOther 0) n eq_refl eq_refl Hn) as (H1 & H2 & H3). split_and!; [exact H1|done|exact H2|exact H3].
Qed.

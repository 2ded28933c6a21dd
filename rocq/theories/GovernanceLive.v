(** Kreivo's governance: one member of rank 1 or more can have any call carried out as root, if nobody objects. *)
From stdpp Require Import gmap.
From Verif Require Import Base XcmTypes OriginTypes AccountsModel CommunitiesModel CommunitiesSpec CommunitiesProofs TracksModel TracksSpec
  TracksProofs ManagerModel ManagerSpec ManagerProofs XcmConfigModel GovernanceModel GovernanceSpec GovernanceProofs GovernanceMore GovernanceRanks.
Open Scope N_scope.

Lemma blocks_run s n : grun s (replicate n GBlock) = gset_now (gv_now s + N.of_nat n) s.
Proof.
  revert s. induction n as [|n IH]; intros s.
  - destruct s; cbn. by rewrite N.add_0_r.
  - change (replicate (S n) GBlock) with (GBlock :: replicate n GBlock). change (grun s (GBlock :: replicate n GBlock)) with (grun (gset_now (gv_now s + 1) s) (replicate n GBlock)).
    rewrite IH. cbn [gset_now gv_now gv_m gv_refs gv_count gv_tally gv_votes gv_agenda]. unfold gset_now. cbn. f_equal. lia.
Qed.

(** What [who] does to have [k] carried out as root, in a state with [p] referenda so far and [n] tasks on the agenda. *)
Definition campaign (e : genv) (who : N) (k : gcall) (p : N) : list gstep :=
  [GTx e who (GSubmit Collective ORoot k (MAfter 0)); GTx e who (GPlaceDeposit Collective p)] ++ replicate (N.to_nat 150) GBlock ++
  [GService e Collective p; GTx e who (GVote p true)] ++ replicate (N.to_nat 57600) GBlock ++
  [GService e Collective p] ++ replicate (N.to_nat 150) GBlock ++ [GService e Collective p; GBlock].

Definition root_track : track_info := default (default_track []) (snd <$> find (fun x => fst x =? 0) kreivo_tracks).
Lemma root_track_of s : track_info_of s Collective 0 = Some root_track.
Proof. reflexivity. Qed.
Lemma root_prepare : ti_prepare root_track = 150. Proof. by vm_compute. Qed.
Lemma root_confirm : ti_confirm root_track = 150. Proof. by vm_compute. Qed.
Lemma root_decision : ti_decision root_track = 57600. Proof. by vm_compute. Qed.
Lemma root_enactment : ti_enactment root_track = 1. Proof. by vm_compute. Qed.
Lemma root_unvoted sup : is_passing root_track 0 (approval empty_tally) sup = false.
Proof.
  unfold is_passing. apply andb_false_iff. right. by vm_compute.
Qed.
Lemma root_unanimous n rank sup : 57600 <= n -> 1 <= rank -> rank <= 65535 -> is_passing root_track n (approval (Tally rank 0 1)) sup = true.
Proof.
  intros Hn H1 H2. unfold is_passing. rewrite root_decision, (N.min_r n 57600) by done.
  assert (Ea : approval (Tally rank 0 1) = 1000000000).
  { unfold approval, wrap32. cbn [ayes nays]. rewrite N.mod_small by (unfold u32_max; lia). replace (N.max 1 (rank + 0)) with rank by lia.
    unfold perbill_from_rational. by rewrite N.leb_refl, orb_true_r. }
  rewrite Ea. apply andb_true_iff. split; [|by vm_compute].
  unfold curve_passing. apply N.leb_le. replace (threshold (ti_min_support root_track) _) with 0 by (by vm_compute). lia.
Qed.
Global Opaque root_track.

(** The states on the way: [s] with one more referendum. *)
Definition at_campaign (s : gstate) (x : rstatus) (t : tally) (v : gmap (N * N) (bool * N)) (a : list task) (n : N) : gstate :=
  let p := gv_count s Collective in
  GState (gv_m s) (<[(Collective, p) := x]> (gv_refs s)) (fun j => if decide (j = Collective) then p + 1 else gv_count s j) (<[p := t]> (gv_tally s)) v a n.

Lemma campaign_look e s r t v a n : rf_track r = 0 -> ge_sched_ok e = true ->
  let s1 := at_campaign s (ROngoing r) t v a n in
  let x := service e n (undeciding_timeout Collective) root_track (approval t) (gsupport e s1 Collective 0 t) r in
  g_service e s1 Collective (gv_count s Collective) =
    at_campaign s x t v (match x with RApproved _ => a ++ [Task (enact_at n root_track (rf_enact r)) (rf_origin r) (rf_call r) (Some (Collective, gv_count s Collective))] | _ => a end) n.
Proof.
  intros Hr He s1 x. unfold g_service. subst s1. cbn [at_campaign gv_refs gv_tally gtally gv_now gv_agenda]. rewrite !lookup_insert. rewrite Hr, root_track_of.
  fold x. unfold at_campaign. cbv zeta. destruct x; cbn; rewrite ?He; cbn; unfold gset_refs, gset_agenda; cbn; by rewrite insert_insert.
Qed.
Lemma campaign_blocks s x t v a n m : grun (at_campaign s x t v a n) (replicate m GBlock) = at_campaign s x t v a (n + N.of_nat m).
Proof. by rewrite blocks_run. Qed.
Lemma grun_cons s x l : grun s (x :: l) = grun (gstep_run s x) l.
Proof. done. Qed.

Lemma one_member_governs : forall ranks now l who e k,
  (forall who r, ranks !! who = Some r -> r <= 65535) ->
  let s := grun (g_start ranks now) l in
  votes_in_collective s who -> ge_deposit_ok e = true -> ge_slot e = true -> ge_sched_ok e = true ->
  let l' := campaign e who k (gv_count s Collective) in
  exists n s', happens (grun s l') (GFire e n) s' ORoot k /\ carries_out (grun s l') (GFire e n) Collective (gv_count s Collective).
Proof.
  intros ranks now l who e k Hranks s (rank & Hrank & Hle) Hdep Hslot Hsch l'.
  assert (V : vinv s) by (by apply vinv_run, vinv_start). clearbody s. clear ranks now l Hranks.
  assert (Hmax : rank <= 65535) by (by eapply (vi_ranks _ V)).
  assert (Hfresh : gv_votes s !! (gv_count s Collective, who) = None).
  { destruct (gv_votes s !! (gv_count s Collective, who)) as [v|] eqn:E; [|done]. apply (vi_fresh _ V) in E. lia. }
  clear V. subst l'. set (p := gv_count s Collective) in *. set (n0 := gv_now s).
  set (r0 := Referendum 0 ORoot k (MAfter 0) n0 false None false).
  set (r1 := Referendum 0 ORoot k (MAfter 0) n0 true None false).
  set (r2 := Referendum 0 ORoot k (MAfter 0) n0 true (Some (n0 + 150, None)) false).
  set (r3 := Referendum 0 ORoot k (MAfter 0) n0 true (Some (n0 + 150, Some (n0 + 57900))) false).
  set (v1 := <[(p, who) := (true, rank)]> (gv_votes s)).
  set (t1 := Task (n0 + 57901) ORoot k (Some (Collective, p))).
  assert (E : grun s (campaign e who k p) = at_campaign s (RApproved (n0 + 57900)) (Tally rank 0 1) v1 (gv_agenda s ++ [t1]) (n0 + 57901)).
  { unfold campaign. change (N.to_nat 150) with 150%nat. set (m := N.to_nat 57600). rewrite !grun_app, !grun_cons. cbn [grun fold_left].
    assert (E1 : gstep_run s (GTx e who (GSubmit Collective ORoot k (MAfter 0))) = at_campaign s (ROngoing r0) empty_tally (gv_votes s) (gv_agenda s) n0).
    { cbn. unfold g_dispatch. cbn. unfold g_submit. cbn. rewrite Hdep. done. }
    rewrite E1.
    assert (E2 : gstep_run (at_campaign s (ROngoing r0) empty_tally (gv_votes s) (gv_agenda s) n0) (GTx e who (GPlaceDeposit Collective p)) =
                 at_campaign s (ROngoing r1) empty_tally (gv_votes s) (gv_agenda s) n0).
    { cbn [gstep_run]. unfold g_dispatch. cbn [g_call]. unfold g_place_deposit. cbn [ensure_signed mbind option_bind]. cbn [at_campaign gv_refs gv_tally gtally gv_now gv_agenda].
      rewrite !lookup_insert. cbn [rf_deposit r0 orb negb rf_track]. rewrite Hdep. cbn [negb]. rewrite root_track_of. cbn [mbind option_bind].
      assert (Es : forall app sup, service e n0 (undeciding_timeout Collective) root_track app sup (rset_deposit r0) = ROngoing r1).
      { intros app sup. unfold service. cbn [rf_deciding rset_deposit r0 rf_queued rf_deposit rf_submitted andb]. rewrite root_prepare.
        rewrite (proj2 (N.leb_gt _ _)) by lia. rewrite (proj2 (N.leb_gt _ _)) by (replace (undeciding_timeout Collective) with 28800 by (by vm_compute); lia). done. }
      rewrite Es. cbn. unfold at_campaign, gset_refs. cbn. by rewrite insert_insert. }
    rewrite E2. rewrite campaign_blocks. change (N.of_nat 150) with 150.
    assert (E3 : gstep_run (at_campaign s (ROngoing r1) empty_tally (gv_votes s) (gv_agenda s) (n0 + 150)) (GService e Collective p) =
                 at_campaign s (ROngoing r2) empty_tally (gv_votes s) (gv_agenda s) (n0 + 150)).
    { cbn [gstep_run]. rewrite campaign_look by done. unfold service. cbn [rf_deciding r1 rf_queued rf_deposit rf_submitted andb]. rewrite root_prepare.
      rewrite (proj2 (N.leb_le _ _)) by lia. rewrite Hslot. unfold begin_deciding. rewrite root_unvoted. done. }
    rewrite E3.
    assert (E4 : gstep_run (at_campaign s (ROngoing r2) empty_tally (gv_votes s) (gv_agenda s) (n0 + 150)) (GTx e who (GVote p true)) =
                 at_campaign s (ROngoing r2) (Tally rank 0 1) v1 (gv_agenda s) (n0 + 150)).
    { cbn [gstep_run]. unfold g_dispatch. cbn [g_call]. unfold g_vote. cbn [ensure_signed mbind option_bind]. cbn [at_campaign gv_m].
      unfold collective_rank in Hrank. rewrite Hrank. cbn [mbind option_bind at_campaign gv_m gv_count gv_agenda gv_now gv_refs gv_tally gv_votes gset_votes gset_tally]. fold p. rewrite !lookup_insert.
      rewrite (proj2 (N.ltb_ge _ _)) by lia. fold p. rewrite Hfresh. cbn [default]. unfold gset_votes, gset_tally. cbn [gv_m gv_refs gv_count gv_tally gv_votes gv_agenda gv_now].
      rewrite insert_insert. unfold collective_votes, tally_in, tally_out, empty_tally. cbn [ayes nays bare_ayes].
      replace (rank - 1 + 1) with rank by lia. replace (sat32 (0 + rank)) with rank by (unfold sat32, u32_max; lia). done. }
    rewrite E4, campaign_blocks. replace (N.of_nat m) with 57600 by (subst m; by rewrite N2Nat.id). clear m.
    assert (E5 : gstep_run (at_campaign s (ROngoing r2) (Tally rank 0 1) v1 (gv_agenda s) (n0 + 150 + 57600)) (GService e Collective p) =
                 at_campaign s (ROngoing r3) (Tally rank 0 1) v1 (gv_agenda s) (n0 + 57750)).
    { cbn [gstep_run]. rewrite campaign_look by done. unfold service. cbn [rf_deciding r2]. rewrite root_unanimous by lia. rewrite root_confirm.
      replace (n0 + 150 + 57600) with (n0 + 57750) by lia. replace (n0 + 57750 + 150) with (n0 + 57900) by lia. done. }
    rewrite E5, campaign_blocks. change (N.of_nat 150) with 150.
    assert (E6 : gstep_run (at_campaign s (ROngoing r3) (Tally rank 0 1) v1 (gv_agenda s) (n0 + 57750 + 150)) (GService e Collective p) =
                 at_campaign s (RApproved (n0 + 57900)) (Tally rank 0 1) v1 (gv_agenda s ++ [t1]) (n0 + 57900)).
    { cbn [gstep_run]. rewrite campaign_look by done. unfold service. cbn [rf_deciding r3]. rewrite root_unanimous by lia.
      rewrite (proj2 (N.leb_le _ _)) by lia. unfold enact_at. cbn [rf_enact r3]. rewrite root_enactment. replace (n0 + 57750 + 150) with (n0 + 57900) by lia.
      replace (N.max (n0 + 57900 + 0) (n0 + 57900 + N.max 1 1)) with (n0 + 57901) by lia. done. }
    rewrite E6. cbn. unfold gset_now, at_campaign. cbn. f_equal. lia. }
  rewrite E. exists (length (gv_agenda s)). eexists.
  assert (Hl : gv_agenda (at_campaign s (RApproved (n0 + 57900)) (Tally rank 0 1) v1 (gv_agenda s ++ [t1]) (n0 + 57901)) !! length (gv_agenda s) = Some t1).
  { cbn. by apply list_lookup_middle. }
  split.
  - eapply (hap_fire _ e _ t1); [exact Hl|cbn; lia|]. apply ex_here.
  - exists e, (length (gv_agenda s)), t1. split_and!; [done|exact Hl|cbn; lia|done].
Qed.

Lemma campaign_alone e who k p : Forall (alone who) (campaign e who k p).
Proof.
  assert (H : forall n, Forall (alone who) (replicate n GBlock)) by (intros n; induction n; constructor; done).
  unfold campaign. rewrite !Forall_app. split_and!; try apply H; repeat (apply Forall_cons; split; [done|]); apply Forall_nil; done.
Qed.
(** Nobody else need do anything, however many members there are. *)
Lemma one_member_decides : forall ranks now l who e k,
  (forall who r, ranks !! who = Some r -> r <= 65535) ->
  let s := grun (g_start ranks now) l in
  votes_in_collective s who -> ge_deposit_ok e = true -> ge_slot e = true -> ge_sched_ok e = true ->
  exists l' n s', Forall (alone who) l' /\ happens (grun s l') (GFire e n) s' ORoot k.
Proof.
  intros ranks now l who e k Hr s Hv H1 H2 H3. destruct (one_member_governs ranks now l who e k Hr Hv H1 H2 H3) as (n & s' & H & _).
  eexists _, n, s'. split; [apply campaign_alone|exact H].
Qed.

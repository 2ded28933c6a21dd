(** Proofs about the communities manager. *)
From stdpp Require Import gmap.
From Verif Require Import Base XcmTypes OriginTypes AccountsModel AccountsSpec AccountsProofs CommunitiesModel CommunitiesSpec CommunitiesProofs CommunitiesTally CommunitiesRegistry
  TracksModel ManagerModel ManagerSpec.
Open Scope N_scope.

(* ------------------------------------------------------------------ *)
(** * UTF-8 *)

Ltac b2p :=
  repeat match goal with
  | H : (_ && _) = true |- _ => apply andb_true_iff in H as [? ?]
  | H : (_ <=? _) = true |- _ => apply N.leb_le in H
  | H : (_ <=? _) = false |- _ => apply N.leb_gt in H
  | H : (_ <? _) = true |- _ => apply N.ltb_lt in H
  | H : (_ <? _) = false |- _ => apply N.ltb_ge in H
  end.

Lemma utf8_ok_char cp r : scalar_value cp -> utf8_ok (utf8_char cp ++ r) = utf8_ok r.
Proof.
  intros Hs. unfold utf8_char, scalar_value in *.
  destruct (N.ltb_spec cp 128); [cbn; by rewrite (proj2 (N.ltb_lt cp 128))|].
  destruct (N.ltb_spec cp 2048).
  { pose proof (N.div_mod cp 64 ltac:(lia)). pose proof (N.mod_lt cp 64 ltac:(lia)).
    assert (2 <= cp / 64) by (apply N.div_le_lower_bound; lia). assert (cp / 64 < 32) by (apply N.div_lt_upper_bound; lia).
    set (q := cp / 64) in *. set (m := cp mod 64) in *. cbn [app utf8_ok]. unfold between, cont_byte.
    rewrite (proj2 (N.ltb_ge (192 + q) 128)), (proj2 (N.leb_le 194 (192 + q))), (proj2 (N.leb_le (192 + q) 223)), (proj2 (N.leb_le 128 (128 + m))),
      (proj2 (N.leb_le (128 + m) 191)) by lia. done. }
  destruct (N.ltb_spec cp 65536).
  { assert (E : cp / 64 / 64 = cp / 4096) by (rewrite N.div_div by lia; done).
    pose proof (N.div_mod cp 64 ltac:(lia)). pose proof (N.mod_lt cp 64 ltac:(lia)).
    pose proof (N.div_mod (cp / 64) 64 ltac:(lia)). pose proof (N.mod_lt (cp / 64) 64 ltac:(lia)). rewrite E in *.
    set (q := cp / 4096) in *. set (m1 := (cp / 64) mod 64) in *. set (m := cp mod 64) in *.
    set (d := cp / 64) in *.
    assert (q < 16) by lia. cbn [app utf8_ok]. unfold between, cont_byte.
    rewrite (proj2 (N.ltb_ge (224 + q) 128)), (proj2 (N.leb_gt (224 + q) 223)), (proj2 (N.leb_le 224 (224 + q))), (proj2 (N.leb_le (224 + q) 239)) by lia.
    rewrite andb_false_r. cbn [andb].
    rewrite (proj2 (N.leb_le 128 (128 + m1))), (proj2 (N.leb_le (128 + m1) 191)), (proj2 (N.leb_le 128 (128 + m))),
      (proj2 (N.leb_le (128 + m) 191)) by lia. cbn [andb].
    destruct (N.eqb_spec (224 + q) 224).
    { assert (32 <= m1) by lia. by rewrite (proj2 (N.leb_le 160 (128 + m1))) by lia. }
    destruct (N.eqb_spec (224 + q) 237); [|done].
    assert (m1 < 32) by lia. by rewrite (proj2 (N.leb_le (128 + m1) 159)) by lia. }
  assert (E : cp / 64 / 64 = cp / 4096) by (rewrite N.div_div by lia; done).
  assert (E2 : cp / 4096 / 64 = cp / 262144) by (rewrite N.div_div by lia; done).
  pose proof (N.div_mod cp 64 ltac:(lia)). pose proof (N.mod_lt cp 64 ltac:(lia)).
  pose proof (N.div_mod (cp / 64) 64 ltac:(lia)). pose proof (N.mod_lt (cp / 64) 64 ltac:(lia)).
  pose proof (N.div_mod (cp / 4096) 64 ltac:(lia)). pose proof (N.mod_lt (cp / 4096) 64 ltac:(lia)). rewrite E, E2 in *.
  set (q := cp / 262144) in *. set (m2 := (cp / 4096) mod 64) in *. set (m1 := (cp / 64) mod 64) in *. set (m := cp mod 64) in *.
  set (d := cp / 64) in *. set (d2 := cp / 4096) in *.
  assert (q < 5) by lia. cbn [app utf8_ok]. unfold between, cont_byte.
  rewrite (proj2 (N.ltb_ge (240 + q) 128)), (proj2 (N.leb_gt (240 + q) 223)), (proj2 (N.leb_gt (240 + q) 239)),
    (proj2 (N.leb_le 240 (240 + q))), (proj2 (N.leb_le (240 + q) 244)) by lia.
  rewrite !andb_false_r. cbn [andb].
  rewrite (proj2 (N.leb_le 128 (128 + m2))), (proj2 (N.leb_le (128 + m2) 191)), (proj2 (N.leb_le 128 (128 + m1))), (proj2 (N.leb_le (128 + m1) 191)), (proj2 (N.leb_le 128 (128 + m))),
    (proj2 (N.leb_le (128 + m) 191)) by lia. cbn [andb].
  destruct (N.eqb_spec (240 + q) 240).
  { assert (16 <= m2) by lia. by rewrite (proj2 (N.leb_le 144 (128 + m2))) by lia. }
  destruct (N.eqb_spec (240 + q) 244); [|done].
  assert (m2 < 16) by lia. by rewrite (proj2 (N.leb_le (128 + m2) 143)) by lia.
Qed.

Lemma split_div a b m q : b < m -> (q = a * m + b) -> q / m = a /\ q mod m = b.
Proof.
  intros Hb ->. split; [rewrite N.div_add_l by lia; rewrite N.div_small by done; lia|].
  rewrite N.add_comm, N.mod_add by lia. by apply N.mod_small.
Qed.

Lemma utf8_text_cons cp l : scalar_value cp -> utf8_text l -> utf8_text (utf8_char cp ++ l).
Proof. intros Hs (cps & H & ->). exists (cp :: cps). split; [by constructor|done]. Qed.

Lemma utf8_name : forall l, utf8_ok l = true <-> utf8_text l.
Proof.
  intros l. split.
  - remember (length l) as n eqn:En. revert l En. induction n as [n IH] using lt_wf_ind. intros l En H.
    destruct l as [|b r]; [by exists []|]. cbn [utf8_ok] in H.
    destruct (N.ltb_spec b 128) as [Hb|Hb].
    { replace (b :: r) with (utf8_char b ++ r) by (unfold utf8_char; by rewrite (proj2 (N.ltb_lt b 128))).
      apply utf8_text_cons; [left; lia|]. eapply (IH (length r)); [cbn in *; lia|done..]. }
    unfold between, cont_byte in H.
    destruct ((194 <=? b) && (b <=? 223)) eqn:E1.
    { destruct r as [|c1 r1]; [done|]. b2p.
      set (cp := (b - 192) * 64 + (c1 - 128)).
      destruct (split_div (b - 192) (c1 - 128) 64 cp ltac:(lia) eq_refl) as [Hq Hm].
      replace (b :: c1 :: r1) with (utf8_char cp ++ r1).
      - apply utf8_text_cons; [left; unfold cp; lia|]. eapply (IH (length r1)); [cbn in *; lia|done..].
      - unfold utf8_char. rewrite (proj2 (N.ltb_ge cp 128)), (proj2 (N.ltb_lt cp 2048)) by (unfold cp; lia).
        rewrite Hq, Hm. cbn. do 2 f_equal; lia. }
    destruct ((224 <=? b) && (b <=? 239)) eqn:E2.
    { destruct r as [|c1 [|c2 r2]]; [done..|].
      assert (Hc : 128 <= c1 /\ c1 <= 191 /\ 128 <= c2 /\ c2 <= 191 /\ (b = 224 -> 160 <= c1) /\ (b = 237 -> c1 <= 159) /\ utf8_ok r2 = true /\ 224 <= b /\ b <= 239).
      { destruct (N.eqb_spec b 224); [b2p; split_and!; (lia || done)|]. destruct (N.eqb_spec b 237); b2p; split_and!; (lia || done). }
      destruct Hc as (? & ? & ? & ? & ? & ? & Hr & ? & ?).
      set (d := (b - 224) * 64 + (c1 - 128)). set (cp := d * 64 + (c2 - 128)).
      destruct (split_div d (c2 - 128) 64 cp ltac:(lia) eq_refl) as [Hq Hm].
      destruct (split_div (b - 224) (c1 - 128) 64 d ltac:(lia) eq_refl) as [Hq1 Hm1].
      assert (E : cp / 4096 = b - 224) by (rewrite <- Hq1, <- Hq, N.div_div by lia; done).
      assert (2048 <= cp /\ cp < 65536 /\ (cp < 55296 \/ 57344 <= cp)) as (? & ? & ?).
      { unfold cp, d. destruct (N.eq_dec b 224); [|destruct (N.eq_dec b 237)]; lia. }
      replace (b :: c1 :: c2 :: r2) with (utf8_char cp ++ r2).
      - apply utf8_text_cons; [unfold scalar_value; lia|]. eapply (IH (length r2)); [cbn in *; lia|done..].
      - unfold utf8_char. rewrite (proj2 (N.ltb_ge cp 128)), (proj2 (N.ltb_ge cp 2048)), (proj2 (N.ltb_lt cp 65536)) by lia.
        rewrite E, Hq, Hm, Hm1. cbn. do 3 (f_equal; try lia). }
    destruct ((240 <=? b) && (b <=? 244)) eqn:E3; [|done].
    destruct r as [|c1 [|c2 [|c3 r3]]]; [done..|].
    assert (Hc : 128 <= c1 /\ c1 <= 191 /\ 128 <= c2 /\ c2 <= 191 /\ 128 <= c3 /\ c3 <= 191 /\ (b = 240 -> 144 <= c1) /\ (b = 244 -> c1 <= 143) /\ utf8_ok r3 = true /\ 240 <= b /\ b <= 244).
    { destruct (N.eqb_spec b 240); [b2p; split_and!; (lia || done)|]. destruct (N.eqb_spec b 244); b2p; split_and!; (lia || done). }
    destruct Hc as (? & ? & ? & ? & ? & ? & ? & ? & Hr & ? & ?).
    set (d2 := (b - 240) * 64 + (c1 - 128)). set (d := d2 * 64 + (c2 - 128)). set (cp := d * 64 + (c3 - 128)).
    destruct (split_div d (c3 - 128) 64 cp ltac:(lia) eq_refl) as [Hq Hm].
    destruct (split_div d2 (c2 - 128) 64 d ltac:(lia) eq_refl) as [Hq1 Hm1].
    destruct (split_div (b - 240) (c1 - 128) 64 d2 ltac:(lia) eq_refl) as [Hq2 Hm2].
    assert (E : cp / 4096 = d2) by (rewrite <- Hq1, <- Hq, N.div_div by lia; done).
    assert (E' : cp / 262144 = b - 240) by (rewrite <- Hq2, <- E, N.div_div by lia; done).
    assert (65536 <= cp /\ cp < 1114112) as (? & ?).
    { unfold cp, d, d2. destruct (N.eq_dec b 240); [|destruct (N.eq_dec b 244)]; lia. }
    replace (b :: c1 :: c2 :: c3 :: r3) with (utf8_char cp ++ r3).
    + apply utf8_text_cons; [unfold scalar_value; lia|]. eapply (IH (length r3)); [cbn in *; lia|done..].
    + unfold utf8_char. rewrite (proj2 (N.ltb_ge cp 128)), (proj2 (N.ltb_ge cp 2048)), (proj2 (N.ltb_ge cp 65536)) by lia.
      rewrite E', E, Hq, Hm, Hm1, Hm2. cbn. do 4 (f_equal; try lia).
  - intros (cps & H & ->). induction H as [|cp cps Hc _ IH]; [done|]. cbn [fmap list_fmap concat]. by rewrite utf8_ok_char.
Qed.

(* ------------------------------------------------------------------ *)
(** * Registration *)

Ltac minv :=
  repeat match goal with
  | H : mbind_ ?a _ = MOk _ |- _ => let E := fresh "E" in destruct a eqn:E; cbn [mbind_] in H; [|discriminate]
  | H : msome ?a _ = MOk _ |- _ => let E := fresh "E" in destruct a eqn:E; cbn [msome] in H; [|discriminate]; injection H as H; subst
  | H : mensure ?a _ = MOk _ |- _ => let E := fresh "E" in destruct a eqn:E; cbn [mensure] in H; [|discriminate]; clear H
  | H : lift ?a = MOk _ |- _ => let E := fresh "E" in destruct a eqn:E; cbn [lift] in H; [|discriminate]; injection H as H; subst
  | H : MOk _ = MOk _ |- _ => injection H as H; subst
  end.

Lemma unused_true {A} (x : option A) : match x with None => true | Some _ => false end = true -> x = None.
Proof. by destruct x. Qed.

Lemma paid_of_registration c e s admin id deposit s' :
  register c e s admin id deposit = COk s' -> paid deposit s s'.
Proof.
  intros H. destruct (registration _ _ _ _ _ _ _ H) as (_ & _ & _ & _ & _ & _ & _ & _ & _ & Hd).
  destruct deposit as [[[n from] to]|]; [exact Hd|]. cbn in *. intros a. unfold balance. by rewrite Hd.
Qed.

Lemma register_complete : forall c e s o id name who dm ti s' evs,
  mg_register c e s o id name who dm ti = MOk (s', evs) ->
  exists deposit a, mc_register_origin c o = Some deposit /\ utf8_text name /\ cc_lookup (mc_c c) who = Some a /\
    c_info (mg_c s) !! id = None /\ c_admin (mg_c s) (OSigned a) = None /\ mg_collections s !! id = None /\ mg_tracks s !! id = None /\
    mg_collective s !! cc_account (mc_c c) id = None /\
    c_info (mg_c s') = <[id := Active]> (c_info (mg_c s)) /\
    c_admin (mg_c s') (OSigned a) = Some id /\ (forall o', o' <> OSigned a -> c_admin (mg_c s') o' = c_admin (mg_c s) o') /\
    c_method (mg_c s') = match dm with Some d => <[id := d]> (c_method (mg_c s)) | None => c_method (mg_c s) end /\
    c_members (mg_c s') = c_members (mg_c s) /\ same_voting_state (mg_c s) (mg_c s') /\ paid deposit (mg_c s) (mg_c s') /\
    mg_collections s' = <[id := cc_account (mc_c c) id]> (mg_collections s) /\ mg_items s' = mg_items s /\
    mg_tracks s' = <[id := default (default_track name) ti]> (mg_tracks s) /\
    mg_track_of s' (OCommunity id None) = Some id /\ (forall o', o' <> OCommunity id None -> mg_track_of s' o' = mg_track_of s o') /\
    mg_collective s' = <[cc_account (mc_c c) id := 0]> (mg_collective s) /\ assets_after (cc_pallet_account (mc_c c)) dm (mg_c s) (mg_c s') /\
    evs = [MvRegistered id].
Proof.
  intros c e s o id name who dm ti s' evs H. unfold mg_register in H. cbv zeta in H. minv.
  match goal with H : register _ _ _ _ _ _ = COk ?x |- _ => rename H into Hr; rename x into s1 end.
  match goal with H : mc_register_origin c o = Some ?d |- _ => exists d; rename d into deposit end.
  match goal with H : cc_lookup _ _ = Some ?d |- _ => exists d; rename d into a end.
  pose proof (paid_of_registration _ _ _ _ _ _ _ Hr) as Hp.
  destruct (registration _ _ _ _ _ _ _ Hr) as (H1 & H2 & H3 & H4 & H5 & H6 & H7 & H8 & H9 & _).
  assert (Hinfo : c_info s1 = <[id := Active]> (c_info (mg_c s))).
  { apply map_eq. intros i. destruct (decide (i = id)) as [->|Hi]; [by rewrite lookup_insert, H3|rewrite lookup_insert_ne by done; by apply H5]. }
  match goal with H : match dm with Some _ => _ | None => _ end = MOk ?x |- _ => rename H into Hd; rename x into s2 end.
  assert (Ha : assets_after (cc_pallet_account (mc_c c)) dm (mg_c s) s2).
  { pose proof (register_assets _ _ _ _ _ _ _ Hr) as Ha. unfold assets_after. rewrite <- Ha.
    change (assets_after (cc_pallet_account (mc_c c)) dm s1 s2).
    destruct dm as [d|]; [|minv; done]. minv.
    match goal with H : call_set_method _ _ _ _ _ = COk ?r |- _ => destruct r; by apply assets_chosen in H end. }
  assert (Hs2 : c_info s2 = c_info s1 /\ c_admin s2 = c_admin s1 /\ c_members s2 = c_members s1 /\ same_voting_state s1 s2 /\ c_balance s2 = c_balance s1 /\
    c_method s2 = match dm with Some d => <[id := d]> (c_method s1) | None => c_method s1 end).
  { clear Ha. destruct dm as [d|]; [|minv; unfold same_voting_state; by split_and!].
    minv. match goal with H : call_set_method _ _ _ _ _ = COk ?r |- _ => destruct r as [s3 ev3]; apply call_set_method_ok in H as (A & w & _ & -> & _) end; cbn [fst]. unfold same_voting_state. by split_and!. }
  destruct Hs2 as (G1 & G2 & G3 & G4 & G5 & G6).
  unfold create_collection, insert_track, induct in *. cbn [mg_collections mg_tracks mg_collective mset_c] in *. minv.
  repeat match goal with H : match _ with None => true | Some _ => false end = true |- _ => apply unused_true in H end.
  cbn [mg_c mg_collections mg_items mg_tracks mg_track_of mg_collective mset_c mset_collections mset_tracks mset_collective] in *.
  match goal with H : utf8_ok _ = true |- _ => apply utf8_name in H end.
  rewrite G1, G2, G3, G6, H7, H8. split_and!; try done.
  - destruct H9 as (? & ? & ? & ?), G4 as (? & ? & ? & ?). unfold same_voting_state. split_and!; congruence.
  - unfold paid, balance in *. rewrite G5. exact Hp.
  - by rewrite decide_True.
  - intros o' Ho. by rewrite decide_False.
Qed.

(** On Kreivo, registration succeeds whenever nothing is in the way. *)
Lemma register_possible : forall e s o id name who dm ti deposit a,
  kreivo_register_origin o = Some deposit -> utf8_text name -> lookup_address who = Some a ->
  c_info (mg_c s) !! id = None -> c_admin (mg_c s) (OSigned a) = None -> mg_collections s !! id = None -> mg_tracks s !! id = None ->
  mg_collective s !! community_account id = None ->
  (forall n from to, deposit = Some (n, from, to) -> n <= balance (mg_c s) from /\ ce_transfer_ok (me_c e) from to n = true) ->
  me_collection_ok e = true -> me_track_ok e = true -> me_induct_ok e = true ->
  exists s', mg_register kreivo_manager e s o id name who dm ti = MOk (s', [MvRegistered id]).
Proof.
  intros e s o id name who dm ti deposit a Ho Hn Hl Hi Ha Hc Ht Hr Hd He1 He2 He3.
  unfold mg_register. cbv zeta. cbn [mc_register_origin kreivo_manager mc_c cc_lookup cc_account kreivo_communities]. rewrite Ho. cbn [msome mbind_].
  apply utf8_name in Hn. rewrite Hn. cbn [mensure mbind_]. rewrite Hl. cbn [msome mbind_].
  destruct (registration_succeeds kreivo_communities (me_c e) (mg_c s) (OSigned a) id deposit Hi Ha Hd) as [s1 H1].
  change (CConfig _ _ _ _ _ _) with kreivo_communities. rewrite H1. cbn [lift mbind_].
  destruct (registration _ _ _ _ _ _ _ H1) as (_ & _ & G3 & G4 & _).
  assert (exists s2, match dm with Some d => try r <- lift (call_set_method kreivo_communities s1 (OSigned a) id d); MOk (fst r) | None => MOk s1 end = MOk s2) as [s2 ->].
  { destruct dm as [d|]; [|by eexists]. unfold call_set_method. cbn [cc_admin_origin kreivo_communities].
    assert (kreivo_admin_origin s1 (OSigned a) = Some id) as ->.
    { unfold kreivo_admin_origin, either_of. cbn [ensure_community]. by rewrite G4, G3. }
    cbn. by eexists. }
  cbn [mbind_]. unfold create_collection, insert_track, induct. cbn [mg_collections mset_c]. rewrite Hc, He1. cbn [mensure mbind_].
  cbn [mg_tracks mset_collections mset_c]. rewrite Ht, He2. cbn [mensure mbind_].
  cbn [mg_collective mset_tracks mset_collections mset_c]. rewrite Hr, He3. cbn [mensure mbind_]. by eexists.
Qed.

Lemma register_failing : forall c e s o id name who dm ti er,
  mg_register c e s o id name who dm ti = MErr er -> mstep_run c s (MRegister e o id name who dm ti) = s.
Proof. intros c e s o id name who dm ti er H. cbn [mstep_run]. by rewrite H. Qed.

(** What registering costs on Kreivo. *)
Lemma register_costs : forall e s o id name who dm ti s' evs,
  mg_register kreivo_manager e s o id name who dm ti = MOk (s', evs) ->
  (o = ORoot /\ (forall a, balance (mg_c s') a = balance (mg_c s) a)) \/
  (exists payer, o = OSigned payer /\ community_deposit <= balance (mg_c s) payer /\
     (payer <> treasury_account -> balance (mg_c s') payer = balance (mg_c s) payer - community_deposit /\
        balance (mg_c s') treasury_account = balance (mg_c s) treasury_account + community_deposit) /\
     (forall a, a <> payer -> a <> treasury_account -> balance (mg_c s') a = balance (mg_c s) a)).
Proof.
  intros e s o id name who dm ti s' evs H.
  destruct (register_complete _ _ _ _ _ _ _ _ _ _ _ H) as (deposit & a & Ho & _ & _ & _ & _ & _ & _ & _ & _ & _ & _ & _ & _ & _ & Hp & _).
  cbn [mc_register_origin kreivo_manager] in Ho. unfold kreivo_register_origin in Ho.
  destruct o; try discriminate; injection Ho as <-.
  - left. split; [done|exact Hp].
  - right. exists who0. destruct Hp as (H1 & H2 & H3 & H4). split_and!; try done.
Qed.

(* ------------------------------------------------------------------ *)
(** * Histories *)

Lemma calls_keep_communities c e s o k s' evs :
  ccall_run c e s o k = COk (s', evs) -> (forall a i, k <> CCreate a i) -> c_info s' = c_info s.
Proof.
  intros E Hk. destruct k; cbn [ccall_run] in E.
  - by exfalso; eapply Hk.
  - apply set_admin_ok in E as (i & Ho & Ha & -> & _). done.
  - unfold call_add_member in E. cinv E. injection E as <- <-. unfold assign in H2. cinv H2. by injection H2 as <-.
  - unfold call_remove_member in E. cinv E. injection E as <- <-. unfold release in H2. cinv H2. by injection H2 as <-.
  - unfold call_promote in E. cinv E. injection E as <- <-. unfold set_rank in H1. cinv H1. by injection H1 as <-.
  - unfold call_demote in E. cinv E. injection E as <- <-. unfold set_rank in H1. cinv H1. by injection H1 as <-.
  - by apply call_set_method_ok in E as (A & w & _ & -> & _).
  - apply call_vote_ok in E as (who & g & t & s1 & -> & Hc & Hw & Hf & -> & Hs1 & Hp & Hl & ->).
    destruct (vote_recorded_fields s1 g who m p t v) as ((E1 & _) & _). rewrite E1.
    destruct Hs1 as [[_ ->]|(t0 & v0 & w0 & _ & _ & ->)]; [done|].
    by destruct (vote_removed_fields s g m p t0 v0 w0 (method_of s g)) as ((? & _) & _).
  - apply call_remove_vote_ok in E as (who & g & t & v & voter & -> & Hc & -> & Hp & Hv & ->).
    by destruct (vote_removed_fields s g m p t v voter (method_of s g)) as ((? & _) & _).
  - apply call_unlock_ok in E as (who & v & -> & -> & Hl & Hp & ->). by destruct (lock_removed_fields s who p v) as (? & _).
Qed.

Lemma no_new_communities s x id : (forall e a i d, x <> StRegister e a i d) ->
  c_info (cstep_run kreivo_communities s x) !! id <> None <-> c_info s !! id <> None.
Proof.
  intros Hx. split; [|apply communities_stay].
  destruct x as [e o k|e admin i d|p g|p|i st|m y|a n|a y]; cbn [cstep_run]; try done.
  - unfold cdispatch. destruct (ccall_run kreivo_communities e s o k) as [[s' evs]|er] eqn:E; [|done].
    rewrite (calls_keep_communities _ _ _ _ _ _ _ E); [done|]. intros a i ->. discriminate.
  - by exfalso; eapply Hx.
  - destruct (c_polls s !! p); done.
  - destruct (c_polls s !! p); done.
  - unfold force_state. destruct (c_info s !! i) eqn:E; [|done]. cbn. destruct (decide (id = i)) as [->|]; [by rewrite E|by rewrite lookup_insert_ne].
Qed.

Lemma mint_loop_frame c e n s id price k s' k' :
  mint_loop c e s n id price k = MOk (s', k') ->
  mg_c s' = mg_c s /\ mg_collections s' = mg_collections s /\ mg_tracks s' = mg_tracks s /\ mg_track_of s' = mg_track_of s /\
  mg_collective s' = mg_collective s.
Proof.
  revert s id k. induction n as [|n IH]; intros s id k; cbn [mint_loop]; [by intros [= <- <-]|].
  intros H. unfold mint_into, set_price in H. minv.
  destruct (next_id id); [|minv; done]. apply IH in H as (-> & -> & -> & -> & ->). done.
Qed.

Definition all_complete (s : mstate) : Prop := forall id,
  (c_info (mg_c s) !! id <> None -> complete kreivo_manager s id) /\
  (mg_tracks s !! id <> None -> c_info (mg_c s) !! id <> None) /\
  (forall o, mg_track_of s o = Some id -> o = OCommunity id None /\ c_info (mg_c s) !! id <> None).

Lemma all_complete_ext s s' : mg_collections s' = mg_collections s -> mg_tracks s' = mg_tracks s -> mg_track_of s' = mg_track_of s ->
  mg_collective s' = mg_collective s -> (forall id, c_info (mg_c s') !! id <> None <-> c_info (mg_c s) !! id <> None) ->
  all_complete s -> all_complete s'.
Proof.
  intros E1 E2 E3 E4 E5 H id. destruct (H id) as (H1 & H2 & H3). unfold complete in *. rewrite E1, E2, E3, E4. split_and!.
  - intros. by apply H1, E5.
  - intros. by apply E5, H2.
  - intros o Ho. destruct (H3 o Ho) as [-> ?]. split; [done|by apply E5].
Qed.

Local Opaque community_account treasury_account community_deposit.

Lemma all_complete_step s x : all_complete s -> all_complete (mstep_run kreivo_manager s x).
Proof.
  intros Hs. destruct x as [e o id name a dm ti|e o n i p|x].
  - cbn [mstep_run]. unfold mdispatch. destruct (mg_register _ _ _ _ _ _ _ _ _) as [[s' evs]|er] eqn:E; [|done].
    apply register_complete in E as (d & a' & _ & _ & _ & Hi & _ & Hc & Ht & Hk & E1 & _ & _ & _ & _ & _ & _ & E2 & _ & E3 & E4 & E5 & E6 & _).
    cbn [mc_c kreivo_manager cc_account kreivo_communities] in *.
    intros id'. unfold complete. cbn [mc_c kreivo_manager cc_account kreivo_communities]. rewrite E1, E2, E3, E6.
    destruct (decide (id' = id)) as [->|Hid].
    + rewrite !lookup_insert. split_and!; [intros _; split_and!; eauto|done|].
      intros o' Ho'. split; [|done]. destruct (decide (o' = OCommunity id None)); [done|]. rewrite E5 in Ho' by done.
      by destruct (Hs id) as (_ & _ & H3), (H3 o' Ho') as [-> _].
    + destruct (Hs id') as (H1 & H2 & H3). unfold complete in H1. cbn [mc_c kreivo_manager cc_account kreivo_communities] in H1.
      rewrite !(lookup_insert_ne _ id id') by done. split_and!.
      * intros Hx. destruct (H1 Hx) as (G1 & G2 & G3 & G4). split_and!; [done|done| |].
        -- rewrite E5; [done|]. congruence.
        -- destruct (decide (community_account id = community_account id')) as [Heq|]; [rewrite Heq in *; congruence|by rewrite lookup_insert_ne].
      * done.
      * intros o' Ho'. destruct (decide (o' = OCommunity id None)) as [->|]; [congruence|]. rewrite E5 in Ho' by done. by apply H3.
  - cbn [mstep_run]. unfold mdispatch. destruct (mg_create_memberships _ _ _ _ _ _ _) as [[s' evs]|er] eqn:E; [|done].
    unfold mg_create_memberships in E. minv. destruct a1 as [s1 k]. minv.
    match goal with H : mint_loop _ _ _ _ _ _ _ = _ |- _ => apply mint_loop_frame in H as (G1 & G2 & G3 & G4 & G5) end.
    apply (all_complete_ext s); rewrite ?G1; done.
  - assert (Hd : (exists e a i d, x = StRegister e a i d) \/ forall e a i d, x <> StRegister e a i d) by (destruct x; eauto 10).
    destruct Hd as [(? & ? & ? & ? & ->)|Hx]; [done|].
    assert (mstep_run kreivo_manager s (MCommunityStep x) = mset_c (cstep_run kreivo_communities (mg_c s) x) s) as ->.
    { destruct x; try done. by exfalso; eapply Hx. }
    apply (all_complete_ext s); try done. intros id. by apply no_new_communities.
Qed.

Lemma communities_complete : forall s, mreachable kreivo_manager s -> forall id,
  (c_info (mg_c s) !! id <> None -> complete kreivo_manager s id) /\
  (mg_tracks s !! id <> None -> c_info (mg_c s) !! id <> None) /\
  (forall o, mg_track_of s o = Some id -> o = OCommunity id None /\ c_info (mg_c s) !! id <> None).
Proof.
  intros s [l ->]. change (all_complete (mrun kreivo_manager m_empty l)).
  assert (H : all_complete m_empty) by (intros id; done). revert H. generalize m_empty.
  induction l as [|x l IH]; intros s H; [done|]. cbn. apply IH. by apply all_complete_step.
Qed.

(** Nor is there a collection or a seat without its community. *)
Definition nothing_without (s : mstate) : Prop :=
  (forall id, mg_collections s !! id <> None -> c_info (mg_c s) !! id <> None) /\
  (forall a, mg_collective s !! a <> None -> exists id, a = community_account id /\ c_info (mg_c s) !! id <> None).

Lemma nothing_without_step s x : nothing_without s -> nothing_without (mstep_run kreivo_manager s x).
Proof.
  intros Hs. assert (Hext : forall s', mg_collections s' = mg_collections s -> mg_collective s' = mg_collective s ->
    (forall id, c_info (mg_c s') !! id <> None <-> c_info (mg_c s) !! id <> None) -> nothing_without s').
  { intros s' E1 E2 E3. destruct Hs as [H1 H2]. split; [intros id; rewrite E1; intros ?; by apply E3, H1|].
    intros a. rewrite E2. intros Ha. destruct (H2 a Ha) as (id & -> & ?). exists id. split; [done|by apply E3]. }
  destruct x as [e o id name a dm ti|e o n i p|x].
  - cbn [mstep_run]. unfold mdispatch. destruct (mg_register _ _ _ _ _ _ _ _ _) as [[s' evs]|er] eqn:E; [|done].
    apply register_complete in E as (d & a' & _ & _ & _ & Hi & _ & Hc & Ht & Hk & E1 & _ & _ & _ & _ & _ & _ & E2 & _ & E3 & E4 & E5 & E6 & _).
    cbn [mc_c kreivo_manager cc_account kreivo_communities] in *. destruct Hs as [H1 H2]. unfold nothing_without. rewrite E1, E2, E6. split.
    + intros id'. destruct (decide (id' = id)) as [->|Hid]; [rewrite !lookup_insert; done|]. rewrite !(lookup_insert_ne _ id id') by done. by apply H1.
    + intros b Hb. destruct (decide (b = community_account id)) as [->|Hne].
      * exists id. by rewrite lookup_insert.
      * rewrite lookup_insert_ne in Hb by done. destruct (H2 b Hb) as (id' & -> & ?). exists id'. split; [done|].
        destruct (decide (id' = id)) as [->|]; [by rewrite lookup_insert|by rewrite lookup_insert_ne].
  - cbn [mstep_run]. unfold mdispatch. destruct (mg_create_memberships _ _ _ _ _ _ _) as [[s' evs]|er] eqn:E; [|done].
    unfold mg_create_memberships in E. minv. destruct a1 as [s1 k]. minv.
    match goal with H : mint_loop _ _ _ _ _ _ _ = _ |- _ => apply mint_loop_frame in H as (G1 & G2 & G3 & G4 & G5) end.
    apply Hext; rewrite ?G1; done.
  - assert (Hd : (exists e a i d, x = StRegister e a i d) \/ forall e a i d, x <> StRegister e a i d) by (destruct x; eauto 10).
    destruct Hd as [(? & ? & ? & ? & ->)|Hx]; [done|].
    assert (mstep_run kreivo_manager s (MCommunityStep x) = mset_c (cstep_run kreivo_communities (mg_c s) x) s) as ->.
    { destruct x; try done. by exfalso; eapply Hx. }
    apply Hext; try done. intros id. by apply no_new_communities.
Qed.

Lemma nothing_without_communities : forall s, mreachable kreivo_manager s ->
  (forall id, mg_collections s !! id <> None -> c_info (mg_c s) !! id <> None) /\
  (forall a, mg_collective s !! a <> None -> exists id, a = community_account id /\ c_info (mg_c s) !! id <> None).
Proof.
  intros s [l ->]. change (nothing_without (mrun kreivo_manager m_empty l)).
  assert (H : nothing_without m_empty) by done. revert H. generalize m_empty.
  induction l as [|x l IH]; intros s H; [done|]. cbn. apply IH. by apply nothing_without_step.
Qed.

(** Who may submit proposals and change tracks. *)
Lemma submissions : forall s, mreachable kreivo_manager s -> forall o track_origin who,
  kreivo_submit_origin s o track_origin = Some who <->
  (o = ORoot /\ who = treasury_account) \/
  (o = OSigned who /\ exists g, track_origin = OCommunity g None /\ c_info (mg_c s) !! g <> None /\ holds_membership s g who).
Proof.
  intros s Hs o tr who. unfold kreivo_submit_origin, ensure_community_member.
  assert (Hm : forall g, mg_track_of s tr = Some g -> tr = OCommunity g None /\ c_info (mg_c s) !! g <> None).
  { intros g Hg. by destruct (communities_complete s Hs g) as (_ & _ & H), (H tr Hg). }
  assert (Hm' : forall g, tr = OCommunity g None -> c_info (mg_c s) !! g <> None -> mg_track_of s tr = Some g).
  { intros g -> Hg. by destruct (communities_complete s Hs g) as (H & _), (H Hg) as (_ & _ & ? & _). }
  split.
  - intros H. destruct o as [| |w|i sub|cu|l|n]; [injection H as <-; by left|..]; destruct (mg_track_of s tr) as [g|] eqn:E; try discriminate.
    destruct (is_member_of (mg_c s) g w) eqn:Em; [|discriminate]. injection H as <-. right. split; [done|]. exists g.
    destruct (Hm g eq_refl) as [-> ?]. split_and!; [done..|]. by apply is_member_of_iff.
  - intros [[-> ->]|[-> (g & Ht & Hi & Hh)]]; [done|]. rewrite (Hm' g Ht Hi).
    by rewrite (proj2 (is_member_of_iff (mg_c s) g who) Hh).
Qed.

Lemma track_updates : forall s, mreachable kreivo_manager s -> forall o id,
  ensure_origin_to_track s o id = true <-> o = OCommunity id None /\ c_info (mg_c s) !! id <> None.
Proof.
  intros s Hs o id. unfold ensure_origin_to_track. destruct (communities_complete s Hs id) as (H1 & _ & H3). split.
  - destruct (mg_track_of s o) as [t|] eqn:E; [|discriminate]. intros H. apply N.eqb_eq in H as ->. by apply H3.
  - intros [-> Hi]. destruct (H1 Hi) as (_ & _ & -> & _). by apply N.eqb_eq.
Qed.

(* ------------------------------------------------------------------ *)
(** * Memberships *)

Lemma mint_loop_items c e n : forall s id price k s' k', id <= u32_max ->
  mint_loop c e s n id price k = MOk (s', k') ->
  let last := N.min (id + N.of_nat n) (u32_max + 1) in
  (forall i, id <= i -> i < last -> mg_items s !! (mc_collection c, i) = None /\ mg_items s' !! (mc_collection c, i) = Some (Item (mc_owner c) (Some price))) /\
  (forall coll i, (coll <> mc_collection c \/ i < id \/ last <= i) -> mg_items s' !! (coll, i) = mg_items s !! (coll, i)) /\
  k' = k + N.min (N.of_nat n) (u32_max - id).
Proof.
  induction n as [|n IH]; intros s id price k s' k' Hid H; cbn [mint_loop] in H.
  { injection H as <- <-. cbv zeta. split_and!; [lia|done|lia]. }
  unfold mint_into, set_price in H. minv. cbn [mg_items mset_items it_owner] in *.
  repeat match goal with H : match _ with None => true | Some _ => false end = true |- _ => apply unused_true in H end.
  match goal with H : <[_ := _]> (mg_items s) !! _ = Some ?y |- _ => rewrite lookup_insert in H; injection H as <- end.
  cbn [it_owner] in *. rewrite insert_insert in H.
  cbv zeta. unfold next_id in H. destruct (N.ltb_spec id u32_max).
  - apply IH in H as (G1 & G2 & ->); [|unfold u32_max in *; lia]. cbn [mg_items mset_items] in *.
    replace (N.min (id + 1 + N.of_nat n) (u32_max + 1)) with (N.min (id + N.of_nat (S n)) (u32_max + 1)) in * by lia.
    set (last := N.min (id + N.of_nat (S n)) (u32_max + 1)) in *. split_and!.
    + intros i Hi1 Hi2. destruct (N.eq_dec i id) as [->|].
      * split; [done|]. rewrite G2 by (right; left; lia). by rewrite lookup_insert.
      * destruct (G1 i ltac:(lia) Hi2) as [G3 G4]. split; [|done]. rewrite lookup_insert_ne in G3; [done|congruence].
    + intros coll i Hi. rewrite G2 by lia. rewrite lookup_insert_ne; [done|]. intros [= <- <-]. unfold last in Hi. lia.
    + lia.
  - assert (id = u32_max) as -> by lia. injection H as <- <-. cbn [mg_items mset_items]. split_and!.
    + intros i Hi1 Hi2. assert (i = u32_max) as -> by lia. split; [done|]. by rewrite lookup_insert.
    + intros coll i Hi. rewrite lookup_insert_ne; [done|]. intros [= <- <-]. lia.
    + lia.
Qed.

Lemma memberships_created : forall c e s o amount start price s' evs, start <= u32_max ->
  mg_create_memberships c e s o amount start price = MOk (s', evs) ->
  let last := N.min (start + amount) (u32_max + 1) in
  amount <= 1024 /\ mc_create_origin c o = Some tt /\
  (forall i, start <= i -> i < last -> mg_items s !! (mc_collection c, i) = None /\ mg_items s' !! (mc_collection c, i) = Some (Item (mc_owner c) (Some price))) /\
  (forall coll i, coll <> mc_collection c \/ i < start \/ last <= i -> mg_items s' !! (coll, i) = mg_items s !! (coll, i)) /\
  mg_c s' = mg_c s /\ mg_collections s' = mg_collections s /\ mg_tracks s' = mg_tracks s /\ mg_track_of s' = mg_track_of s /\
  mg_collective s' = mg_collective s /\
  evs = [MvMembershipsCreated start (N.min amount (u32_max - start))].
Proof.
  intros c e s o amount start price s' evs Hst H. unfold mg_create_memberships in H. minv. destruct a1 as [s1 k]. minv. cbv zeta.
  match goal with H : mint_loop _ _ _ _ _ _ _ = _ |- _ => pose proof (mint_loop_frame _ _ _ _ _ _ _ _ _ H) as (F1 & F2 & F3 & F4 & F5);
    apply mint_loop_items in H as (G1 & G2 & ->); [|done] end.
  rewrite N2Nat.id in *. split_and!; try done.
  - by apply N.leb_le.
  - match goal with H : mc_create_origin c o = Some ?u |- _ => by destruct u end.
Qed.

(** The count reported is the number created unless the largest possible id is among them. *)
Lemma memberships_reported : forall c e s o amount start price s' evs, start + amount <= u32_max ->
  mg_create_memberships c e s o amount start price = MOk (s', evs) ->
  evs = [MvMembershipsCreated start amount].
Proof.
  intros c e s o amount start price s' evs Hl H. apply memberships_created in H as (_ & _ & _ & _ & _ & _ & _ & _ & _ & ->); [|lia].
  do 2 f_equal. lia.
Qed.

Lemma memberships_possible : forall c e s o amount start price, amount <= 1024 -> mc_create_origin c o = Some tt ->
  (forall i, start <= i -> i < start + amount -> mg_items s !! (mc_collection c, i) = None /\ me_item_ok e i = true) ->
  exists s' evs, mg_create_memberships c e s o amount start price = MOk (s', evs).
Proof.
  intros c e s o amount start price Ha Ho Hf. unfold mg_create_memberships. rewrite (proj2 (N.leb_le _ _) Ha), Ho. cbn [mensure msome mbind_].
  assert (exists s' k, mint_loop c e s (N.to_nat amount) start price 0 = MOk (s', k)) as (s' & k & ->); [|by eexists _, _].
  rewrite <- (N2Nat.id amount) in Hf. revert Hf. generalize (N.to_nat amount). intros n. clear Ha. generalize 0 at 1. revert s start.
  induction n as [|n IH]; intros s id k Hf; cbn [mint_loop]; [by eexists _, _|].
  destruct (Hf id ltac:(lia) ltac:(lia)) as [H1 H2]. unfold mint_into, set_price. rewrite H1, H2. cbn [mensure mbind_ mg_items mset_items].
  rewrite lookup_insert. cbn [msome mbind_ it_owner]. rewrite N.eqb_refl. cbn [mensure mbind_]. unfold next_id.
  destruct (N.ltb_spec id u32_max); [|by eexists _, _]. apply IH. intros i Hi1 Hi2. cbn [mg_items mset_items].
  rewrite insert_insert, lookup_insert_ne by (intros [= <-]; lia). apply Hf; lia.
Qed.

(** * Constants and origins of Kreivo *)

Lemma community_price : 2 * community_deposit = 10 ^ 12.
Proof. vm_compute. reflexivity. Qed.
Lemma who_creates : forall e s o amount start price s' evs, mg_create_memberships kreivo_manager e s o amount start price = MOk (s', evs) ->
  o = ORoot \/ o = OCustom CreateMemberships.
Proof.
  intros e s o amount start price s' evs H. unfold mg_create_memberships in H. minv.
  destruct o as [| | | |[]| |]; try done; first [by left|by right].
Qed.

(* ------------------------------------------------------------------ *)
(** * Assets made for communities *)

Lemma pallet_is_community_zero : pallet_account community_pallet_id = community_account 0.
Proof. vm_compute. reflexivity. Qed.

Lemma manager_assets : forall s x a,
  c_assets (mg_c (mstep_run kreivo_manager s x)) !! a <> c_assets (mg_c s) !! a ->
  (exists y, x = MCommunityStep (StAsset a y)) \/
  (c_assets (mg_c s) !! a = None /\ exists min, 0 < min /\
   c_assets (mg_c (mstep_run kreivo_manager s x)) !! a = Some (community_account 0, min) /\
   ((exists e o g id, x = MCommunityStep (StCall e o (CSetMethod g (ByCommunityAsset a min))) /\ kreivo_admin_origin (mg_c s) o = Some id) \/
    (exists e o id name who ti, x = MRegister e o id name who (Some (ByCommunityAsset a min)) ti /\ c_info (mg_c s) !! id = None /\
       (o = ORoot \/ exists w, o = OSigned w /\ community_deposit <= balance (mg_c s) w)))).
Proof.
  intros s x a. rewrite <- pallet_is_community_zero. destruct x as [e o id name who dm ti|e o n i p|x].
  - cbn [mstep_run]. unfold mdispatch. destruct (mg_register _ _ _ _ _ _ _ _ _) as [[s' evs]|er] eqn:E; [|done].
    pose proof (register_costs _ _ _ _ _ _ _ _ _ _ E) as Hc.
    apply register_complete in E as (d & a' & Ho & _ & _ & Hi & _ & _ & _ & _ & _ & _ & _ & _ & _ & _ & Hp & _ & _ & _ & _ & _ & _ & Ha & _).
    intros Hne. right. destruct dm as [[| |b min|]|]; cbn in Ha; try (by rewrite Ha in Hne).
    destruct Ha as [Ha1 Ha2]. destruct (c_assets (mg_c s) !! b) eqn:Eb; [by rewrite Ha2 in Hne by (by left)|].
    destruct (N.eq_0_gt_0_cases min) as [->|Hm]; [by rewrite Ha2 in Hne by (by right)|].
    specialize (Ha1 eq_refl Hm). rewrite Ha1 in Hne |- *.
    destruct (decide (b = a)) as [->|Hb]; [|by rewrite lookup_insert_ne in Hne].
    rewrite lookup_insert. split; [done|]. exists min. split_and!; [done|done|]. right.
    eexists _, _, _, _, _, _. split_and!; [done|done|].
    destruct o; cbn in Ho; try done; [by left|right]. eexists; split; [done|]. injection Ho as <-. by destruct Hp.
  - cbn [mstep_run]. unfold mdispatch. destruct (mg_create_memberships _ _ _ _ _ _ _) as [[s' evs]|er] eqn:E; [|done].
    unfold mg_create_memberships in E. minv.
    destruct a2 as [s2 k2]. injection E as <- <-. apply mint_loop_frame in E2 as (-> & _). done.
  - destruct x; cbn [mstep_run]; try done; cbn [mg_c mset_c mc_c kreivo_manager]; intros Hne; apply (asset_changes kreivo_communities) in Hne;
    (destruct Hne as [[y Hy]|(e' & o' & g & min & id' & Hx & Ho & Hm & Hb & Hs)]; [left; exists y; by f_equal|right]);
    try discriminate Hx; injection Hx as -> -> ->; (split; [done|exists min; split_and!; [done|done|left; eauto 10]]).
Qed.

Lemma squatting a min : 0 < min -> forall e s, c_assets (mg_c s) !! a = None ->
  forall o id name who ti s' evs, mg_register kreivo_manager e s o id name who (Some (ByCommunityAsset a min)) ti = MOk (s', evs) ->
  c_assets (mg_c s') !! a = Some (community_account 0, min).
Proof.
  intros Hm e s Ha o id name who ti s' evs E. rewrite <- pallet_is_community_zero.
  apply register_complete in E as (d & a' & _ & _ & _ & _ & _ & _ & _ & _ & _ & _ & _ & _ & _ & _ & _ & _ & _ & _ & _ & _ & _ & [H _] & _).
  rewrite H by done. by rewrite lookup_insert.
Qed.

(** Who can act as the owner of those assets through the pallet: exactly who stands for community 0. *)
Lemma owner_of_assets : forall s o, (forall id, kreivo_admin_origin s o = Some id -> id <= u16_max) ->
  dispatch_as_account kreivo_communities s o = Some (OSigned (community_account 0)) <-> kreivo_admin_origin s o = Some 0.
Proof.
  intros s o H. unfold dispatch_as_account. cbn [cc_mgmt_origin cc_account kreivo_communities].
  destruct (kreivo_admin_origin s o) as [id|] eqn:E; [|done]. split; [|by intros [= ->]].
  intros [= H1]. f_equal. apply community_account_inj; [by apply H|lia|done].
Qed.

(** Who administers communities, over histories of Kreivo's governance. *)
From stdpp Require Import gmap.
From Verif Require Import Base XcmTypes OriginTypes AccountsModel CommunitiesModel CommunitiesSpec CommunitiesProofs CommunitiesTally CommunitiesRegistry TracksModel TracksSpec
  TracksProofs ManagerModel ManagerSpec ManagerProofs XcmConfigModel GovernanceModel GovernanceSpec GovernanceProofs GovernanceMore AdminsSpec.
Open Scope N_scope.

Local Opaque community_account treasury_account community_deposit kreivo_tracks.

Definition ginfo (s : gstate) := c_info (mg_c (gv_m s)).
Definition gadmin (s : gstate) := c_admin (mg_c (gv_m s)).

Inductive admin_kind (s : gstate) (o : origin) (k : gcall) (s' : gstate) : Prop :=
| AKSame : ginfo s' = ginfo s -> (forall o', gadmin s' o' = gadmin s o') -> admin_kind s o k s'
| AKRegister admin id : ginfo s !! id = None -> gadmin s admin = None -> ginfo s' = <[id := Active]> (ginfo s) ->
    (forall o', gadmin s' o' = admin_insert admin id (gadmin s) o') -> admin_kind s o k s'
| AKSet admin id : k = GCommunityCall (CSetAdmin admin) -> kreivo_admin_origin (mg_c (gv_m s)) o = Some id -> gadmin s o = Some id ->
    ginfo s' = ginfo s -> (forall o', gadmin s' o' = admin_insert admin id (admin_remove o (gadmin s)) o') -> admin_kind s o k s'.

Lemma put_status_registry s i p x : ginfo (put_status s i p x) = ginfo s /\ gadmin (put_status s i p x) = gadmin s.
Proof. destruct i, x; split; reflexivity. Qed.
Lemma service_registry e s i p : ginfo (g_service e s i p) = ginfo s /\ gadmin (g_service e s i p) = gadmin s.
Proof.
  destruct (service_effect e s i p) as [->|(r0 & t & ti & y & _ & _ & _ & _ & _ & [->|[_ ->]])]; [split; reflexivity|..];
    destruct (put_status_registry s i p y) as [E1 E2]; split; first [exact E1 | exact E2].
Qed.
Lemma next_registry e s i p : ginfo (g_next e s i p) = ginfo s /\ gadmin (g_next e s i p) = gadmin s.
Proof.
  destruct (next_effect e s i p) as [->|(r0 & t & ti & _ & _ & _ & _ & _ & ->)]; [split; reflexivity|]. apply put_status_registry.
Qed.

Lemma admin_kind_of e s o k s' : leaf k = true -> g_call e s o k = Some s' -> admin_kind s o k s'.
Proof.
  intros Hl H. destruct (m_call k) eqn:Hmc.
  - destruct k; try discriminate; cbn [g_call] in H.
    + unfold g_update_track in H. destruct (ensure_origin_to_track _ _ _); [|discriminate]. destruct (mg_tracks (gv_m s) !! id); [|discriminate].
      injection H as <-. apply AKSame; reflexivity.
    + unfold from_m in H. destruct (mg_register _ _ _ _ _ _ _ _ _) as [[m' evs]|] eqn:E; [|discriminate]. injection H as <-.
      apply register_complete in E as (d & a & _ & _ & _ & E1 & E2 & _ & _ & _ & E3 & E4 & E5 & _).
      apply (AKRegister _ _ _ _ (OSigned a) id); [exact E1 | exact E2 | exact E3 |].
      intros o'. unfold admin_insert, gadmin. cbn [gv_m gset_m]. destruct (decide (o' = OSigned a)) as [->|Hn]; [exact E4 | exact (E5 _ Hn)].
    + unfold from_m in H. destruct (mg_create_memberships _ _ _ _ _ _ _) as [[m' evs]|] eqn:E; [|discriminate]. injection H as <-.
      unfold mg_create_memberships in E. minv. destruct a1 as [s1 k]. minv.
      match goal with H : mint_loop _ _ _ _ _ _ _ = _ |- _ => apply mint_loop_frame in H as (G1 & G2 & G3 & G4 & G5) end.
      apply AKSame; unfold ginfo, gadmin; cbn; rewrite ?G1; reflexivity.
    + destruct (ccall_run _ _ _ _ _) as [[c' evs]|] eqn:E; [|discriminate]. injection H as <-. 
      assert (X := registry_kind_of kreivo_communities (mg_c (gv_m s)) (StCall (me_c (ge_m e)) o k)). cbn [cstep_run] in X. unfold cdispatch in X.
      rewrite E in X. destruct X as [E1 E2|admin id E1 E2 E3 E4|e1 o1 admin id E1 E2 E3 E4 E5|id st st0 E1 _ _ _].
      * apply AKSame; [exact E1|]. intros o'. unfold gadmin. cbn. rewrite E2. reflexivity.
      * apply (AKRegister _ _ _ _ admin id); assumption.
      * injection E1 as _ <- ->. apply (AKSet _ _ _ _ admin id); try assumption. reflexivity.
      * discriminate E1.
  - apply leaf_kind_of in H; [|exact Hl]. leaf_cases H; try congruence; try (subst s'; apply AKSame; reflexivity).
    + unfold g_submit in H3. destruct (submit_origin _ _ _ _); [|discriminate H3]. cbn in H3. destruct (track_for _ _ _); [|discriminate H3]. cbn in H3.
      destruct (ge_deposit_ok e); [|discriminate H3]. cbn in H3. injection H3 as <-. destruct i; apply AKSame; reflexivity.
    + subst s'. match goal with |- admin_kind _ _ _ (put_status ?s ?i ?p ?x) => destruct (put_status_registry s i p x) as [E1 E2] end.
      apply AKSame; [exact E1 | intros o'; rewrite E2; reflexivity].
    + subst s'. match goal with |- admin_kind _ _ _ (put_status ?s ?i ?p ?x) => destruct (put_status_registry s i p x) as [E1 E2] end.
      apply AKSame; [exact E1 | intros o'; rewrite E2; reflexivity].
    + subst s'. match goal with |- admin_kind _ _ _ (put_status ?s ?i ?p ?x) => destruct (put_status_registry s i p x) as [E1 E2] end.
      apply AKSame; [exact E1 | intros o'; rewrite E2; reflexivity].
Qed.

(** The registry in states the chain can be in. *)
Definition reg_inv (s : gstate) : Prop :=
  (forall o o' id, gadmin s o = Some id -> gadmin s o' = Some id -> o = o') /\ (forall o id, gadmin s o = Some id -> ginfo s !! id <> None).
Lemma reg_inv_kind s o k s' : admin_kind s o k s' -> reg_inv s -> reg_inv s'.
Proof.
  intros H [I1 I2]. destruct H as [E1 E2|admin id E1 E2 E3 E4|admin id E0 E1 E2 E3 E4].
  - split; [intros o1 o2 g; rewrite !E2; apply I1 | intros o1 g; rewrite E2, E1; apply I2].
  - split.
    + intros o1 o2 g. rewrite !E4. unfold admin_insert. destruct (decide (o1 = admin)) as [->|]; destruct (decide (o2 = admin)) as [->|].
      * reflexivity.
      * intros [= <-] H2. destruct (I2 _ _ H2 E1).
      * intros H2 [= <-]. destruct (I2 _ _ H2 E1).
      * apply I1.
    + intros o1 g. rewrite E4, E3. unfold admin_insert. destruct (decide (o1 = admin)) as [->|].
      * intros [= <-]. rewrite lookup_insert. discriminate.
      * intros H2 H3. apply I2 in H2. apply lookup_insert_None in H3 as [H3 _]. exact (H2 H3).
  - split.
    + intros o1 o2 g. rewrite !E4. unfold admin_insert, admin_remove.
      destruct (decide (o1 = admin)) as [->|]; destruct (decide (o2 = admin)) as [->|].
      * reflexivity.
      * intros [= <-]. destruct (decide (o2 = o)) as [->|Hn]; [discriminate|]. intros H2. destruct (Hn (I1 _ _ _ H2 E2)).
      * intros H2 [= <-]. destruct (decide (o1 = o)) as [->|Hn]; [discriminate|]. destruct (Hn (I1 _ _ _ H2 E2)).
      * destruct (decide (o1 = o)) as [->|]; [discriminate|]. destruct (decide (o2 = o)) as [->|]; [discriminate|]. apply I1.
    + intros o1 g. rewrite E4, E3. unfold admin_insert, admin_remove. destruct (decide (o1 = admin)) as [->|].
      * intros [= <-]. exact (I2 _ _ E2).
      * destruct (decide (o1 = o)); [discriminate | apply I2].
Qed.
Lemma reg_inv_same s s' : ginfo s' = ginfo s -> gadmin s' = gadmin s -> reg_inv s -> reg_inv s'.
Proof. unfold reg_inv. intros -> ->. exact id. Qed.
Lemma outside_registry s y : outside_step y = true ->
  ginfo (gset_c (cstep_run kreivo_communities (mg_c (gv_m s)) y) s) = ginfo s /\
  gadmin (gset_c (cstep_run kreivo_communities (mg_c (gv_m s)) y) s) = gadmin s.
Proof. intros H. destruct y; try discriminate H; split; reflexivity. Qed.

Lemma reg_inv_step s x : reg_inv s -> reg_inv (gstep_run s x).
Proof.
  intros I. apply (step_induct reg_inv); try (intros; exact I).
  - intros s1 o1 k1 e s2 _ Hl I1 Hc. exact (reg_inv_kind _ _ _ _ (admin_kind_of _ _ _ _ _ Hl Hc) I1).
  - intros e i p _. destruct (service_registry e s i p) as [E1 E2]. exact (reg_inv_same _ _ E1 E2 I).
  - intros e i p _. destruct (next_registry e s i p) as [E1 E2]. exact (reg_inv_same _ _ E1 E2 I).
  - intros y _ Hy. destruct (outside_registry s y Hy) as [E1 E2]. exact (reg_inv_same _ _ E1 E2 I).
Qed.
Lemma reg_inv_run l : forall s, reg_inv s -> reg_inv (grun s l).
Proof. induction l as [|x l IH]; intros s I; [exact I|]. apply IH, reg_inv_step, I. Qed.
Lemma reg_inv_start ranks now : reg_inv (g_start ranks now).
Proof. split; intros; discriminate. Qed.

(** Who administers changes by their own word, or because the administrator of another community names them. *)
Lemma handed_over : forall s x o g, administers s o g -> ~ administers (gstep_run s x) o g ->
  (exists s1 o', hands_over s x s1 o o') \/ (exists s1 o1 g1, hands_over s x s1 o1 o /\ administers s1 o1 g1 /\ g1 <> g).
Proof.
  intros s x o g Ha Hn.
  cut (administers (gstep_run s x) o g \/ (exists s1 o', hands_over s x s1 o o') \/
    (exists s1 o1 g1, hands_over s x s1 o1 o /\ administers s1 o1 g1 /\ g1 <> g)); [tauto|]. clear Hn.
  apply (step_induct (fun s' => administers s' o g \/ (exists s1 o', hands_over s x s1 o o') \/
    (exists s1 o1 g1, hands_over s x s1 o1 o /\ administers s1 o1 g1 /\ g1 <> g))); try (intros; left; exact Ha).
  - intros s1 o1 k1 e s2 Hh Hl IH Hc. destruct IH as [IH|IH]; [|right; exact IH].
    destruct (admin_kind_of _ _ _ _ _ Hl Hc) as [E1 E2|admin id E1 E2 E3 E4|admin id E0 E1 E2 E3 E4].
    + left. unfold administers. change (gadmin s2 o = Some g). rewrite E2. exact IH.
    + left. unfold administers. change (gadmin s2 o = Some g). rewrite E4. unfold admin_insert. destruct (decide (o = admin)) as [->|]; [|exact IH].
      change (gadmin s1 admin = Some g) in IH. congruence.
    + destruct (decide (o = o1)) as [->|Ho].
      * right. left. exists s1, admin. unfold hands_over. rewrite <- E0. exact Hh.
      * destruct (decide (o = admin)) as [->|Ha'].
        -- destruct (decide (id = g)) as [->|Hg].
           ++ left. unfold administers. change (gadmin s2 admin = Some g). rewrite E4. unfold admin_insert. destruct (decide (admin = admin)); [reflexivity | contradiction].
           ++ right. right. exists s1, o1, id. split_and!; [unfold hands_over; rewrite <- E0; exact Hh | exact E2 | exact Hg].
        -- left. unfold administers. change (gadmin s2 o = Some g). rewrite E4. unfold admin_insert, admin_remove.
           destruct (decide (o = admin)); [contradiction|]. destruct (decide (o = o1)); [contradiction | exact IH].
  - intros e i p _. left. destruct (service_registry e s i p) as [_ E2]. unfold administers. change (gadmin (g_service e s i p) o = Some g). rewrite E2. exact Ha.
  - intros e i p _. left. destruct (next_registry e s i p) as [_ E2]. unfold administers. change (gadmin (g_next e s i p) o = Some g). rewrite E2. exact Ha.
  - intros y _ Hy. left. destruct (outside_registry s y Hy) as [_ E2]. unfold administers. change (gadmin (gset_c (cstep_run kreivo_communities (mg_c (gv_m s)) y) s) o = Some g). rewrite E2. exact Ha.
Qed.

(** Without an administrator, for good. *)
Lemma orphan_step s x g : orphan s g -> orphan (gstep_run s x) g.
Proof.
  intros Ho. apply (step_induct (fun s' => orphan s' g)); try (intros; exact Ho).
  - intros s1 o1 k1 e s2 _ Hl [R1 R2] Hc. unfold orphan, registered, administers in *. fold (ginfo s1) in R1. fold (ginfo s2).
    change (forall o, gadmin s1 o <> Some g) in R2. change (ginfo s2 !! g <> None /\ forall o, gadmin s2 o <> Some g).
    destruct (admin_kind_of _ _ _ _ _ Hl Hc) as [E1 E2|admin id E1 E2 E3 E4|admin id E0 E1 E2 E3 E4].
    + rewrite E1. split; [exact R1|]. intros o. rewrite E2. apply R2.
    + assert (id <> g) by (intros ->; contradiction). rewrite E3, lookup_insert_ne by assumption. split; [exact R1|].
      intros o. rewrite E4. unfold admin_insert. destruct (decide (o = admin)); [congruence | apply R2].
    + assert (id <> g) by (intros ->; exact (R2 _ E2)). rewrite E3. split; [exact R1|].
      intros o. rewrite E4. unfold admin_insert, admin_remove. destruct (decide (o = admin)); [congruence|]. destruct (decide (o = o1)); [discriminate | apply R2].
  - intros e i p _. destruct (service_registry e s i p) as [E1 E2]. unfold orphan, registered, administers. fold (ginfo (g_service e s i p)). fold (gadmin (g_service e s i p)).
    rewrite E1, E2. exact Ho.
  - intros e i p _. destruct (next_registry e s i p) as [E1 E2]. unfold orphan, registered, administers. fold (ginfo (g_next e s i p)). fold (gadmin (g_next e s i p)).
    rewrite E1, E2. exact Ho.
  - intros y _ Hy. destruct (outside_registry s y Hy) as [E1 E2]. unfold orphan, registered, administers. fold (ginfo (gset_c (cstep_run kreivo_communities (mg_c (gv_m s)) y) s)).
    fold (gadmin (gset_c (cstep_run kreivo_communities (mg_c (gv_m s)) y) s)). rewrite E1, E2. exact Ho.
Qed.
Lemma orphan_forever : forall s g l, orphan s g -> orphan (grun s l) g.
Proof. intros s g l. revert s. induction l as [|x l IH]; intros s Ho; [exact Ho|]. apply IH, orphan_step, Ho. Qed.

(** The administrator of any active community makes an orphan of any other. *)
Lemma taken_over : forall ranks now l e a o g h, let s := grun (g_start ranks now) l in
  administers s o g -> administers s (OSigned a) h -> active s h -> g <> h ->
  let s' := gstep_run s (GTx e a (GCommunityCall (CSetAdmin o))) in administers s' o h /\ orphan s' g.
Proof.
  intros ranks now l e a o g h s Ho Ha Hact Hgh s'. destruct (reg_inv_run l _ (reg_inv_start ranks now)) as [I1 I2]. fold s in I1, I2.
  assert (Hao : kreivo_admin_origin (mg_c (gv_m s)) (OSigned a) = Some h).
  { unfold kreivo_admin_origin, either_of, ensure_community. unfold administers in Ha. rewrite Ha. unfold active in Hact. rewrite Hact. reflexivity. }
  assert (Es : s' = gset_c (set_admin (admin_insert o h (admin_remove (OSigned a) (c_admin (mg_c (gv_m s))))) (mg_c (gv_m s))) s).
  { unfold s'. cbn [gstep_run]. unfold g_dispatch. cbn [g_call ccall_run]. unfold call_set_admin. cbn [cc_admin_origin kreivo_communities].
    rewrite Hao. cbn [from_option_err cbind]. unfold administers in Ha. rewrite bool_decide_eq_true_2 by exact Ha. reflexivity. }
  rewrite Es. unfold orphan, registered, administers. cbn [gset_c gv_m mg_c mset_c gset_m c_info c_admin set_admin]. split; [|split].
  - unfold admin_insert. destruct (decide (o = o)); [reflexivity | contradiction].
  - exact (I2 _ _ Ho).
  - intros o2. unfold admin_insert, admin_remove. destruct (decide (o2 = o)); [congruence|].
    destruct (decide (o2 = OSigned a)); [discriminate|]. intros H2. apply n. exact (I1 _ _ _ H2 Ho).
Qed.

(** What the community decides does not change its administrator, unless it is its own administrator. *)
Lemma members_cannot : forall e s g sub o, ~ administers s (OCommunity g sub) g -> g_call e s (OCommunity g sub) (GCommunityCall (CSetAdmin o)) = None.
Proof.
  intros e s g sub o Hn. cbn [g_call ccall_run]. unfold call_set_admin. cbn [cc_admin_origin kreivo_communities].
  unfold kreivo_admin_origin, either_of, ensure_community, ensure_community_account.
  destruct (c_info (mg_c (gv_m s)) !! g) as [[]|]; try reflexivity. cbn [from_option_err cbind].
  rewrite bool_decide_eq_false_2 by exact Hn. reflexivity.
Qed.

(** What it decides else about itself takes effect all the same. *)
Lemma members_decide : forall e s g dm, active s g ->
  kreivo_admin_origin (mg_c (gv_m s)) (OCommunity g None) = Some g /\
  exists s', g_call e s (OCommunity g None) (GCommunityCall (CSetMethod g dm)) = Some s' /\ method_of (mg_c (gv_m s')) g = dm.
Proof.
  intros e s g dm Hact. assert (Ho : kreivo_admin_origin (mg_c (gv_m s)) (OCommunity g None) = Some g).
  { unfold kreivo_admin_origin, either_of, ensure_community. unfold active in Hact. rewrite Hact. reflexivity. }
  split; [exact Ho|]. cbn [g_call ccall_run]. unfold call_set_method. cbn [cc_admin_origin kreivo_communities]. rewrite Ho. cbn [from_option_err cbind].
  eexists. split; [reflexivity|]. cbn [gset_c gv_m mg_c mset_c gset_m]. unfold method_of. cbn [c_method set_methods]. rewrite lookup_insert. reflexivity.
Qed.

(** Who can change what about collators. *)
From stdpp Require Import gmap.
From Verif Require Import Base XcmTypes OriginTypes XcmConfigModel TimeModel CollatorsModel CollatorsSpec CollatorsProofs CollatorsSessions CollatorsTheorems.
Open Scope N_scope.

Lemma block_rest s slot : k_invulnerables (begin_block s slot) = k_invulnerables s /\ k_desired (begin_block s slot) = k_desired s /\ k_bond (begin_block s slot) = k_bond s /\
  k_keys (begin_block s slot) = k_keys s.
Proof.
  rewrite begin_block_noted. destruct (noted_same s slot) as (N1 & _ & N3 & N4 & N5 & _).
  destruct (_ =? 0); [|by split_and!]. destruct (rotate_fields (noted s slot)) as (R1 & _ & _ & R4 & R5 & R6 & _).
  destruct (th_rest _ _ (kick_fold_thinned (map cd_who (k_candidates (noted s slot))) (noted s slot))) as (T1 & T2 & T3 & T4 & _). fold (kick_stale (noted s slot)) in *.
  rewrite R1, R4, R5, R6, T1, T2, T3, T4. by split_and!.
Qed.

Lemma remove_incl who l c : c ∈ remove_candidate who l -> c ∈ l.
Proof. intros H. eapply elem_of_submseteq; [exact H|apply sublist_submseteq, remove_candidate_sublist]. Qed.
Lemma drop_incl f who s s' c : drop_candidate f who s = Some s' -> c ∈ k_candidates s' -> c ∈ k_candidates s.
Proof. intros H Hc. destruct (drop_candidate_effect _ _ _ _ H) as [d [_ Hd _ _ _ _]]. rewrite Hd in Hc. by apply remove_incl in Hc. Qed.
Lemma kick_incl s who c : c ∈ k_candidates (kick s who) -> c ∈ k_candidates s.
Proof.
  unfold kick. cbv zeta. destruct (is_invulnerable s who); [|destruct (_ || _); [done|]]; (destruct (drop_candidate _ who s) eqn:E; [|done]); intros H; by eapply drop_incl.
Qed.
Lemma kicks_incl l s c : c ∈ k_candidates (fold_left kick l s) -> c ∈ k_candidates s.
Proof. revert s. induction l as [|w l IH]; intros s H; [done|]. by eapply kick_incl, IH. Qed.
Lemma block_incl s slot c : c ∈ k_candidates (begin_block s slot) -> c ∈ k_candidates s.
Proof.
  rewrite begin_block_noted. destruct (noted_same s slot) as (_ & N2 & _). destruct (_ =? 0); [|by rewrite N2].
  destruct (rotate_fields (noted s slot)) as (_ & R2 & _). rewrite R2. intros H. apply kicks_incl in H. by rewrite N2 in H.
Qed.

(** The invulnerables, how many candidates are wanted, and the bond asked for, are governed. *)
Lemma governed s x : k_invulnerables (kstep_run s x) <> k_invulnerables s \/ k_desired (kstep_run s x) <> k_desired s \/ k_bond (kstep_run s x) <> k_bond s ->
  exists e o k, x = KCall e o k /\ collator_update_origin o = true.
Proof.
  destruct x as [e o k|slot|w n]; cbn [kstep_run].
  - intros H. exists e, o, k. split; [done|]. destruct (collator_update_origin o) eqn:Eo; [done|]. exfalso.
    destruct (kcall_run e s o k) as [s'|] eqn:E; [|tauto].
    assert (Hr : k_invulnerables s' = k_invulnerables s /\ k_desired s' = k_desired s /\ k_bond s' = k_bond s); [|tauto].
    destruct k; cbn [kcall_run] in E; rewrite ?Eo in E; cbn [negb] in E; try discriminate E; (destruct o as [| |w| | | |]; try discriminate E); kill_call E;
      try (destruct (drop_candidate_effect _ _ _ _ E) as [c [_ _ _ _ (-> & -> & -> & _) _]]; done); injection E as <-;
      try match goal with Hr : reserve _ _ _ _ = Some _ |- _ => destruct (reserve_effect _ _ _ _ _ Hr) as (f & r & -> & _) end; done.
  - destruct (block_rest s slot) as (-> & -> & -> & _). tauto.
  - cbn. tauto.
Qed.

(** An account's keys are its own to change. *)
Lemma own_keys s x who : k_keys (kstep_run s x) !! who <> k_keys s !! who -> exists e, x = KCall e (OSigned who) KPurgeKeys \/ exists key, x = KCall e (OSigned who) (KSetKeys key).
Proof.
  destruct x as [e o k|slot|w n]; cbn [kstep_run].
  - destruct (kcall_run e s o k) as [s'|] eqn:H; [|done]. intros Hn. exists e.
    destruct k; cbn [kcall_run] in H;
      try (destruct Hn; first [destruct o as [| |w| | | |]; try discriminate H; kill_call H;
             try (destruct (drop_candidate_effect _ _ _ _ H) as [c' [_ _ _ _ (_ & _ & _ & -> & _) _]]; done); injection H as <-;
             try match goal with Hr : reserve _ _ _ _ = Some _ |- _ => destruct (reserve_effect _ _ _ _ _ Hr) as (f & r & -> & _) end; done]; fail).
    all: try (kill_call H; injection H as <-; done).
    + destruct (negb _); [discriminate|]. destruct (_ <? _); [|by injection H as <-]. destruct (below_bond n (k_candidates s)) as [out rest]. injection H as <-.
      destruct (throw_out_fold out (with_bond n s)) as (_ & _ & _ & _ & _ & Hk & _). cbn [k_keys with_candidates] in Hn. by rewrite Hk in Hn.
    + kill_call H; injection H as <-. destruct (drop_candidate _ _ _) eqn:Hd; [|done]. destruct (drop_candidate_effect _ _ _ _ Hd) as [c' [_ _ _ _ (_ & _ & _ & Hk & _) _]]. by rewrite Hk in Hn.
    + destruct o as [| |w| | | |]; try discriminate H. kill_call H. injection H as <-. cbn [k_keys with_keys] in Hn. right. exists key.
      destruct (decide (w = who)) as [->|Hne]; [done|]. by rewrite lookup_insert_ne in Hn.
    + destruct o as [| |w| | | |]; try discriminate H. kill_call H. injection H as <-. cbn [k_keys with_keys] in Hn. left.
      destruct (decide (w = who)) as [->|Hne]; [done|]. by rewrite lookup_delete_ne in Hn.
  - destruct (block_rest s slot) as (_ & _ & _ & ->). done.
  - done.
Qed.

(** Nobody stands, or stands with another bond, but by a call of their own that says so. *)
Lemma own_bond s x c : c ∈ k_candidates (kstep_run s x) -> c ∉ k_candidates s -> exists e,
  (x = KCall e (OSigned (cd_who c)) KRegister /\ cd_bond c = k_bond s) \/
  x = KCall e (OSigned (cd_who c)) (KUpdateBond (cd_bond c)) \/
  exists other, x = KCall e (OSigned (cd_who c)) (KTakeSlot (cd_bond c) other).
Proof.
  destruct x as [e o k|slot|w n]; cbn [kstep_run].
  - destruct (kcall_run e s o k) as [s'|] eqn:H; [|done]. intros Hc Hn. exists e.
    assert (Hno : (c ∈ k_candidates s' -> c ∈ k_candidates s) -> False) by tauto.
    destruct k; cbn [kcall_run] in H.
    + destruct Hno. kill_call H; by injection H as <-.
    + destruct Hno. kill_call H; by injection H as <-.
    + destruct Hno. intros _. destruct (negb _); [discriminate|]. destruct (_ <? _); [|by injection H as <-].
      pose proof (below_bond_split n (k_candidates s)) as Hsp. destruct (below_bond n (k_candidates s)) as [out rest]. destruct Hsp as (Hl & _). injection H as <-.
      cbn [k_candidates with_candidates] in Hc. rewrite Hl. apply elem_of_app. by right.
    + destruct o as [| |w| | | |]; try discriminate H. kill_call H. injection H as <-. cbn [k_candidates with_candidates] in Hc.
      apply elem_of_cons in Hc as [->|Hc]; [|done]. by left.
    + destruct Hno. destruct o as [| |w| | | |]; try discriminate H. kill_call H. intros Hc'. by eapply drop_incl.
    + destruct Hno. kill_call H; injection H as <-. intros Hc'. destruct (drop_candidate _ _ _) eqn:Hd; [|done]. by apply (drop_incl _ _ _ _ _ Hd) in Hc'.
    + destruct Hno. kill_call H; by injection H as <-.
    + destruct o as [| |w| | | |]; try discriminate H. destruct (_ <? _); [discriminate|]. destruct (find_candidate w (k_candidates s)) as [d|]; [|discriminate].
      assert (Hst : k_candidates s' ≡ₚ Candidate w n :: remove_candidate w (k_candidates s)).
      { etransitivity; [|apply insert_candidate_perm]. kill_call H; injection H as <-; reflexivity. }
      rewrite Hst in Hc. apply elem_of_cons in Hc as [->|Hc]; [|by apply remove_incl in Hc]. right. by left.
    + destruct o as [| |w| | | |]; try discriminate H. kill_call H. injection H as <-. cbn [k_candidates with_candidates] in Hc. rewrite insert_candidate_perm in Hc.
      apply elem_of_cons in Hc as [->|Hc]; [|by apply remove_incl in Hc]. right. right. by exists target.
    + destruct Hno. destruct o; try discriminate H. kill_call H; by injection H as <-.
    + destruct Hno. destruct o; try discriminate H. kill_call H; by injection H as <-.
  - intros Hc Hn. by apply block_incl in Hc.
  - done.
Qed.

(** Whoever has keys and tokens enough can stand; whoever offers more than a candidate has bonded can take their place, even when all places are taken. *)
Lemma joining e s who : (forall n, ke_reserve_ok e who n = true) -> who ∉ k_invulnerables s -> ~ stands s who -> k_keys s !! who <> None ->
  (N.of_nat (length (k_candidates s)) < 1000 -> k_bond s <= amount_in (k_free s) who -> stands (kstep_run s (KCall e (OSigned who) KRegister)) who) /\
  (forall c n, c ∈ k_candidates s -> kreachable s -> cd_bond c < n -> n <= amount_in (k_free s) who ->
    let s' := kstep_run s (KCall e (OSigned who) (KTakeSlot n (cd_who c))) in Candidate who n ∈ k_candidates s' /\ ~ stands s' (cd_who c)).
Proof.
  intros He Hi Hs Hk.
  assert (Hi' : is_invulnerable s who = false).
  { unfold is_invulnerable. apply not_true_iff_false. intros H. apply existsb_exists in H as (y & Hy & Heq). apply N.eqb_eq in Heq as <-. by apply elem_of_list_In in Hy. }
  assert (Hr : is_registered s who = true) by (unfold is_registered; by destruct (k_keys s !! who)).
  assert (Hc' : is_candidate s who = false).
  { unfold is_candidate. apply not_true_iff_false. intros H. apply existsb_exists in H as (y & Hy & Heq). apply N.eqb_eq in Heq. apply Hs. exists y. split; [by apply elem_of_list_In|done]. }
  assert (Hres : forall n, n <= amount_in (k_free s) who -> exists s', reserve e who n s = Some s').
  { intros n Hn. unfold reserve. destruct (n =? 0); [by eexists|]. apply N.leb_le in Hn. rewrite Hn, He. by eexists. }
  split.
  - intros Hl Hb. cbn [kstep_run kcall_run]. destruct (N.leb_spec max_candidates (N.of_nat (length (k_candidates s)))) as [Hm|_]; [unfold max_candidates in Hm; lia|].
    rewrite Hi', Hr, Hc'. cbn [negb]. destruct (Hres _ Hb) as [s' ->]. exists (Candidate who (k_bond s)). split; [by left|done].
  - intros c n Hc Hrc Hn Hb. cbn [kstep_run kcall_run]. rewrite Hi', Hr, Hc'. cbn [negb]. pose proof (kreachable_ok s Hrc) as Hok. destruct (bonds_safe s Hrc) as [_ B]. destruct (B c Hc) as [B1 _].
    destruct (N.ltb_spec n (k_bond s)); [lia|].
    destruct (find_candidate (cd_who c) (k_candidates s)) as [d|] eqn:Ef; [|exfalso; revert Ef Hc; clear; induction (k_candidates s) as [|y l IH]; intros Ef Hc; [by apply elem_of_nil in Hc|]; cbn in Ef;
      destruct (N.eqb_spec (cd_who y) (cd_who c)); [discriminate|]; apply elem_of_cons in Hc as [->|Hc]; [done|by apply IH]].
    destruct (find_candidate_some _ _ _ Ef) as [Hw Hp]. destruct Hok as [A _ _ _]. rewrite (map_perm _ _ Hp) in A. cbn [map] in A. inversion A as [|? ? A1 A2]; subst x l.
    assert (Hd : d = c).
    { rewrite Hp in Hc. apply elem_of_cons in Hc as [->|Hc]; [done|]. destruct A1. rewrite Hw. change (cd_who c ∈ cd_who <$> remove_candidate (cd_who c) (k_candidates s)). apply elem_of_list_fmap. by exists c. }
    subst d. destruct (N.leb_spec n (cd_bond c)); [lia|]. destruct (Hres _ Hb) as [s' ->]. cbv zeta. split.
    + cbn [k_candidates with_candidates]. rewrite insert_candidate_perm. by left.
    + rewrite stands_map. cbn [k_candidates with_candidates]. rewrite (map_perm _ _ (insert_candidate_perm _ _)). cbn [map cd_who]. intros Hin. apply elem_of_cons in Hin as [Hin|Hin]; [|done].
      apply Hs. exists c. split; [done|done].
Qed.

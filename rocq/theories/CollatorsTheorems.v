(** The property lemmas about collators. *)
From stdpp Require Import gmap sorting.
From Verif Require Import Base XcmTypes OriginTypes XcmConfigModel TimeModel CollatorsModel CollatorsSpec CollatorsProofs CollatorsSessions.
Open Scope N_scope.
Local Opaque period kick_threshold.

(* ------------------------------------------------------------------ *)
(** * Genesis *)

Lemma insert_sorted_perm x l : insert_sorted x l ≡ₚ x :: l.
Proof. induction l as [|y l IH]; [done|]. cbn [insert_sorted]. destruct (x <=? y); [done|]. rewrite IH. apply perm_swap. Qed.
Lemma sort_accounts_perm l : sort_accounts l ≡ₚ l.
Proof.
  induction l as [|x l IH]; [done|]. change (sort_accounts (x :: l)) with (insert_sorted x (sort_accounts l)).
  rewrite insert_sorted_perm. by constructor.
Qed.

Lemma omap_length {A B} (f : A -> option B) (l : list A) : (length (omap f l) <= length l)%nat.
Proof. induction l as [|x l IH]; [done|]. cbn. destruct (f x); cbn; lia. Qed.
Lemma amalgamate_length s l : (length (amalgamate s l) <= length l)%nat.
Proof. apply omap_length. Qed.
Lemma amalgamate_keys s l : map snd (amalgamate s l) = keys_of s l.
Proof.
  unfold amalgamate, keys_of. induction l as [|w l IH]; [done|]. cbn. destruct (k_keys s !! w); cbn; by rewrite IH.
Qed.
Lemma amalgamate_fst s l : map fst (amalgamate s l) = List.filter (is_registered s) l.
Proof.
  unfold amalgamate, is_registered. induction l as [|w l IH]; [done|]. cbn. destruct (k_keys s !! w); cbn; by rewrite IH.
Qed.

(** Further facts true at all times. *)
Record kfull (s : collators) : Prop := KFull {
  fu_authors : k_authorities s <> [];
  fu_invulnerables : N.of_nat (length (k_invulnerables s)) <= 100;
  fu_candidates : N.of_nat (length (k_candidates s)) <= 1000;
  fu_queued : N.of_nat (length (k_queued s)) <= 1100;
  fu_authorities : N.of_nat (length (k_authorities s)) <= 1100;
  fu_keys : forall a b key, k_keys s !! a = Some key -> k_keys s !! b = Some key -> a = b
}.

Lemma genesis_facts l free s0 : l <> [] -> kgenesis l free = Some s0 -> kok s0 /\ kfull s0 /\ NoDup (k_invulnerables s0) /\ NoDup (map snd (k_queued s0)) /\
  NoDup (k_authorities s0) /\ k_number s0 = 0.
Proof.
  intros Hl. unfold kgenesis. destruct (bool_decide (NoDup (map fst l))) eqn:E1; [|discriminate]. apply bool_decide_eq_true in E1.
  destruct (bool_decide (NoDup (map snd l))) eqn:E2; [|discriminate]. apply bool_decide_eq_true in E2. cbn [andb].
  destruct (N.leb_spec (N.of_nat (length l)) max_invulnerables) as [E3|]; [|discriminate]. unfold max_invulnerables in E3.
  match goal with |- Some (with_session _ _ _ ?s) = _ -> _ => set (s1 := s) end. intros [= <-].
  assert (Hlen : (length (sort_accounts (map fst l)) = length l)%nat) by (rewrite (Permutation_length (sort_accounts_perm _)); apply map_length).
  assert (Has : assemble s1 = sort_accounts (map fst l)) by (unfold assemble; cbn; apply app_nil_r).
  assert (Hkeys : forall k v, (k, v) ∈ l -> k_keys s1 !! k = Some v).
  { intros k v Hkv. unfold s1. cbn [k_keys]. by apply elem_of_list_to_map_1. }
  assert (Hks : keys_of s1 (map fst l) = map snd l).
  { unfold keys_of. clear -Hkeys. revert Hkeys. generalize (k_keys s1). clear. intros m. induction l as [|[k v] l IH]; intros H; [done|]. cbn.
    rewrite (H k v) by (by left). f_equal. apply IH. intros k' v' Hin. apply H. by right. }
  assert (Hkp : keys_of s1 (sort_accounts (map fst l)) ≡ₚ map snd l).
  { rewrite <-Hks. unfold keys_of. by rewrite (sort_accounts_perm (map fst l)). }
  assert (Hinj : forall a b key, k_keys s1 !! a = Some key -> k_keys s1 !! b = Some key -> a = b).
  { intros a b key Ha Hb. unfold s1 in Ha, Hb. cbn [k_keys] in Ha, Hb. apply elem_of_list_to_map_2 in Ha, Hb.
    clear -Ha Hb E2. induction l as [|[k v] l IH]; [by apply elem_of_nil in Ha|]. cbn in E2. inversion E2 as [|? ? Hn Hd]; subst.
    apply elem_of_cons in Ha, Hb. destruct Ha as [[= -> ->]|Ha], Hb as [[= ->]|Hb]; [done| | |by apply IH].
    - destruct Hn. change (map snd l) with (snd <$> l). apply elem_of_list_fmap. by exists (b, v).
    - subst. destruct Hn. change (map snd l) with (snd <$> l). apply elem_of_list_fmap. by exists (a, v). }
  assert (Hql : N.of_nat (length (amalgamate s1 (assemble s1))) <= 100).
  { pose proof (amalgamate_length s1 (assemble s1)) as H. rewrite Has in *. lia. }
  split_and!.
  - constructor; cbn; [constructor..|]. intros who. unfold amount_in. by rewrite lookup_empty.
  - constructor; cbn [k_authorities k_invulnerables k_candidates k_queued k_keys with_session].
    + rewrite amalgamate_keys, Has. intros H. rewrite H in Hkp. apply Permutation_nil in Hkp. by destruct l.
    + unfold s1. cbn [k_invulnerables]. lia.
    + unfold s1. cbn. lia.
    + lia.
    + rewrite map_length. lia.
    + exact Hinj.
  - cbn [k_invulnerables with_session]. unfold s1. cbn [k_invulnerables]. by rewrite sort_accounts_perm.
  - cbn [k_queued with_session]. by rewrite amalgamate_keys, Has, Hkp.
  - cbn [k_authorities with_session]. by rewrite amalgamate_keys, Has, Hkp.
  - done.
Qed.

Lemma kreachable_ok s : kreachable s -> kok s.
Proof. intros (l & f & s0 & steps & Hl & Hg & ->). apply krun_ok. by destruct (genesis_facts _ _ _ Hl Hg). Qed.

(* ------------------------------------------------------------------ *)
(** * There is always somebody to author blocks *)

Lemma filter_length {A} (f : A -> bool) (l : list A) : (length (List.filter f l) <= length l)%nat.
Proof. induction l as [|x l IH]; [done|]. cbn. destruct (f x); cbn; lia. Qed.

Lemma key_taken_spec s who key : key_taken s who key = false -> forall w, k_keys s !! w = Some key -> w = who.
Proof.
  intros H w Hw. destruct (decide (w = who)) as [|Hne]; [done|]. exfalso.
  assert (key_taken s who key = true) as H1; [|congruence]. unfold key_taken. apply existsb_exists. exists (w, key). split.
  - apply elem_of_list_In. by apply elem_of_map_to_list.
  - cbn. rewrite N.eqb_refl. destruct (N.eqb_spec w who); [done|reflexivity].
Qed.

Lemma dropped_length forget who c s s' : dropped forget who c s s' -> (length (k_candidates s') <= length (k_candidates s))%nat.
Proof. intros [_ -> _ _ _ _]. apply sublist_length, remove_candidate_sublist. Qed.

Lemma call_full e s o k s' : kcall_run e s o k = Some s' -> kfull s -> kfull s'.
Proof.
  intros H [A B C D E F]. destruct (call_session _ _ _ _ _ H) as (_ & Hq & Ha & _).
  assert (Hgen : N.of_nat (length (k_invulnerables s')) <= 100 -> N.of_nat (length (k_candidates s')) <= 1000 ->
            (forall a b key, k_keys s' !! a = Some key -> k_keys s' !! b = Some key -> a = b) -> kfull s').
  { intros. constructor; rewrite ?Hq, ?Ha; done. }
  apply Hgen; clear Hgen Hq Ha D E A.
  - destruct k; cbn [kcall_run] in H.
    + destruct (negb _); [discriminate|]. destruct (match l with [] => _ | _ => _ end); [discriminate|].
      destruct (N.ltb_spec max_invulnerables (N.of_nat (length l))) as [|Hl]; [discriminate|]. injection H as <-. cbn [k_invulnerables with_invulnerables].
      rewrite (Permutation_length (sort_accounts_perm _)). pose proof (filter_length (is_registered s) l). unfold max_invulnerables in Hl. lia.
    + kill_call H; by injection H as <-.
    + kill_call H; injection H as <-; [|done]. cbn [k_invulnerables with_candidates].
      match goal with |- context [fold_left throw_out ?l ?s] => destruct (throw_out_fold l s) as (_ & _ & _ & -> & _) end. done.
    + destruct o; try discriminate H. kill_call H. injection H as <-.
      match goal with Hr : reserve _ _ _ _ = Some _ |- _ => destruct (reserve_effect _ _ _ _ _ Hr) as (f & r & -> & _) end. done.
    + destruct o; try discriminate H. kill_call H. destruct (drop_candidate_effect _ _ _ _ H) as [c [_ _ _ _ (-> & _) _]]. done.
    + destruct (negb _); [discriminate|]. destruct (negb _); [discriminate|]. destruct (is_invulnerable s who); [discriminate|].
      destruct (N.leb_spec max_invulnerables (N.of_nat (length (k_invulnerables s)))) as [|Hl]; [discriminate|]. injection H as <-.
      assert (Hi : N.of_nat (length (insert_sorted who (k_invulnerables s))) <= 100).
      { rewrite (Permutation_length (insert_sorted_perm _ _)). cbn [length]. unfold max_invulnerables in Hl. lia. }
      destruct (drop_candidate _ _ _) eqn:Hd; [|done]. destruct (drop_candidate_effect _ _ _ _ Hd) as [c' [_ _ _ _ (-> & _) _]]. done.
    + kill_call H; injection H as <-. cbn [k_invulnerables with_invulnerables].
      assert (Hr : forall l, (length (remove_account who l) <= length l)%nat).
      { induction l as [|y l IH]; [done|]. cbn. destruct (who =? y); cbn; lia. }
      specialize (Hr (k_invulnerables s)). lia.
    + destruct o; try discriminate H. kill_call H; injection H as <-; [|done].
      match goal with Hr : reserve _ _ _ _ = Some _ |- _ => destruct (reserve_effect _ _ _ _ _ Hr) as (f & r & -> & _) end. done.
    + destruct o; try discriminate H. kill_call H. injection H as <-.
      match goal with Hr : reserve _ _ _ _ = Some _ |- _ => destruct (reserve_effect _ _ _ _ _ Hr) as (f & r & -> & _) end. done.
    + destruct o; try discriminate H. kill_call H; by injection H as <-.
    + destruct o; try discriminate H. kill_call H; by injection H as <-.
  - assert (Hins : forall w n c t, find_candidate t (k_candidates s) = Some c ->
              N.of_nat (length (insert_candidate (Candidate w n) (remove_candidate t (k_candidates s)))) <= 1000).
    { intros w n c t Hf. destruct (find_candidate_some _ _ _ Hf) as [_ Hp]. apply Permutation_length in Hp. cbn [length] in Hp.
      rewrite (Permutation_length (insert_candidate_perm _ _)). cbn [length]. lia. }
    destruct k; cbn [kcall_run] in H.
    + kill_call H; by injection H as <-.
    + kill_call H; by injection H as <-.
    + destruct (negb _); [discriminate|]. destruct (_ <? _); [|by injection H as <-]. pose proof (below_bond_split n (k_candidates s)) as Hs.
      destruct (below_bond n (k_candidates s)) as [out rest]. destruct Hs as (Hl & _). injection H as <-. cbn [k_candidates with_candidates].
      rewrite Hl, app_length in C. lia.
    + destruct o; try discriminate H. destruct (N.leb_spec max_candidates (N.of_nat (length (k_candidates s)))) as [|Hl]; [discriminate|]. unfold max_candidates in Hl.
      kill_call H. injection H as <-. cbn [k_candidates with_candidates length]. lia.
    + destruct o; try discriminate H. kill_call H. destruct (drop_candidate_effect _ _ _ _ H) as [c Hd]. pose proof (dropped_length _ _ _ _ _ Hd). lia.
    + kill_call H; injection H as <-. destruct (drop_candidate _ _ _) eqn:Hdr; [|done].
      destruct (drop_candidate_effect _ _ _ _ Hdr) as [c' Hd]. pose proof (dropped_length _ _ _ _ _ Hd) as Hl. cbn [k_candidates with_invulnerables] in Hl. lia.
    + kill_call H; by injection H as <-.
    + destruct o; try discriminate H. kill_call H; injection H as <-; cbn [k_candidates with_candidates]; eauto.
    + destruct o; try discriminate H. kill_call H. injection H as <-. cbn [k_candidates with_candidates]; eauto.
    + destruct o; try discriminate H. kill_call H; by injection H as <-.
    + destruct o; try discriminate H. kill_call H; by injection H as <-.
  - destruct k; cbn [kcall_run] in H.
    + kill_call H; by injection H as <-.
    + kill_call H; by injection H as <-.
    + kill_call H; injection H as <-; [|done]. cbn [k_keys with_candidates].
      match goal with |- context [fold_left throw_out ?l ?s] => destruct (throw_out_fold l s) as (_ & _ & _ & _ & _ & -> & _) end. done.
    + destruct o; try discriminate H. kill_call H. injection H as <-.
      match goal with Hr : reserve _ _ _ _ = Some _ |- _ => destruct (reserve_effect _ _ _ _ _ Hr) as (f & r & -> & _) end. done.
    + destruct o; try discriminate H. kill_call H. destruct (drop_candidate_effect _ _ _ _ H) as [c [_ _ _ _ (_ & _ & _ & -> & _) _]]. done.
    + kill_call H; injection H as <-. destruct (drop_candidate _ _ _) eqn:Hd; [|done].
      destruct (drop_candidate_effect _ _ _ _ Hd) as [c' [_ _ _ _ (_ & _ & _ & -> & _) _]]. done.
    + kill_call H; by injection H as <-.
    + destruct o; try discriminate H. kill_call H; injection H as <-; [|done].
      match goal with Hr : reserve _ _ _ _ = Some _ |- _ => destruct (reserve_effect _ _ _ _ _ Hr) as (f & r & -> & _) end. done.
    + destruct o; try discriminate H. kill_call H. injection H as <-.
      match goal with Hr : reserve _ _ _ _ = Some _ |- _ => destruct (reserve_effect _ _ _ _ _ Hr) as (f & r & -> & _) end. done.
    + destruct o as [| |w| | | |]; try discriminate H. destruct (key_taken s w key) eqn:Ht; [discriminate|]. destruct (negb _); [discriminate|].
      injection H as <-. cbn [k_keys with_keys]. intros a b k Ha Hb. pose proof (key_taken_spec _ _ _ Ht) as Hw.
      apply lookup_insert_Some in Ha, Hb. destruct Ha as [[<- <-]|[Hna Ha]], Hb as [[<- Hk]|[Hnb Hb]].
      * done.
      * symmetry. by apply Hw.
      * subst k. by apply Hw.
      * by eapply F.
    + destruct o as [| |w| | | |]; try discriminate H. destruct (is_registered s w); [|discriminate]. injection H as <-. cbn [k_keys with_keys].
      intros a b k Ha Hb. apply lookup_delete_Some in Ha as [_ Ha]. apply lookup_delete_Some in Hb as [_ Hb]. by eapply F.
Qed.

Lemma thinned_length s l : (length (k_candidates (fold_left kick l s)) <= length (k_candidates s))%nat.
Proof.
  revert s. induction l as [|w l IH]; intros s; cbn [fold_left]; [done|]. etransitivity; [apply IH|].
  destruct (kick_cases s w) as [[-> _]|(f & c & Hd & _)]; [done|by eapply dropped_length].
Qed.
Lemma assemble_length s : (length (assemble s) <= length (k_invulnerables s) + length (k_candidates s))%nat.
Proof. unfold assemble. rewrite app_length, map_length, take_length, rev_length. lia. Qed.

Lemma step_full s x : kfull s -> kfull (kstep_run s x).
Proof.
  intros H. destruct x as [e o k|slot|w n]; cbn [kstep_run].
  - destruct (kcall_run e s o k) as [s'|] eqn:E; [|done]. by eapply call_full.
  - rewrite begin_block_noted. destruct (noted_same s slot) as (N1 & N2 & N3 & N4 & N5 & N6 & N7 & N8 & _). destruct H as [A B C D E F].
    assert (Hn : kfull (noted s slot)) by (constructor; rewrite ?N1, ?N2, ?N5, ?N7, ?N8; done).
    destruct (_ =? 0); [|done]. clear A B C D E F N1 N2 N3 N4 N5 N6 N7 N8. revert Hn. generalize (noted s slot). clear s slot. intros s [A B C D E F].
    destruct (rotate_fields s) as (R1 & R2 & R3 & R4 & R5 & R6 & R7 & R8 & R9 & R10 & R11 & R12).
    pose proof (kick_fold_thinned (map cd_who (k_candidates s)) s) as Ht. pose proof (thinned_length s (map cd_who (k_candidates s))) as Hl.
    fold (kick_stale s) in Ht, Hl. destruct (th_rest _ _ Ht) as (T1 & _ & _ & T4 & _).
    constructor; rewrite ?R1, ?R2, ?R6, ?R11, ?R12, ?T1, ?T4.
    + unfold change_authorities. by destruct (map snd (k_queued s)).
    + done.
    + lia.
    + pose proof (amalgamate_length (kick_stale s) (assemble (kick_stale s))). pose proof (assemble_length (kick_stale s)) as Ha. rewrite T1 in Ha. lia.
    + unfold change_authorities. destruct (map snd (k_queued s)) eqn:Em; [done|]. rewrite <-Em, map_length. done.
    + done.
  - destruct H as [A B C D E F]. by constructor.
Qed.
Lemma krun_full s l : kfull s -> kfull (krun s l).
Proof. revert s. induction l as [|x l IH]; intros s H; [done|]. rewrite krun_cons. apply IH. by apply step_full. Qed.

Lemma always_authors s : kreachable s -> k_authorities s <> [] /\ N.of_nat (length (k_authorities s)) <= 1100.
Proof.
  intros (l & f & s0 & steps & Hl & Hg & ->). destruct (genesis_facts _ _ _ Hl Hg) as (_ & H & _). apply (krun_full _ steps) in H.
  destruct H. done.
Qed.

(* ------------------------------------------------------------------ *)
(** * Sessions *)

Lemma mod_step n b : (n mod 3600) + b < 3600 -> 0 < b -> (n + 1) mod 3600 = n mod 3600 + 1.
Proof.
  intros H1 H2. rewrite <-N.add_mod_idemp_l by lia. apply N.mod_small. lia.
Qed.

(** Within a session the authors, and those queued, stay the same. *)
Lemma within_session s l : k_number s mod 3600 + blocks l < 3600 ->
  k_validators (krun s l) = k_validators s /\ k_queued (krun s l) = k_queued s /\ k_authorities (krun s l) = k_authorities s.
Proof.
  revert s. induction l as [|x l IH]; intros s H; [done|]. rewrite krun_cons. rewrite blocks_cons in H.
  assert (Hx : forall slot, x = KBlock slot -> (k_number s + 1) mod 3600 <> 0).
  { intros slot ->. change (blocks [KBlock slot]) with 1 in H. rewrite (mod_step (k_number s) (1 + blocks l)); [|lia|lia]. generalize (k_number s mod 3600). lia. }
  destruct (step_session s x Hx) as (A & B & C). destruct (IH (kstep_run s x)) as (A' & B' & C').
  - rewrite step_number. destruct (N.eq_dec (blocks [x]) 0) as [H0|H0]; [rewrite H0 in *; rewrite N.add_0_r; lia|].
    assert (H1 : blocks [x] = 1) by (destruct x; cbn [blocks] in *; lia). rewrite H1 in *. rewrite (mod_step (k_number s) (1 + blocks l)); lia.
  - rewrite A', B', C'. done.
Qed.

Lemma assemble_right s : kok s -> right_choice s (assemble s).
Proof.
  intros [_ B _ _]. set (d := N.to_nat (k_desired s)). exists (take d (rev (k_candidates s))), (drop d (rev (k_candidates s))).
  assert (Hr : k_candidates s = rev (drop d (rev (k_candidates s))) ++ rev (take d (rev (k_candidates s)))).
  { rewrite <-rev_app_distr, take_drop. symmetry. apply rev_involutive. }
  split_and!.
  - rewrite take_drop. apply Permutation_rev.
  - rewrite take_length, rev_length. unfold d. lia.
  - intros x y Hx Hy. rewrite Hr in B. apply sorted_app in B as (_ & _ & B). apply (B y x).
    + apply elem_of_list_In, in_rev. rewrite rev_involutive. by apply elem_of_list_In.
    + apply elem_of_list_In, in_rev. rewrite rev_involutive. by apply elem_of_list_In.
  - done.
Qed.

(** The next block, where a session is due. *)
Lemma due_block s slot : session_due s -> kstep_run s (KBlock slot) = rotate (noted s slot).
Proof. intros H. cbn [kstep_run]. rewrite begin_block_noted. unfold session_due in H. by rewrite H. Qed.

Lemma due_queued s slot : session_due s -> let s1 := kstep_run s (KBlock slot) in
  k_queued s1 = amalgamate s1 (assemble s1) /\ k_number s1 mod 3600 = 0 /\
  k_authorities s1 = change_authorities (k_authorities s) (map snd (k_queued s)).
Proof.
  intros H. cbv zeta. rewrite (due_block s slot H). destruct (rotate_fields (noted s slot)) as (R1 & R2 & _ & R4 & _ & R6 & _ & _ & R9 & _ & R11 & R12).
  destruct (noted_same s slot) as (_ & _ & _ & _ & _ & _ & N7 & N8 & _). split_and!.
  - rewrite R11. unfold amalgamate, assemble. by rewrite R1, R2, R4, R6.
  - rewrite <-(due_block s slot H), step_number. cbn [blocks]. exact H.
  - by rewrite R12, N7, N8.
Qed.

(** Who authors blocks in a session was chosen at the start of the session before. *)
Lemma chosen_authors s slot1 steps slot2 : kreachable s -> session_due s -> blocks steps = 3599 ->
  let s1 := kstep_run s (KBlock slot1) in
  let s2 := krun s1 (steps ++ [KBlock slot2]) in
  exists l, right_choice s1 l /\
    (keys_of s1 l <> [] -> k_authorities s2 = keys_of s1 l) /\
    (keys_of s1 l = [] -> k_authorities s2 = k_authorities s1).
Proof.
  intros Hr Hd Hb s1 s2. apply kreachable_ok in Hr. destruct (due_queued s slot1 Hd) as (Q1 & Q2 & _). fold s1 in Q1, Q2.
  exists (assemble s1). split; [by apply assemble_right, step_ok|].
  destruct (within_session s1 steps) as (_ & W2 & W3); [lia|].
  assert (Hd' : session_due (krun s1 steps)).
  { unfold session_due. rewrite krun_number, Hb. replace (k_number s1 + 3599 + 1) with (k_number s1 + 1 * 3600) by lia. rewrite N.mod_add by lia. exact Q2. }
  destruct (due_queued _ slot2 Hd') as (_ & _ & Q3).
  assert (He : k_authorities s2 = change_authorities (k_authorities s1) (keys_of s1 (assemble s1))).
  { unfold s2. rewrite krun_app. cbn [krun fold_left]. rewrite Q3, W2, W3, Q1, amalgamate_keys. done. }
  rewrite He. unfold change_authorities. by destruct (keys_of s1 (assemble s1)).
Qed.

(** Nobody's turn comes or goes within a session. *)
Lemma turns_fixed s steps : k_number s mod 3600 + blocks steps < 3600 -> k_authorities (krun s steps) = k_authorities s.
Proof. intros H. by destruct (within_session s steps H) as (_ & _ & ?). Qed.

(* ------------------------------------------------------------------ *)
(** * One turn each *)

Lemma kick_removes_invulnerable l s w : kok s -> is_invulnerable s w = true -> w ∈ l -> ~ stands (fold_left kick l s) w.
Proof.
  revert s. induction l as [|x l IH]; intros s Hk Hi Hw; [by apply elem_of_nil in Hw|]. cbn [fold_left].
  pose proof (kick_thinned s x) as Ht. assert (Hk' : kok (kick s x)) by (by apply (th_ok _ _ Ht)).
  assert (Hi' : is_invulnerable (kick s x) w = true) by (unfold is_invulnerable in *; by destruct (th_rest _ _ Ht) as (-> & _)).
  destruct (decide (w ∈ l)) as [Hin|Hnin]; [by apply IH|]. apply elem_of_cons in Hw as [->|]; [|done].
  intros Hs. apply (th_stands _ _ (kick_fold_thinned l (kick s x)) Hk') in Hs.
  destruct (kick_cases s x) as [[He Hno]|(f & c & Hd & _)].
  - rewrite He in Hs. destruct (Hno Hs) as [H _]. congruence.
  - apply (dropped_stands _ _ _ _ _ x Hd Hk) in Hs. by destruct Hs.
Qed.

Lemma kick_stale_disjoint s w : kok s -> w ∈ k_invulnerables (kick_stale s) -> ~ stands (kick_stale s) w.
Proof.
  intros Hk Hw Hs. pose proof (kick_fold_thinned (map cd_who (k_candidates s)) s) as Ht. fold (kick_stale s) in Ht.
  destruct (th_rest _ _ Ht) as (Hi & _). rewrite Hi in Hw. pose proof (th_stands _ _ Ht Hk w Hs) as Hs0. rewrite stands_map in Hs0.
  refine (kick_removes_invulnerable _ s w Hk _ Hs0 Hs).
  unfold is_invulnerable. apply existsb_exists. exists w. split; [by apply elem_of_list_In|apply N.eqb_refl].
Qed.

Lemma omap_nodup (m : gmap N N) (l : list N) : (forall a b key, m !! a = Some key -> m !! b = Some key -> a = b) -> NoDup l ->
  NoDup (omap (fun w => m !! w) l).
Proof.
  intros Hinj. induction 1 as [|w l Hw Hl IH]; cbn; [constructor|]. destruct (m !! w) as [k|] eqn:E; [|done]. constructor; [|done].
  intros Hk. apply elem_of_list_omap in Hk as (w' & Hw' & Hk). rewrite (Hinj w w' k) in Hw; done.
Qed.

Lemma sublist_nodup {A} (l1 l2 : list A) : sublist l1 l2 -> NoDup l2 -> NoDup l1.
Proof.
  induction 1 as [|x l1 l2 Hs IH|x l1 l2 Hs IH]; intros H; [done| |]; inversion H; subst; [|by apply IH].
  constructor; [|by apply IH]. intros Hx. eapply elem_of_submseteq in Hx; [|apply sublist_submseteq; exact Hs]. done.
Qed.
Lemma nodup_app_in {A} (l1 l2 : list A) : NoDup l1 -> NoDup l2 -> (forall x, x ∈ l1 -> x ∉ l2) -> NoDup (l1 ++ l2).
Proof. intros H1 H2 H3. by apply NoDup_app. Qed.

Lemma assemble_nodup s : kok s -> NoDup (k_invulnerables s) -> (forall w, w ∈ k_invulnerables s -> ~ stands s w) -> NoDup (assemble s).
Proof.
  intros [A _ _ _] Hi Hd. unfold assemble.
  set (t := take (N.to_nat (k_desired s)) (rev (k_candidates s))).
  assert (Hsub : sublist (map cd_who t) (map cd_who (rev (k_candidates s)))).
  { unfold t. rewrite <-(take_drop (N.to_nat (k_desired s)) (rev (k_candidates s))) at 2. rewrite map_app. apply sublist_inserts_r. done. }
  assert (Hrev : map cd_who (rev (k_candidates s)) ≡ₚ map cd_who (k_candidates s)) by (symmetry; apply map_perm, Permutation_rev).
  apply nodup_app_in; [done| |].
  - eapply sublist_nodup; [exact Hsub|]. by rewrite Hrev.
  - intros x Hx Hin. apply (Hd x Hx). rewrite stands_map, <-Hrev. eapply elem_of_submseteq; [exact Hin|]. by apply sublist_submseteq.
Qed.

(** What is true where nobody is named twice. *)
Record konce (s : collators) : Prop := KOnce {
  on_invulnerables : NoDup (k_invulnerables s);
  on_queued : NoDup (map snd (k_queued s));
  on_authorities : NoDup (k_authorities s)
}.

Lemma call_once e s o k s' : kcall_run e s o k = Some s' -> (forall l, k = KSetInvulnerables l -> NoDup l) -> konce s -> konce s'.
Proof.
  intros H Hn [A B C]. destruct (call_session _ _ _ _ _ H) as (_ & Hq & Ha & _). constructor; rewrite ?Hq, ?Ha; [|done..].
  clear Hq Ha B C. destruct k; cbn [kcall_run] in H.
  - destruct (negb _); [discriminate|]. destruct (match l with [] => _ | _ => _ end); [discriminate|]. destruct (_ <? _); [discriminate|].
    injection H as <-. cbn [k_invulnerables with_invulnerables]. rewrite sort_accounts_perm. apply NoDup_ListNoDup, List.NoDup_filter, NoDup_ListNoDup. by apply Hn.
  - kill_call H; by injection H as <-.
  - kill_call H; injection H as <-; [|done]. cbn [k_invulnerables with_candidates].
    match goal with |- context [fold_left throw_out ?l ?s] => destruct (throw_out_fold l s) as (_ & _ & _ & -> & _) end. done.
  - destruct o; try discriminate H. kill_call H. injection H as <-.
    match goal with Hr : reserve _ _ _ _ = Some _ |- _ => destruct (reserve_effect _ _ _ _ _ Hr) as (f & r & -> & _) end. done.
  - destruct o; try discriminate H. kill_call H. destruct (drop_candidate_effect _ _ _ _ H) as [c [_ _ _ _ (-> & _) _]]. done.
  - destruct (negb _); [discriminate|]. destruct (negb _); [discriminate|]. destruct (is_invulnerable s who) eqn:Ei; [discriminate|].
    destruct (_ <=? _); [discriminate|]. injection H as <-.
    assert (Hi : NoDup (insert_sorted who (k_invulnerables s))).
    { rewrite insert_sorted_perm. constructor; [|done]. intros Hin. unfold is_invulnerable in Ei.
      assert (existsb (N.eqb who) (k_invulnerables s) = true); [|congruence]. apply existsb_exists. exists who. split; [by apply elem_of_list_In|apply N.eqb_refl]. }
    destruct (drop_candidate _ _ _) eqn:Hd; [|done]. destruct (drop_candidate_effect _ _ _ _ Hd) as [c' [_ _ _ _ (-> & _) _]]. done.
  - kill_call H; injection H as <-. cbn [k_invulnerables with_invulnerables].
    assert (Hr : forall l, sublist (remove_account who l) l).
    { induction l as [|y l IH]; [constructor|]. cbn. destruct (who =? y); [by apply sublist_cons|by apply sublist_skip]. }
    eapply sublist_nodup; [apply Hr|done].
  - destruct o; try discriminate H. kill_call H; injection H as <-; [|done].
    match goal with Hr : reserve _ _ _ _ = Some _ |- _ => destruct (reserve_effect _ _ _ _ _ Hr) as (f & r & -> & _) end. done.
  - destruct o; try discriminate H. kill_call H. injection H as <-.
    match goal with Hr : reserve _ _ _ _ = Some _ |- _ => destruct (reserve_effect _ _ _ _ _ Hr) as (f & r & -> & _) end. done.
  - destruct o; try discriminate H. kill_call H; by injection H as <-.
  - destruct o; try discriminate H. kill_call H; by injection H as <-.
Qed.

Lemma step_once s x : kok s -> kfull s -> (forall e o l, x = KCall e o (KSetInvulnerables l) -> NoDup l) -> konce s -> konce (kstep_run s x).
Proof.
  intros Hk Hf Hx Ho. destruct x as [e o k|slot|w n]; cbn [kstep_run].
  - destruct (kcall_run e s o k) as [s'|] eqn:E; [|done]. eapply call_once; [exact E| |done]. intros l ->. by eapply Hx.
  - destruct (N.eq_dec ((k_number s + 1) mod 3600) 0) as [Hd|Hd].
    + assert (Hok : kok (noted s slot)) by (by apply noted_ok).
      pose proof (step_full s (KBlock slot) Hf) as Hf'. pose proof (step_ok s (KBlock slot) Hk) as Hk'.
      destruct (due_queued s slot Hd) as (Q1 & _ & Q3). change (begin_block s slot) with (kstep_run s (KBlock slot)).
      destruct Ho as [A B C].
      assert (Hinv : k_invulnerables (kstep_run s (KBlock slot)) = k_invulnerables s).
      { rewrite (due_block s slot Hd). destruct (rotate_fields (noted s slot)) as (-> & _).
        destruct (th_rest _ _ (kick_fold_thinned (map cd_who (k_candidates (noted s slot))) (noted s slot))) as (Hi & _). unfold kick_stale. rewrite Hi.
        by destruct (noted_same s slot) as (-> & _). }
      constructor.
      * by rewrite Hinv.
      * rewrite Q1, amalgamate_keys. apply omap_nodup; [apply (fu_keys _ Hf')|]. apply assemble_nodup; [done|by rewrite Hinv|].
        intros w Hw Hs. rewrite (due_block s slot Hd) in Hw, Hs. destruct (rotate_fields (noted s slot)) as (R1 & R2 & _).
        rewrite R1 in Hw. apply (kick_stale_disjoint (noted s slot) w Hok Hw). unfold stands in *. by rewrite R2 in Hs.
      * rewrite Q3. unfold change_authorities. by destruct (map snd (k_queued s)).
    + destruct (step_session s (KBlock slot)) as (_ & S2 & S3); [by intros ? _|]. cbn [kstep_run] in S2, S3. destruct Ho as [A B C]. constructor; rewrite ?S2, ?S3; try done.
      rewrite begin_block_noted. destruct (N.eqb_spec ((k_number s + 1) mod 3600) 0); [done|]. by destruct (noted_same s slot) as (-> & _).
  - destruct Ho. by constructor.
Qed.

(** Nobody has two turns, where nobody was named twice. *)
Lemma one_turn_each l free s0 steps : l <> [] -> kgenesis l free = Some s0 -> names_once steps -> NoDup (k_authorities (krun s0 steps)).
Proof.
  intros Hl Hg Hn. destruct (genesis_facts _ _ _ Hl Hg) as (Hk & Hf & H1 & H2 & H3 & _).
  assert (Ho : konce s0) by (by constructor). clear Hl Hg H1 H2 H3.
  assert (konce (krun s0 steps)) as [_ _ ?]; [|done]. revert s0 Hk Hf Ho. induction steps as [|x steps IH]; intros s Hk Hf Ho; [done|]. rewrite krun_cons. apply IH.
  - intros e o who H. apply (Hn e o who). by right.
  - by apply step_ok.
  - by apply step_full.
  - apply step_once; [done..| |done]. intros e o who ->. apply (Hn e o who). by left.
Qed.

(* ------------------------------------------------------------------ *)
(** * Bonds *)

Lemma bonds_safe s : kreachable s ->
  (forall who, amount_in (k_reserved s) who = bonded s who) /\
  (forall c, c ∈ k_candidates s -> k_bond s <= cd_bond c /\ bonded s (cd_who c) = cd_bond c).
Proof.
  intros Hr. destruct (kreachable_ok s Hr) as [A B C D]. split; [exact D|]. intros c Hc. split; [by rewrite Forall_forall in C; apply C|].
  change (bonds (k_candidates s) (cd_who c) = cd_bond c). clear -A Hc. apply elem_of_Permutation in Hc as [l Hp].
  rewrite (bonds_perm _ _ _ Hp), bonds_cons, N.eqb_refl. rewrite (map_perm _ _ Hp) in A. cbn [map] in A. inversion A; subst. rewrite bonds_none by done. lia.
Qed.

Lemma holdings_kept s x who : kreachable s -> (forall n, x <> KFree who n) -> holdings (kstep_run s x) who = holdings s who.
Proof. intros Hr. apply step_holdings. by apply kreachable_ok. Qed.

(* ------------------------------------------------------------------ *)
(** * Why candidates stop *)

Lemma stands_perm s l who : k_candidates s ≡ₚ l -> stands s who <-> who ∈ map cd_who l.
Proof. intros H. rewrite stands_map. by rewrite (map_perm _ _ H). Qed.

Lemma stop_reason s x c : kok s -> c ∈ k_candidates s -> ~ stands (kstep_run s x) (cd_who c) -> stops_because s (cd_who c) (cd_bond c) x.
Proof.
  intros Hk Hc Hn. assert (Hs : stands s (cd_who c)) by (by exists c). destruct x as [e o k|slot|w n]; cbn [kstep_run] in Hn.
  - destruct (kcall_run e s o k) as [s'|] eqn:H; [|done].
    assert (Hkeep : k_candidates s' = k_candidates s -> False) by (intros He; apply Hn; unfold stands; by rewrite He).
    destruct k; cbn [kcall_run] in H.
    + kill_call H; injection H as <-; by destruct Hkeep.
    + kill_call H; injection H as <-; by destruct Hkeep.
    + destruct (collator_update_origin o) eqn:Eo; [|discriminate]. cbn [negb] in H. destruct (_ <? _); [|injection H as <-; by destruct Hkeep].
      pose proof (below_bond_split n (k_candidates s)) as Hsp. destruct (below_bond n (k_candidates s)) as [out rest]. destruct Hsp as (Hl & Ho & _).
      injection H as <-. rewrite Hl in Hc. apply elem_of_app in Hc as [Hc|Hc].
      * rewrite Forall_forall in Ho. apply sb_too_little; [done|]. by apply Ho.
      * destruct Hn. by exists c.
    + destruct o as [| |who| | | |]; try discriminate H. kill_call H. injection H as <-. destruct Hn. exists c. cbn [k_candidates with_candidates]. split; [by right|done].
    + destruct o as [| |who| | | |]; try discriminate H. kill_call H. destruct (drop_candidate_effect _ _ _ _ H) as [c' Hd].
      rewrite (dropped_stands _ _ _ _ _ _ Hd Hk) in Hn. destruct (decide (cd_who c = who)) as [<-|]; [|tauto]. apply sb_leaves.
    + destruct (collator_update_origin o) eqn:Eo; [|discriminate]. cbn [negb] in H. kill_call H; injection H as <-.
      destruct (drop_candidate _ _ _) eqn:Hdr; [|by destruct Hkeep]. destruct (drop_candidate_effect _ _ _ _ Hdr) as [c' Hd].
      rewrite (dropped_stands _ _ _ _ _ _ Hd) in Hn by (by apply (kok_ext s)). destruct (decide (cd_who c = who)) as [<-|]; [by apply sb_invulnerable|].
      destruct Hn. split; [by exists c|done].
    + kill_call H; injection H as <-; by destruct Hkeep.
    + destruct o as [| |who| | | |]; try discriminate H. destruct (_ <? _); [discriminate|]. destruct (find_candidate who (k_candidates s)) as [c'|] eqn:Ef; [|discriminate].
      destruct (find_candidate_some _ _ _ Ef) as [Hw Hp].
      assert (Hst : k_candidates s' ≡ₚ Candidate who n :: remove_candidate who (k_candidates s)).
      { etransitivity; [|apply insert_candidate_perm]. kill_call H; injection H as <-; reflexivity. }
      destruct Hn. rewrite (stands_perm _ _ _ Hst). rewrite (stands_perm _ _ _ Hp) in Hs. cbn [map cd_who] in *. by rewrite Hw in Hs.
    + destruct o as [| |who| | | |]; try discriminate H. destruct (is_invulnerable s who); [discriminate|]. destruct (_ <? _); [discriminate|]. destruct (negb _); [discriminate|].
      destruct (is_candidate s who) eqn:Ec; [discriminate|]. destruct (find_candidate target (k_candidates s)) as [c'|] eqn:Ef; [|discriminate].
      destruct (N.leb_spec n (cd_bond c')) as [|Hlt]; [discriminate|]. destruct (reserve _ _ _ _) as [s1|] eqn:Er; [|discriminate]. injection H as <-.
      destruct (find_candidate_some _ _ _ Ef) as [Hw Hp].
      assert (Hst : k_candidates s ≡ₚ c' :: remove_candidate target (k_candidates s)) by done.
      assert (Hnw : who <> cd_who c) by (intros ->; apply is_candidate_stands in Hs; congruence).
      pose proof (insert_candidate_perm (Candidate who n) (remove_candidate target (k_candidates s))) as Hp2.
      rewrite Hp in Hc. apply elem_of_cons in Hc as [->|Hc].
      * rewrite Hw in *. apply sb_outbid; [done|done].
      * destruct Hn. exists c. split; [|done]. cbn [k_candidates with_candidates]. rewrite Hp2. by right.
    + destruct o; try discriminate H. kill_call H; injection H as <-; by destruct Hkeep.
    + destruct o; try discriminate H. kill_call H; injection H as <-; by destruct Hkeep.
  - destruct (N.eq_dec ((k_number s + 1) mod 3600) 0) as [Hd|Hd].
    + change (begin_block s slot) with (kstep_run s (KBlock slot)) in Hn. rewrite (due_block s slot Hd) in Hn.
      assert (Hn' : ~ stands (kick_stale (noted s slot)) (cd_who c)).
      { intros H. apply Hn. unfold stands in *. by destruct (rotate_fields (noted s slot)) as (_ & -> & _). }
      destruct (kick_reason _ _ _ (noted_ok s slot Hk) (proj2 (noted_stands s slot (cd_who c)) Hs) Hn') as [Hi|[He Hi]].
      * apply sb_was_invulnerable; [done|]. unfold is_invulnerable in Hi. apply existsb_exists in Hi as (w & Hw & Heq). apply N.eqb_eq in Heq as ->.
        apply elem_of_list_In in Hw. by destruct (noted_same s slot) as (<- & _).
      * unfold idle in Hi. rewrite noted_last in Hi. destruct (noted_same s slot) as (_ & _ & _ & _ & _ & _ & _ & _ & _ & _ & Hnum). rewrite Hnum in Hi.
        destruct (decide (block_author s slot = Some (cd_who c))) as [Ha|Ha]; [cbn in Hi; lia|]. rewrite noted_eligible in He. by apply sb_lazy.
    + rewrite begin_block_noted in Hn. destruct (N.eqb_spec ((k_number s + 1) mod 3600) 0); [done|]. by rewrite noted_stands in Hn.
  - destruct Hn. by exists c.
Qed.

Lemma stopping s x c : kreachable s -> c ∈ k_candidates s -> ~ stands (kstep_run s x) (cd_who c) ->
  stops_because s (cd_who c) (cd_bond c) x /\
  amount_in (k_free (kstep_run s x)) (cd_who c) = amount_in (k_free s) (cd_who c) + cd_bond c /\
  amount_in (k_reserved (kstep_run s x)) (cd_who c) = 0.
Proof.
  intros Hr Hc Hn. pose proof (kreachable_ok s Hr) as Hk. pose proof (stop_reason s x c Hk Hc Hn) as Hw. split; [done|].
  destruct (bonds_safe s Hr) as [H1 H2]. destruct (H2 c Hc) as [_ Hb].
  assert (Hx : forall n, x <> KFree (cd_who c) n) by (intros n ->; inversion Hw).
  pose proof (step_holdings s x (cd_who c) Hk Hx) as Hh. pose proof (step_ok s x Hk) as [_ _ _ D].
  rewrite stands_map in Hn. rewrite D, (bonds_none _ _ Hn). unfold holdings in Hh. rewrite D, (bonds_none _ _ Hn), H1, Hb in Hh. lia.
Qed.

(** A candidate can leave as long as others are there. *)
Lemma leaving e s who : kreachable s -> stands s who -> (exists s', kcall_run e s (OSigned who) KLeave = Some s' /\ ~ stands s' who) <-> 1 < eligible s.
Proof.
  intros Hr Hs. pose proof (kreachable_ok s Hr) as Hk. cbn [kcall_run]. unfold min_eligible. destruct (N.leb_spec (eligible s) 1) as [Hle|Hgt].
  - split; [by intros (s' & H & _)|lia].
  - split; [done|]. intros _. destruct (drop_candidate true who s) as [s'|] eqn:E; [|by apply drop_candidate_none in E]. exists s'. split; [done|].
    destruct (drop_candidate_effect _ _ _ _ E) as [c Hd]. rewrite (dropped_stands _ _ _ _ _ _ Hd Hk). tauto.
Qed.

(* ------------------------------------------------------------------ *)
(** * Enough collators *)

Lemma step_eligible s x : 1 <= eligible s -> eligible (kstep_run s x) = 0 ->
  exists e o, collator_update_origin o = true /\
    ((exists l, x = KCall e o (KSetInvulnerables l) /\ l <> [] /\ (forall w, w ∈ l -> k_keys s !! w = None) /\ k_candidates s = []) \/
     (exists n, x = KCall e o (KSetBond n) /\ k_invulnerables s = [] /\ (forall c, c ∈ k_candidates s -> cd_bond c < n))).
Proof.
  intros H1 H0. destruct x as [e o k|slot|w n]; cbn [kstep_run] in H0.
  - destruct (kcall_run e s o k) as [s'|] eqn:H; [|lia].
    assert (Hkeep : k_candidates s' = k_candidates s -> k_invulnerables s' = k_invulnerables s -> False).
    { intros Ha Hb. unfold eligible in *. rewrite Ha, Hb in H0. lia. }
    destruct k; cbn [kcall_run] in H.
    + destruct (collator_update_origin o) eqn:Eo; [|discriminate]. cbn [negb] in H. exists e, o. split; [done|]. left. exists l.
      destruct (match l with [] => N.of_nat (length (k_candidates s)) <? min_eligible | _ :: _ => false end) eqn:El; [discriminate H|]. destruct (max_invulnerables <? N.of_nat (length l)); [discriminate H|]. injection H as <-.
      unfold eligible in H0. cbn [k_candidates k_invulnerables with_invulnerables] in H0. rewrite (Permutation_length (sort_accounts_perm _)) in H0.
      assert (Hc : k_candidates s = []) by (destruct (k_candidates s); [done|cbn [length] in H0; lia]). split_and!; [done| | |done].
      * intros ->. rewrite Hc in El. discriminate.
      * intros w Hw. destruct (k_keys s !! w) eqn:Ek; [|done]. exfalso.
        assert (Hin : In w (List.filter (is_registered s) l)) by (apply filter_In; split; [by apply elem_of_list_In|unfold is_registered; by rewrite Ek]).
        destruct (List.filter (is_registered s) l); [done|]. cbn [length] in H0. lia.
    + kill_call H; injection H as <-; by destruct Hkeep.
    + destruct (collator_update_origin o) eqn:Eo; [|discriminate]. cbn [negb] in H. destruct (_ <? _); [|injection H as <-; by destruct Hkeep].
      exists e, o. split; [done|]. right. exists n. split; [done|].
      pose proof (below_bond_split n (k_candidates s)) as Hsp. destruct (below_bond n (k_candidates s)) as [out rest]. destruct Hsp as (Hl & Ho & _).
      injection H as <-. unfold eligible in H0. cbn [k_candidates k_invulnerables with_candidates] in H0.
      destruct (throw_out_fold out (with_bond n s)) as (_ & _ & _ & Hi & _). rewrite Hi in H0. cbn [k_invulnerables with_bond] in H0.
      destruct rest; [|cbn [length] in H0; lia]. destruct (k_invulnerables s); [|cbn [length] in H0; lia]. split; [done|]. rewrite app_nil_r in Hl. rewrite Hl.
      intros c Hc. rewrite Forall_forall in Ho. by apply Ho.
    + destruct o; try discriminate H. kill_call H. injection H as <-. unfold eligible in H0. cbn [k_candidates with_candidates length] in H0. lia.
    + destruct o; try discriminate H. unfold min_eligible in H. destruct (N.leb_spec (eligible s) 1) as [|Hgt]; [discriminate|].
      destruct (drop_candidate_effect _ _ _ _ H) as [c Hd]. rewrite (dropped_eligible _ _ _ _ _ Hd) in Hgt. lia.
    + kill_call H; injection H as <-.
      assert (Hi : forall s'', k_invulnerables s'' = insert_sorted who (k_invulnerables s) -> eligible s'' <> 0).
      { intros s'' Hi. unfold eligible. rewrite Hi, (Permutation_length (insert_sorted_perm _ _)). cbn [length]. lia. }
      destruct (drop_candidate _ _ _) eqn:Hdr; [|by destruct (Hi (with_invulnerables (insert_sorted who (k_invulnerables s)) s) eq_refl)].
      destruct (drop_candidate_effect _ _ _ _ Hdr) as [c' [_ _ _ _ (Hi' & _) _]]. by destruct (Hi _ Hi').
    + destruct (collator_update_origin o) eqn:Eo; [|discriminate]. cbn [negb] in H. unfold min_eligible in H. destruct (N.leb_spec (eligible s) 1) as [|Hgt]; [discriminate|].
      destruct (is_invulnerable s who); [|discriminate]. injection H as <-. exfalso. unfold eligible in *. cbn [k_candidates k_invulnerables with_invulnerables] in H0.
      assert (Hr : forall l, (length l <= S (length (remove_account who l)))%nat).
      { induction l as [|y l IH]; [cbn; lia|]. cbn. destruct (who =? y); cbn; lia. }
      specialize (Hr (k_invulnerables s)). lia.
    + destruct o as [| |who| | | |]; try discriminate H. exfalso. destruct (_ <? _); [discriminate|]. destruct (find_candidate who (k_candidates s)); [|discriminate].
      assert (Hlen : k_candidates s' ≡ₚ Candidate who n :: remove_candidate who (k_candidates s)).
      { etransitivity; [|apply insert_candidate_perm]. kill_call H; injection H as <-; reflexivity. }
      unfold eligible in H0. rewrite (Permutation_length Hlen) in H0. cbn [length] in H0. lia.
    + destruct o as [| |who| | | |]; try discriminate H. exfalso. kill_call H. injection H as <-. unfold eligible in H0. cbn [k_candidates with_candidates] in H0.
      rewrite (Permutation_length (insert_candidate_perm _ _)) in H0. cbn [length] in H0. lia.
    + destruct o; try discriminate H. kill_call H; injection H as <-; by destruct Hkeep.
    + destruct o; try discriminate H. kill_call H; injection H as <-; by destruct Hkeep.
  - exfalso. rewrite begin_block_noted in H0. destruct (_ =? 0); [|rewrite noted_eligible in H0; lia].
    assert (He : eligible (rotate (noted s slot)) = eligible (kick_stale (noted s slot))).
    { unfold eligible. by destruct (rotate_fields (noted s slot)) as (-> & -> & _). }
    rewrite He in H0. pose proof (kick_keeps_one (map cd_who (k_candidates (noted s slot))) (noted s slot)) as Hk. rewrite noted_eligible in Hk.
    specialize (Hk H1). unfold kick_stale in H0. lia.
  - unfold eligible in *. cbn in H0. lia.
Qed.

(* ------------------------------------------------------------------ *)
(** * Being removed for doing nothing *)

(** A candidate's last sign of life is at least as late as block [m]. *)
Definition alive_since (m : N) (who : N) (s : collators) : Prop := stands s who -> m <= default 0 (k_last s !! who).

Lemma call_alive e s o k s' who m : kok s -> kcall_run e s o k = Some s' -> m <= k_number s -> alive_since m who s -> alive_since m who s'.
Proof.
  intros Hk H Hm Ha.
  assert (Hkeep : k_candidates s' = k_candidates s -> k_last s' = k_last s -> alive_since m who s').
  { intros H1 H2 Hs. rewrite H2. apply Ha. unfold stands in *. by rewrite H1 in Hs. }
  destruct k; cbn [kcall_run] in H.
  - kill_call H; injection H as <-; by apply Hkeep.
  - kill_call H; injection H as <-; by apply Hkeep.
  - destruct (negb _); [discriminate|]. destruct (_ <? _); [|injection H as <-; by apply Hkeep].
    pose proof (below_bond_split n (k_candidates s)) as Hsp. destruct (below_bond n (k_candidates s)) as [out rest]. destruct Hsp as (Hl & _).
    injection H as <-. destruct (throw_out_fold out (with_bond n s)) as (_ & _ & _ & _ & _ & _ & _ & _ & _ & _ & Hlast & _).
    intros Hs. rewrite stands_map in Hs. cbn [k_candidates with_candidates] in Hs. destruct Hk as [A _ _ _]. rewrite Hl, map_app in A.
    apply NoDup_app in A as (_ & A & _). cbn [k_last with_candidates]. rewrite Hlast; [|intros Ho; by destruct (A who Ho)]. apply Ha.
    rewrite stands_map, Hl, map_app. apply elem_of_app. by right.
  - destruct o as [| |w| | | |]; try discriminate H. kill_call H. injection H as <-.
    match goal with Hr : reserve _ _ _ _ = Some _ |- _ => destruct (reserve_effect _ _ _ _ _ Hr) as (f & r & -> & _) end.
    intros Hs. cbn [k_last with_candidates with_last with_funds]. destruct (decide (w = who)) as [->|Hne]; [rewrite lookup_insert; cbn; lia|].
    rewrite lookup_insert_ne by done. apply Ha. rewrite stands_map in *. cbn [k_candidates with_candidates map cd_who] in Hs. apply elem_of_cons in Hs as [?|?]; [congruence|done].
  - destruct o as [| |w| | | |]; try discriminate H. kill_call H. destruct (drop_candidate_effect _ _ _ _ H) as [c Hd]. intros Hs.
    pose proof (dropped_thinned _ _ _ _ _ Hd) as Ht. rewrite (th_last _ _ Ht Hk _ Hs). apply Ha. by apply (th_stands _ _ Ht Hk).
  - kill_call H; injection H as <-. destruct (drop_candidate _ _ _) eqn:Hdr; [|by apply Hkeep].
    destruct (drop_candidate_effect _ _ _ _ Hdr) as [cc Hd]. intros Hs. pose proof (dropped_thinned _ _ _ _ _ Hd) as Ht.
    assert (Hk' : kok (with_invulnerables (insert_sorted who0 (k_invulnerables s)) s)) by (by apply (kok_ext s)).
    rewrite (th_last _ _ Ht Hk' _ Hs). apply Ha. apply (th_stands _ _ Ht Hk' _ Hs).
  - kill_call H; injection H as <-; by apply Hkeep.
  - destruct o as [| |w| | | |]; try discriminate H. destruct (_ <? _); [discriminate|]. destruct (find_candidate w (k_candidates s)) as [c|] eqn:Ef; [|discriminate].
    destruct (find_candidate_some _ _ _ Ef) as [Hw Hp].
    assert (Hst : k_candidates s' ≡ₚ Candidate w n :: remove_candidate w (k_candidates s) /\ k_last s' = k_last s).
    { kill_call H; injection H as <-; (split; [apply insert_candidate_perm|]); [|done].
      match goal with Hr : reserve _ _ _ _ = Some _ |- _ => destruct (reserve_effect _ _ _ _ _ Hr) as (f & r & -> & _) end. done. }
    destruct Hst as [Hst Hl]. intros Hs. rewrite Hl. apply Ha. rewrite (stands_perm _ _ _ Hst) in Hs. rewrite (stands_perm _ _ _ Hp). cbn [map cd_who] in *. by rewrite Hw.
  - destruct o as [| |w| | | |]; try discriminate H. destruct (is_invulnerable s w); [discriminate|]. destruct (_ <? _); [discriminate|]. destruct (negb _); [discriminate|].
    destruct (is_candidate s w) eqn:Ec; [discriminate|]. destruct (find_candidate target (k_candidates s)) as [c|] eqn:Ef; [|discriminate].
    destruct (_ <=? _); [discriminate|]. destruct (reserve _ _ _ _) as [s1|] eqn:Er; [|discriminate]. injection H as <-.
    destruct (find_candidate_some _ _ _ Ef) as [Hw Hp]. destruct Hk as [A _ _ _]. rewrite (map_perm _ _ Hp) in A. cbn [map] in A. rewrite Hw in A. inversion A as [|? ? A1 A2]; subst x l.
    intros Hs. rewrite stands_map in Hs. cbn [k_candidates with_candidates] in Hs. rewrite (map_perm _ _ (insert_candidate_perm _ _)) in Hs. cbn [map cd_who] in Hs. apply elem_of_cons in Hs.
    cbn [k_last with_candidates with_last]. destruct (decide (w = who)) as [->|Hne]; [rewrite lookup_insert; cbn; lia|]. rewrite lookup_insert_ne by done.
    destruct Hs as [->|Hs]; [done|]. rewrite lookup_delete_ne by (intros <-; done). apply Ha. rewrite (stands_perm _ _ _ Hp). cbn [map]. by right.
  - destruct o; try discriminate H. kill_call H; injection H as <-; by apply Hkeep.
  - destruct o; try discriminate H. kill_call H; injection H as <-; by apply Hkeep.
Qed.

Lemma step_alive s x who m : kok s -> m <= k_number s -> alive_since m who s -> alive_since m who (kstep_run s x).
Proof.
  intros Hk Hm Ha. destruct x as [e o k|slot|w n]; cbn [kstep_run].
  - destruct (kcall_run e s o k) as [s'|] eqn:E; [|done]. by eapply call_alive.
  - rewrite begin_block_noted.
    assert (Hn : alive_since m who (noted s slot)).
    { intros Hs. rewrite noted_last. destruct (decide _); [cbn; lia|]. apply Ha. by rewrite noted_stands in Hs. }
    destruct (_ =? 0); [|done]. intros Hs. destruct (rotate_fields (noted s slot)) as (_ & R2 & R3 & _). rewrite R3.
    pose proof (kick_fold_thinned (map cd_who (k_candidates (noted s slot))) (noted s slot)) as Ht. fold (kick_stale (noted s slot)) in Ht.
    assert (Hs' : stands (kick_stale (noted s slot)) who) by (unfold stands in *; by rewrite R2 in Hs).
    rewrite (th_last _ _ Ht (noted_ok s slot Hk) _ Hs'). apply Hn. by apply (th_stands _ _ Ht (noted_ok s slot Hk)).
  - exact Ha.
Qed.
Lemma run_alive l s who m : kok s -> m <= k_number s -> alive_since m who s -> alive_since m who (krun s l).
Proof.
  revert s. induction l as [|x l IH]; intros s Hk Hm Ha; [done|]. rewrite krun_cons. apply IH; [by apply step_ok| |by apply step_alive].
  rewrite step_number. lia.
Qed.

Lemma call_new_candidate e s who k s' : kcall_run e s (OSigned who) k = Some s' -> ~ stands s who -> stands s' who -> k_last s' !! who = Some (k_number s + 3600).
Proof.
  intros H Hn Hs.
  assert (Hsub : (forall w, stands s' w -> stands s w) -> False) by (intros Hx; by apply Hn, Hx).
  destruct k; cbn [kcall_run collator_update_origin negb] in H.
  - cbn in H. discriminate.
  - cbn in H. discriminate.
  - cbn in H. discriminate.
  - kill_call H. injection H as <-. cbn [k_last with_candidates with_last]. by rewrite lookup_insert, kick_is.
  - kill_call H. destruct Hsub. intros w. destruct (drop_candidate_effect _ _ _ _ H) as [c [_ Hc _ _ _ _]]. rewrite !stands_map, Hc.
    intros Hin. change (map cd_who ?l) with (cd_who <$> l) in *. apply elem_of_list_fmap in Hin as (x & -> & Hx). apply elem_of_list_fmap. exists x. split; [done|].
    eapply elem_of_submseteq; [exact Hx|apply sublist_submseteq, remove_candidate_sublist].
  - cbn in H. discriminate.
  - cbn in H. discriminate.
  - exfalso. destruct (_ <? _); [discriminate|]. destruct (find_candidate who (k_candidates s)) as [c|] eqn:Ef; [|discriminate]. apply Hn. exists c.
    destruct (find_candidate_some _ _ _ Ef) as [Hw Hp]. split; [|done]. rewrite Hp. by left.
  - kill_call H. injection H as <-. cbn [k_last with_candidates with_last]. by rewrite lookup_insert, kick_is.
  - destruct Hsub. kill_call H; by injection H as <-.
  - destruct Hsub. kill_call H; by injection H as <-.
Qed.

(** Nobody is removed for doing nothing within a session's length of a sign of life. *)
Lemma alive_stays s x who steps slot : kreachable s -> sign_of_life s x who -> blocks steps + 1 < 3600 ->
  let s2 := krun (kstep_run s x) steps in
  stands s2 who -> stands (kstep_run s2 (KBlock slot)) who \/ who ∈ k_invulnerables s2.
Proof.
  intros Hr Hl Hb s2 Hs. pose proof (kreachable_ok s Hr) as Hk. pose proof (step_ok s x Hk) as Hk1. set (m := k_number (kstep_run s x)).
  assert (Ha : alive_since m who (kstep_run s x)).
  { intros Hs1. destruct Hl as [(slot' & -> & Hauth)|(e & k & -> & Hn & _)].
    - unfold m. rewrite step_number. cbn [blocks]. assert (Hno : alive_since (k_number s + 1) who (noted s slot')).
      { intros _. rewrite noted_last. destruct (decide _); [cbn; lia|done]. }
      cbn [kstep_run] in *. rewrite begin_block_noted in *. destruct (_ =? 0); [|by apply Hno].
      destruct (rotate_fields (noted s slot')) as (_ & R2 & R3 & _). rewrite R3.
      pose proof (kick_fold_thinned (map cd_who (k_candidates (noted s slot'))) (noted s slot')) as Ht. fold (kick_stale (noted s slot')) in Ht.
      assert (Hs' : stands (kick_stale (noted s slot')) who) by (unfold stands in *; by rewrite R2 in Hs1).
      rewrite (th_last _ _ Ht (noted_ok s slot' Hk) _ Hs'). apply Hno. by apply (th_stands _ _ Ht (noted_ok s slot' Hk)).
    - unfold m. rewrite step_number. cbn [kstep_run blocks] in *. destruct (kcall_run e s (OSigned who) k) as [s'|] eqn:E; [|done].
      rewrite (call_new_candidate _ _ _ _ _ E Hn Hs1). cbn. lia. }
  pose proof (run_alive steps _ who m Hk1 (N.le_refl _) Ha Hs) as Hal. fold s2 in Hal.
  assert (Hk2 : kok s2) by (by apply krun_ok).
  destruct (stands_dec (kstep_run s2 (KBlock slot)) who) as [|Hno]; [by left|]. right. destruct Hs as (c & Hc & <-).
  pose proof (stop_reason s2 (KBlock slot) c Hk2 Hc Hno) as Hw. inversion Hw as [| | | |? ? Hi|? Hd Hlz Hau He]; subst; [done|].
  exfalso. unfold s2 in Hlz at 2. rewrite krun_number in Hlz. fold m in Hlz. lia.
Qed.

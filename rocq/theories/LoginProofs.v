(** Proofs about logging in. *)
From stdpp Require Import gmap.
From Verif Require Import Base RuntimeModel RuntimeProofs LoginModel.
Open Scope N_scope.

Lemma login_spec valid s who c s' : login valid s who c = Some s' <->
  exists key, pl_devices s !! (cr_user c, cr_device c) = Some key /\
    check_challenge (fun n => pl_hashes s !! n) (pl_now s) (cr_context c) (cr_challenge c) = true /\ valid key (cr_challenge c) (cr_signature c) = true /\
    s' = Passes (pl_devices s) (pl_hashes s) (pl_now s) ((who, cr_user c, pl_now s) :: pl_logins s).
Proof.
  unfold login. split.
  - intros H. destruct (pl_devices s !! (cr_user c, cr_device c)) as [key|] eqn:Ek; [|discriminate H]. cbn in H. exists key.
    destruct (check_challenge _ _ _ _); [|discriminate H]. destruct (valid key _ _) eqn:Ev; [|discriminate H]. injection H as <-. done.
  - intros (key & -> & H1 & H2 & ->). cbn. by rewrite H1, H2.
Qed.

(** Hashes are known of past blocks only, and stay. *)
Definition past_only (s : passes) : Prop := forall n, pl_now s <= n -> pl_hashes s !! n = None.
Lemma login_keeps valid s who c : pl_devices (default s (login valid s who c)) = pl_devices s /\
  pl_hashes (default s (login valid s who c)) = pl_hashes s /\ pl_now (default s (login valid s who c)) = pl_now s.
Proof. destruct (login valid s who c) as [s'|] eqn:E; [|done]. by apply login_spec in E as (key & _ & _ & _ & ->). Qed.
Lemma past_step valid s x : past_only s -> past_only (pass_step valid s x).
Proof.
  intros H. destruct x as [who c|u d k|h]; cbn.
  - destruct (login_keeps valid s who c) as (_ & E1 & E2). unfold past_only. by rewrite E1, E2.
  - by destruct (pl_devices s !! (u, d)).
  - intros n Hn. cbn in *. rewrite lookup_insert_ne by lia. apply H. lia.
Qed.
Lemma past_run valid l : forall s, past_only s -> past_only (pass_run valid s l).
Proof. induction l as [|x l IH]; intros s H; [done|]. apply (IH (pass_step valid s x)). by apply past_step. Qed.
Lemma device_step valid s x u d k : pl_devices s !! (u, d) = Some k -> pl_devices (pass_step valid s x) !! (u, d) = Some k.
Proof.
  intros H. destruct x as [who c|u' d' k'|h]; cbn; [by rewrite (proj1 (login_keeps valid s who c))| |done].
  destruct (pl_devices s !! (u', d')) eqn:E; [done|]. cbn. rewrite lookup_insert_ne; [done|]. intros [= -> ->]. congruence.
Qed.
Lemma hash_step valid s x n h : past_only s -> pl_hashes s !! n = Some h -> pl_hashes (pass_step valid s x) !! n = Some h.
Proof.
  intros P H. destruct x as [who c|u d k|h']; cbn; [by rewrite (proj1 (proj2 (login_keeps valid s who c)))|by destruct (pl_devices s !! (u, d))|].
  rewrite lookup_insert_ne; [done|]. intros <-. rewrite (P (pl_now s)) in H; [done|lia].
Qed.
Lemma run_keeps valid l : forall s, past_only s ->
  (forall u d k, pl_devices s !! (u, d) = Some k -> pl_devices (pass_run valid s l) !! (u, d) = Some k) /\
  (forall n h, pl_hashes s !! n = Some h -> pl_hashes (pass_run valid s l) !! n = Some h).
Proof.
  induction l as [|x l IH]; intros s P; [done|]. destruct (IH (pass_step valid s x) (past_step valid s x P)) as [H1 H2]. split.
  - intros u d k H. apply H1. by apply device_step.
  - intros n h H. apply H2. by apply hash_step.
Qed.
Lemma reached_past valid l : past_only (pass_run valid pass_start l).
Proof. apply past_run. intros n _. apply lookup_empty. Qed.

Lemma onlooker valid s who who' c s' : login valid s who c = Some s' -> exists s'', login valid s' who' c = Some s'' /\
  pl_logins s'' = (who', cr_user c, pl_now s) :: (who, cr_user c, pl_now s) :: pl_logins s.
Proof.
  intros H. apply login_spec in H as (key & H1 & H2 & H3 & ->). eexists. split; [apply login_spec; exists key; by split_and!|]. done.
Qed.
Lemma again valid l1 l2 who who' c s' : let s := pass_run valid pass_start l1 in
  login valid s who c = Some s' -> cr_context c < pl_now s -> pl_now (pass_run valid s l2) <= cr_context c + 3 ->
  is_Some (login valid (pass_run valid s l2) who' c).
Proof.
  intros s H Hc Hn. apply login_spec in H as (key & H1 & H2 & H3 & ->). destruct (run_keeps valid l2 s (reached_past valid l1)) as [K1 K2].
  eexists. apply login_spec. exists key. split; [by apply K1|]. split; [|done]. apply challenge_exact in H2 as [_ H2]. apply challenge_exact. split; [done|].
  destruct H2 as [H2|[H2 ->]]; [left; by apply K2|]. destruct (pl_hashes (pass_run valid s l2) !! cr_context c) eqn:E; [|by right].
  exfalso. revert H2 E. assert (Hp : forall l s, past_only s -> forall n, n < pl_now s -> pl_hashes s !! n = None -> pl_hashes (pass_run valid s l) !! n = None).
  { clear. induction l as [|x l IH]; intros s P n Hn H; [done|]. change (pass_run valid s (x :: l)) with (pass_run valid (pass_step valid s x) l).
    assert (pl_now s <= pl_now (pass_step valid s x)).
    { destruct x as [who c|u d k|h]; cbn; [by rewrite (proj2 (proj2 (login_keeps valid s who c)))|by destruct (pl_devices s !! (u, d))|lia]. }
    apply IH; [by apply past_step|lia|]. destruct x as [who c|u d k|h]; cbn; [by rewrite (proj1 (proj2 (login_keeps valid s who c)))|by destruct (pl_devices s !! (u, d))|].
    rewrite lookup_insert_ne by lia. done. }
  intros H2 E. rewrite (Hp l2 s (reached_past valid l1) _ Hc H2) in E. discriminate E.
Qed.
Lemma ahead valid l key user device until sig who : let s := pass_run valid pass_start l in
  pl_devices s !! (user, device) = Some key -> valid key (replicate 32 0) sig = true -> pl_now s <= until ->
  is_Some (login valid s who (Credential user device until (replicate 32 0) sig)).
Proof.
  intros s H1 H2 H3. eexists. apply login_spec. exists key. split_and!; [done| |done|reflexivity]. apply challenge_exact. cbn. split; [lia|]. right. split; [|done].
  by apply (reached_past valid l).
Qed.
Lemma recent valid l who c s' : let s := pass_run valid pass_start l in
  login valid s who c = Some s' -> cr_challenge c <> replicate 32 0 ->
  cr_context c < pl_now s /\ pl_now s <= cr_context c + 3 /\ pl_hashes s !! cr_context c = Some (cr_challenge c).
Proof.
  intros s H Hz. apply login_spec in H as (key & _ & H & _). apply challenge_exact in H as [H1 [H2|[_ ?]]]; [|done]. split_and!; [|done|done].
  destruct (N.lt_ge_cases (cr_context c) (pl_now s)); [done|]. pose proof (reached_past valid l (cr_context c) H) as E. fold s in E. cbn in H2. rewrite E in H2. discriminate H2.
Qed.
Lemma proves_device valid s who c s' : login valid s who c = Some s' ->
  (exists key, pl_devices s !! (cr_user c, cr_device c) = Some key /\ valid key (cr_challenge c) (cr_signature c) = true) /\
  pl_now s <= cr_context c + 3 /\ pl_logins s' = (who, cr_user c, pl_now s) :: pl_logins s.
Proof. intros H. apply login_spec in H as (key & H1 & H2 & H3 & ->). apply challenge_exact in H2 as [H2 _]. split; [by exists key|]. done. Qed.
Lemma logins_made valid l who user n : (who, user, n) ∈ pl_logins (pass_run valid pass_start l) ->
  exists l1 c l2, l = l1 ++ PLogin who c :: l2 /\ cr_user c = user /\ pl_now (pass_run valid pass_start l1) = n /\ is_Some (login valid (pass_run valid pass_start l1) who c).
Proof.
  induction l as [|x l IH] using rev_ind; [by intros ?%elem_of_nil|]. unfold pass_run. rewrite fold_left_app. cbn [fold_left]. fold (pass_run valid pass_start l).
  set (s := pass_run valid pass_start l) in *. intros H.
  assert (D : (who, user, n) ∈ pl_logins s \/ exists c, x = PLogin who c /\ cr_user c = user /\ pl_now s = n /\ is_Some (login valid s who c)).
  { destruct x as [who' c|u d k|h]; cbn in H; [|left; by destruct (pl_devices s !! (u, d))|by left].
    destruct (login valid s who' c) as [s'|] eqn:E; [|by left]. pose proof E as E'. apply login_spec in E' as (key & _ & _ & _ & ->). cbn in H.
    apply elem_of_cons in H as [[= -> -> ->]|H]; [right|by left]. exists c. split_and!; [done..|]. by eexists. }
  destruct D as [D|(c & -> & H1 & H2 & H3)].
  - destruct (IH D) as (l1 & c & l2 & -> & Hr). exists l1, c, (l2 ++ [x]). split; [by rewrite <- app_assoc|done].
  - by exists l, c, [].
Qed.

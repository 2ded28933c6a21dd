(** Proofs on vesting (C177 to C179). *)
From stdpp Require Import gmap.
From Coq Require Import Lia.
From Verif Require Import Base RuntimeModel VestingModel VestingSpec.
Open Scope N_scope.

Lemma total_cons v l n : total_at (v :: l) n = locked_at v n + total_at l n. Proof. reflexivity. Qed.
Lemma total_nil n : total_at [] n = 0. Proof. reflexivity. Qed.
Arguments total_at : simpl never.
Arguments locked_at : simpl never.
Ltac tot := rewrite ?total_cons, ?total_nil in *.

Lemma per_pos v : 1 <= per_block v. Proof. unfold per_block. lia. Qed.

Lemma locked_mono v n m : n <= m -> locked_at v m <= locked_at v n.
Proof.
  intros H. unfold locked_at. assert ((n - v_start v) * per_block v <= (m - v_start v) * per_block v) by (apply N.mul_le_mono_r; lia). lia.
Qed.

Lemma total_mono l n m : n <= m -> total_at l m <= total_at l n.
Proof. intros H. induction l as [|v l IH]; tot; [lia|]. pose proof (locked_mono v n m H). lia. Qed.

Lemma total_app l k n : total_at (l ++ k) n = total_at l n + total_at k n.
Proof. induction l as [|v l IH]; cbn; tot; lia. Qed.

Lemma dur_covers v : v_locked v <= duration v * per_block v.
Proof.
  unfold duration. pose proof (per_pos v) as P. destruct (N.leb_spec (v_locked v) (per_block v)); [lia|].
  pose proof (N.div_mod (v_locked v) (per_block v) ltac:(lia)) as D. pose proof (N.mod_lt (v_locked v) (per_block v) ltac:(lia)) as M.
  destruct (N.eqb_spec (v_locked v mod per_block v) 0); nia.
Qed.

Lemma ended v n : ending v <= n -> locked_at v n = 0.
Proof.
  intros H. unfold ending in H. unfold locked_at. pose proof (dur_covers v).
  assert (duration v * per_block v <= (n - v_start v) * per_block v) by (apply N.mul_le_mono_r; lia). lia.
Qed.

(** From [s] on, after its start, a schedule that is over within [d] blocks goes down at least as fast as a line does. *)
Lemma below_line v s d k : v_start v <= s -> ending v <= s + d -> k <= d -> d * locked_at v (s + k) <= locked_at v s * (d - k).
Proof.
  intros Hs He Hk. unfold ending in He. unfold locked_at. pose proof (dur_covers v) as C. pose proof (per_pos v) as P.
  set (p := per_block v) in *. set (L := v_locked v) in *. set (x := s - v_start v) in *.
  replace (s + k - v_start v) with (x + k) by lia. assert (L <= (x + d) * p) by nia.
  destruct (N.le_gt_cases L ((x + k) * p)); [replace (L - (x + k) * p) with 0 by lia; rewrite N.mul_0_r; apply N.le_0_l|].
  assert (exists y, L = x * p + y) as [y Hy] by (exists (L - x * p); rewrite N.mul_add_distr_r in *; lia).
  rewrite Hy in *. replace (x * p + y - x * p) with y by lia. rewrite N.mul_add_distr_r in *. replace (x * p + y - (x * p + k * p)) with (y - k * p) by lia.
  assert (y <= d * p) by lia. assert (exists z, d = k + z) as [z ->] by (exists (d - k); lia). replace (k + z - k) with z by lia.
  rewrite N.mul_sub_distr_l. rewrite N.mul_add_distr_r in *.
  assert (k * y <= (k + z) * (k * p)) by (replace ((k + z) * (k * p)) with (k * (k * p + z * p)) by lia; apply N.mul_le_mono_l; lia). lia.
Qed.

Lemma merge_later now a b n : now <= n ->
  locked_at a n + locked_at b n <= match merge_info now a b with Some m => locked_at m n | None => 0 end.
Proof.
  intros Hn. unfold merge_info. destruct (N.leb_spec (ending a) now) as [Ea|Ea].
  { rewrite (ended a n) by lia. destruct (N.leb_spec (ending b) now) as [Eb|Eb]; [rewrite (ended b n) by lia; lia|lia]. }
  destruct (N.leb_spec (ending b) now) as [Eb|Eb]; [rewrite (ended b n) by lia; lia|].
  set (s := N.max now (N.max (v_start a) (v_start b))). set (d := N.max 1 (N.max (ending a) (ending b) - s)).
  set (L := locked_at a now + locked_at b now).
  pose proof (locked_mono a now n Hn) as Ma. pose proof (locked_mono b now n Hn) as Mb.
  unfold locked_at at 3, per_block. cbn. replace (N.max 1 (N.max 1 (L / d))) with (N.max 1 (L / d)) by lia.
  destruct (N.le_gt_cases n s) as [Hs|Hs]; [replace (n - s) with 0 by lia; lia|].
  assert (exists k, n = s + k) as [k Hk] by (exists (n - s); lia). rewrite Hk. replace (s + k - s) with k by lia.
  pose proof (locked_mono a now s ltac:(lia)) as Sa. pose proof (locked_mono b now s ltac:(lia)) as Sb.
  destruct (N.le_gt_cases d k) as [Hd|Hd].
  { rewrite (ended a (s + k)) by lia. rewrite (ended b (s + k)) by lia. lia. }
  pose proof (below_line a s d k ltac:(lia) ltac:(lia) ltac:(lia)) as Ba. pose proof (below_line b s d k ltac:(lia) ltac:(lia) ltac:(lia)) as Bb.
  assert (locked_at a (s + k) <= locked_at a s - k) as Ka.
  { unfold locked_at. pose proof (per_pos a) as Hp. replace (s + k - v_start a) with (s - v_start a + k) by lia.
    rewrite N.mul_add_distr_r. assert (k * 1 <= k * per_block a) as Hk1 by (apply N.mul_le_mono_l; exact Hp). clear - Hk1. lia. }
  assert (locked_at b (s + k) <= locked_at b s - k) as Kb.
  { unfold locked_at. pose proof (per_pos b) as Hp. replace (s + k - v_start b) with (s - v_start b + k) by lia.
    rewrite N.mul_add_distr_r. assert (k * 1 <= k * per_block b) as Hk1 by (apply N.mul_le_mono_l; exact Hp). clear - Hk1. lia. }
  destruct (N.le_gt_cases (L / d) 1) as [Q|Q]; [replace (N.max 1 (L / d)) with 1 by lia; lia|].
  replace (N.max 1 (L / d)) with (L / d) by lia. pose proof (N.mul_div_le L d ltac:(lia)) as D.
  set (q := L / d) in *. set (A := locked_at a (s + k)) in *. set (B := locked_at b (s + k)) in *.
  assert (d * (A + B) <= L * (d - k)) as T.
  { unfold L. rewrite N.mul_add_distr_l, N.mul_add_distr_r. apply N.add_le_mono; (etransitivity; [eassumption|apply N.mul_le_mono_r; assumption]). }
  assert (d * (k * q) <= L * k) as U by (replace (d * (k * q)) with (d * q * k) by lia; apply N.mul_le_mono_r; exact D).
  assert (L * (d - k) + L * k = d * L) as W by (rewrite <- N.mul_add_distr_l; replace (d - k + k) with d by lia; apply N.mul_comm).
  assert (d * (A + B + k * q) <= d * L) as X by (rewrite N.mul_add_distr_l; clear - T U W; lia).
  apply N.mul_le_mono_pos_l in X; [clear - X; lia|lia].
Qed.

Lemma merge_now now a b : match merge_info now a b with Some m => locked_at m now | None => 0 end = locked_at a now + locked_at b now.
Proof.
  unfold merge_info. destruct (N.leb_spec (ending a) now) as [Ea|Ea].
  { rewrite (ended a now) by lia. destruct (N.leb_spec (ending b) now) as [Eb|Eb]; [rewrite (ended b now) by lia; lia|lia]. }
  destruct (N.leb_spec (ending b) now) as [Eb|Eb]; [rewrite (ended b now) by lia; lia|].
  unfold locked_at at 1. cbn. replace (now - _) with 0 by lia. lia.
Qed.

(** What goes with [report]. *)
Fixpoint gone (keep : nat -> bool) (i : nat) (l : list vest) (n : N) : N :=
  match l with [] => 0 | v :: r => (if keep i then 0 else locked_at v n) + gone keep (S i) r n end.

Lemma report_total keep now i l n : now <= n -> total_at (report keep now i l) n + gone keep i l n = total_at l n.
Proof.
  intros H. revert i. induction l as [|v l IH]; intros i; cbn; tot; [lia|]. specialize (IH (S i)).
  destruct (N.eqb_spec (locked_at v now) 0) as [E|E]; cbn.
  - pose proof (locked_mono v now n H). destruct (keep i); lia.
  - destruct (keep i); cbn; tot; lia.
Qed.

Lemma gone_none i l n : gone (fun _ => true) i l n = 0.
Proof. revert i. induction l as [|v l IH]; intros i; cbn; [lia|]. rewrite IH. lia. Qed.

Lemma gone_one l : forall i0 i v n, l !! i = Some v -> gone (fun k => negb (k =? i0 + i)%nat) i0 l n = locked_at v n.
Proof.
  assert (forall l i0 j n, (j < i0)%nat -> gone (fun k => negb (k =? j)%nat) i0 l n = 0) as Z.
  { intros k. induction k as [|w k IH]; intros i0 j n Hj; cbn; [lia|]. rewrite IH by lia.
    destruct (Nat.eqb_spec i0 j); cbn; lia. }
  induction l as [|w l IH]; intros i0 [|i] v n H; cbn in *; try discriminate H.
  - injection H as ->. replace (i0 + 0)%nat with i0 by lia. rewrite Nat.eqb_refl. cbn. rewrite Z by lia. lia.
  - destruct (Nat.eqb_spec i0 (i0 + S i)); [lia|]. cbn. replace (i0 + S i)%nat with (S i0 + i)%nat by lia. rewrite (IH (S i0) i v n H). lia.
Qed.

Lemma gone_two l : forall i0 i j n, i <> j ->
  gone (fun k => negb (k =? i)%nat && negb (k =? j)%nat) i0 l n = gone (fun k => negb (k =? i)%nat) i0 l n + gone (fun k => negb (k =? j)%nat) i0 l n.
Proof.
  induction l as [|w l IH]; intros i0 i j n H; cbn; [lia|]. rewrite (IH (S i0) i j n H).
  destruct (Nat.eqb_spec i0 i), (Nat.eqb_spec i0 j); cbn; subst; try lia; congruence.
Qed.

Lemma passive_total now l n : now <= n -> total_at (report (fun _ => true) now 0 l) n = total_at l n.
Proof. intros H. pose proof (report_total (fun _ => true) now 0 l n H) as R. rewrite gone_none in R. lia. Qed.

Lemma merged_total now l i j v w n : now <= n -> i <> j -> l !! i = Some v -> l !! j = Some w ->
  total_at (report (fun k => negb (k =? i)%nat && negb (k =? j)%nat) now 0 l) n + locked_at v n + locked_at w n = total_at l n.
Proof.
  intros H Hij Hi Hj. pose proof (report_total (fun k => negb (k =? i)%nat && negb (k =? j)%nat) now 0 l n H) as R.
  rewrite gone_two in R by exact Hij. pose proof (gone_one l 0 i v n Hi) as G1. pose proof (gone_one l 0 j w n Hj) as G2. cbn in G1, G2. lia.
Qed.

(** Reading the state after a change of it. *)
Lemma vamt_eq m a n : vamt (<[a := n]> m) a = n.
Proof. unfold vamt. rewrite lookup_insert. reflexivity. Qed.
Lemma vamt_ne m a b n : a <> b -> vamt (<[a := n]> m) b = vamt m b.
Proof. intros H. unfold vamt. rewrite lookup_insert_ne by exact H. reflexivity. Qed.
Lemma write_sched_eq a l k s : scheds (write a l k s) a = l.
Proof. unfold scheds, write. cbn. rewrite lookup_insert. reflexivity. Qed.
Lemma write_sched_ne a b l k s : a <> b -> scheds (write a l k s) b = scheds s b.
Proof. intros H. unfold scheds, write. cbn. rewrite lookup_insert_ne by exact H. reflexivity. Qed.

(** What a transfer does. *)
Lemma transfer_does ok from to n s s' : transfer ok from to n s = Some s' -> from <> to ->
  n <= usable s from /\ vs_now s' = vs_now s /\ vs_held s' = vs_held s /\ vs_lock s' = vs_lock s /\ vs_sched s' = vs_sched s /\
  vamt (vs_free s') from = vamt (vs_free s) from - n /\ vamt (vs_free s') to = vamt (vs_free s) to + n /\
  forall b, b <> from -> b <> to -> vamt (vs_free s') b = vamt (vs_free s) b.
Proof.
  intros H Hne. unfold transfer in H. destruct (N.eqb_spec from to) as [E|_]; [congruence|].
  destruct (N.leb_spec n (usable s from)) as [Hu|Hu]; [|discriminate H]. destruct ok; [|discriminate H]. injection H as <-. cbn.
  split_and!; try reflexivity; try exact Hu.
  - rewrite vamt_ne by congruence. apply vamt_eq.
  - rewrite vamt_eq. rewrite vamt_ne by congruence. reflexivity.
  - intros b H1 H2. rewrite vamt_ne by congruence. rewrite vamt_ne by congruence. reflexivity.
Qed.
Lemma transfer_self ok a n s : transfer ok a a n s = Some s.
Proof. unfold transfer. rewrite N.eqb_refl. reflexivity. Qed.

(** Of one account: what a step does to it. *)
Record view := View { w_now : N; w_free : N; w_held : N; w_lock : N; w_sched : list vest }.
Definition view_of (s : vst) (a : N) : view := View (vs_now s) (vamt (vs_free s) a) (vamt (vs_held s) a) (vamt (vs_lock s) a) (scheds s a).
Definition given_in (g : list (N * vest)) (a : N) : list vest := map snd (filter (fun x => x.1 = a) g).

Inductive vmove (a : N) (x : vstep) : view -> view -> list vest -> Prop :=
| m_same w : vmove a x w w []
| m_passive w : vmove a x w (View (w_now w) (w_free w) (w_held w) (total_at (w_sched w) (w_now w)) (report (fun _ => true) (w_now w) 0 (w_sched w))) []
| m_merge w i j v1 v2 : x = VMerge a i j -> i <> j -> w_sched w !! i = Some v1 -> w_sched w !! j = Some v2 ->
    let l := report (fun k => negb (k =? i)%nat && negb (k =? j)%nat) (w_now w) 0 (w_sched w) ++
             match merge_info (w_now w) v1 v2 with Some m => [m] | None => [] end in
    vmove a x w (View (w_now w) (w_free w) (w_held w) (total_at l (w_now w)) l) []
| m_remove w i : x = VForceRemove a i ->
    let l := report (fun j => negb (j =? i)%nat) (w_now w) 0 (w_sched w) in
    vmove a x w (View (w_now w) (w_free w) (w_held w) (total_at l (w_now w)) l) []
| m_given w ok b v : b <> a -> x = VGrant ok b a v -> 0 < v_per_block v -> (length (w_sched w) < 28)%nat ->
    vmove a x w (View (w_now w) (w_free w + v_locked v) (w_held w) (total_at (w_sched w ++ [v]) (w_now w))
      (report (fun _ => true) (w_now w) 0 (w_sched w ++ [v]))) [v]
| m_self w ok v : x = VGrant ok a a v -> 0 < v_per_block v -> (length (w_sched w) < 28)%nat ->
    vmove a x w (View (w_now w) (w_free w) (w_held w) (total_at (w_sched w ++ [v]) (w_now w))
      (report (fun _ => true) (w_now w) 0 (w_sched w ++ [v]))) [v]
| m_out w n : spends a x -> n <= w_free w - (w_lock w - w_held w) ->
    vmove a x w (View (w_now w) (w_free w - n) (w_held w) (w_lock w) (w_sched w)) []
| m_in w n : vmove a x w (View (w_now w) (w_free w + n) (w_held w) (w_lock w) (w_sched w)) []
| m_hold w n : spends a x -> n <= w_free w -> vmove a x w (View (w_now w) (w_free w - n) (w_held w + n) (w_lock w) (w_sched w)) []
| m_free w n : n <= w_held w -> vmove a x w (View (w_now w) (w_free w + n) (w_held w - n) (w_lock w) (w_sched w)) []
| m_block w : vmove a x w (View (w_now w + 1) (w_free w) (w_held w) (w_lock w) (w_sched w)) [].

Lemma grant_does ok from to v s s' : vested_transfer ok from to v s = Some s' ->
  exists s1, transfer ok from to (v_locked v) s = Some s1 /\ 0 < v_per_block v /\ min_vested_transfer <= v_locked v /\
    (length (scheds s to) < max_schedules)%nat /\
    view_of s' to = View (vs_now s) (vamt (vs_free s1) to) (vamt (vs_held s) to) (total_at (scheds s to ++ [v]) (vs_now s))
                      (report (fun _ => true) (vs_now s) 0 (scheds s to ++ [v])) /\
    forall b, b <> to -> view_of s' b = View (vs_now s) (vamt (vs_free s1) b) (vamt (vs_held s) b) (vamt (vs_lock s) b) (scheds s b).
Proof.
  intros H. unfold vested_transfer in H.
  match type of H with (if ?c then _ else _) = _ => destruct c eqn:C; [|discriminate H] end.
  apply andb_true_iff in C as [C Hn]. apply andb_true_iff in C as [C Hp]. apply andb_true_iff in C as [Hm Hl].
  apply Nat.ltb_lt in Hn. apply N.leb_le in Hm. apply negb_true_iff, N.eqb_neq in Hp.
  destruct (transfer ok from to (v_locked v) s) as [s1|] eqn:T; [|discriminate H]. exists s1.
  assert (vs_now s1 = vs_now s /\ vs_held s1 = vs_held s /\ vs_lock s1 = vs_lock s /\ vs_sched s1 = vs_sched s) as (E1 & E2 & E3 & E4).
  { destruct (decide (from = to)) as [->|Hne]; [rewrite transfer_self in T; injection T as <-; split_and!; reflexivity|].
    destruct (transfer_does _ _ _ _ _ _ T Hne) as (_ & A & B & C & D & _). split_and!; assumption. }
  injection H as <-. split_and!; try assumption; try reflexivity; try lia.
  - unfold view_of, passive. set (u := Vst _ _ _ _ _). assert (scheds u to = scheds s to ++ [v]) as Eu.
    { unfold scheds, u. cbn. rewrite lookup_insert. cbn. unfold scheds. rewrite E4. reflexivity. }
    rewrite Eu. cbn. rewrite write_sched_eq. rewrite vamt_eq. rewrite E1, E2. rewrite passive_total by lia. reflexivity.
  - intros b Hb. unfold view_of, passive. rewrite write_sched_ne by congruence. cbn. rewrite vamt_ne by congruence.
    rewrite E1, E2, E3. unfold scheds at 1. cbn. rewrite lookup_insert_ne by congruence. unfold scheds. rewrite E4. reflexivity.
Qed.

Lemma step_moves s x a : let r := vstep_run s x in vmove a x (view_of s a) (view_of (fst r) a) (given_in (snd r) a).
Proof.
  cbv zeta. destruct x as [who|ok from to v|who i j|who i|ok from to n|who n|who n|who n|]; cbn [vstep_run].
  - destruct (vs_sched s !! who) as [l|] eqn:E; cbn [fst snd]; [|apply m_same].
    unfold passive. destruct (decide (who = a)) as [->|Hne].
    + unfold view_of at 2. rewrite write_sched_eq. cbn. rewrite vamt_eq. rewrite passive_total by lia. apply (m_passive a _ (view_of s a)).
    + unfold view_of at 2. rewrite write_sched_ne by exact Hne. cbn. rewrite vamt_ne by exact Hne. apply m_same.
  - destruct (vested_transfer ok from to v s) as [s'|] eqn:E; cbn [fst snd]; [|apply m_same].
    destruct (grant_does _ _ _ _ _ _ E) as (s1 & T & Hp & _ & HB & V1 & V2). unfold given_in.
    destruct (decide (to = a)) as [->|Hne].
    + rewrite filter_cons_True by reflexivity. rewrite filter_nil. cbn. rewrite V1. destruct (decide (from = a)) as [->|Hf].
      * rewrite transfer_self in T. injection T as <-. exact (m_self a _ (view_of s a) ok v eq_refl Hp HB).
      * destruct (transfer_does _ _ _ _ _ _ T Hf) as (_ & _ & _ & _ & _ & _ & F & _). rewrite F.
        exact (m_given a _ (view_of s a) ok from v Hf eq_refl Hp HB).
    + rewrite filter_cons_False by exact Hne. rewrite filter_nil. cbn. rewrite V2 by congruence.
      destruct (decide (from = to)) as [->|Hft]; [rewrite transfer_self in T; injection T as <-; apply m_same|].
      destruct (transfer_does _ _ _ _ _ _ T Hft) as (U & _ & _ & _ & _ & F1 & _ & F3). destruct (decide (from = a)) as [->|Hf].
      * rewrite F1. apply (m_out a _ (view_of s a)); [right; left; eauto|exact U].
      * rewrite F3 by congruence. apply m_same.
  - cbn [fst snd]. unfold merge. destruct (vs_sched s !! who) as [l|] eqn:E; [|apply m_same].
    destruct (Nat.eqb_spec i j) as [Hij|Hij]; [apply m_same|]. destruct (l !! i) as [v1|] eqn:E1; [|apply m_same].
    destruct (l !! j) as [v2|] eqn:E2; [|apply m_same]. cbn [default]. assert (scheds s who = l) as El by (unfold scheds; rewrite E; reflexivity).
    destruct (decide (who = a)) as [->|Hne].
    + unfold view_of at 2. cbn [from_option id]. rewrite write_sched_eq. cbn. rewrite vamt_eq. rewrite <- El in *. apply (m_merge a _ (view_of s a) i j v1 v2 eq_refl Hij E1 E2).
    + unfold view_of at 2. cbn [from_option id]. rewrite write_sched_ne by exact Hne. cbn. rewrite vamt_ne by exact Hne. apply m_same.
  - destruct (i <? length (scheds s who))%nat; cbn [fst snd]; [|apply m_same]. unfold remove_at. destruct (decide (who = a)) as [->|Hne].
    + unfold view_of at 2. rewrite write_sched_eq. cbn. rewrite vamt_eq. apply (m_remove a _ (view_of s a) i eq_refl).
    + unfold view_of at 2. rewrite write_sched_ne by exact Hne. cbn. rewrite vamt_ne by exact Hne. apply m_same.
  - cbn [fst snd]. destruct (transfer ok from to n s) as [s'|] eqn:T; cbn; [|apply m_same].
    destruct (decide (from = to)) as [->|Hne]; [rewrite transfer_self in T; injection T as <-; apply m_same|].
    destruct (transfer_does _ _ _ _ _ _ T Hne) as (U & E1 & E2 & E3 & E4 & F1 & F2 & F3). unfold view_of at 2, scheds. rewrite E1, E2, E3, E4.
    destruct (decide (from = a)) as [->|Hf]; [rewrite F1; apply (m_out a _ (view_of s a)); [left; eauto|exact U]|].
    destruct (decide (to = a)) as [->|Ht]; [rewrite F2; apply (m_in a _ (view_of s a))|]. rewrite F3 by congruence. apply m_same.
  - destruct (N.leb_spec n (vamt (vs_free s) who)) as [H|H]; cbn [fst snd]; [|apply m_same]. unfold view_of at 2, scheds. cbn.
    destruct (decide (who = a)) as [->|Hne].
    + rewrite !vamt_eq. apply (m_hold a _ (view_of s a)); [right; right; eauto|exact H].
    + rewrite !vamt_ne by exact Hne. apply m_same.
  - destruct (N.leb_spec n (vamt (vs_held s) who)) as [H|H]; cbn [fst snd]; [|apply m_same]. unfold view_of at 2, scheds. cbn.
    destruct (decide (who = a)) as [->|Hne].
    + rewrite !vamt_eq. apply (m_free a _ (view_of s a)). exact H.
    + rewrite !vamt_ne by exact Hne. apply m_same.
  - cbn [fst snd]. unfold view_of at 2, scheds. cbn. destruct (decide (who = a)) as [->|Hne].
    + rewrite vamt_eq. apply (m_in a _ (view_of s a)).
    + rewrite vamt_ne by exact Hne. apply m_same.
  - cbn [fst snd]. apply (m_block a _ (view_of s a)).
Qed.

(** What the moves keep. *)
Lemma move_lock a x w w' g : vmove a x w w' g -> total_at (w_sched w) (w_now w) <= w_lock w -> total_at (w_sched w') (w_now w') <= w_lock w'.
Proof.
  intros M H. destruct M; cbn in *; try exact H; try lia.
  - rewrite passive_total by lia. lia.
  - rewrite passive_total by lia. lia.
  - rewrite passive_total by lia. lia.
  - pose proof (total_mono (w_sched w) (w_now w) (w_now w + 1) ltac:(lia)). lia.
Qed.

Definition covered (w : view) : Prop := w_lock w <= w_free w + w_held w.
Lemma move_covered a x w w' g : vmove a x w w' g -> ~ to_self a x -> total_at (w_sched w) (w_now w) <= w_lock w -> covered w -> covered w'.
Proof.
  unfold covered. intros M Hs Hl H. destruct M as [w|w|w i j v1 v2 Hx Hij H1 H2|w i Hx|w ok b v Hb Hx Hp HB|w ok v Hx Hp HB|w n Hx Hn|w n|w n Hx Hn|w n Hn|w];
    cbn in *; try lia.
  - subst l. rewrite total_app. pose proof (merged_total (w_now w) (w_sched w) i j v1 v2 (w_now w) ltac:(lia) Hij H1 H2) as T.
    pose proof (merge_now (w_now w) v1 v2) as E. destruct (merge_info (w_now w) v1 v2); cbn in *; tot; lia.
  - pose proof (report_total (fun j => negb (j =? i)%nat) (w_now w) 0 (w_sched w) (w_now w) ltac:(lia)). subst l. lia.
  - rewrite total_app. tot. unfold locked_at in *. lia.
  - exfalso. apply Hs. exists ok, v. exact Hx.
Qed.

Definition unvested_as_given (g : list vest) (w : view) : Prop := forall n, w_now w <= n -> total_at g n <= total_at (w_sched w) n.
Lemma move_given a x w w' g0 g : vmove a x w w' g -> ~ taken a x -> unvested_as_given g0 w -> unvested_as_given (g0 ++ g) w'.
Proof.
  unfold unvested_as_given. intros M Hs H n Hn. rewrite total_app. specialize (H n).
  destruct M as [w|w|w i j v1 v2 Hx Hij H1 H2|w i Hx|w ok b v Hb Hx Hp HB|w ok v Hx Hp HB|w n' Hx Hn'|w n'|w n' Hx Hn'|w n' Hn'|w];
    cbn in *; tot; try (specialize (H Hn); lia).
  - rewrite passive_total by exact Hn. specialize (H Hn). lia.
  - specialize (H Hn). subst l. rewrite total_app. pose proof (merged_total (w_now w) (w_sched w) i j v1 v2 n Hn Hij H1 H2) as T.
    pose proof (merge_later (w_now w) v1 v2 n Hn) as E. destruct (merge_info (w_now w) v1 v2); cbn in *; tot; lia.
  - exfalso. apply Hs. exists i. exact Hx.
  - specialize (H Hn). rewrite passive_total by exact Hn. rewrite total_app. tot. lia.
  - specialize (H Hn). rewrite passive_total by exact Hn. rewrite total_app. tot. lia.
  - specialize (H ltac:(lia)). lia.
Qed.

Definition exactly_as_given (g : list vest) (w : view) : Prop := forall n, w_now w <= n -> total_at g n = total_at (w_sched w) n.
Lemma move_exact a x w w' g0 g : vmove a x w w' g -> ~ taken a x -> ~ merges a x -> exactly_as_given g0 w -> exactly_as_given (g0 ++ g) w'.
Proof.
  unfold exactly_as_given. intros M Hs Hm H n Hn. rewrite total_app. specialize (H n).
  destruct M as [w|w|w i j v1 v2 Hx Hij H1 H2|w i Hx|w ok b v Hb Hx Hp HB|w ok v Hx Hp HB|w n' Hx Hn'|w n'|w n' Hx Hn'|w n' Hn'|w];
    cbn in *; tot; try (specialize (H Hn); lia).
  - rewrite passive_total by exact Hn. specialize (H Hn). lia.
  - exfalso. apply Hm. exists i, j. exact Hx.
  - exfalso. apply Hs. exists i. exact Hx.
  - specialize (H Hn). rewrite passive_total by exact Hn. rewrite total_app. tot. lia.
  - specialize (H Hn). rewrite passive_total by exact Hn. rewrite total_app. tot. lia.
  - specialize (H ltac:(lia)). lia.
Qed.

Lemma given_app g k a : given_in (g ++ k) a = given_in g a ++ given_in k a.
Proof. unfold given_in. rewrite filter_app, map_app. reflexivity. Qed.

Lemma run_cons s x l : vrun s (x :: l) = (fst (vrun (fst (vstep_run s x)) l), snd (vstep_run s x) ++ snd (vrun (fst (vstep_run s x)) l)).
Proof. cbn. destruct (vstep_run s x) as [s1 g1]. cbn. destruct (vrun s1 l) as [s2 g2]. reflexivity. Qed.

Lemma run_lock l : forall s a, total_at (scheds s a) (vs_now s) <= vamt (vs_lock s) a ->
  total_at (scheds (fst (vrun s l)) a) (vs_now (fst (vrun s l))) <= vamt (vs_lock (fst (vrun s l))) a.
Proof.
  induction l as [|x l IH]; intros s a H; [exact H|]. rewrite run_cons. cbn [fst]. apply IH.
  exact (move_lock a x _ _ _ (step_moves s x a) H).
Qed.

Lemma run_covered l : forall s a, (forall x, x ∈ l -> ~ to_self a x) -> total_at (scheds s a) (vs_now s) <= vamt (vs_lock s) a ->
  covered (view_of s a) -> covered (view_of (fst (vrun s l)) a).
Proof.
  induction l as [|x l IH]; intros s a Hs Hl H; [exact H|]. rewrite run_cons. cbn [fst]. apply IH.
  - intros y Hy. apply Hs. right. exact Hy.
  - exact (move_lock a x _ _ _ (step_moves s x a) Hl).
  - exact (move_covered a x _ _ _ (step_moves s x a) (Hs x ltac:(left)) Hl H).
Qed.

Lemma run_given l : forall s a g0, (forall x, x ∈ l -> ~ taken a x) -> unvested_as_given g0 (view_of s a) ->
  unvested_as_given (g0 ++ given_in (snd (vrun s l)) a) (view_of (fst (vrun s l)) a).
Proof.
  induction l as [|x l IH]; intros s a g0 Hs H; [cbn; rewrite app_nil_r; exact H|]. rewrite run_cons. cbn [fst snd].
  rewrite given_app, app_assoc. apply IH.
  - intros y Hy. apply Hs. right. exact Hy.
  - exact (move_given a x _ _ g0 _ (step_moves s x a) (Hs x ltac:(left)) H).
Qed.

Lemma run_exact l : forall s a g0, (forall x, x ∈ l -> ~ taken a x /\ ~ merges a x) -> exactly_as_given g0 (view_of s a) ->
  exactly_as_given (g0 ++ given_in (snd (vrun s l)) a) (view_of (fst (vrun s l)) a).
Proof.
  induction l as [|x l IH]; intros s a g0 Hs H; [cbn; rewrite app_nil_r; exact H|]. rewrite run_cons. cbn [fst snd].
  rewrite given_app, app_assoc. destruct (Hs x ltac:(left)) as [H1 H2]. apply IH.
  - intros y Hy. apply Hs. right. exact Hy.
  - exact (move_exact a x _ _ g0 _ (step_moves s x a) H1 H2 H).
Qed.

(** Schedules given take something off in every block. *)
Lemma run_valid l : forall s b v, (b, v) ∈ snd (vrun s l) -> 0 < v_per_block v /\ min_vested_transfer <= v_locked v.
Proof.
  induction l as [|x l IH]; intros s b v H; [cbn in H; apply elem_of_nil in H; destruct H|]. rewrite run_cons in H. cbn [snd] in H.
  apply elem_of_app in H as [H|H]; [|exact (IH _ _ _ H)].
  destruct x; cbn in H; try (apply elem_of_nil in H; destruct H); repeat case_match; cbn in H; try (apply elem_of_nil in H; destruct H).
  apply elem_of_list_singleton in H. injection H as -> ->. match goal with E : vested_transfer _ _ _ _ _ = Some _ |- _ => apply grant_does in E as (? & _ & Hp & Hm & _) end.
  split; assumption.
Qed.

Lemma unvested_locked v n : 0 < v_per_block v -> unvested v n = locked_at v n.
Proof.
  intros H. unfold unvested, locked_at, per_block. replace (N.max 1 (v_per_block v)) with (v_per_block v) by lia.
  destruct (N.leb_spec n (v_start v)); [replace (n - v_start v) with 0 by lia; lia|].
  destruct (N.leb_spec (v_locked v) ((n - v_start v) * v_per_block v)); lia.
Qed.

Lemma unvested_given g a n : (forall b v, (b, v) ∈ g -> 0 < v_per_block v) -> unvested_of g a n = total_at (given_in g a) n.
Proof.
  induction g as [|[b v] g IH]; intros H; [reflexivity|]. cbn [unvested_of]. rewrite IH by (intros c w Hc; apply (H c w); right; exact Hc).
  unfold given_in. destruct (N.eqb_spec b a) as [E|E].
  - rewrite filter_cons_True by exact E. cbn. rewrite unvested_locked by (apply (H b v); left). reflexivity.
  - rewrite filter_cons_False by exact E. lia.
Qed.

Lemma end_unvested n l a m : unvested_of (v_given n l) a m = total_at (given_in (v_given n l) a) m.
Proof. apply unvested_given. intros b v H. exact (proj1 (run_valid l (v_genesis n) b v H)). Qed.

Lemma kept n l a : (forall x, x ∈ l -> ~ to_self a x /\ ~ taken a x) -> let s := v_end n l in
  unvested_of (v_given n l) a (vs_now s) <= owns s a.
Proof.
  intros H. cbv zeta. rewrite end_unvested. unfold v_given, v_end.
  pose proof (run_lock l (v_genesis n) a ltac:(vm_compute; discriminate)) as L.
  pose proof (run_covered l (v_genesis n) a (fun x Hx => proj1 (H x Hx)) ltac:(vm_compute; discriminate) ltac:(vm_compute; discriminate)) as C.
  pose proof (run_given l (v_genesis n) a [] (fun x Hx => proj2 (H x Hx)) ltac:(intros m _; vm_compute; discriminate)) as G.
  set (s := fst (vrun (v_genesis n) l)) in *. specialize (G (vs_now s) ltac:(cbn; lia)). cbn in G. unfold covered in C. cbn in C. unfold owns.
  unfold vamt in *. lia.
Qed.

Lemma can_use_usable s a n : can_use s a n <-> n <= usable s a.
Proof.
  unfold can_use, transfer. split.
  - intros H. destruct (H (a + 1) ltac:(lia)) as [s' E]. destruct (N.eqb_spec a (a + 1)); [lia|].
    destruct (N.leb_spec n (usable s a)); [assumption|discriminate E].
  - intros H b Hb. destruct (N.eqb_spec a b); [congruence|]. destruct (N.leb_spec n (usable s a)); [eexists; reflexivity|lia].
Qed.

(** An account that was given something keeps a list of schedules. *)
Lemma has_sched l : forall s a, (exists k, vs_sched s !! a = Some k) \/ given_in (snd (vrun s l)) a <> [] -> exists k, vs_sched (fst (vrun s l)) !! a = Some k.
Proof.
  assert (forall s x a, (exists k, vs_sched s !! a = Some k) -> exists k, vs_sched (fst (vstep_run s x)) !! a = Some k) as ST.
  { assert (forall b k m s a, (exists k, vs_sched s !! a = Some k) -> exists k', vs_sched (write b k m s) !! a = Some k') as W.
    { intros b k m s a [k0 H]. cbn. destruct (decide (b = a)) as [->|Hne]; [rewrite lookup_insert; eauto|rewrite lookup_insert_ne by exact Hne; eauto]. }
    assert (forall ok f t n s s', transfer ok f t n s = Some s' -> vs_sched s' = vs_sched s) as T.
    { intros ok f t n s s' E. unfold transfer in E. repeat case_match; try discriminate E; injection E as <-; reflexivity. }
    intros s x a H. destruct x; cbn [vstep_run].
    - case_match; cbn [fst]; [apply W|]; exact H.
    - destruct (vested_transfer ok from to v s) as [s'|] eqn:E; cbn [fst]; [|exact H]. unfold vested_transfer in E.
      destruct (_ && _); [|discriminate E]. destruct (transfer ok from to (v_locked v) s) as [s1|] eqn:E1; [|discriminate E]. injection E as <-.
      unfold passive. apply W. cbn. apply T in E1 as ->. destruct H as [k H].
      destruct (decide (to = a)) as [->|Hne]; [rewrite lookup_insert; eauto|rewrite lookup_insert_ne by exact Hne; eauto].
    - cbn [fst]. unfold merge. destruct (vs_sched s !! who) as [k|] eqn:E; [|exact H]. destruct (i =? j)%nat; [exact H|].
      destruct (k !! i); [|exact H]. destruct (k !! j); [|exact H]. cbn [default from_option id]. apply W. exact H.
    - case_match; cbn [fst]; [apply W|]; exact H.
    - cbn [fst]. destruct (transfer ok from to n s) eqn:E; cbn; [rewrite (T _ _ _ _ _ _ E)|]; exact H.
    - case_match; exact H.
    - case_match; exact H.
    - exact H.
    - exact H. }
  induction l as [|x l IH]; intros s a H; [cbn in *; destruct H as [H|H]; [exact H|exfalso; apply H; reflexivity]|].
  rewrite run_cons in H |- *. cbn [fst snd] in *. apply IH. destruct H as [H|H]; [left; exact (ST s x a H)|].
  rewrite given_app in H. destruct (decide (given_in (snd (vrun (fst (vstep_run s x)) l)) a = [])) as [E|E]; [|right; exact E].
  left. rewrite E, app_nil_r in H.
  destruct x as [who|ok from to v|who i j|who i|ok from to n|who n|who n|who n|]; cbn [vstep_run] in H |- *;
    try (exfalso; apply H; reflexivity); try (exfalso; apply H; case_match; reflexivity).
  destruct (vested_transfer ok from to v s) as [s'|] eqn:G; cbn [fst snd] in H |- *; [|exfalso; apply H; reflexivity].
  unfold given_in in H. destruct (decide (to = a)) as [->|Hne]; [|rewrite filter_cons_False in H by exact Hne; exfalso; apply H; reflexivity].
  unfold vested_transfer in G. destruct (_ && _); [|discriminate G]. destruct (transfer ok from a (v_locked v) s) as [s1|]; [|discriminate G].
  injection G as <-. unfold passive, write. cbn. rewrite lookup_insert. eauto.
Qed.

Lemma frees n l a m : (forall x, x ∈ l -> ~ taken a x /\ ~ merges a x) -> (exists v, (a, v) ∈ v_given n l) ->
  let s := fst (vstep_run (v_end n l) (VVest a)) in
  vs_now s = vs_now (v_end n l) /\ owns s a = owns (v_end n l) a /\
  (can_use s a m <-> m <= default 0 (vs_free s !! a) /\ (m = 0 \/ m + unvested_of (v_given n l) a (vs_now s) <= owns s a)).
Proof.
  intros H [v Hv]. cbv zeta. assert (exists k, vs_sched (v_end n l) !! a = Some k) as [k Hk].
  { apply (has_sched l (v_genesis n) a). right. unfold given_in. intros E. apply elem_of_nil with (x := v). rewrite <- E.
    apply elem_of_list_fmap. exists (a, v). split; [reflexivity|]. apply elem_of_list_filter. split; [reflexivity|exact Hv]. }
  pose proof (run_exact l (v_genesis n) a [] H ltac:(intros i _; vm_compute; reflexivity)) as G. cbn [app] in G.
  fold (v_end n l) in G. fold (v_given n l) in G.
  cbn [vstep_run]. rewrite Hk. cbn [fst]. split; [reflexivity|]. split; [reflexivity|].
  rewrite can_use_usable, end_unvested. unfold exactly_as_given in G. specialize (G (vs_now (v_end n l)) ltac:(cbn; lia)). cbn in G.
  unfold usable, owns, passive. cbn. rewrite vamt_eq. rewrite passive_total by lia. rewrite G. unfold vamt. lia.
Qed.

(** What others do. *)
Lemma move_use a x w w' g : vmove a x w w' g -> ~ spends a x -> total_at (w_sched w) (w_now w) <= w_lock w ->
  w_free w - (w_lock w - w_held w) <= w_free w' - (w_lock w' - w_held w').
Proof.
  intros M Hs Hl. destruct M as [w|w|w i j v1 v2 Hx Hij H1 H2|w i Hx|w ok b v Hb Hx Hp HB|w ok v Hx Hp HB|w n Hx Hn|w n|w n Hx Hn|w n Hn|w];
    cbn in *; try lia; try (exfalso; apply Hs; exact Hx).
  - subst l. rewrite total_app. pose proof (merged_total (w_now w) (w_sched w) i j v1 v2 (w_now w) ltac:(lia) Hij H1 H2) as T.
    pose proof (merge_now (w_now w) v1 v2) as E. destruct (merge_info (w_now w) v1 v2); cbn in *; tot; lia.
  - pose proof (report_total (fun j => negb (j =? i)%nat) (w_now w) 0 (w_sched w) (w_now w) ltac:(lia)). subst l. lia.
  - rewrite total_app. tot. unfold locked_at in *. lia.
  - exfalso. apply Hs. right. left. exists ok, a, v. exact Hx.
Qed.

Lemma others_no_less n l x a m : ~ spends a x -> can_use (v_end n l) a m -> can_use (fst (vstep_run (v_end n l) x)) a m.
Proof.
  rewrite !can_use_usable. intros Hs H. etransitivity; [exact H|].
  exact (move_use a x _ _ _ (step_moves (v_end n l) x a) Hs (run_lock l (v_genesis n) a ltac:(vm_compute; discriminate))).
Qed.

(** No more than 28 schedules. *)
Lemma report_length keep now i l : (length (report keep now i l) <= length l)%nat.
Proof. revert i. induction l as [|v l IH]; intros i; cbn; [lia|]. specialize (IH (S i)). case_match; cbn; lia. Qed.
Lemma gone_length keep now : forall l i0 i, (exists v, l !! i = Some v) -> keep (i0 + i)%nat = false -> (length (report keep now i0 l) < length l)%nat.
Proof.
  induction l as [|w l IH]; intros i0 [|i] [v H] K; cbn in *; try discriminate H.
  - replace (i0 + 0)%nat with i0 in K by lia. rewrite K. rewrite andb_false_r. pose proof (report_length keep now (S i0) l). lia.
  - replace (i0 + S i)%nat with (S i0 + i)%nat in K by lia. specialize (IH (S i0) i (ex_intro _ v H) K). case_match; cbn; lia.
Qed.


Lemma move_length a x w w' g : vmove a x w w' g -> (length (w_sched w) <= 28)%nat -> (length (w_sched w') <= 28)%nat.
Proof.
  intros M H. destruct M as [w|w|w i j v1 v2 Hx Hij H1 H2|w i Hx|w ok b v Hb Hx Hp HB|w ok v Hx Hp HB|w n Hx Hn|w n|w n Hx Hn|w n Hn|w];
    cbn in *; try exact H.
  - pose proof (report_length (fun _ => true) (w_now w) 0 (w_sched w)). lia.
  - pose proof (gone_length (fun k => negb (k =? i)%nat && negb (k =? j)%nat) (w_now w) (w_sched w) 0 i (ex_intro _ _ H1)) as G.
    cbn in G. rewrite Nat.eqb_refl in G. specialize (G eq_refl). subst l. rewrite app_length.
    destruct (merge_info (w_now w) v1 v2); cbn; lia.
  - pose proof (report_length (fun j => negb (j =? i)%nat) (w_now w) 0 (w_sched w)). subst l. lia.
  - pose proof (report_length (fun _ => true) (w_now w) 0 (w_sched w ++ [v])) as R. rewrite app_length in R. cbn in R. lia.
  - pose proof (report_length (fun _ => true) (w_now w) 0 (w_sched w ++ [v])) as R. rewrite app_length in R. cbn in R. lia.
Qed.

Lemma bounded n l a : (length (scheds (v_end n l) a) <= 28)%nat.
Proof.
  unfold v_end. assert (length (scheds (v_genesis n) a) <= 28)%nat as H by (vm_compute; repeat constructor). revert H. generalize (v_genesis n).
  induction l as [|x l IH]; intros s H; [exact H|]. rewrite run_cons. cbn [fst]. apply IH. exact (move_length a x _ _ _ (step_moves s x a) H).
Qed.

(** Merging two makes room for another, which who has the means can give. *)
Lemma gone_length2 keep now : forall l i0 i j, i <> j -> (exists v, l !! i = Some v) -> (exists v, l !! j = Some v) ->
  keep (i0 + i)%nat = false -> keep (i0 + j)%nat = false -> (S (length (report keep now i0 l)) < length l)%nat.
Proof.
  induction l as [|w l IH]; intros i0 [|i] [|j] Hij [v H] [v' H'] K K'; cbn in *; try discriminate H; try discriminate H'; try congruence.
  - replace (i0 + 0)%nat with i0 in K by lia. rewrite K, andb_false_r. replace (i0 + S j)%nat with (S i0 + j)%nat in K' by lia.
    pose proof (gone_length keep now l (S i0) j (ex_intro _ _ H') K'). lia.
  - replace (i0 + 0)%nat with i0 in K' by lia. rewrite K', andb_false_r. replace (i0 + S i)%nat with (S i0 + i)%nat in K by lia.
    pose proof (gone_length keep now l (S i0) i (ex_intro _ _ H) K). lia.
  - replace (i0 + S i)%nat with (S i0 + i)%nat in K by lia. replace (i0 + S j)%nat with (S i0 + j)%nat in K' by lia.
    specialize (IH (S i0) i j ltac:(congruence) (ex_intro _ v H) (ex_intro _ v' H') K K'). case_match; cbn; lia.
Qed.

Lemma room n l a i j b v : i <> j -> (i < length (scheds (v_end n l) a))%nat -> (j < length (scheds (v_end n l) a))%nat -> b <> a ->
  min_vested_transfer <= v_locked v -> 0 < v_per_block v -> can_use (v_end n l) b (v_locked v) ->
  let s := fst (vstep_run (v_end n l) (VMerge a i j)) in snd (vstep_run s (VGrant true b a v)) = [(a, v)].
Proof.
  intros Hij Hi Hj Hb Hm Hp Hu. cbv zeta. pose proof (bounded n l a) as B. set (s0 := v_end n l) in *.
  apply lookup_lt_is_Some in Hi as [v1 H1]. apply lookup_lt_is_Some in Hj as [v2 H2].
  assert (vs_sched s0 !! a = Some (scheds s0 a)) as E by (unfold scheds in *; destruct (vs_sched s0 !! a); [reflexivity|discriminate H1]).
  cbn [vstep_run fst]. unfold merge. rewrite E. destruct (Nat.eqb_spec i j); [congruence|]. rewrite H1, H2. cbn [default from_option id].
  set (k := report _ _ _ _ ++ _). assert (length k < 28)%nat as K.
  { pose proof (gone_length2 (fun k => negb (k =? i)%nat && negb (k =? j)%nat) (vs_now s0) (scheds s0 a) 0 i j Hij (ex_intro _ _ H1) (ex_intro _ _ H2)) as G.
    cbn in G. rewrite !Nat.eqb_refl, andb_false_r in G. specialize (G eq_refl eq_refl). unfold k. rewrite app_length.
    destruct (merge_info (vs_now s0) v1 v2); cbn; lia. }
  unfold vested_transfer. rewrite write_sched_eq.
  replace (min_vested_transfer <=? v_locked v) with true by (symmetry; apply N.leb_le; exact Hm).
  assert (0 < v_locked v) as Hl by (eapply N.lt_le_trans; [|exact Hm]; vm_compute; reflexivity).
  replace (v_locked v =? 0) with false by (symmetry; apply N.eqb_neq; lia). replace (v_per_block v =? 0) with false by (symmetry; apply N.eqb_neq; lia).
  replace (length k <? max_schedules)%nat with true by (symmetry; apply Nat.ltb_lt; exact K). cbn [negb andb].
  apply can_use_usable in Hu. unfold transfer. destruct (N.eqb_spec b a); [congruence|].
  assert (usable (write a k (total_at k (vs_now s0)) s0) b = usable s0 b) as Eu.
  { unfold usable, write. cbn. rewrite vamt_ne by congruence. reflexivity. }
  rewrite Eu. replace (v_locked v <=? usable s0 b) with true by (symmetry; apply N.leb_le; exact Hu). cbn [andb]. reflexivity.
Qed.

(** Proofs about DepositsModel.v. *)
From stdpp Require Import gmap.
From Coq Require Import Lia.
From Verif Require Import Base XcmTypes OriginTypes TracksModel GovernanceModel DepositsModel DepositsSpec.
Open Scope N_scope.

Lemma held_set s k r : held (dset_refs (<[k := r]> (d_refs s)) s) = fun a => map_fold (fun _ r acc => held_for a r + acc) 0 (<[k := r]> (d_refs s)).
Proof. reflexivity. Qed.
Definition sum_refs (a : N) (m : gmap (inst * N) dref) : N := map_fold (fun _ r acc => held_for a r + acc) 0 m.
Lemma sum_fresh a m k r : m !! k = None -> sum_refs a (<[k := r]> m) = held_for a r + sum_refs a m.
Proof.
  intros H. unfold sum_refs. rewrite map_fold_insert_L; [reflexivity | intros; lia | exact H].
Qed.
Lemma sum_take a m k r : m !! k = Some r -> sum_refs a m = held_for a r + sum_refs a (delete k m).
Proof.
  intros H. rewrite <- (insert_delete m k r H) at 1. apply sum_fresh. apply lookup_delete.
Qed.
Lemma sum_change a m k r r' : m !! k = Some r -> sum_refs a (<[k := r']> m) + held_for a r = sum_refs a m + held_for a r'.
Proof.
  intros H. rewrite (sum_take a m k r H), <- (insert_delete_insert m k r'), sum_fresh by apply lookup_delete. lia.
Qed.
Lemma bal_insert m b n a : bal (<[b := n]> m) a = if b =? a then n else bal m a.
Proof.
  unfold bal. destruct (N.eqb_spec b a) as [-> | H]; [rewrite lookup_insert | rewrite lookup_insert_ne by exact H]; reflexivity.
Qed.
Lemma held_sum s a : held s a = sum_refs a (d_refs s).
Proof. reflexivity. Qed.

(** The invariant: what is reserved is what others reserved and what is held for referenda; numbers not yet given have no referendum; killed
    ones have no deposits. *)
Definition good (s : dstate) : Prop :=
  (forall a, bal (d_reserved s) a = bal (d_others s) a + held s a) /\ (forall i p, d_count s i <= p -> d_refs s !! (i, p) = None) /\
  (forall k r, d_refs s !! k = Some r -> (dr_status r = DKilled -> dr_submission r = None /\ dr_decision r = None) /\
    (dr_status r = DOngoing -> dr_submission r <> None)).

Lemma reserve_inv ok s who n s' : reserve ok s who n = Some s' ->
  n <= bal (d_free s) who /\ ok = true /\ (forall a, bal (d_free s') a = if who =? a then bal (d_free s) a - n else bal (d_free s) a) /\
  (forall a, bal (d_reserved s') a = bal (d_reserved s) a + if who =? a then n else 0) /\ d_others s' = d_others s /\ d_refs s' = d_refs s /\
  d_count s' = d_count s /\ d_tracks s' = d_tracks s.
Proof.
  unfold reserve. intros H. destruct ok; cbn [andb] in H; [|discriminate H].
  destruct (N.leb_spec n (bal (d_free s) who)); [|discriminate H]. injection H as <-.
  split_and!; try reflexivity; [assumption | |]; intros a; cbn [d_free d_reserved dset_free dset_reserved]; rewrite bal_insert;
    destruct (N.eqb_spec who a); subst; lia.
Qed.

Lemma unreserve_props s who n : n <= bal (d_reserved s) who ->
  (forall a, bal (d_free (unreserve s who n)) a = bal (d_free s) a + if who =? a then n else 0) /\
  (forall a, bal (d_reserved (unreserve s who n)) a = bal (d_reserved s) a - if who =? a then n else 0) /\
  d_others (unreserve s who n) = d_others s /\ d_refs (unreserve s who n) = d_refs s /\
  d_count (unreserve s who n) = d_count s /\ d_tracks (unreserve s who n) = d_tracks s.
Proof.
  intros H. unfold unreserve. rewrite (N.min_l _ _ H).
  split_and!; try reflexivity; intros a; cbn [d_free d_reserved dset_free dset_reserved]; rewrite bal_insert;
    destruct (N.eqb_spec who a); subst; lia.
Qed.

Lemma slash_props tr s d : (forall a, part a d <= bal (d_reserved s) a) ->
  (forall a, bal (d_free (slash tr s d)) a = bal (d_free s) a + if tr =? a then amount d else 0) /\
  (forall a, bal (d_reserved (slash tr s d)) a = bal (d_reserved s) a - part a d) /\
  d_others (slash tr s d) = d_others s /\ d_refs (slash tr s d) = d_refs s /\
  d_count (slash tr s d) = d_count s /\ d_tracks (slash tr s d) = d_tracks s.
Proof.
  intros H. destruct d as [[who n]|]; cbn [slash amount dp_amount].
  - specialize (H who). cbn [part] in H. rewrite N.eqb_refl in H. rewrite (N.min_l _ _ H).
    split_and!; try reflexivity; intros a; cbn [d_free d_reserved dset_free dset_reserved part]; rewrite bal_insert.
    + destruct (N.eqb_spec tr a); subst; lia.
    + destruct (N.eqb_spec who a); subst; lia.
  - split_and!; try reflexivity; intros a; cbn [part]; [destruct (tr =? a) |]; lia.
Qed.

Lemma held_bound s k r a : good s -> d_refs s !! k = Some r -> held_for a r + bal (d_others s) a <= bal (d_reserved s) a.
Proof.
  intros (H & _ & _) E. rewrite H, held_sum, (sum_take a _ _ _ E). lia.
Qed.

(** What a kill does, under the invariant. *)
Lemma kill_props tr s i p t sub dec : good s -> d_refs s !! (i, p) = Some (DRef DOngoing t sub dec) ->
  exists s', d_kill tr s i p = Some s' /\
    (forall a, bal (d_free s') a = bal (d_free s) a + if tr =? a then amount sub + amount dec else 0) /\
    (forall a, bal (d_reserved s') a = bal (d_reserved s) a - (part a sub + part a dec)) /\
    d_others s' = d_others s /\ d_refs s' = <[(i, p) := DRef DKilled t None None]> (d_refs s) /\ d_count s' = d_count s /\ d_tracks s' = d_tracks s.
Proof.
  intros G E. assert (B := fun a => held_bound s _ _ a G E). cbn [held_for dr_submission dr_decision] in B. unfold d_kill. rewrite E.
  destruct (slash_props tr s sub) as (F1 & R1 & O1 & M1 & C1 & T1).
  { intros a. specialize (B a). unfold held_for in B. cbn in B. lia. }
  destruct (slash_props tr (slash tr s sub) dec) as (F2 & R2 & O2 & M2 & C2 & T2).
  { intros a. rewrite R1. specialize (B a). unfold held_for in B. cbn in B. lia. }
  eexists. split; [reflexivity|]. cbn [d_free d_reserved d_others d_refs d_count d_tracks dset_refs]. split_and!.
  - intros a. rewrite F2, F1. destruct (tr =? a); lia.
  - intros a. rewrite R2, R1. lia.
  - congruence.
  - rewrite M2, M1. reflexivity.
  - congruence.
  - congruence.
Qed.

Lemma refund_decision_props s i p st t sub who n : good s -> d_refs s !! (i, p) = Some (DRef st t sub (Some (Deposit who n))) -> over st ->
  exists s', d_refund_decision s i p = Some s' /\
    (forall a, bal (d_free s') a = bal (d_free s) a + if who =? a then n else 0) /\
    (forall a, bal (d_reserved s') a = bal (d_reserved s) a - if who =? a then n else 0) /\
    d_others s' = d_others s /\ d_refs s' = <[(i, p) := DRef st t sub None]> (d_refs s) /\ d_count s' = d_count s /\ d_tracks s' = d_tracks s.
Proof.
  intros G E [O1 O2]. assert (B := held_bound s _ _ who G E). unfold held_for in B. cbn [dr_submission dr_decision part] in B.
  rewrite N.eqb_refl in B. destruct (unreserve_props s who n) as (F & R & O & M & C & T); [lia|].
  unfold d_refund_decision. rewrite E. exists (dset_refs (<[(i, p) := DRef st t sub None]> (d_refs (unreserve s who n))) (unreserve s who n)).
  split; [destruct st; [destruct (O1 eq_refl) | | | | | destruct (O2 eq_refl)]; reflexivity|].
  cbn [d_free d_reserved d_others d_refs d_count d_tracks dset_refs]. split_and!; try assumption. rewrite M. reflexivity.
Qed.

Lemma refund_submission_props s i p st t dec who n : good s -> d_refs s !! (i, p) = Some (DRef st t (Some (Deposit who n)) dec) ->
  st = DApproved \/ st = DCancelled ->
  exists s', d_refund_submission s i p = Some s' /\
    (forall a, bal (d_free s') a = bal (d_free s) a + if who =? a then n else 0) /\
    (forall a, bal (d_reserved s') a = bal (d_reserved s) a - if who =? a then n else 0) /\
    d_others s' = d_others s /\ d_refs s' = <[(i, p) := DRef st t None dec]> (d_refs s) /\ d_count s' = d_count s /\ d_tracks s' = d_tracks s.
Proof.
  intros G E O1. assert (B := held_bound s _ _ who G E). unfold held_for in B. cbn [dr_submission dr_decision part] in B.
  rewrite N.eqb_refl in B. destruct (unreserve_props s who n) as (F & R & O & M & C & T); [lia|].
  unfold d_refund_submission. rewrite E. exists (dset_refs (<[(i, p) := DRef st t None dec]> (d_refs (unreserve s who n))) (unreserve s who n)).
  split; [destruct O1 as [-> | ->]; reflexivity|].
  cbn [d_free d_reserved d_others d_refs d_count d_tracks dset_refs]. split_and!; try assumption. rewrite M. reflexivity.
Qed.

(** A change of one referendum keeps the other two parts of the invariant. *)
Lemma good_change s s' k r r' : good s -> d_refs s !! k = Some r -> d_refs s' = <[k := r']> (d_refs s) -> d_count s' = d_count s ->
  (dr_status r' = DKilled -> dr_submission r' = None /\ dr_decision r' = None) -> (dr_status r' = DOngoing -> dr_submission r' <> None) ->
  (forall a, bal (d_reserved s') a + held_for a r = bal (d_others s') a + bal (d_reserved s) a - bal (d_others s) a + held_for a r') -> good s'.
Proof.
  intros G E M C K1 K2 R. destruct G as (G1 & G2 & G3). split_and!.
  - intros a. assert (X := sum_change a _ _ _ r' E). rewrite held_sum, M. specialize (R a). specialize (G1 a). rewrite held_sum in G1. lia.
  - intros i p Hp. rewrite M, C in *. assert (k <> (i, p)) by (intros ->; rewrite (G2 i p Hp) in E; discriminate E).
    rewrite lookup_insert_ne by assumption. apply G2. exact Hp.
  - intros k2 r2 E2. rewrite M in E2. apply lookup_insert_Some in E2 as [[<- <-] | [_ E2]]; [split; assumption | exact (G3 _ _ E2)].
Qed.
Lemma good_same s s' : good s -> d_refs s' = d_refs s -> d_count s' = d_count s ->
  (forall a, bal (d_reserved s') a + bal (d_others s) a = bal (d_others s') a + bal (d_reserved s) a) -> good s'.
Proof.
  intros (G1 & G2 & G3) M C R. split_and!.
  - intros a. rewrite held_sum, M. specialize (R a). specialize (G1 a). rewrite held_sum in G1. lia.
  - rewrite M, C. exact G2.
  - rewrite M. exact G3.
Qed.

Lemma decision_inv s i p s' : d_refund_decision s i p = Some s' ->
  exists st t sub who n, d_refs s !! (i, p) = Some (DRef st t sub (Some (Deposit who n))) /\ over st.
Proof.
  unfold d_refund_decision. intros H. destruct (d_refs s !! (i, p)) as [[st t sub [[who n]|]]|]; [|discriminate H | discriminate H].
  exists st, t, sub, who, n. split; [reflexivity|]. destruct st; try discriminate H; split; discriminate.
Qed.
Lemma submission_inv s i p s' : d_refund_submission s i p = Some s' ->
  exists st t dec who n, d_refs s !! (i, p) = Some (DRef st t (Some (Deposit who n)) dec) /\ (st = DApproved \/ st = DCancelled).
Proof.
  unfold d_refund_submission. intros H. destruct (d_refs s !! (i, p)) as [[st t [[who n]|] dec]|]; [|discriminate H | discriminate H].
  exists st, t, dec, who, n. split; [reflexivity|]. destruct st; try discriminate H; auto.
Qed.
Lemma kill_inv tr s i p s' : d_kill tr s i p = Some s' -> exists t sub dec, d_refs s !! (i, p) = Some (DRef DOngoing t sub dec).
Proof.
  unfold d_kill. intros H. destruct (d_refs s !! (i, p)) as [[st t sub dec]|]; [|discriminate H].
  exists t, sub, dec. destruct st; try discriminate H; reflexivity.
Qed.
Lemma end_inv s i p st s' : d_end s i p st = Some s' ->
  exists t sub dec, d_refs s !! (i, p) = Some (DRef DOngoing t sub dec) /\ over st /\ s' = dset_refs (<[(i, p) := DRef st t sub dec]> (d_refs s)) s.
Proof.
  unfold d_end. intros H. destruct (d_refs s !! (i, p)) as [[st0 t sub dec]|]; [|discriminate H].
  destruct st0; try discriminate H. exists t, sub, dec. split; [reflexivity|].
  destruct st, dec; try discriminate H; injection H as <-; (split; [split; discriminate | reflexivity]).
Qed.
Lemma place_inv ok s i who p s' : d_place ok s i who p = Some s' ->
  exists t sub n s1, d_refs s !! (i, p) = Some (DRef DOngoing t sub None) /\ decision_deposit s i t = Some n /\ reserve ok s who n = Some s1 /\
    s' = dset_refs (<[(i, p) := DRef DOngoing t sub (Some (Deposit who n))]> (d_refs s)) s1.
Proof.
  unfold d_place. intros H. destruct (d_refs s !! (i, p)) as [[st0 t sub dec]|]; [|discriminate H].
  destruct st0, dec; try discriminate H. destruct (decision_deposit s i t) as [n|] eqn:E1; [|discriminate H]. cbn [mbind option_bind] in H.
  destruct (reserve ok s who n) as [s1|] eqn:E2; [|discriminate H]. cbn [mbind option_bind] in H. injection H as <-.
  exists t, sub, n, s1. split_and!; first [reflexivity | assumption].
Qed.
Lemma submit_inv ok s i who t s' : d_submit ok s i who t = Some s' -> exists s1, reserve ok s who (submission_deposit i) = Some s1 /\
  s' = dset_count (fun j => if decide (j = i) then d_count s i + 1 else d_count s j)
         (dset_refs (<[(i, d_count s i) := DRef DOngoing t (Some (Deposit who (submission_deposit i))) None]> (d_refs s)) s1).
Proof.
  unfold d_submit. intros H. destruct (reserve ok s who (submission_deposit i)) as [s1|]; [|discriminate H].
  cbn [mbind option_bind] in H. injection H as <-. exists s1. split; reflexivity.
Qed.

Lemma good_step tr s x : good s -> good (dstep_run tr s x).
Proof.
  intros G. pose proof G as (G1 & G2 & G3). destruct x as [ok i who t | ok i who p | i p st | i p | i p | i p | t n | who n | who n | who n]; cbn [dstep_run].
  - destruct (d_submit ok s i who t) as [s'|] eqn:E; [|exact G]. cbn [default from_option id]. apply submit_inv in E as (s1 & E & ->).
    apply reserve_inv in E as (_ & _ & _ & R & O & _ & _ & _).
    assert (F : d_refs s !! (i, d_count s i) = None) by (apply G2; lia).
    split_and!; cbn [d_reserved d_others d_refs d_count dset_refs dset_count].
    + intros a. rewrite R, O, G1. rewrite (held_sum (dset_count _ _)). cbn [d_refs dset_refs dset_count]. rewrite (sum_fresh _ _ _ _ F), held_sum.
      unfold held_for. cbn [dr_submission dr_decision part]. destruct (who =? a); lia.
    + intros j p Hp. assert ((i, d_count s i) <> (j, p)).
      { intros Z. injection Z as <- <-. rewrite decide_True in Hp by reflexivity. lia. }
      rewrite lookup_insert_ne by assumption. apply G2. destruct (decide (j = i)); subst; lia.
    + intros k r Hr. apply lookup_insert_Some in Hr as [[_ <-] | [_ Hr]]; [|exact (G3 _ _ Hr)]. split; discriminate.
  - destruct (d_place ok s i who p) as [s'|] eqn:E; [|exact G]. cbn [default from_option id]. apply place_inv in E as (t & sub & n & s1 & E & _ & E2 & ->).
    apply reserve_inv in E2 as (_ & _ & _ & R & O & _ & C & _). destruct (G3 _ _ E) as [_ K].
    eapply (good_change s _ _ _ _ G E).
    + reflexivity.
    + exact C.
    + discriminate.
    + exact K.
    + intros a. cbn [d_reserved d_others dset_refs]. rewrite R, O. unfold held_for. cbn [dr_submission dr_decision part]. specialize (G1 a). destruct (who =? a); lia.
  - destruct (d_end s i p st) as [s'|] eqn:E; [|exact G]. cbn [default from_option id]. apply end_inv in E as (t & sub & dec & E & [O1 O2] & ->).
    eapply (good_change s _ _ _ _ G E); [reflexivity | reflexivity | intros Z; destruct (O2 Z) | intros Z; destruct (O1 Z) |].
    intros a. cbn [d_reserved d_others dset_refs]. unfold held_for. cbn. specialize (G1 a). lia.
  - destruct (d_kill tr s i p) as [s'|] eqn:E; [|exact G]. cbn [default from_option id]. pose proof (kill_inv _ _ _ _ _ E) as (t & sub & dec & Er).
    destruct (kill_props tr s i p t sub dec G Er) as (s2 & E2 & _ & R & O & M & C & _). rewrite E in E2. injection E2 as <-.
    apply (good_change s s' _ _ _ G Er M C); [split; reflexivity | discriminate |].
    intros a. rewrite R, O. assert (B := held_bound s _ _ a G Er). unfold held_for in *. cbn in *. lia.
  - destruct (d_refund_decision s i p) as [s'|] eqn:E; [|exact G]. cbn [default from_option id]. pose proof (decision_inv _ _ _ _ E) as (st & t & sub & who & n & Er & Hov).
    destruct (refund_decision_props s i p st t sub who n G Er Hov) as (s2 & E2 & _ & R & O & M & C & _). rewrite E in E2. injection E2 as <-.
    destruct Hov as [O1 O2]. apply (good_change s s' _ _ _ G Er M C); [intros Z; destruct (O2 Z) | intros Z; destruct (O1 Z) |].
    intros a. rewrite R, O. assert (B := held_bound s _ _ a G Er). unfold held_for in *. cbn in *. destruct (who =? a); lia.
  - destruct (d_refund_submission s i p) as [s'|] eqn:E; [|exact G]. cbn [default from_option id]. pose proof (submission_inv _ _ _ _ E) as (st & t & dec & who & n & Er & Hov).
    destruct (refund_submission_props s i p st t dec who n G Er Hov) as (s2 & E2 & _ & R & O & M & C & _). rewrite E in E2. injection E2 as <-.
    apply (good_change s s' _ _ _ G Er M C); [cbn [dr_status]; intros Z; destruct Hov; congruence | cbn [dr_status]; intros Z; destruct Hov; congruence |].
    intros a. rewrite R, O. assert (B := held_bound s _ _ a G Er). unfold held_for in *. cbn in *. destruct (who =? a); lia.
  - exact G.
  - destruct (reserve true s who n) as [s1|] eqn:E; [|exact G]. apply reserve_inv in E as (_ & _ & _ & R & O & M & C & _).
    apply (good_same s _ G); [exact M | exact C |]. intros a. cbn [d_reserved d_others dset_others]. rewrite R, bal_insert.
    destruct (N.eqb_spec who a); subst; lia.
  - destruct (N.leb_spec n (bal (d_others s) who)) as [Hn|]; [|exact G].
    destruct (unreserve_props s who n) as (_ & R & O & M & C & _); [rewrite G1; lia|].
    apply (good_same s _ G); [exact M | exact C |]. intros a. cbn [d_reserved d_others dset_others]. rewrite R, bal_insert.
    specialize (G1 a). destruct (N.eqb_spec who a); subst; lia.
  - apply (good_same s _ G); reflexivity || (intros; cbn; lia).
Qed.
Lemma good_run tr l : forall s, good s -> good (drun tr s l).
Proof. induction l as [|x r IH]; intros s G; [exact G|]. apply IH, good_step, G. Qed.
Lemma good_start free : good (d_start free).
Proof.
  split_and!; cbn.
  - intros a. reflexivity.
  - intros. apply lookup_empty.
  - intros k r H. rewrite lookup_empty in H. discriminate H.
Qed.

(** What becomes of the deposits of a referendum in one step. *)
Lemma decision_fate tr s x i p r who n : good s -> d_refs s !! (i, p) = Some r -> dr_decision r = Some (Deposit who n) ->
  (exists r', d_refs (dstep_run tr s x) !! (i, p) = Some r' /\ dr_decision r' = Some (Deposit who n)) \/
  (x = DRefundDecision i p /\ over (dr_status r) /\ gets s (dstep_run tr s x) who n /\
    bal (d_reserved (dstep_run tr s x)) who + n = bal (d_reserved s) who) \/
  (x = DKill i p /\ dr_status r = DOngoing /\ gets s (dstep_run tr s x) tr (n + amount (dr_submission r))).
Proof.
  intros G E D. pose proof G as (G1 & G2 & G3). destruct r as [st t sub dec]. cbn in D. subst dec. cbn [dr_status dr_submission].
  destruct x as [ok j w u | ok j w q | j q st' | j q | j q | j q | u m | w m | w m | w m]; cbn [dstep_run].
  - left. destruct (d_submit ok s j w u) as [s'|] eqn:F; [|eauto]. cbn [default from_option id]. apply submit_inv in F as (s1 & _ & ->).
    cbn [d_refs dset_refs dset_count]. rewrite lookup_insert_ne; [eauto|]. intros Z. rewrite <- Z, (G2 j (d_count s j)) in E by lia. discriminate E.
  - left. destruct (d_place ok s j w q) as [s'|] eqn:F; [|eauto]. cbn [default from_option id]. apply place_inv in F as (t' & sub' & n' & s1 & F & _ & _ & ->).
    cbn [d_refs dset_refs]. rewrite lookup_insert_ne; [eauto|]. intros Z. rewrite Z, E in F. discriminate F.
  - left. destruct (d_end s j q st') as [s'|] eqn:F; [|eauto]. cbn [default from_option id]. apply end_inv in F as (t' & sub' & dec' & F & _ & ->).
    cbn [d_refs dset_refs]. destruct (decide ((j, q) = (i, p))) as [Z|Z].
    + rewrite Z in *. rewrite E in F. injection F as -> -> -> <-. rewrite lookup_insert. eauto.
    + rewrite lookup_insert_ne by exact Z. eauto.
  - destruct (d_kill tr s j q) as [s'|] eqn:F; [|eauto]. cbn [default from_option id]. pose proof (kill_inv _ _ _ _ _ F) as (t' & sub' & dec' & Er).
    destruct (kill_props tr s j q t' sub' dec' G Er) as (s2 & F2 & Fr & _ & _ & M & _ & _). rewrite F in F2. injection F2 as <-.
    destruct (decide ((j, q) = (i, p))) as [Z|Z].
    + injection Z as -> ->. rewrite E in Er. injection Er as -> -> -> <-. right. right. split; [reflexivity | split; [reflexivity | split]].
      * rewrite Fr, N.eqb_refl. cbn [amount dp_amount]. lia.
      * intros b Hb. rewrite Fr. destruct (N.eqb_spec tr b); [congruence | lia].
    + left. rewrite M, lookup_insert_ne by exact Z. eauto.
  - destruct (d_refund_decision s j q) as [s'|] eqn:F; [|eauto]. cbn [default from_option id]. pose proof (decision_inv _ _ _ _ F) as (st' & t' & sub' & w & n' & Er & Ov).
    destruct (refund_decision_props s j q st' t' sub' w n' G Er Ov) as (s2 & F2 & Fr & R & _ & M & _ & _). rewrite F in F2. injection F2 as <-.
    destruct (decide ((j, q) = (i, p))) as [Z|Z].
    + injection Z as -> ->. rewrite E in Er. injection Er as -> -> -> -> ->. right. left. split; [reflexivity | split; [exact Ov | split; [split|]]].
      * rewrite Fr, N.eqb_refl. lia.
      * intros b Hb. rewrite Fr. destruct (N.eqb_spec w b); [congruence | lia].
      * rewrite R, N.eqb_refl. assert (B := held_bound s _ _ w G E). unfold held_for in B. cbn in B. rewrite N.eqb_refl in B. lia.
    + left. rewrite M, lookup_insert_ne by exact Z. eauto.
  - left. destruct (d_refund_submission s j q) as [s'|] eqn:F; [|eauto]. cbn [default from_option id].
    pose proof (submission_inv _ _ _ _ F) as (st' & t' & dec' & w & n' & Er & Ov).
    destruct (refund_submission_props s j q st' t' dec' w n' G Er Ov) as (s2 & F2 & Fr & _ & _ & M & _ & _). rewrite F in F2. injection F2 as <-.
    rewrite M. destruct (decide ((j, q) = (i, p))) as [Z|Z].
    + rewrite Z in *. rewrite E in Er. injection Er as -> -> -> <-. rewrite lookup_insert. eauto.
    + rewrite lookup_insert_ne by exact Z. eauto.
  - eauto.
  - left. destruct (reserve true s w m) as [s1|] eqn:F; [|eauto]. apply reserve_inv in F as (_ & _ & _ & _ & _ & M & _). cbn [d_refs dset_others]. rewrite M. eauto.
  - left. destruct (m <=? bal (d_others s) w); eauto.
  - eauto.
Qed.

Lemma submission_fate tr s x i p r who n : good s -> d_refs s !! (i, p) = Some r -> dr_submission r = Some (Deposit who n) ->
  (exists r', d_refs (dstep_run tr s x) !! (i, p) = Some r' /\ dr_submission r' = Some (Deposit who n) /\
    (dr_status r' = dr_status r \/ dr_status r = DOngoing)) \/
  (x = DRefundSubmission i p /\ (dr_status r = DApproved \/ dr_status r = DCancelled) /\ gets s (dstep_run tr s x) who n /\
    bal (d_reserved (dstep_run tr s x)) who + n = bal (d_reserved s) who) \/
  (x = DKill i p /\ dr_status r = DOngoing /\ gets s (dstep_run tr s x) tr (n + amount (dr_decision r))).
Proof.
  intros G E D. pose proof G as (G1 & G2 & G3). destruct r as [st t sub dec]. cbn in D. subst sub. cbn [dr_status dr_decision].
  assert (K : forall m, m = d_refs s -> exists r', m !! (i, p) = Some r' /\ dr_submission r' = Some (Deposit who n) /\ (dr_status r' = st \/ st = DOngoing)).
  { intros m ->. eexists. split; [exact E|]. split; [reflexivity | left; reflexivity]. }
  destruct x as [ok j w u | ok j w q | j q st' | j q | j q | j q | u m | w m | w m | w m]; cbn [dstep_run].
  - left. destruct (d_submit ok s j w u) as [s'|] eqn:F; [|apply K; reflexivity]. cbn [default from_option id]. apply submit_inv in F as (s1 & _ & ->).
    cbn [d_refs dset_refs dset_count]. rewrite lookup_insert_ne; [apply K; reflexivity|].
    intros Z. rewrite <- Z, (G2 j (d_count s j)) in E by lia. discriminate E.
  - left. destruct (d_place ok s j w q) as [s'|] eqn:F; [|apply K; reflexivity]. cbn [default from_option id].
    apply place_inv in F as (t' & sub' & n' & s1 & F & _ & _ & ->). cbn [d_refs dset_refs]. destruct (decide ((j, q) = (i, p))) as [Z|Z].
    + rewrite Z in *. rewrite E in F. injection F as -> -> <- ->. rewrite lookup_insert. eauto.
    + rewrite lookup_insert_ne by exact Z. apply K; reflexivity.
  - left. destruct (d_end s j q st') as [s'|] eqn:F; [|apply K; reflexivity]. cbn [default from_option id].
    apply end_inv in F as (t' & sub' & dec' & F & _ & ->). cbn [d_refs dset_refs]. destruct (decide ((j, q) = (i, p))) as [Z|Z].
    + rewrite Z in *. rewrite E in F. injection F as -> -> <- ->. rewrite lookup_insert. eauto.
    + rewrite lookup_insert_ne by exact Z. apply K; reflexivity.
  - destruct (d_kill tr s j q) as [s'|] eqn:F; [|left; apply K; reflexivity]. cbn [default from_option id]. pose proof (kill_inv _ _ _ _ _ F) as (t' & sub' & dec' & Er).
    destruct (kill_props tr s j q t' sub' dec' G Er) as (s2 & F2 & Fr & _ & _ & M & _ & _). rewrite F in F2. injection F2 as <-.
    destruct (decide ((j, q) = (i, p))) as [Z|Z].
    + injection Z as -> ->. rewrite E in Er. injection Er as -> -> <- ->. right. right. split; [reflexivity | split; [reflexivity | split]].
      * rewrite Fr, N.eqb_refl. cbn [amount dp_amount]. lia.
      * intros b Hb. rewrite Fr. destruct (N.eqb_spec tr b); [congruence | lia].
    + left. rewrite M, lookup_insert_ne by exact Z. apply K; reflexivity.
  - left. destruct (d_refund_decision s j q) as [s'|] eqn:F; [|apply K; reflexivity]. cbn [default from_option id].
    pose proof (decision_inv _ _ _ _ F) as (st' & t' & sub' & w & n' & Er & Ov).
    destruct (refund_decision_props s j q st' t' sub' w n' G Er Ov) as (s2 & F2 & Fr & R & _ & M & _ & _). rewrite F in F2. injection F2 as <-.
    rewrite M. destruct (decide ((j, q) = (i, p))) as [Z|Z].
    + rewrite Z in *. rewrite E in Er. injection Er as -> -> <- ->. rewrite lookup_insert. eauto.
    + rewrite lookup_insert_ne by exact Z. apply K; reflexivity.
  - destruct (d_refund_submission s j q) as [s'|] eqn:F; [|left; apply K; reflexivity]. cbn [default from_option id].
    pose proof (submission_inv _ _ _ _ F) as (st' & t' & dec' & w & n' & Er & Ov).
    destruct (refund_submission_props s j q st' t' dec' w n' G Er Ov) as (s2 & F2 & Fr & R & _ & M & _ & _). rewrite F in F2. injection F2 as <-.
    destruct (decide ((j, q) = (i, p))) as [Z|Z].
    + injection Z as -> ->. rewrite E in Er. injection Er as -> -> -> -> ->. right. left. split; [reflexivity | split; [exact Ov | split; [split|]]].
      * rewrite Fr, N.eqb_refl. lia.
      * intros b Hb. rewrite Fr. destruct (N.eqb_spec w b); [congruence | lia].
      * rewrite R, N.eqb_refl. assert (B := held_bound s _ _ w G E). unfold held_for in B. cbn in B. rewrite N.eqb_refl in B. lia.
    + left. rewrite M, lookup_insert_ne by exact Z. apply K; reflexivity.
  - left. apply K; reflexivity.
  - left. destruct (reserve true s w m) as [s1|] eqn:F; [|apply K; reflexivity]. apply reserve_inv in F as (_ & _ & _ & _ & _ & M & _). apply K. exact M.
  - left. destruct (m <=? bal (d_others s) w); apply K; reflexivity.
  - left. apply K; reflexivity.
Qed.

Lemma drun_app tr s l1 l2 : drun tr s (l1 ++ l2) = drun tr (drun tr s l1) l2.
Proof. apply fold_left_app. Qed.

(** From a state the chain can be in. *)
Lemma decision_back tr free l i p r who n : let s := drun tr (d_start free) l in
  d_refs s !! (i, p) = Some r -> over (dr_status r) -> dr_decision r = Some (Deposit who n) ->
  let s' := dstep_run tr s (DRefundDecision i p) in
  gets s s' who n /\ bal (d_reserved s') who + n = bal (d_reserved s) who /\
  d_refs s' !! (i, p) = Some (DRef (dr_status r) (dr_track r) (dr_submission r) None) /\ dstep_run tr s' (DRefundDecision i p) = s'.
Proof.
  intros s E Ov D s'. assert (G : good s) by apply good_run, good_start. destruct r as [st t sub dec]. cbn in D, Ov. subst dec.
  destruct (refund_decision_props s i p st t sub who n G E Ov) as (s2 & F2 & Fr & R & _ & M & _ & _).
  assert (X : s' = s2) by (unfold s'; cbn [dstep_run]; rewrite F2; reflexivity). rewrite X. cbn [dr_status dr_track dr_submission].
  assert (L : d_refs s2 !! (i, p) = Some (DRef st t sub None)) by (rewrite M, lookup_insert; reflexivity). split_and!; [split; [|intros b Hb] | ..].
  - rewrite Fr, N.eqb_refl. lia.
  - rewrite Fr. destruct (N.eqb_spec who b); [congruence | lia].
  - rewrite R, N.eqb_refl. assert (B := held_bound s _ _ who G E). unfold held_for in B. cbn in B. rewrite N.eqb_refl in B. lia.
  - exact L.
  - cbn [dstep_run]. unfold d_refund_decision. rewrite L. reflexivity.
Qed.
Lemma submission_back tr free l i p r who n : let s := drun tr (d_start free) l in
  d_refs s !! (i, p) = Some r -> dr_status r = DApproved \/ dr_status r = DCancelled -> dr_submission r = Some (Deposit who n) ->
  let s' := dstep_run tr s (DRefundSubmission i p) in
  gets s s' who n /\ bal (d_reserved s') who + n = bal (d_reserved s) who /\
  d_refs s' !! (i, p) = Some (DRef (dr_status r) (dr_track r) None (dr_decision r)) /\ dstep_run tr s' (DRefundSubmission i p) = s'.
Proof.
  intros s E Ov D s'. assert (G : good s) by apply good_run, good_start. destruct r as [st t sub dec]. cbn in D, Ov. subst sub.
  destruct (refund_submission_props s i p st t dec who n G E Ov) as (s2 & F2 & Fr & R & _ & M & _ & _).
  assert (X : s' = s2) by (unfold s'; cbn [dstep_run]; rewrite F2; reflexivity). rewrite X. cbn [dr_status dr_track dr_decision].
  assert (L : d_refs s2 !! (i, p) = Some (DRef st t None dec)) by (rewrite M, lookup_insert; reflexivity). split_and!; [split; [|intros b Hb] | ..].
  - rewrite Fr, N.eqb_refl. lia.
  - rewrite Fr. destruct (N.eqb_spec who b); [congruence | lia].
  - rewrite R, N.eqb_refl. assert (B := held_bound s _ _ who G E). unfold held_for in B. cbn in B. rewrite N.eqb_refl in B. lia.
  - exact L.
  - cbn [dstep_run]. unfold d_refund_submission. rewrite L. reflexivity.
Qed.
Lemma kill_takes tr free l i p r : let s := drun tr (d_start free) l in
  d_refs s !! (i, p) = Some r -> dr_status r = DOngoing ->
  let s' := dstep_run tr s (DKill i p) in
  gets s s' tr (amount (dr_submission r) + amount (dr_decision r)) /\
  (forall a, bal (d_reserved s') a + held_for a r = bal (d_reserved s) a) /\ d_refs s' !! (i, p) = Some (DRef DKilled (dr_track r) None None).
Proof.
  intros s E Ov s'. assert (G : good s) by apply good_run, good_start. destruct r as [st t sub dec]. cbn in Ov. subst st.
  destruct (kill_props tr s i p t sub dec G E) as (s2 & F2 & Fr & R & _ & M & _ & _).
  assert (X : s' = s2) by (unfold s'; cbn [dstep_run]; rewrite F2; reflexivity). rewrite X. cbn [dr_track dr_submission dr_decision]. split_and!; [split; [|intros b Hb] | ..].
  - rewrite Fr, N.eqb_refl. lia.
  - rewrite Fr. destruct (N.eqb_spec tr b); [congruence | lia].
  - intros a. rewrite R. assert (B := held_bound s _ _ a G E). unfold held_for in *. cbn in *. lia.
  - rewrite M, lookup_insert. reflexivity.
Qed.

Lemma rejected_kept tr l : forall s i p r who n, good s -> d_refs s !! (i, p) = Some r -> dr_status r = DRejected \/ dr_status r = DTimedOut ->
  dr_submission r = Some (Deposit who n) ->
  exists r', d_refs (drun tr s l) !! (i, p) = Some r' /\ dr_status r' = dr_status r /\ dr_submission r' = Some (Deposit who n).
Proof.
  induction l as [|x l IH]; intros s i p r who n G E St D; [eauto|].
  destruct (submission_fate tr s x i p r who n G E D) as [(r' & E' & D' & Z) | [(_ & Z & _) | (_ & Z & _)]].
  - assert (Z' : dr_status r' = dr_status r) by (destruct Z as [Z|Z]; [exact Z | destruct St; congruence]).
    destruct (IH (dstep_run tr s x) i p r' who n (good_step tr s x G) E') as (r2 & E2 & S2 & D2); [rewrite Z'; exact St | exact D' |].
    exists r2. split_and!; [exact E2 | congruence | exact D2].
  - destruct St, Z; congruence.
  - destruct St; congruence.
Qed.
Lemma rejected_lost tr free l l' i p r who n : let s := drun tr (d_start free) l in
  d_refs s !! (i, p) = Some r -> dr_status r = DRejected \/ dr_status r = DTimedOut -> dr_submission r = Some (Deposit who n) ->
  (exists r', d_refs (drun tr s l') !! (i, p) = Some r' /\ dr_status r' = dr_status r /\ dr_submission r' = Some (Deposit who n)) /\
  n <= bal (d_reserved (drun tr s l')) who.
Proof.
  intros s E St D. assert (G : good s) by apply good_run, good_start. destruct (rejected_kept tr l' s i p r who n G E St D) as (r' & E' & S' & D').
  split; [eauto|]. assert (B := held_bound _ _ _ who (good_run tr l' s G) E'). unfold held_for in B. rewrite D' in B. cbn [part] in B.
  rewrite N.eqb_refl in B. lia.
Qed.

Lemma set_aside tr free l a : let s := drun tr (d_start free) l in bal (d_reserved s) a = bal (d_others s) a + held s a.
Proof. intros s. apply (good_run tr l), good_start. Qed.

Lemma submit_sets ok tr free l i who t : let s := drun tr (d_start free) l in let s' := dstep_run tr s (DSubmit ok i who t) in
  s' = s \/ exists n, sets_aside s s' who n /\ n = match i with Collective => 1000000000000 | Community => 0 end /\
    d_refs s !! (i, d_count s i) = None /\ d_refs s' !! (i, d_count s i) = Some (DRef DOngoing t (Some (Deposit who n)) None) /\ d_count s' i = d_count s i + 1.
Proof.
  intros s s'. assert (G : good s) by apply good_run, good_start. destruct G as (_ & G2 & _). unfold s'. cbn [dstep_run].
  destruct (d_submit ok s i who t) as [s2|] eqn:E; [|left; reflexivity]. right. cbn [default from_option id].
  apply submit_inv in E as (s1 & E & ->). apply reserve_inv in E as (L & _ & F & R & _). exists (submission_deposit i).
  split; [|split; [destruct i; reflexivity|]].
  - cbn [d_free d_reserved dset_refs dset_count]. split; [exact L | split; [|split]].
    + cbn [d_free d_reserved dset_refs dset_count]. rewrite F, N.eqb_refl. reflexivity.
    + cbn [d_free d_reserved dset_refs dset_count]. rewrite R, N.eqb_refl. reflexivity.
    + intros b Hb. cbn [d_free d_reserved dset_refs dset_count]. rewrite F, R. destruct (N.eqb_spec who b); [congruence | split; [reflexivity | lia]].
  - split_and!; [apply G2; lia | |].
    + cbn [d_refs dset_refs dset_count]. rewrite lookup_insert. reflexivity.
    + cbn [d_count dset_count]. rewrite decide_True by reflexivity. reflexivity.
Qed.
Lemma price_table s t n : decision_deposit s Collective t = Some n -> t <= 3 /\ n = collective_price t.
Proof.
  intros H. assert (X : t = 0 \/ t = 1 \/ t = 2 \/ t = 3 \/ 3 < t) by lia.
  destruct X as [-> | [-> | [-> | [-> | X]]]].
  1-4: vm_compute in H; injection H as <-; split; [lia | reflexivity].
  exfalso. unfold decision_deposit, kreivo_tracks in H. cbn [find fst] in H.
  rewrite !(proj2 (N.eqb_neq _ t)) in H by lia. discriminate H.
Qed.
Lemma place_sets ok tr s i who p : let s' := dstep_run tr s (DPlace ok i who p) in
  s' = s \/ exists t sub n, d_refs s !! (i, p) = Some (DRef DOngoing t sub None) /\ sets_aside s s' who n /\
    d_refs s' !! (i, p) = Some (DRef DOngoing t sub (Some (Deposit who n))) /\
    match i with Collective => t <= 3 /\ n = collective_price t | Community => d_tracks s !! t = Some n end.
Proof.
  intros s'. unfold s'. cbn [dstep_run]. destruct (d_place ok s i who p) as [s2|] eqn:E; [|left; reflexivity]. right. cbn [default from_option id].
  apply place_inv in E as (t & sub & n & s1 & E & Dd & E2 & ->). apply reserve_inv in E2 as (L & _ & F & R & _).
  exists t, sub, n. split; [exact E|]. split; [|split].
  - split; [exact L | split; [|split]].
    + cbn [d_free d_reserved dset_refs]. rewrite F, N.eqb_refl. reflexivity.
    + cbn [d_free d_reserved dset_refs]. rewrite R, N.eqb_refl. reflexivity.
    + intros b Hb. cbn [d_free d_reserved dset_refs]. rewrite F, R. destruct (N.eqb_spec who b); [congruence | split; [reflexivity | lia]].
  - cbn [d_refs dset_refs]. rewrite lookup_insert. reflexivity.
  - destruct i; [exact (price_table s t n Dd) | exact Dd].
Qed.

(** Nobody's free balance falls by what others do. *)
Lemma falls_by_own tr free l x a : let s := drun tr (d_start free) l in bal (d_free (dstep_run tr s x)) a < bal (d_free s) a ->
  (exists ok i t, x = DSubmit ok i a t) \/ (exists ok i p, x = DPlace ok i a p) \/ (exists n, x = DReserve a n) \/ (exists n, x = DBalance a n).
Proof.
  intros s H. assert (G : good s) by apply good_run, good_start.
  destruct x as [ok i who t | ok i who p | i p st | i p | i p | i p | t n | who n | who n | who n]; cbn [dstep_run] in H.
  - left. destruct (d_submit ok s i who t) as [s'|] eqn:E; cbn [default from_option id] in H; [|lia]. apply submit_inv in E as (s1 & E & ->).
    apply reserve_inv in E as (_ & _ & F & _). cbn [d_free dset_refs dset_count] in H. rewrite F in H. destruct (N.eqb_spec who a); [subst; eauto | lia].
  - right. left. destruct (d_place ok s i who p) as [s'|] eqn:E; cbn [default from_option id] in H; [|lia]. apply place_inv in E as (t & sub & n & s1 & _ & _ & E & ->).
    apply reserve_inv in E as (_ & _ & F & _). cbn [d_free dset_refs] in H. rewrite F in H. destruct (N.eqb_spec who a); [subst; eauto | lia].
  - destruct (d_end s i p st) as [s'|] eqn:E; cbn [default from_option id] in H; [|lia]. apply end_inv in E as (t & sub & dec & _ & _ & ->). cbn in H. lia.
  - destruct (d_kill tr s i p) as [s'|] eqn:E; cbn [default from_option id] in H; [|lia]. pose proof (kill_inv _ _ _ _ _ E) as (t & sub & dec & Er).
    destruct (kill_props tr s i p t sub dec G Er) as (s2 & E2 & F & _). rewrite E in E2. injection E2 as <-. rewrite F in H. lia.
  - destruct (d_refund_decision s i p) as [s'|] eqn:E; cbn [default from_option id] in H; [|lia]. pose proof (decision_inv _ _ _ _ E) as (st & t & sub & who & n & Er & Ov).
    destruct (refund_decision_props s i p st t sub who n G Er Ov) as (s2 & E2 & F & _). rewrite E in E2. injection E2 as <-. rewrite F in H. lia.
  - destruct (d_refund_submission s i p) as [s'|] eqn:E; cbn [default from_option id] in H; [|lia]. pose proof (submission_inv _ _ _ _ E) as (st & t & sub & who & n & Er & Ov).
    destruct (refund_submission_props s i p st t sub who n G Er Ov) as (s2 & E2 & F & _). rewrite E in E2. injection E2 as <-. rewrite F in H. lia.
  - cbn in H. lia.
  - right. right. left. destruct (reserve true s who n) as [s1|] eqn:E; [|lia]. apply reserve_inv in E as (_ & _ & F & _). cbn [d_free dset_others] in H. rewrite F in H.
    destruct (N.eqb_spec who a); [subst; eauto | lia].
  - destruct (n <=? bal (d_others s) who); [|lia]. cbn [d_free dset_others] in H. unfold unreserve in H. cbn [d_free dset_free] in H. rewrite bal_insert in H.
    destruct (N.eqb_spec who a); [subst|]; lia.
  - cbn [d_free dset_free] in H. rewrite bal_insert in H. destruct (N.eqb_spec who a); [subst; eauto 6 | lia].
Qed.

(** The fates along a history. *)
Lemma decision_until tr free l l' i p r who n : let s := drun tr (d_start free) l in
  d_refs s !! (i, p) = Some r -> dr_decision r = Some (Deposit who n) ->
  (exists r', d_refs (drun tr s l') !! (i, p) = Some r' /\ dr_decision r' = Some (Deposit who n)) \/
  exists l1 x l2, l' = l1 ++ x :: l2 /\
    ((x = DRefundDecision i p /\ gets (drun tr s l1) (drun tr s (l1 ++ [x])) who n) \/
     (x = DKill i p /\ exists m, n <= m /\ gets (drun tr s l1) (drun tr s (l1 ++ [x])) tr m)).
Proof.
  intros s. assert (G : good s) by apply good_run, good_start. clearbody s. revert s G r. induction l' as [|x l' IH]; intros s G r E D; [left; eauto|].
  destruct (decision_fate tr s x i p r who n G E D) as [(r' & E' & D') | [(-> & _ & Z & _) | (-> & _ & Z)]].
  - destruct (IH (dstep_run tr s x) (good_step tr s x G) r' E' D') as [K | (l1 & y & l2 & -> & K)]; [left; exact K|].
    right. exists (x :: l1), y, l2. split; [reflexivity | exact K].
  - right. exists [], (DRefundDecision i p), l'. split; [reflexivity|]. left. split; [reflexivity | exact Z].
  - right. exists [], (DKill i p), l'. split; [reflexivity|]. right. split; [reflexivity|]. eexists. split; [|exact Z]. lia.
Qed.

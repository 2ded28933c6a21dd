(** C155: tasks of future blocks are found by their names, if these are not used again. *)
From Verif Require Import Base BlocksModel BlocksSpec SchedulerModel SchedulerSpec WithdrawSpec SchedulerProofs.
From Coq Require Import Lia.
From stdpp Require Import gmap.
Open Scope N_scope.

Section K.
Variable k : N * N.
Definition found (s : sched) : Prop := forall w i t, sd_now s < w -> agenda_of s w !! i = Some (Some t) -> sk_name t = Some k -> sd_lookup s !! k = Some (w, i).
Definition came (s : sched) : Prop := forall w i t, agenda_of s w !! i = Some (Some t) -> In (EPlaced w t) (sd_log s).
Definition ninv (s : sched) : Prop := came s /\ ((times_named k s <= 1)%nat -> found s).

Lemma filter_one (f : sevent -> bool) l x y : (length (List.filter f l) <= 1)%nat -> In x l -> In y l -> f x = true -> f y = true -> x = y.
Proof.
  intros L Hx Hy Fx Fy. assert (In x (List.filter f l)) as A by (apply filter_In; split; assumption). assert (In y (List.filter f l)) as B by (apply filter_In; split; assumption).
  destruct (List.filter f l) as [|z [|z' r]]; cbn in L, A, B; [destruct A| |lia]. destruct A as [<-|[]], B as [<-|[]]. reflexivity.
Qed.
Lemma named_one s w t w' t' : (times_named k s <= 1)%nat -> In (EPlaced w t) (sd_log s) -> In (EPlaced w' t') (sd_log s) -> sk_name t = Some k -> sk_name t' = Some k -> w = w' /\ t = t'.
Proof.
  intros L A B Na Nb. assert (EPlaced w t = EPlaced w' t') as E; [|injection E; auto].
  apply (filter_one (named_so k) (sd_log s)); [exact L|exact A|exact B| |]; cbn; unfold is_named; apply bool_decide_eq_true; assumption.
Qed.
Lemma named_some s w t : In (EPlaced w t) (sd_log s) -> sk_name t = Some k -> (1 <= times_named k s)%nat.
Proof.
  intros A Na. unfold times_named, seen. assert (In (EPlaced w t) (List.filter (named_so k) (sd_log s))) as B by (apply filter_In; split; [exact A|]; cbn; unfold is_named; apply bool_decide_eq_true, Na).
  destruct (List.filter _ _); [destruct B|cbn; lia].
Qed.

Lemma trim_back a : forall i x, trim a !! i = Some x -> a !! i = Some x.
Proof.
  induction a as [|y a IH]; intros i x H; [exact H|]. cbn in H. destruct y as [u|].
  - destruct i; [exact H|]. exact (IH i x H).
  - destruct (trim a) as [|z r] eqn:E; [discriminate H|]. destruct i; [exact H|]. exact (IH i x H).
Qed.
Lemma take_back a i j (u : stask) : trim (<[i := None]> a) !! j = Some (Some u) -> a !! j = Some (Some u) /\ j <> i.
Proof.
  intros H. apply trim_back in H. destruct (decide (i = j)) as [->|Hn].
  - destruct (decide (j < length a)%nat) as [L|L]; [rewrite list_lookup_insert in H by exact L; discriminate H|].
    rewrite list_insert_ge in H by lia. apply lookup_lt_Some in H. lia.
  - rewrite list_lookup_insert_ne in H by exact Hn. split; [exact H|congruence].
Qed.
Lemma push_back a t b i j u : push a t = Some (b, i) -> b !! j = Some (Some u) -> (j = i /\ u = t) \/ a !! j = Some (Some u).
Proof.
  intros P H. unfold push in P. destruct (_ <? _)%nat.
  - injection P as <- <-. apply lookup_app_Some in H as [H|[L H]]; [right; exact H|]. left. destruct (j - length a)%nat eqn:E; cbn in H; [|discriminate H]. injection H as <-. split; [lia|reflexivity].
  - destruct (hole a) as [n|] eqn:Eh; [|discriminate P]. injection P as <- <-. destruct (decide (n = j)) as [->|Hn].
    + rewrite list_lookup_insert in H by (eapply lookup_lt_Some, hole_some, Eh). injection H as <-. left. split; reflexivity.
    + rewrite list_lookup_insert_ne in H by exact Hn. right. exact H.
Qed.

(** Forgetting the name of a task whose block has come. *)
Lemma ninv_forget s w t : ninv s -> w <= sd_now s -> In (EPlaced w t) (sd_log s) -> ninv (forget (sk_name t) s).
Proof.
  intros [C F] Hw Ht. destruct (agenda_of_forget_name (sk_name t) s) as (E1 & E2 & _ & E4). split.
  - intros w' i u H. rewrite agenda_of_forget in H. rewrite E4. exact (C w' i u H).
  - unfold times_named. rewrite (seen_eq _ _ _ E4). intros L w' i u Hn H Hu. rewrite agenda_of_forget in H. rewrite E2 in Hn. pose proof (F L w' i u Hn H Hu) as E.
    destruct (sk_name t) as [k'|] eqn:Et; [|exact E]. cbn. rewrite lookup_delete_ne; [exact E|]. intros ->.
    destruct (named_one s w t w' u L Ht (C w' i u H) Et Hu) as [-> _]. lia.
Qed.
Lemma ninv_log s ev : (match ev with EPlaced _ _ => False | _ => True end) -> ninv s -> ninv (slog ev s).
Proof.
  intros He [C F]. split; [intros w i t H; right; exact (C w i t H)|]. unfold times_named. rewrite seen_log. destruct ev; [destruct He| |]; exact F.
Qed.

Lemma ninv_act s a : ninv s -> ninv (do_act s a).
Proof.
  intros I. pose proof I as [C F]. unfold do_act. destruct a as [w t|w i|k'].
  - destruct (schedule s w t) as [s'|] eqn:E; cbn; [|exact I]. unfold schedule in E.
    destruct (match sk_name t with Some _ => _ | None => _ end); [discriminate E|]. destruct (_ <=? _) eqn:Ew; [discriminate E|].
    destruct (push (agenda_of s w) t) as [[b i]|] eqn:Ep; [|discriminate E]. injection E as <-. set (s2 := match sk_name t with Some _ => _ | None => _ end).
    assert (Ha : forall x, agenda_of s2 x = if x =? w then b else agenda_of s x) by (intros x; rewrite <- agenda_of_set; unfold s2; destruct (sk_name t); reflexivity).
    assert (Hl : sd_log s2 = sd_log s) by (unfold s2; destruct (sk_name t); reflexivity).
    assert (Hn : sd_now s2 = sd_now s) by (unfold s2; destruct (sk_name t); reflexivity).
    assert (B : forall x j u, agenda_of s2 x !! j = Some (Some u) -> (x = w /\ j = i /\ u = t) \/ agenda_of s x !! j = Some (Some u)).
    { intros x j u H. rewrite Ha in H. destruct (N.eqb_spec x w) as [->|]; [|right; exact H]. destruct (push_back _ _ _ _ _ _ Ep H) as [[-> ->]|H']; [left; repeat split|right; exact H']. }
    split.
    + intros x j u H. cbn [slog sd_log In]. change (agenda_of (slog (EPlaced w t) s2) x) with (agenda_of s2 x) in H. destruct (B x j u H) as [(-> & -> & ->)|H']; [left; reflexivity|].
      right. rewrite Hl. exact (C x j u H').
    + unfold times_named. rewrite seen_log, (seen_eq _ _ _ Hl). intros L x j u Hx H Hu. change (agenda_of (slog (EPlaced w t) s2) x) with (agenda_of s2 x) in H. change (sd_now (slog (EPlaced w t) s2)) with (sd_now s2) in Hx. rewrite Hn in Hx.
      change (sd_lookup (slog (EPlaced w t) s2)) with (sd_lookup s2). cbn [named_so] in L. unfold is_named in L.
      destruct (bool_decide_reflect (sk_name t = Some k)) as [Et|Et].
      * destruct (B x j u H) as [(-> & -> & ->)|H']; [unfold s2; rewrite Et; cbn; apply lookup_insert|].
        pose proof (named_some s x u (C x j u H') Hu) as M. unfold times_named in M. lia.
      * destruct (B x j u H) as [(-> & -> & ->)|H']; [congruence|]. pose proof (F ltac:(unfold times_named; lia) x j u Hx H' Hu) as E.
        unfold s2. destruct (sk_name t) as [k'|]; [|exact E]. cbn. rewrite lookup_insert_ne by congruence. exact E.
  - unfold cancel_at. destruct (agenda_of s w !! i) as [[t|]|] eqn:E; try exact I. cbn [default]. apply ninv_log; [exact Logic.I|].
    destruct (agenda_of_forget_name (sk_name t) s) as (E1 & E2 & _ & E4). set (s1 := put_agenda _ _ _).
    assert (B : forall x j u, agenda_of s1 x !! j = Some (Some u) -> agenda_of s x !! j = Some (Some u) /\ (x, j) <> (w, i)).
    { intros x j u H. unfold s1 in H. rewrite agenda_of_put, agenda_of_forget in H. destruct (N.eqb_spec x w) as [->|Hn]; [|split; [exact H|congruence]].
      apply take_back in H as [H Hn]. split; [exact H|congruence]. }
    split.
    + intros x j u H. apply B in H as [H _]. change (sd_log s1) with (sd_log (forget (sk_name t) s)). rewrite E4. exact (C x j u H).
    + unfold times_named. rewrite (seen_eq (named_so k) s s1 E4). intros L x j u Hx H Hu. change (sd_now s1) with (sd_now (forget (sk_name t) s)) in Hx. rewrite E2 in Hx. apply B in H as [H Hn].
      pose proof (F L x j u Hx H Hu) as El. change (sd_lookup s1) with (sd_lookup (forget (sk_name t) s)). destruct (sk_name t) as [k'|] eqn:Et; [|exact El]. cbn.
      rewrite lookup_delete_ne; [exact El|]. intros ->. destruct (named_one s w t x u L (C w i t E) (C x j u H) Et Hu) as [-> ->].
      rewrite (F L x i u Hx E Hu) in El. congruence.
  - unfold cancel_named. destruct (sd_lookup s !! k') as [[w i]|] eqn:Ek; [|exact I]. cbn [default]. set (s1 := put_agenda _ _ _).
    assert (N1 : ninv s1).
    { assert (B : forall x j u, agenda_of s1 x !! j = Some (Some u) -> agenda_of s x !! j = Some (Some u) /\ (x, j) <> (w, i)).
      { intros x j u H. unfold s1 in H. rewrite agenda_of_put, agenda_of_forget in H. destruct (N.eqb_spec x w) as [->|Hn]; [|split; [exact H|congruence]].
        apply take_back in H as [H Hn]. split; [exact H|congruence]. }
      split; [intros x j u H; apply B in H as [H _]; exact (C x j u H)|]. intros L x j u Hx H Hu. apply B in H as [H Hn]. pose proof (F L x j u Hx H Hu) as El.
      unfold s1. cbn. rewrite lookup_delete_ne; [exact El|]. intros ->. congruence. }
    destruct (agenda_of s w !! i) as [[t|]|]; [apply ninv_log; [exact Logic.I|]|idtac|idtac]; exact N1.
Qed.
Lemma ninv_acts l : forall s, ninv s -> ninv (fold_left do_act l s).
Proof. induction l as [|a l IH]; intros s I; [exact I|]. cbn. apply IH, ninv_act, I. Qed.

Definition fromlog (w : N) (x : sloop) : Prop := forall i t, lp_agenda x !! i = Some (Some t) -> In (EPlaced w t) (sd_log (lp_s x)).
Lemma acts_now l : forall s, sd_now (fold_left do_act l s) = sd_now s.
Proof. induction l as [|a l IH]; intros s; [reflexivity|]. cbn. rewrite IH. apply since_act. Qed.
Lemma ninv_tasks e w order : forall x, ninv (lp_s x) -> fromlog w x -> w <= sd_now (lp_s x) ->
  let y := service_tasks e w order x in ninv (lp_s y) /\ fromlog w y /\ sd_now (lp_s y) = sd_now (lp_s x).
Proof.
  induction order as [|i order IH]; intros x I Fl Hw; cbv zeta; cbn [service_tasks]; [split; [exact I|split; [exact Fl|reflexivity]]|].
  destruct (lp_agenda x !! i) as [[t|]|] eqn:Et; [|apply IH; assumption|apply IH; assumption]. destruct (negb _); [split; [exact I|split; [exact Fl|reflexivity]]|].
  pose proof (service_task_cases e (lp_s x) (lp_m x) (lp_ran x =? 0)%nat w t) as C. destruct (service_task _ _ _ _ _ _) as [[r s'] m'].
  pose proof (ninv_forget (lp_s x) w t I Hw (Fl i t Et)) as I1. destruct (agenda_of_forget_name (sk_name t) (lp_s x)) as (_ & E2 & _ & E4). destruct r.
  - destruct (IH (SLoop (<[i:=None]> (lp_agenda x)) s' m' (S (lp_ran x)) (lp_wait x) (lp_left x))) as (G1 & G2 & G3).
    + cbn [lp_s]. rewrite C. apply ninv_acts, ninv_log; [exact Logic.I|exact I1].
    + intros j u H. cbn [lp_s lp_agenda] in *. rewrite C. apply acts_log. right. rewrite E4. apply Fl with j. destruct (decide (i = j)) as [->|Hn]; [rewrite list_lookup_insert in H by (eapply lookup_lt_Some, Et); discriminate H|].
      rewrite list_lookup_insert_ne in H by exact Hn. exact H.
    + cbn [lp_s]. rewrite C, acts_now. cbn. rewrite E2. exact Hw.
    + split; [exact G1|]. split; [exact G2|]. rewrite G3. cbn [lp_s]. rewrite C, acts_now. exact E2.
  - destruct C as [-> _]. destruct (IH (SLoop (lp_agenda x) (forget (sk_name t) (lp_s x)) m' (lp_ran x) (lp_wait x) true)) as (G1 & G2 & G3).
    + exact I1.
    + intros j u H. cbn [lp_s]. rewrite E4. exact (Fl j u H).
    + cbn [lp_s]. rewrite E2. exact Hw.
    + split; [exact G1|]. split; [exact G2|]. rewrite G3. exact E2.
  - destruct C as [-> _]. destruct (IH (SLoop (lp_agenda x) (forget (sk_name t) (lp_s x)) m' (lp_ran x) true (lp_left x))) as (G1 & G2 & G3).
    + exact I1.
    + intros j u H. cbn [lp_s]. rewrite E4. exact (Fl j u H).
    + cbn [lp_s]. rewrite E2. exact Hw.
    + split; [exact G1|]. split; [exact G2|]. rewrite G3. exact E2.
Qed.
Lemma ninv_agenda e s m ran w : ninv s -> w <= sd_now s -> ninv (fst (fst (fst (service_agenda e s m ran w)))) /\ sd_now (fst (fst (fst (service_agenda e s m ran w)))) = sd_now s.
Proof.
  intros I Hw. unfold service_agenda. cbn [fst]. set (x0 := SLoop (agenda_of s w) s _ ran false false).
  destruct (ninv_tasks e w (ordered (agenda_of s w)) x0 I ltac:(intros i t; exact (proj1 I w i t)) Hw) as ([C F] & Fl & Hn). set (y := service_tasks e w _ x0) in *.
  split; [|exact Hn]. cbn [lp_s x0] in Hn.
  set (m1 := if lp_wait y || lp_left y then _ else _).
  assert (B : forall x j u, agenda_of (sset_agenda m1 (lp_s y)) x !! j = Some (Some u) -> (x = w /\ lp_agenda y !! j = Some (Some u)) \/ x <> w /\ agenda_of (lp_s y) x !! j = Some (Some u)).
  { intros x j u H. unfold m1 in H. destruct (_ || _); [rewrite agenda_of_set in H|rewrite agenda_of_del in H]; destruct (N.eqb_spec x w) as [->|Hx]; try (right; split; [exact Hx|exact H]); [left; split; [reflexivity|exact H]|discriminate H]. }
  split.
  - intros x j u H. apply B in H as [[-> H]|[_ H]]; [exact (Fl j u H)|exact (C x j u H)].
  - intros L x j u Hx H Hu. cbn [sset_agenda sd_now] in Hx. apply B in H as [[-> H]|[_ H]]; [lia|]. exact (F L x j u Hx H Hu).
Qed.
Lemma ninv_since s x : ninv s -> ninv (sset_since x s).
Proof. intros I. exact I. Qed.
Lemma ninv_walk e n : forall s m ran inc w, ninv s -> ((0 < n)%nat -> w + N.of_nat n <= sd_now s + 1) -> ninv (walk e s m ran inc w n).
Proof.
  induction n as [|n IH]; intros s m ran inc w I Hn; cbn [walk].
  - destruct (_ <=? _); [apply ninv_since|]; exact I.
  - destruct (fits _ _); [|destruct (_ <=? _); [apply ninv_since|]; exact I].
    destruct (ninv_agenda e s m ran w I ltac:(lia)) as [I' H']. destruct (service_agenda e s m ran w) as [[[s' m'] ran'] c]. cbn in I', H'. apply IH; [exact I'|]. lia.
Qed.
Lemma ninv_block e s : ninv s -> ninv (next_block e s).
Proof.
  intros [C F]. assert (I1 : ninv (sset_now (sd_now s + 1) s)).
  { split; [exact C|]. intros L w i t Hw H Ht. apply (F L w i t); [cbn in Hw; lia|exact H|exact Ht]. }
  unfold next_block. destruct (negb _); [exact I1|]. cbv zeta. apply ninv_walk; [apply ninv_since, I1|]. cbn [sset_since sset_now sd_now sd_since]. lia.
Qed.
Lemma ninv_run l : forall s, ninv s -> ninv (srun s l).
Proof. induction l as [|x l IH]; intros s I; [exact I|]. cbn. apply IH. destruct x; [apply ninv_act|apply ninv_block]; exact I. Qed.
Lemma ninv_reachable s : s_reachable s -> ninv s.
Proof. intros (now & l & ->). apply ninv_run. split; intros w i t; cbn; unfold agenda_of; cbn; rewrite lookup_empty; cbn; intros H; try discriminate H. intros ? H'. discriminate H'. Qed.
End K.

Lemma reachable_run s l : s_reachable s -> s_reachable (srun s l).
Proof. intros (now & l0 & ->). exists now, (l0 ++ l). unfold srun. rewrite fold_left_app. reflexivity. Qed.

Lemma by_name : forall s w i t k, s_reachable s -> stands s w i t -> sk_name t = Some k -> sd_now s < w -> (times_named k s <= 1)%nat ->
  exists s', cancel_named s k = Some s' /\ (forall u, ~ stands s' w i u) /\ (forall w' j u, (w', j) <> (w, i) -> stands s w' j u -> stands s' w' j u) /\
    forall l, (times_named k (srun s' l) <= 1)%nat -> forall at_ w' u, In (ERan at_ w' u) (sd_log (srun s' l)) -> sk_name u <> Some k.
Proof.
  intros s w i t k R St Nt Hw L. destruct (ninv_reachable k s R) as [C F]. pose proof (F L w i t Hw St Nt) as El.
  pose proof R as (now & l0 & Es).
  assert (Hc : exists s', cancel_named s k = Some s' /\ do_act s (SCancelNamed k) = s') by (unfold do_act, cancel_named; rewrite El; eexists; split; reflexivity).
  destruct Hc as (s' & Hc & Hd). exists s'. split; [exact Hc|]. unfold cancel_named in Hc. rewrite El in Hc. unfold stands in St. rewrite St in Hc. injection Hc as Hc.
  assert (Ha : forall x, agenda_of s' x = if x =? w then trim (<[i := None]> (agenda_of s w)) else agenda_of s x).
  { intros x. rewrite <- Hc. change (agenda_of (slog _ ?z) x) with (agenda_of z x). rewrite agenda_of_put. reflexivity. }
  split; [intros u H; unfold stands in H; rewrite Ha, N.eqb_refl in H; apply take_back in H as [_ H]; congruence|].
  split.
  - intros w' j u Hn H. unfold stands in *. rewrite Ha. destruct (N.eqb_spec w' w) as [->|]; [|exact H]. apply trim_stays. rewrite list_lookup_insert_ne; [exact H|congruence].
  - intros l L' at_ w' u Hr Hu.
    assert (R' : s_reachable (srun s' l)).
    { apply reachable_run. rewrite <- Hd. exact (reachable_run s [SAct (SCancelNamed k)] R). }
    assert (P1 : In (EPlaced w t) (sd_log (srun s' l))) by (apply run_log; rewrite <- Hc; right; exact (C w i t St)).
    destruct (named_one k _ w' u w t L' (as_scheduled _ _ _ _ R' Hr) P1 Hu Nt) as [-> ->].
    assert (W1 : (1 <= withdrawn_in_time (is_named k) w (srun s' l))%nat).
    { unfold withdrawn_in_time, seen. assert (In (ECancelled (sd_now s) w t) (sd_log (srun s' l))) as Hin by (apply run_log; rewrite <- Hc; left; reflexivity).
      set (f := fun ev : sevent => _). assert (In (ECancelled (sd_now s) w t) (List.filter f (sd_log (srun s' l)))) as B.
      { apply filter_In. split; [exact Hin|]. unfold f. rewrite (proj2 (N.ltb_lt _ _) Hw), N.eqb_refl. cbn. unfold is_named. apply bool_decide_eq_true, Nt. }
      destruct (List.filter f _); [destruct B|cbn; lia]. }
    assert (C1 : (1 <= carried_out (is_named k) w (srun s' l))%nat).
    { unfold carried_out, seen. set (f := fun ev : sevent => _). assert (In (ERan at_ w t) (List.filter f (sd_log (srun s' l)))) as B.
      { apply filter_In. split; [exact Hr|]. unfold f. rewrite N.eqb_refl. cbn. unfold is_named. apply bool_decide_eq_true, Nt. }
      destruct (List.filter f _); [destruct B|cbn; lia]. }
    pose proof (never_twice _ w (is_named k) R') as NT.
    assert (PL : (placed (is_named k) w (srun s' l) <= times_named k (srun s' l))%nat).
    { unfold placed, times_named, seen. generalize (sd_log (srun s' l)). intros lg. induction lg as [|ev lg IH]; [reflexivity|]. cbn [List.filter].
      destruct ev as [w1 u1|a1 w1 u1|a1 w1 u1]; cbn [named_so]; try exact IH. destruct (w1 =? w); cbn [andb]; destruct (is_named k u1); cbn [length]; lia. }
    lia.
Qed.

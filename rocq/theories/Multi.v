(** Proofs about MultiModel.v. *)
From stdpp Require Import gmap.
From Verif Require Import Base RuntimeModel DelayedModel MultiModel MultiSpec.
Open Scope N_scope.

Section mcall_induction.
  Context (P : mcall -> Prop).
  Context (Hother : forall k, P (MOther k)) (Hbatch : forall m l, Forall P l -> P (MBatch m l)) (H1 : forall o c, P c -> P (MThreshold1 o c))
    (Has : forall t o tp c, P c -> P (MAsMulti t o tp c)) (Hap : forall t o tp h, P (MApprove t o tp h)) (Hca : forall t o tp h, P (MCancel t o tp h)).
  Fixpoint mcall_all (c : mcall) : P c :=
    match c with
    | MOther k => Hother k
    | MBatch m l => Hbatch m l ((fix go l : Forall P l := match l with [] => List.Forall_nil P | c :: r => List.Forall_cons P c r (mcall_all c) (go r) end) l)
    | MThreshold1 o c => H1 o c (mcall_all c)
    | MAsMulti t o tp c => Has t o tp c (mcall_all c)
    | MApprove t o tp h => Hap t o tp h
    | MCancel t o tp h => Hca t o tp h
    end.
End mcall_induction.

Lemma insert_at_in w l y : y ∈ insert_at w l <-> y = w \/ y ∈ l.
Proof.
  induction l as [|a l IH]; cbn [insert_at]; [rewrite elem_of_list_singleton; split; [auto | intros [?|H]; [auto | apply elem_of_nil in H as []]]|].
  destruct (a <? w); rewrite ?elem_of_cons, ?IH, ?elem_of_cons; tauto.
Qed.
Lemma insert_at_nodup w l : w ∉ l -> NoDup l -> NoDup (insert_at w l).
Proof.
  induction l as [|a l IH]; cbn [insert_at]; intros Hw Hn; [apply NoDup_singleton|]. apply NoDup_cons in Hn as [Ha Hn].
  apply not_elem_of_cons in Hw as [Hwa Hwl]. destruct (a <? w).
  - apply NoDup_cons. split; [rewrite insert_at_in; intros [->|X]; [exact (Hwa eq_refl) | exact (Ha X)] | exact (IH Hwl Hn)].
  - apply NoDup_cons. split; [rewrite elem_of_cons; intros [X|X]; [exact (Hwa X) | exact (Hwl X)]|]. apply NoDup_cons. auto.
Qed.
Lemma insert_at_length w l : length (insert_at w l) = S (length l).
Proof. induction l as [|a l IH]; cbn [insert_at]; [reflexivity|]. destruct (a <? w); cbn; [rewrite IH|]; reflexivity. Qed.
Lemma signatories_in w others l : signatories w others = Some l -> w ∈ l.
Proof. unfold signatories. destruct (_ && _); [|discriminate]. intros H. injection H as <-. apply insert_at_in. left. reflexivity. Qed.
Lemma checked_some acct who t others id : checked acct who t others = Some id -> exists l, id = acct l t /\ who ∈ l /\ 2 <= t.
Proof.
  unfold checked. destruct ((2 <=? t) && _ && _) eqn:E; [|discriminate]. destruct (signatories who others) as [l|] eqn:El; [|discriminate].
  intros H. injection H as <-. apply andb_true_iff in E as [E _]. apply andb_true_iff in E as [E _]. apply N.leb_le in E.
  exists l. split; [reflexivity|]. split; [eapply signatories_in; exact El | exact E].
Qed.

(** One thing that happens. *)
Inductive mprim (acct : list N -> N -> N) (s : mst) : mentry -> mst -> Prop :=
| Q_did w k : mprim acct s (MDid w k) s
| Q_opened w l t h : w ∈ l -> m_ops s !! (acct l t, h) = None ->
    mprim acct s (MOpened w (acct l t) h (multi_deposit t)) (put_op (acct l t, h) (MOp (m_now s) (multi_deposit t) w [w]) s)
| Q_approved w l t h m : w ∈ l -> m_ops s !! (acct l t, h) = Some m -> w ∉ o_approvals m ->
    mprim acct s (MApproved w (acct l t) h)
      (put_op (acct l t, h) (MOp (o_when m) (o_deposit m) (o_depositor m) (insert_at w (o_approvals m))) s)
| Q_cancelled id h m : m_ops s !! (id, h) = Some m -> mprim acct s (MCancelled (o_depositor m) id h (o_deposit m)) (drop_op (id, h) s)
| Q_executed w l t h m : w ∈ l -> m_ops s !! (acct l t, h) = Some m ->
    (t <= N.of_nat (length (o_approvals m)) \/ (w ∉ o_approvals m /\ t <= N.of_nat (length (o_approvals m)) + 1)) ->
    mprim acct s (MExecuted w (acct l t) h (o_depositor m) (o_deposit m)) (drop_op (acct l t, h) s)
| Q_executed1 w l : w ∈ l -> mprim acct s (MExecuted1 w (acct l 1)) s.
Inductive mprims (acct : list N -> N -> N) : mst -> list mentry -> mst -> Prop :=
| QS_nil s : mprims acct s [] s
| QS_cons s x s1 l s2 : mprim acct s x s1 -> mprims acct s1 l s2 -> mprims acct s (x :: l) s2.
Lemma mprims_app acct s l1 s1 l2 s2 : mprims acct s l1 s1 -> mprims acct s1 l2 s2 -> mprims acct s (l1 ++ l2) s2.
Proof. induction 1; intros H2; [exact H2|]. cbn. econstructor; eauto. Qed.
Lemma mprims_one acct s x s1 : mprim acct s x s1 -> mprims acct s [x] s1.
Proof. intros H. econstructor; [exact H | constructor]. Qed.

Lemma operate_prim acct e s who t others tp h b1 b2 :
  match operate acct e s who t others tp h b1 b2 with
  | OErr => True
  | ODone s' x => mprim acct s x s'
  | ORun id s' x => mprim acct s x s' /\ exists n w0, x = MExecuted who id h w0 n
  end.
Proof.
  unfold operate. destruct (checked acct who t others) as [id|] eqn:E; [|exact I]. apply checked_some in E as (l & -> & Hin & _).
  destruct (m_ops s !! (acct l t, h)) as [m|] eqn:Em.
  - destruct tp as [tp|]; [|exact I]. destruct (bool_decide (o_when m = tp)); [|exact I].
    destruct (bool_decide (who ∈ o_approvals m)) eqn:Ew; cbn [negb andb].
    + apply bool_decide_eq_true in Ew. destruct (b1 && _) eqn:Eb; [|exact I]. destruct b2; [|exact I]. apply andb_true_iff in Eb as [_ Eb].
      apply N.leb_le in Eb. split; [|eauto]. apply Q_executed; [exact Hin | exact Em | left; exact Eb].
    + apply bool_decide_eq_false in Ew. destruct (N.of_nat (length (o_approvals m)) <? t) eqn:El.
      * destruct (b1 && _) eqn:Eb.
        -- destruct b2; [|exact I]. apply andb_true_iff in Eb as [_ Eb]. apply N.leb_le in Eb. split; [|eauto].
           apply Q_executed; [exact Hin | exact Em | right; auto].
        -- apply Q_approved; assumption.
      * destruct (b1 && _) eqn:Eb; [|exact I]. destruct b2; [|exact I]. apply andb_true_iff in Eb as [_ Eb]. apply N.leb_le in Eb. split; [|eauto].
        apply Q_executed; [exact Hin | exact Em | left; exact Eb].
  - destruct tp; [exact I|]. destruct (w_deposit e who); [|exact I]. apply Q_opened; assumption.
Qed.

Lemma mrun_batch_prims acct (run : mst -> mcall -> option (mst * list mentry)) m l :
  Forall (fun c => forall s s' es, run s c = Some (s', es) -> mprims acct s es s') l ->
  forall s s' es, mrun_batch run m s l = Some (s', es) -> mprims acct s es s'.
Proof.
  induction 1 as [|c r Hc _ IH]; intros s s' es H; cbn in H.
  - injection H as <- <-. constructor.
  - destruct (run s c) as [[s1 e1]|] eqn:E.
    + destruct (mrun_batch run m s1 r) as [[s2 e2]|] eqn:E2; [|discriminate].
      injection H as <- <-. eapply mprims_app; [apply Hc; exact E | apply IH; exact E2].
    + destruct m; [injection H as <- <-; constructor | discriminate | apply IH; exact H].
Qed.
Lemma mrun_prims acct hash e c : forall who s s' es, mrun acct hash e who c s = Some (s', es) -> mprims acct s es s'.
Proof.
  induction c as [k|m l IH|o c IH|t o tp c IH|t o tp h|t o tp h] using mcall_all; intros who s s' es H; cbn [mrun] in H.
  - destruct (w_ok e who k); [|discriminate]. injection H as <- <-. apply mprims_one. constructor.
  - eapply mrun_batch_prims; [|exact H]. eapply Forall_impl; [exact IH|]. cbn. intros c Hc s1 s2 es1 H1. exact (Hc _ _ _ _ H1).
  - destruct (_ && _); [|discriminate]. destruct (signatories who o) as [l|] eqn:El; [|discriminate]. apply signatories_in in El.
    destruct (mrun acct hash e (acct l 1) c s) as [[s1 x]|] eqn:E; [|discriminate]. injection H as <- <-.
    econstructor; [apply Q_executed1; exact El | eapply IH; exact E].
  - pose proof (operate_prim acct e s who t o tp (hash c) true (w_fits e c)) as O. destruct (operate _ _ _ _ _ _ _ _ _ _) as [|s1 x|id s1 x]; [discriminate| |].
    + injection H as <- <-. apply mprims_one. exact O.
    + destruct O as [O _]. destruct (mrun acct hash e id c s1) as [[s2 l]|] eqn:E; injection H as <- <-.
      * econstructor; [exact O | eapply IH; exact E].
      * apply mprims_one. exact O.
  - pose proof (operate_prim acct e s who t o tp h false false) as O. destruct (operate _ _ _ _ _ _ _ _ _ _) as [|s1 x|id s1 x]; [discriminate| |discriminate].
    injection H as <- <-. apply mprims_one. exact O.
  - destruct (checked acct who t o) as [id|]; [|discriminate]. destruct (m_ops s !! (id, h)) as [m|] eqn:Em; [|discriminate].
    destruct (_ && _) eqn:E; [|discriminate]. injection H as <- <-. apply andb_true_iff in E as [_ E]. apply N.eqb_eq in E as <-.
    apply mprims_one. apply Q_cancelled. exact Em.
Qed.

(* ------------------------------------------------------------------ *)
(** * The record and the state *)

Section record.
  Context (acct : list N -> N -> N) (Hacct : accounts_differ acct).

  Definition approved_by (log : list mentry) (id h w0 n : N) (l who : list N) (w : option N) : Prop :=
    exists rest, opened log id h w0 n rest /\ NoDup who /\ forall y, y ∈ who -> y ∈ l /\ (y = w0 \/ MApproved y id h ∈ rest \/ w = Some y).
  Definition op_ok (log : list mentry) (id h : N) (m : mop) : Prop :=
    exists l t, id = acct l t /\ o_deposit m = multi_deposit t /\ approved_by log id h (o_depositor m) (o_deposit m) l (o_approvals m) None.
  Definition m_inv (s : mst) (log : list mentry) : Prop := forall id h m, m_ops s !! (id, h) = Some m -> op_ok log id h m.
  Definition entry_ok (log : list mentry) (x : mentry) : Prop :=
    (forall w l t h d n, x = MExecuted w (acct l t) h d n ->
       n = multi_deposit t /\ exists who, t <= N.of_nat (length who) /\ approved_by log (acct l t) h d n l who (Some w)) /\
    (forall w id h n, x = MCancelled w id h n -> exists rest, opened log id h w n rest) /\
    (forall w l t, x = MExecuted1 w (acct l t) -> t = 1 /\ w ∈ l).

  Lemma opened_more log id h w0 n rest x : opened log id h w0 n rest -> ~ closes id h x -> opened (log ++ [x]) id h w0 n (rest ++ [x]).
  Proof.
    intros (l1 & -> & H) Hx. exists l1. split; [rewrite <- app_assoc; reflexivity|]. intros y Hy. apply elem_of_app in Hy as [Hy|Hy]; [exact (H _ Hy)|].
    apply elem_of_list_singleton in Hy as ->. exact Hx.
  Qed.
  Lemma op_more log id h m x : op_ok log id h m -> ~ closes id h x -> op_ok (log ++ [x]) id h m.
  Proof.
    intros (l & t & -> & Hd & rest & Ho & Hn & Ha) Hx. exists l, t. split; [reflexivity|]. split; [exact Hd|]. exists (rest ++ [x]).
    split; [apply opened_more; assumption|]. split; [exact Hn|]. intros y Hy. destruct (Ha y Hy) as [Hl [?|[Hr|?]]]; split; auto.
    right. left. apply elem_of_app. left. exact Hr.
  Qed.

  Lemma mprim_inv s x s' log : mprim acct s x s' -> m_inv s log -> m_inv s' (log ++ [x]) /\ entry_ok log x.
  Proof.
    intros Hp I. split.
    - intros id h m Hm.
      destruct Hp as [w k|w l t h0 Hin Hno|w l t h0 m0 Hin Hm0 Hw|id0 h0 m0 Hm0|w l t h0 m0 Hin Hm0 Ht|w l Hin].
      + apply op_more; [exact (I _ _ _ Hm)|]. intros [(? & ? & ? & X)|(? & ? & X)]; discriminate X.
      + cbn in Hm. destruct (decide ((acct l t, h0) = (id, h))) as [E|E].
        * injection E as <- <-. rewrite lookup_insert in Hm. injection Hm as <-. exists l, t. cbn. split; [reflexivity|]. split; [reflexivity|].
          exists []. split; [exists log; split; [reflexivity | intros y Hy; apply elem_of_nil in Hy as []]|]. split; [apply NoDup_singleton|].
          intros y Hy. apply elem_of_list_singleton in Hy as ->. auto.
        * rewrite lookup_insert_ne in Hm by exact E. apply op_more; [exact (I _ _ _ Hm)|]. intros [(? & ? & ? & X)|(? & ? & X)]; discriminate X.
      + cbn in Hm. destruct (decide ((acct l t, h0) = (id, h))) as [E|E].
        * injection E as <- <-. rewrite lookup_insert in Hm. injection Hm as <-. destruct (I _ _ _ Hm0) as (l' & t' & Eq & Hd & rest & Ho & Hn & Ha).
          destruct (Hacct _ _ _ _ Eq) as [<- <-]. exists l, t. cbn. split; [reflexivity|]. split; [exact Hd|]. exists (rest ++ [MApproved w (acct l t) h0]).
          split; [apply opened_more; [exact Ho|]; intros [(? & ? & ? & X)|(? & ? & X)]; discriminate X|]. split; [apply insert_at_nodup; assumption|].
          intros y Hy. apply insert_at_in in Hy as [->|Hy]; [split; [exact Hin|]; right; left; apply elem_of_app; right; left|].
          destruct (Ha y Hy) as [Hl [?|[Hr|?]]]; split; auto. right. left. apply elem_of_app. left. exact Hr.
        * rewrite lookup_insert_ne in Hm by exact E. apply op_more; [exact (I _ _ _ Hm)|]. intros [(? & ? & ? & X)|(? & ? & X)]; discriminate X.
      + cbn in Hm. apply lookup_delete_Some in Hm as [E Hm]. apply op_more; [exact (I _ _ _ Hm)|].
        intros [(? & ? & ? & X)|(? & ? & X)]; [discriminate X|]. congruence.
      + cbn in Hm. apply lookup_delete_Some in Hm as [E Hm]. apply op_more; [exact (I _ _ _ Hm)|].
        intros [(? & ? & ? & X)|(? & ? & X)]; [|discriminate X]. congruence.
      + apply op_more; [exact (I _ _ _ Hm)|]. intros [(? & ? & ? & X)|(? & ? & X)]; discriminate X.
    - split; [|split].
      + intros w l t h d n Ex. destruct Hp as [| | | |w1 l1 t1 h1 m Hin Hm Ht|]; try discriminate Ex. injection Ex as -> Eid -> <- <-.
        destruct (Hacct _ _ _ _ Eid) as [-> ->].
        destruct (I _ _ _ Hm) as (l' & t' & Eq & Hd & rest & Ho & Hn & Ha). destruct (Hacct _ _ _ _ Eq) as [<- <-]. split; [exact Hd|].
        destruct Ht as [Ht|[Hw Ht]].
        * exists (o_approvals m). split; [exact Ht|]. exists rest. split; [exact Ho|]. split; [exact Hn|]. intros y Hy.
          destruct (Ha y Hy) as [Hl [?|[?|X]]]; [auto | auto | discriminate X].
        * exists (w :: o_approvals m). split; [cbn; lia|]. exists rest. split; [exact Ho|]. split; [apply NoDup_cons; auto|]. intros y Hy.
          apply elem_of_cons in Hy as [->|Hy]; [auto|]. destruct (Ha y Hy) as [Hl [?|[?|X]]]; [auto | auto | discriminate X].
      + intros w id h n Ex. destruct Hp as [| | |id0 h0 m Hm| |]; try discriminate Ex. injection Ex as <- -> -> <-. destruct (I _ _ _ Hm) as (l' & t' & Eq & Hd & rest & Ho & _). eauto.
      + intros w l t Ex. destruct Hp as [| | | | |w1 l1 Hin]; try discriminate Ex. injection Ex as -> Eid. destruct (Hacct _ _ _ _ Eid) as [<- <-]. auto.
  Qed.

  Definition mlog_ok (log : list mentry) : Prop := forall l1 x l2, log = l1 ++ x :: l2 -> entry_ok l1 x.
  Lemma msplit_last (l : list mentry) y l1 x l2 : l ++ [y] = l1 ++ x :: l2 ->
    (l2 = [] /\ l = l1 /\ y = x) \/ exists l2', l2 = l2' ++ [y] /\ l = l1 ++ x :: l2'.
  Proof.
    intros H. induction l2 as [|z l2' _] using rev_ind.
    - left. apply app_inj_tail in H as [-> ->]. auto.
    - right. exists l2'. rewrite app_comm_cons, app_assoc in H. apply app_inj_tail in H as [-> ->]. auto.
  Qed.
  Lemma mprims_inv s l s' : mprims acct s l s' -> forall log, m_inv s log -> mlog_ok log -> m_inv s' (log ++ l) /\ mlog_ok (log ++ l).
  Proof.
    induction 1 as [s|s x s1 l s2 Hp _ IH]; intros log I O; [rewrite app_nil_r; auto|].
    destruct (mprim_inv _ _ _ _ Hp I) as [I1 U]. change (x :: l) with ([x] ++ l). rewrite app_assoc. apply IH; [exact I1|].
    intros l1 y l2 H. apply msplit_last in H as [(-> & -> & <-)|(l2' & -> & H)]; [exact U | eapply O; exact H].
  Qed.
  Lemma mstep_inv hash s x log : m_inv s log -> mlog_ok log ->
    m_inv (fst (mstep_run acct hash s x)) (log ++ snd (mstep_run acct hash s x)) /\ mlog_ok (log ++ snd (mstep_run acct hash s x)).
  Proof.
    intros I O. destruct x as [at_ e who c]. cbn [mstep_run]. destruct (mrun acct hash e who c (Mst at_ (m_ops s))) as [[s' l]|] eqn:E; cbn [fst snd].
    - apply mrun_prims in E. apply (mprims_inv _ _ _ E); [exact I | exact O].
    - rewrite app_nil_r. split; [exact I | exact O].
  Qed.
  Lemma mrun_inv hash l : forall s log, m_inv s log -> mlog_ok log ->
    m_inv (fst (mrun_all acct hash s l)) (log ++ snd (mrun_all acct hash s l)) /\ mlog_ok (log ++ snd (mrun_all acct hash s l)).
  Proof.
    induction l as [|x r IH]; intros s log I O; cbn [mrun_all]; [cbn; rewrite app_nil_r; auto|].
    destruct (mstep_inv hash s x log I O) as [I1 O1]. destruct (mstep_run acct hash s x) as [s1 l1]. cbn [fst snd] in I1, O1.
    specialize (IH s1 _ I1 O1). destruct (mrun_all acct hash s1 r) as [s2 l2]. cbn [fst snd] in *. rewrite app_assoc. exact IH.
  Qed.
  Lemma m_record_ok hash l : mlog_ok (m_record acct hash l).
  Proof.
    assert (I : m_inv m_start []) by (intros id h m H; discriminate H).
    assert (O : mlog_ok []) by (intros [|? ?]; discriminate). exact (proj2 (mrun_inv hash l _ _ I O)).
  Qed.
End record.

Lemma enough_agreed acct hash l before w sig t h d n after : accounts_differ acct ->
  m_record acct hash l = before ++ MExecuted w (acct sig t) h d n :: after ->
  n = multi_deposit t /\ exists rest who, opened before (acct sig t) h d n rest /\ NoDup who /\ t <= N.of_nat (length who) /\
    forall y, y ∈ who -> y ∈ sig /\ (y = d \/ MApproved y (acct sig t) h ∈ rest \/ y = w).
Proof.
  intros Ha H. destruct (m_record_ok acct Ha hash l _ _ _ H) as [X _]. destruct (X _ _ _ _ _ _ eq_refl) as (Hn & who & Ht & rest & Ho & Hd & Hw).
  split; [exact Hn|]. exists rest, who. split; [exact Ho|]. split; [exact Hd|]. split; [exact Ht|]. intros y Hy. destruct (Hw y Hy) as [? [?|[?|E]]];
    [auto | auto | injection E as <-; auto].
Qed.
Lemma one_enough acct hash l before w sig t after : accounts_differ acct ->
  m_record acct hash l = before ++ MExecuted1 w (acct sig t) :: after -> t = 1 /\ w ∈ sig.
Proof. intros Ha H. destruct (m_record_ok acct Ha hash l _ _ _ H) as (_ & _ & X). exact (X _ _ _ eq_refl). Qed.
Lemma cancelled_own acct hash l before w id h n after : accounts_differ acct ->
  m_record acct hash l = before ++ MCancelled w id h n :: after -> exists rest, opened before id h w n rest.
Proof. intros Ha H. destruct (m_record_ok acct Ha hash l _ _ _ H) as (_ & X & _). exact (X _ _ _ _ eq_refl). Qed.

(** In whose name calls are made. *)
Definition executed_as (id : N) (x : mentry) : Prop := (exists w h d n, x = MExecuted w id h d n) \/ (exists w, x = MExecuted1 w id).
Lemma mrun_batch_did (run : mst -> mcall -> option (mst * list mentry)) m id k l :
  Forall (fun c => forall s s' es, run s c = Some (s', es) -> MDid id k ∈ es -> exists x, executed_as id x /\ x ∈ es) l ->
  forall s s' es, mrun_batch run m s l = Some (s', es) -> MDid id k ∈ es -> exists x, executed_as id x /\ x ∈ es.
Proof.
  induction 1 as [|c r Hc _ IH]; intros s s' es H Hd; cbn in H.
  - injection H as <- <-. apply elem_of_nil in Hd as [].
  - destruct (run s c) as [[s1 e1]|] eqn:E.
    + destruct (mrun_batch run m s1 r) as [[s2 e2]|] eqn:E2; [|discriminate]. injection H as <- <-. apply elem_of_app in Hd as [Hd|Hd].
      * destruct (Hc _ _ _ E Hd) as (x & X & Y). exists x. split; [exact X|]. apply elem_of_app. left. exact Y.
      * destruct (IH _ _ _ E2 Hd) as (x & X & Y). exists x. split; [exact X|]. apply elem_of_app. right. exact Y.
    + destruct m; [injection H as <- <-; apply elem_of_nil in Hd as [] | discriminate | exact (IH _ _ _ H Hd)].
Qed.
Lemma prim_did acct s id k x s' : mprim acct s x s' -> MDid id k ∈ [x] -> exists w, x = MDid w k /\ w = id.
Proof. intros H Hd. apply elem_of_list_singleton in Hd. subst x. inversion H; subst. eauto. Qed.
Lemma operate_not_did acct e s who t o tp h b1 b2 id k :
  match operate acct e s who t o tp h b1 b2 with OErr => True | ODone _ x => x <> MDid id k | ORun _ _ x => x <> MDid id k end.
Proof.
  unfold operate. destruct (checked _ _ _ _); [|exact I]. destruct (m_ops s !! _) as [m|].
  - destruct tp; [|exact I]. destruct (bool_decide _); [|exact I]. cbv zeta. destruct (b1 && _); [destruct b2; [discriminate | exact I]|].
    destruct (_ && _); [discriminate | exact I].
  - destruct tp; [exact I|]. destruct (w_deposit e who); [discriminate | exact I].
Qed.
Lemma mrun_did acct hash e id k c : forall who s s' es, id <> who -> mrun acct hash e who c s = Some (s', es) -> MDid id k ∈ es ->
  exists x, executed_as id x /\ x ∈ es.
Proof.
  induction c as [k0|m l IH|o c IH|t o tp c IH|t o tp h|t o tp h] using mcall_all; intros who s s' es Hne H Hd; cbn [mrun] in H.
  - destruct (w_ok e who k0); [|discriminate]. injection H as <- <-. apply elem_of_list_singleton in Hd. congruence.
  - eapply mrun_batch_did; [|exact H|exact Hd]. eapply Forall_impl; [exact IH|]. cbn. intros c Hc s1 s2 es1 H1. exact (Hc _ _ _ _ Hne H1).
  - destruct (_ && _); [|discriminate]. destruct (signatories who o) as [l|]; [|discriminate].
    destruct (mrun acct hash e (acct l 1) c s) as [[s1 x]|] eqn:E; [|discriminate]. injection H as <- <-.
    destruct (decide (id = acct l 1)) as [->|Hn]; [exists (MExecuted1 who (acct l 1)); split; [right; eauto | left]|].
    apply elem_of_cons in Hd as [Hd|Hd]; [discriminate Hd|]. destruct (IH _ _ _ _ Hn E Hd) as (y & Y & Z). exists y. split; [exact Y | right; exact Z].
  - pose proof (operate_prim acct e s who t o tp (hash c) true (w_fits e c)) as O.
    pose proof (operate_not_did acct e s who t o tp (hash c) true (w_fits e c) id k) as D.
    destruct (operate _ _ _ _ _ _ _ _ _ _) as [|s1 x|id0 s1 x]; [discriminate| |].
    + injection H as <- <-. apply elem_of_list_singleton in Hd. congruence.
    + destruct O as [_ (n & w0 & ->)]. destruct (decide (id = id0)) as [->|Hn].
      * exists (MExecuted who id0 (hash c) w0 n). split; [left; eauto|]. destruct (mrun acct hash e id0 c s1) as [[s2 l]|]; injection H as <- <-; left.
      * destruct (mrun acct hash e id0 c s1) as [[s2 l]|] eqn:E; injection H as <- <-; apply elem_of_cons in Hd as [Hd|Hd]; try discriminate Hd.
        -- destruct (IH _ _ _ _ Hn E Hd) as (y & Y & Z). exists y. split; [exact Y | right; exact Z].
        -- apply elem_of_nil in Hd as [].
  - pose proof (operate_not_did acct e s who t o tp h false false id k) as D.
    destruct (operate _ _ _ _ _ _ _ _ _ _) as [|s1 x|id0 s1 x]; [discriminate| |discriminate].
    injection H as <- <-. apply elem_of_list_singleton in Hd. congruence.
  - destruct (checked acct who t o) as [i|]; [|discriminate]. destruct (m_ops s !! (i, h)) as [m|]; [|discriminate].
    destruct (_ && _); [|discriminate]. injection H as <- <-. apply elem_of_list_singleton in Hd. discriminate Hd.
Qed.
Lemma only_executed acct hash s at_ e who c id k : MDid id k ∈ snd (mstep_run acct hash s (MTx at_ e who c)) -> id <> who ->
  exists x, ((exists w h d n, x = MExecuted w id h d n) \/ (exists w, x = MExecuted1 w id)) /\ x ∈ snd (mstep_run acct hash s (MTx at_ e who c)).
Proof.
  cbn [mstep_run]. intros H Hne. destruct (mrun acct hash e who c _) as [[s' l]|] eqn:E; cbn [snd] in *; [|apply elem_of_nil in H as []].
  exact (mrun_did _ _ _ _ _ _ _ _ _ _ Hne E H).
Qed.

(** Approving and carrying out. *)
Lemma sorted_cons a l : strictly_sorted (a :: l) = true <-> (forall b, b ∈ l -> a < b) /\ strictly_sorted l = true.
Proof.
  revert a. induction l as [|b l IH]; intros a; cbn [strictly_sorted]; [split; [intros _; split; [intros b Hb; apply elem_of_nil in Hb as [] | reflexivity] | auto]|].
  rewrite andb_true_iff, N.ltb_lt. split.
  - intros [H1 H2]. split; [|exact H2]. apply IH in H2 as [H2 _]. intros c Hc. apply elem_of_cons in Hc as [->|Hc]; [exact H1|]. specialize (H2 _ Hc). lia.
  - intros [H1 H2]. split; [apply H1; left | exact H2].
Qed.
Lemma without_in who l x : x ∈ without who l <-> x ∈ l /\ x <> who.
Proof.
  unfold without. rewrite !elem_of_list_In, List.filter_In, negb_true_iff, N.eqb_neq. tauto.
Qed.
Lemma without_sorted who l : strictly_sorted l = true -> strictly_sorted (without who l) = true.
Proof.
  induction l as [|a l IH]; intros H; [reflexivity|]. apply sorted_cons in H as [H1 H2]. unfold without. cbn [List.filter]. fold (without who l).
  destruct (negb (a =? who)); [|exact (IH H2)]. apply sorted_cons. split; [|exact (IH H2)]. intros b Hb. apply without_in in Hb as [Hb _]. exact (H1 _ Hb).
Qed.
Lemma without_all who l : who ∉ l -> without who l = l.
Proof.
  induction l as [|a l IH]; intros H; [reflexivity|]. apply not_elem_of_cons in H as [H1 H2]. unfold without. cbn [List.filter]. fold (without who l).
  replace (a =? who) with false by (symmetry; apply N.eqb_neq; congruence). cbn. rewrite (IH H2). reflexivity.
Qed.
Lemma insert_without who l : strictly_sorted l = true -> who ∈ l -> insert_at who (without who l) = l.
Proof.
  induction l as [|a l IH]; intros H Hin; [apply elem_of_nil in Hin as []|]. apply sorted_cons in H as [H1 H2]. unfold without. cbn [List.filter]. fold (without who l).
  destruct (a =? who) eqn:E; cbn [negb].
  - apply N.eqb_eq in E as ->. rewrite without_all by (intros X; specialize (H1 _ X); lia). destruct l as [|b l]; [reflexivity|]. cbn [insert_at].
    replace (b <? who) with false by (symmetry; apply N.ltb_ge; specialize (H1 b ltac:(left)); lia). reflexivity.
  - apply N.eqb_neq in E. apply elem_of_cons in Hin as [X|Hin]; [congruence|]. cbn [insert_at].
    replace (a <? who) with true by (symmetry; apply N.ltb_lt; exact (H1 _ Hin)). rewrite (IH H2 Hin). reflexivity.
Qed.
Lemma without_length who l : strictly_sorted l = true -> who ∈ l -> length l = S (length (without who l)).
Proof. intros H Hin. rewrite <- (insert_without who l H Hin) at 1. apply insert_at_length. Qed.

(** A group of at least two and at most a hundred, in order. *)
Lemma checked_group acct who t l : group l -> who ∈ l -> 2 <= t ->
  checked acct who t (without who l) = Some (acct l t).
Proof.
  intros [Hs Hl] Hin Ht. pose proof (without_length who l Hs Hin) as L. unfold checked, signatories.
  replace (2 <=? t) with true by (symmetry; apply N.leb_le; exact Ht).
  replace (length (without who l) =? 0)%nat with false by (symmetry; apply Nat.eqb_neq; lia).
  assert (E : (length (without who l) <? max_signatories)%nat = true) by (apply Nat.ltb_lt; unfold max_signatories; lia). rewrite E. cbn [negb andb].
  rewrite (without_sorted _ _ Hs), bool_decide_eq_false_2 by (rewrite without_in; tauto). cbn [negb andb]. rewrite (insert_without _ _ Hs Hin). reflexivity.
Qed.

(** With the last approval needed, given with the call, it is carried out at once. *)
Lemma carried_out acct hash s at_ e who t l c m : group l -> who ∈ l -> 2 <= t ->
  op_of s (acct l t) (hash c) = Some m -> w_fits e c = true ->
  (t <= N.of_nat (length (o_approvals m)) \/ (who ∉ o_approvals m /\ t <= N.of_nat (length (o_approvals m)) + 1)) ->
  exists r, snd (mstep_run acct hash s (MTx at_ e who (MAsMulti t (without who l) (Some (o_when m)) c))) =
    MExecuted who (acct l t) (hash c) (o_depositor m) (o_deposit m) :: r /\
    (forall s' es, mrun acct hash e (acct l t) c (Mst at_ (delete (acct l t, hash c) (m_ops s))) = Some (s', es) -> r = es).
Proof.
  intros [Hs Hl] Hin Ht Hm Hf Hn. unfold op_of in Hm. cbn [mstep_run mrun]. unfold operate. rewrite (checked_group _ _ _ _ (conj Hs Hl) Hin Ht). cbn [m_ops].
  rewrite Hm, bool_decide_eq_true_2 by reflexivity. rewrite Hf. cbv zeta.
  set (fresh := negb (bool_decide (who ∈ o_approvals m)) && (N.of_nat (length (o_approvals m)) <? t)).
  assert (E : (t <=? (if fresh then N.of_nat (length (o_approvals m)) + 1 else N.of_nat (length (o_approvals m)))) = true).
  { apply N.leb_le. destruct Hn as [Hn|[Hw Hn]]; [destruct fresh; lia|]. unfold fresh. rewrite bool_decide_eq_false_2 by exact Hw. cbn [negb andb].
    destruct (_ <? t) eqn:E; [lia | apply N.ltb_ge in E; lia]. }
  rewrite E. cbn [andb]. unfold drop_op. cbn [m_now m_ops]. destruct (mrun acct hash e (acct l t) c _) as [[s' es]|]; cbn [snd].
  - exists es. split; [reflexivity|]. intros s1 es1 X. congruence.
  - exists []. split; [reflexivity|]. intros s1 es1 X. discriminate X.
Qed.
(** Anyone of the group can open, and anyone who did not approve can approve. *)
Lemma opens acct hash s at_ e who t l h : group l -> who ∈ l -> 2 <= t ->
  op_of s (acct l t) h = None -> w_deposit e who = true ->
  let r := mstep_run acct hash s (MTx at_ e who (MApprove t (without who l) None h)) in
  snd r = [MOpened who (acct l t) h (multi_deposit t)] /\ op_of (fst r) (acct l t) h = Some (MOp at_ (multi_deposit t) who [who]).
Proof.
  intros [Hs Hl] Hin Ht Hm Hd. unfold op_of in *. cbn [mstep_run mrun]. unfold operate. rewrite (checked_group _ _ _ _ (conj Hs Hl) Hin Ht). cbn [m_ops].
  rewrite Hm, Hd. cbn. rewrite lookup_insert. auto.
Qed.
Lemma approves acct hash s at_ e who t l h m : group l -> who ∈ l -> 2 <= t ->
  op_of s (acct l t) h = Some m -> who ∉ o_approvals m -> N.of_nat (length (o_approvals m)) < t ->
  let r := mstep_run acct hash s (MTx at_ e who (MApprove t (without who l) (Some (o_when m)) h)) in
  snd r = [MApproved who (acct l t) h] /\
  exists m', op_of (fst r) (acct l t) h = Some m' /\ o_when m' = o_when m /\ length (o_approvals m') = S (length (o_approvals m)) /\
    forall y, y ∈ o_approvals m' <-> y = who \/ y ∈ o_approvals m.
Proof.
  intros [Hs Hl] Hin Ht Hm Hw Hn. unfold op_of in *. cbn [mstep_run mrun]. unfold operate. rewrite (checked_group _ _ _ _ (conj Hs Hl) Hin Ht). cbn [m_ops].
  rewrite Hm, bool_decide_eq_true_2 by reflexivity. cbv zeta. rewrite bool_decide_eq_false_2 by exact Hw.
  replace (N.of_nat (length (o_approvals m)) <? t) with true by (symmetry; apply N.ltb_lt; exact Hn). cbn [negb andb snd fst put_op m_ops m_now].
  split; [reflexivity|]. eexists. rewrite lookup_insert. split; [reflexivity|]. cbn [o_when o_approvals]. split; [reflexivity|].
  split; [apply insert_at_length|]. intros y. apply insert_at_in.
Qed.

(** Approvals stay until the operation is over. *)
Lemma mprim_stays acct s x s' id h m w : mprim acct s x s' -> op_of s id h = Some m -> w ∈ o_approvals m ->
  (exists m', op_of s' id h = Some m' /\ w ∈ o_approvals m' /\ o_depositor m' = o_depositor m) \/ (exists w' d n, x = MExecuted w' id h d n) \/
  (exists n, x = MCancelled (o_depositor m) id h n).
Proof.
  unfold op_of. intros Hp Hm Hw. destruct Hp as [w1 k|w1 l t h0 Hin Hno|w1 l t h0 m0 Hin Hm0 Hw0|id0 h0 m0 Hm0|w1 l t h0 m0 Hin Hm0 Ht|w1 l Hin]; cbn.
  - left. eauto.
  - left. exists m. rewrite lookup_insert_ne by congruence. auto.
  - left. destruct (decide ((acct l t, h0) = (id, h))) as [E|E].
    + injection E as <- <-. rewrite lookup_insert. eexists. split; [reflexivity|]. cbn. rewrite Hm in Hm0. injection Hm0 as <-. split; [|reflexivity].
      apply insert_at_in. right. exact Hw.
    + exists m. rewrite lookup_insert_ne by exact E. auto.
  - destruct (decide ((id0, h0) = (id, h))) as [E|E].
    + injection E as -> ->. rewrite Hm in Hm0. injection Hm0 as <-. right. right. eauto.
    + left. exists m. rewrite lookup_delete_ne by exact E. auto.
  - destruct (decide ((acct l t, h0) = (id, h))) as [E|E].
    + injection E as <- <-. right. left. eauto.
    + left. exists m. rewrite lookup_delete_ne by exact E. auto.
  - left. eauto.
Qed.
Lemma mprims_stay acct s l s' : mprims acct s l s' -> forall id h m w, op_of s id h = Some m -> w ∈ o_approvals m ->
  (exists m', op_of s' id h = Some m' /\ w ∈ o_approvals m' /\ o_depositor m' = o_depositor m) \/ (exists w' d n, MExecuted w' id h d n ∈ l) \/
  (exists n, MCancelled (o_depositor m) id h n ∈ l).
Proof.
  induction 1 as [s|s x s1 l s2 Hp _ IH]; intros id h m w Hm Hw; [left; eauto|].
  destruct (mprim_stays _ _ _ _ _ _ _ _ Hp Hm Hw) as [(m1 & Hm1 & Hw1 & Hd)|[(w' & d & n & ->)|(n & ->)]].
  - destruct (IH _ _ _ _ Hm1 Hw1) as [(m2 & ? & ? & E)|[(w' & d & n & X)|(n & X)]].
    + left. exists m2. rewrite <- Hd. auto.
    + right. left. exists w', d, n. right. exact X.
    + right. right. exists n. right. rewrite <- Hd. exact X.
  - right. left. exists w', d, n. left.
  - right. right. exists n. left.
Qed.
Lemma approval_stays acct hash s x id h m w : op_of s id h = Some m -> w ∈ o_approvals m ->
  let r := mstep_run acct hash s x in
  (exists m', op_of (fst r) id h = Some m' /\ w ∈ o_approvals m' /\ o_depositor m' = o_depositor m) \/ (exists w' d n, MExecuted w' id h d n ∈ snd r) \/
  (exists n, MCancelled (o_depositor m) id h n ∈ snd r).
Proof.
  intros Hm Hw r. destruct x as [at_ e who c]. unfold r. cbn [mstep_run]. destruct (mrun acct hash e who c (Mst at_ (m_ops s))) as [[s' l]|] eqn:E; cbn [fst snd].
  - apply mrun_prims in E. exact (mprims_stay _ _ _ _ E _ _ _ _ Hm Hw).
  - left. exists m. auto.
Qed.
(** Who opened can cancel, and has the deposit back. *)
Lemma opener_cancels acct hash s at_ e t l h m : group l -> o_depositor m ∈ l -> 2 <= t ->
  op_of s (acct l t) h = Some m ->
  let r := mstep_run acct hash s (MTx at_ e (o_depositor m) (MCancel t (without (o_depositor m) l) (o_when m) h)) in
  snd r = [MCancelled (o_depositor m) (acct l t) h (o_deposit m)] /\ op_of (fst r) (acct l t) h = None.
Proof.
  intros [Hs Hl] Hin Ht Hm. unfold op_of in *. cbn [mstep_run mrun]. rewrite (checked_group _ _ _ _ (conj Hs Hl) Hin Ht). cbn [m_ops]. rewrite Hm.
  rewrite bool_decide_eq_true_2, N.eqb_refl by reflexivity. cbn. rewrite lookup_delete. auto.
Qed.

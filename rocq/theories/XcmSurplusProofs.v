From Verif Require Import Base XcmTypes AssetLocationModel OriginTypes AccountsModel PaymentsSpec XcmConfigModel XcmConfigSpec XcmCountable XcmExecModel XcmExecSpec XcmTraderSpec XcmSurplusSpec
  XcmTraderProofs XcmExecProofs XcmRunProofs XcmMessageProofs RuntimeModel XcmNativeProofs XcmWeightsModel XcmWeightsSpec XcmWeightsProofs.
From stdpp Require Import gmap.
Open Scope N_scope.

(** * What the machine keeps about weight *)

Definition sets_aside (i : xinstr) : bool := match i with XTransact _ _ _ | XSetErrorHandler _ | XSetAppendix _ => true | _ => false end.
Definition books (m : machine) : weight * weight * weight * list xinstr * list xinstr * list xinstr := (m_surplus m, m_hweight m, m_aweight m, m_prog m, m_handler m, m_appendix m).
Lemma delivery_books e m m' : take_delivery_fee e m = XOk m' -> books m' = books m.
Proof. unfold take_delivery_fee. intros H. xinv H. destruct (m_jit m); xinv H; injection H as <-; done. Qed.
Lemma refund_books e m m' : refund_surplus e m = XOk m' -> books m' = books m.
Proof. unfold refund_surplus. intros H. destruct (weight_le _ _); [by injection H as <-|]. destruct (refund_weight _ _ _ _) as [t [a|]]; [destruct (_ && _); [done|]|]; injection H as <-; done. Qed.
Lemma exec_books e m i m' : sets_aside i = false -> exec_instr e m i = XOk m' -> books m' = books m.
Proof.
  intros Hs H. destruct i; try discriminate Hs; cbn [exec_instr] in H; try discriminate H.
  all: try (by apply refund_books in H).
  all: try (by apply delivery_books in H).
  all: try (xinv H; injection H as <-; done).
  - xinv H. by apply delivery_books in H.
  - destruct (saturating_take _ _). xinv H. by injection H as <-.
  - xinv H. apply delivery_books in E. destruct (saturating_take _ _). xinv H. injection H as <-. exact E.
  - xinv H. apply delivery_books in E. destruct (saturating_take _ _). injection H as <-. exact E.
  - xinv H. apply delivery_books in E. destruct (saturating_take _ _). xinv H. injection H as <-. exact E.
  - destruct limit; [|by injection H as <-]. xinv H; by injection H as <-.
  - xinv H. injection H as <-. by destruct k.
Qed.

(** * The account of a run *)

Definition part (c : weight -> N) : Prop := c = fst \/ c = snd.
Definition cost (c : weight -> N) (i : xinstr) : N := c (instr_weight i) + c (set_aside i).
Definition tot (c : weight -> N) (p : list xinstr) : N := total_of (cost c) p.
Definition waiting (c : weight -> N) (m : machine) : N := tot c (m_prog m) + tot c (m_handler m) + tot c (m_appendix m).
Definition count (m : machine) : nat := (instructions (m_prog m) + instructions (m_handler m) + instructions (m_appendix m))%nat.
Definition balanced (T u : weight) (m : machine) : Prop :=
  forall c, part c -> c (m_surplus m) + c u + waiting c m = c T /\ c (m_hweight m) = tot c (m_handler m) /\ c (m_aweight m) = tot c (m_appendix m).
Definition modest (T : weight) : Prop := forall c, part c -> c T <= u64_max.

Lemma part_add c a b : part c -> c (weight_sat_add a b) = sat64 (c a + c b).
Proof. by intros [-> | ->]. Qed.
Lemma part_sub c a b : part c -> c (weight_sub a b) = c a - c b.
Proof. by intros [-> | ->]. Qed.
Lemma part_zero c : part c -> c (0, 0) = 0.
Proof. by intros [-> | ->]. Qed.
Lemma sat_small n : n <= u64_max -> sat64 n = n.
Proof. unfold sat64. lia. Qed.
Lemma tot_nil c : tot c [] = 0.
Proof. done. Qed.
Lemma tot_step c i p : tot c (i :: p) = cost c i + tot c (inner i) + tot c p.
Proof. unfold tot. by rewrite total_step. Qed.
Lemma count_nil : instructions [] = 0%nat.
Proof. done. Qed.
Lemma count_step i p : instructions (i :: p) = (S (instructions (inner i)) + instructions p)%nat.
Proof. change (instructions (i :: p)) with (instr_count i + instructions p)%nat. by rewrite instr_count_unfold. Qed.
Lemma weigh_tot p : (instructions p <= 100)%nat -> (forall c, part c -> tot c p <= u64_max) -> weigh p = Some (tot fst p, tot snd p).
Proof. intros H1 H2. apply weigh_exact. split_and!; [done|apply (H2 fst); by left|apply (H2 snd); by right|done]. Qed.
Lemma weigh_one_tot i : (instructions (inner i) <= 100)%nat -> (forall c, part c -> cost c i + tot c (inner i) <= u64_max) ->
  weigh_one i = Some (cost fst i + tot fst (inner i), cost snd i + tot snd (inner i)).
Proof.
  intros H1 H2. unfold weigh_one. rewrite weigh_instr_eq. unfold weighed, inner_count. rewrite (proj2 (N.leb_le _ _)) by (unfold u32_max; lia). rewrite !sum_inner. cbn [andb].
  change (time_of i + total_of time_of (inner i)) with (cost fst i + tot fst (inner i)). change (proof_of i + total_of proof_of (inner i)) with (cost snd i + tot snd (inner i)).
  unfold fits. rewrite !(proj2 (N.leb_le _ _)); [done|apply H2; by right|apply H2; by left].
Qed.
Lemma skipped_tot : forall p, (instructions p <= 100)%nat -> (forall c, part c -> tot c p <= u64_max) -> forall c, part c -> c (skipped p) = tot c p.
Proof.
  induction p as [|i p IH]; intros H1 H2 c Hc; [exact (part_zero c Hc)|]. rewrite count_step in H1. cbn [skipped]. rewrite weigh_one_tot.
  - rewrite part_add, IH; [|lia| |done|done].
    + pose proof (H2 c Hc) as Hb. rewrite tot_step in *. assert (c (cost fst i + tot fst (inner i), cost snd i + tot snd (inner i)) = cost c i + tot c (inner i)) as -> by (by destruct Hc as [-> | ->]).
      apply sat_small. lia.
    + intros d Hd. specialize (H2 d Hd). rewrite tot_step in H2. lia.
  - lia.
  - intros d Hd. specialize (H2 d Hd). rewrite tot_step in H2. lia.
Qed.

Definition uses (e : xenv) (m : machine) : weight :=
  match m_prog m with
  | [] => (0, 0)
  | i :: p => (fst (instr_weight i) + fst (call_part e (xset_prog p m) i), snd (instr_weight i) + snd (call_part e (xset_prog p m) i))
  end.
Definition plus (a b : weight) : weight := (fst a + fst b, snd a + snd b).
Lemma part_plus c a b : part c -> c (plus a b) = c a + c b.
Proof. by intros [-> | ->]. Qed.
Lemma part_uses c e m i p : part c -> m_prog m = i :: p -> c (uses e m) = c (instr_weight i) + c (call_part e (xset_prog p m) i).
Proof. unfold uses. by intros [-> | ->] ->. Qed.
Lemma part_honest c e m call : honest_calls e -> part c -> c (xe_call_used e m call) <= c (xe_call_weight e call).
Proof. intros H [-> | ->]; apply H. Qed.
Lemma part_le c a b : part c -> weight_le a b = true -> c a <= c b.
Proof. intros Hc H. apply weight_le_iff in H. destruct Hc as [-> | ->]; apply H. Qed.

Section account.
  Context (e : xenv) (Hh : honest_calls e) (T : weight) (HT : modest T).

  Ltac counted := cbn [m_prog m_handler m_appendix to_handler to_appendix xset_prog xset_aweight xset_appendix xset_hweight xset_handler xset_chain credit xset_surplus inner] in *; rewrite ?count_nil in *; lia.
  Lemma balanced_books u m m' : books m' = books m -> balanced T u m -> balanced T u m'.
  Proof. unfold books. intros [= H1 H2 H3 H4 H5 H6] H c Hc. unfold waiting. rewrite H1, H2, H3, H4, H5, H6. exact (H c Hc). Qed.
  Lemma step_balanced u m m' : balanced T u m -> (count m <= 100)%nat -> xstep e m = XOk m' -> balanced T (plus u (uses e m)) m' /\ (count m' <= 100)%nat.
  Proof.
    intros Hb Hn H. unfold xstep in H. destruct (m_prog m) as [|i p] eqn:Ep.
    - injection H as <-. assert (forall w, plus w (uses e m) = w) as -> by (intros [a b]; unfold plus, uses; rewrite Ep; cbn [fst snd]; by rewrite !N.add_0_r).
      destruct (halted m); [done|]. split.
      + intros c Hc. destruct (Hb c Hc) as (H1 & H2 & H3). specialize (HT c Hc). unfold waiting in *. rewrite Ep in H1. cbn [m_surplus m_hweight m_aweight m_prog m_handler m_appendix to_appendix xset_prog xset_aweight xset_appendix xset_hweight xset_handler credit xset_surplus].
        rewrite tot_nil in H1. rewrite part_add, H2, (part_zero c Hc), !tot_nil by done. rewrite sat_small by lia. split_and!; try done; lia.
      + unfold count in *. rewrite Ep in Hn. counted.
    - destruct (exec_instr e (xset_prog p m) i) as [m1| |] eqn:Ei; [| |done].
      + injection H as <-. destruct (sets_aside i) eqn:Es.
        2: { assert (inner i = [] /\ set_aside i = (0, 0) /\ call_part e (xset_prog p m) i = (0, 0)) as (I1 & I2 & I3) by (by destruct i). split.
             - apply (balanced_books _ (xset_prog p m)); [by apply (exec_books e _ i)|]. intros c Hc. destruct (Hb c Hc) as (H1 & H2 & H3).
               unfold waiting in *. rewrite Ep, tot_step, I1, tot_nil in H1. unfold cost in H1. rewrite I2, (part_zero c Hc) in H1.
               rewrite part_plus, (part_uses c e m i p), I3, (part_zero c Hc) by done. cbn [m_surplus m_hweight m_aweight m_prog m_handler m_appendix xset_prog]. split_and!; try done; lia.
             - apply (exec_books e) in Ei; [|done]. injection Ei as H1 H2 H3 H4 H5 H6. unfold count in *. rewrite H4, H5, H6. rewrite Ep, count_step in Hn. counted. }
        assert (count m = S (instructions (inner i)) + instructions p + instructions (m_handler m) + instructions (m_appendix m))%nat as Hn' by (unfold count; by rewrite Ep, count_step).
        assert (forall q, i = XSetErrorHandler q \/ i = XSetAppendix q -> weigh q = Some (tot fst q, tot snd q)) as Hw.
        { intros q Hq. assert (inner i = q) as Hi by (by destruct Hq as [-> | ->]). apply weigh_tot; [rewrite Hi in Hn'; lia|]. intros c Hc. destruct (Hb c Hc) as (H1 & _).
          unfold waiting in H1. rewrite Ep, tot_step, Hi in H1. specialize (HT c Hc). lia. }
        destruct i; try discriminate Es.
        * cbn [exec_instr] in Ei. pose proof Ei as Ei0. xinv Ei. injection Ei as <-. split.
          -- intros c Hc. destruct (Hb c Hc) as (H1 & H2 & H3). specialize (HT c Hc). rewrite part_plus, (part_uses c e m _ p) by done. unfold call_part. cbn [exec_instr]. rewrite Ei0.
             unfold waiting in *. rewrite Ep, tot_step in H1. unfold cost in H1. cbn [inner set_aside] in H1. rewrite tot_nil in H1.
             cbn [m_surplus m_hweight m_aweight m_prog m_handler m_appendix xset_prog credit xset_surplus xset_chain]. rewrite part_add, part_sub by done.
             pose proof (part_honest c e (xset_prog p m) call Hh Hc) as Hle.
             match goal with H : weight_le (xe_call_weight e call) _ = true |- _ => apply (part_le c _ _ Hc) in H end.
             rewrite sat_small by lia. split_and!; try done; lia.
          -- unfold count. counted.
        * cbn [exec_instr] in Ei. rewrite (Hw p0 (or_introl eq_refl)) in Ei. cbn [xsome xbind] in Ei. injection Ei as <-. split.
          -- intros c Hc. destruct (Hb c Hc) as (H1 & H2 & H3). specialize (HT c Hc). rewrite part_plus, (part_uses c e m _ p) by done. cbn [call_part].
             unfold waiting in *. rewrite Ep, tot_step in H1. unfold cost in H1. cbn [inner set_aside] in H1.
             cbn [m_surplus m_hweight m_aweight m_prog m_handler m_appendix xset_prog credit xset_surplus xset_handler xset_hweight]. rewrite part_add, (part_zero c Hc) in * by done.
             assert (c (tot fst p0, tot snd p0) = tot c p0) as -> by (by destruct Hc as [-> | ->]). rewrite sat_small by lia. split_and!; try done; lia.
          -- unfold count. counted.
        * cbn [exec_instr] in Ei. rewrite (Hw p0 (or_intror eq_refl)) in Ei. cbn [xsome xbind] in Ei. injection Ei as <-. split.
          -- intros c Hc. destruct (Hb c Hc) as (H1 & H2 & H3). specialize (HT c Hc). rewrite part_plus, (part_uses c e m _ p) by done. cbn [call_part].
             unfold waiting in *. rewrite Ep, tot_step in H1. unfold cost in H1. cbn [inner set_aside] in H1.
             cbn [m_surplus m_hweight m_aweight m_prog m_handler m_appendix xset_prog credit xset_surplus xset_appendix xset_aweight]. rewrite part_add, (part_zero c Hc) in * by done.
             assert (c (tot fst p0, tot snd p0) = tot c p0) as -> by (by destruct Hc as [-> | ->]). rewrite sat_small by lia. split_and!; try done; lia.
          -- unfold count. counted.
      + assert (forall q, i = XSetErrorHandler q \/ i = XSetAppendix q -> False) as Hno.
        { intros q Hq. assert (weigh q = Some (tot fst q, tot snd q)) as Hw.
          { assert (inner i = q) as Hi by (by destruct Hq as [-> | ->]). apply weigh_tot; [unfold count in Hn; rewrite Ep, count_step, Hi in Hn; lia|]. intros c Hc. destruct (Hb c Hc) as (H1 & _).
            unfold waiting in H1. rewrite Ep, tot_step, Hi in H1. specialize (HT c Hc). lia. }
          destruct Hq as [-> | ->]; cbn [exec_instr] in Ei; rewrite Hw in Ei; discriminate Ei. }
        assert (inner i = []) as Hin by (destruct i; try done; exfalso; eapply Hno; eauto).
        assert (call_part e (xset_prog p m) i = set_aside i) as Hcp by (destruct i; try done; unfold call_part; by rewrite Ei).
        assert (forall c, part c -> c (skipped p) = tot c p) as Hsk.
        { apply skipped_tot; [unfold count in Hn; rewrite Ep, count_step in Hn; lia|]. intros c Hc. destruct (Hb c Hc) as (H1 & _). unfold waiting in H1. rewrite Ep, tot_step in H1. specialize (HT c Hc). lia. }
        assert (forall c, part c -> c (m_surplus (credit (skipped p) m)) = c (m_surplus m) + tot c p) as Hcr.
        { intros c Hc. unfold credit. cbn [m_surplus xset_surplus]. rewrite part_add, Hsk by done. apply sat_small. destruct (Hb c Hc) as (H1 & _). unfold waiting in H1. rewrite Ep, tot_step in H1. specialize (HT c Hc). lia. }
        destruct (m_handler m) as [|h r] eqn:Eh; injection H as <-.
        * split.
          -- intros c Hc. destruct (Hb c Hc) as (H1 & H2 & H3). rewrite part_plus, (part_uses c e m i p), Hcp by done. unfold waiting in *. rewrite Ep, Eh, tot_step, Hin, !tot_nil in H1. unfold cost in H1.
             specialize (Hcr c Hc). revert Hcr. cbn [m_surplus m_hweight m_aweight m_prog m_handler m_appendix to_appendix xset_prog xset_aweight xset_appendix xset_hweight xset_handler credit xset_surplus].
             intros ->. rewrite Eh, (part_zero c Hc), tot_nil. split_and!; try done; lia.
          -- unfold count in *. rewrite Ep, Eh, count_step in Hn. cbn [m_handler to_appendix xset_prog xset_aweight xset_appendix xset_hweight xset_handler credit xset_surplus]. rewrite Eh. counted.
        * split.
          -- intros c Hc. destruct (Hb c Hc) as (H1 & H2 & H3). rewrite part_plus, (part_uses c e m i p), Hcp by done. unfold waiting in *. rewrite Ep, Eh, tot_step, Hin, !tot_nil in H1. unfold cost in H1.
             specialize (Hcr c Hc). revert Hcr. cbn [m_surplus m_hweight m_aweight m_prog m_handler m_appendix to_handler xset_prog xset_aweight xset_appendix xset_hweight xset_handler credit xset_surplus].
             intros ->. rewrite Eh, (part_zero c Hc), tot_nil. split_and!; try done; lia.
          -- unfold count in *. rewrite Ep, Eh, count_step in Hn. cbn [m_prog m_handler m_appendix to_handler xset_prog xset_hweight xset_handler credit xset_surplus]. rewrite Eh. counted.
  Qed.
  Lemma steps_balanced : forall n u m m', balanced T u m -> (count m <= 100)%nat -> xsteps e n m = XOk m' ->
    balanced T (fst u + used_time e (tried e n m), snd u + used_proof e (tried e n m)) m'.
  Proof.
    induction n as [|n IH]; intros u m m' Hb Hn H.
    - injection H as <-. cbn [tried used_time used_proof foldr]. rewrite !N.add_0_r. by destruct u.
    - cbn [xsteps] in H. destruct (xstep e m) as [m1| |] eqn:E1; try done. cbn [xbind] in H. destruct (step_balanced u m m1 Hb Hn E1) as [Hb1 Hn1].
      specialize (IH _ _ _ Hb1 Hn1 H). cbn [tried]. rewrite E1. intros c Hc. specialize (IH c Hc). revert IH.
      assert (c (fst (plus u (uses e m)) + used_time e (tried e n m1), snd (plus u (uses e m)) + used_proof e (tried e n m1)) =
              c (fst u + used_time e (match m_prog m with [] => [] | i :: p => [(xset_prog p m, i)] end ++ tried e n m1),
                 snd u + used_proof e (match m_prog m with [] => [] | i :: p => [(xset_prog p m, i)] end ++ tried e n m1))) as ->; [|done].
      unfold plus, uses. destruct (m_prog m) as [|i p]; [cbn [app fst snd]; by rewrite !N.add_0_r|]. cbn [app fst snd].
      change (used_time e ((xset_prog p m, i) :: tried e n m1)) with (fst (instr_weight i) + fst (call_part e (xset_prog p m) i) + used_time e (tried e n m1)).
      change (used_proof e ((xset_prog p m, i) :: tried e n m1)) with (snd (instr_weight i) + snd (call_part e (xset_prog p m) i) + used_proof e (tried e n m1)).
      by rewrite !N.add_assoc.
  Qed.
End account.

Lemma let_through_same (f : xinstr -> N) para origin p need credit p' : (forall a l1 l2, f (XBuy a l1) = f (XBuy a l2)) -> let_through para origin p need credit = Some p' -> total_of f p' = total_of f p.
Proof.
  unfold let_through. intros Hf El. destruct (computed_origin _ _ _ _) as [o r]. destruct (take_weight_credit _ _); [by injection El as <-|].
  destruct (paid_execution _ _); [injection El as <-; by apply total_set_limit|]. destruct (unpaid_execution _ _ _ _); by try injection El as <-.
Qed.
Lemma let_through_weigh para origin p need credit p' w : let_through para origin p need credit = Some p' -> weigh p = Some w -> weigh p' = Some w.
Proof.
  intros El Hw. apply weigh_exact in Hw as (H1 & H2 & H3 & ->). apply weigh_exact. unfold total_time, total_proof in *.
  pose proof (let_through_same (fun _ => 1) _ _ _ _ _ _ ltac:(done) El) as Hc.
  pose proof (let_through_same (fun i => fst (instr_weight i) + fst (set_aside i)) _ _ _ _ _ _ ltac:(done) El) as Ht.
  pose proof (let_through_same (fun i => snd (instr_weight i) + snd (set_aside i)) _ _ _ _ _ _ ltac:(done) El) as Hp. rewrite Ht, Hp. split_and!; try done.
  rewrite !total_const in Hc. lia.
Qed.
Lemma surplus_exact : forall e para ch origin p need p' n m, honest_calls e -> weigh p = Some need -> let_through para origin p need (0, 0) = Some p' -> runs e ch origin p' n m ->
  fst (m_surplus m) + used_time e (tried e n (start ch origin p')) = fst need /\ snd (m_surplus m) + used_proof e (tried e n (start ch origin p')) = snd need.
Proof.
  intros e para ch origin p need p' n m Hh Hw Hl [Hr Hend].
  assert (weigh p' = Some need) as Hw' by exact (let_through_weigh _ _ _ _ _ _ _ Hl Hw).
  apply weigh_exact in Hw' as (H1 & H2 & H3 & ->).
  assert (modest (total_time p', total_proof p')) as HT by (by intros c [-> | ->]).
  assert (balanced (total_time p', total_proof p') (0, 0) (start ch origin p')) as Hb.
  { intros c Hc. unfold waiting. cbn [start m_surplus m_hweight m_aweight m_prog m_handler m_appendix]. rewrite (part_zero c Hc), tot_nil. split_and!; try done. destruct Hc as [-> | ->]; cbn [fst snd]; unfold tot; rewrite !N.add_0_r; done. }
  pose proof (steps_balanced e Hh _ HT n _ _ _ Hb ltac:(unfold count; cbn; rewrite !Nat.add_0_r; exact H1) Hr) as Hf.
  assert (waiting fst m = 0 /\ waiting snd m = 0) as [W1 W2].
  { unfold halted in Hend. unfold waiting. destruct (m_prog m), (m_handler m), (m_appendix m); done. }
  destruct (Hf fst (or_introl eq_refl)) as (F1 & _), (Hf snd (or_intror eq_refl)) as (F2 & _). cbn [fst snd] in F1, F2 |- *. split; lia.
Qed.

(** * What execution costs in the end *)

Definition left_of (f : xinstr -> N) (m : machine) : N := total_of f (m_prog m) + total_of f (m_handler m) + total_of f (m_appendix m).
Definition next_of (f : xinstr -> N) (m : machine) : N := match m_prog m with i :: _ => f i | [] => 0 end.
Lemma left_step e f m m' : xstep e m = XOk m' -> left_of f m' + next_of f m <= left_of f m.
Proof.
  unfold left_of, next_of. intros H. unfold xstep in H. destruct (m_prog m) as [|i p] eqn:Ep.
  - injection H as <-. destruct (halted m); [rewrite Ep; lia|]. change (total_of f []) with 0. unfold to_appendix, credit. cbn [m_chain m_prog m_handler m_appendix xset_prog xset_handler xset_appendix xset_hweight xset_aweight xset_surplus]. change (total_of f []) with 0. lia.
  - destruct (exec_instr e (xset_prog p m) i) as [m1| |] eqn:E; [|..|done].
    + injection H as <-. apply exec_progs in E as (E1 & [(E2 & E3)|[(q & -> & E2 & E3)|(q & -> & E2 & E3)]]); cbn in E1, E2, E3; rewrite E1, E2, E3, total_step; cbn [inner]; lia.
    + rewrite total_step. destruct (m_handler m) as [|j q] eqn:Eh; injection H as <-; unfold to_handler, to_appendix, credit; cbn [m_chain m_prog m_handler m_appendix xset_prog xset_handler xset_appendix xset_hweight xset_aweight xset_surplus]; rewrite ?Eh; change (total_of f []) with 0; lia.
Qed.
Lemma delivery_money e m m' : take_delivery_fee e m = XOk m' -> m_trader m' = m_trader m /\ m_refunded m' = m_refunded m.
Proof. unfold take_delivery_fee. intros H. xinv H. destruct (m_jit m); xinv H; injection H as <-; done. Qed.
Lemma exec_money e m i m' : buys i = false -> asks_refund i = false -> exec_instr e m i = XOk m' -> m_trader m' = m_trader m /\ m_refunded m' = m_refunded m.
Proof.
  intros H1 H2 H. destruct i; try discriminate H1; try discriminate H2; cbn [exec_instr] in H; try discriminate H.
  all: try (by apply delivery_money in H).
  all: try (xinv H; injection H as <-; done).
  - xinv H. by apply delivery_money in H.
  - destruct (saturating_take _ _). xinv H. by injection H as <-.
  - xinv H. apply delivery_money in E. destruct (saturating_take _ _). xinv H. injection H as <-. exact E.
  - xinv H. apply delivery_money in E. destruct (saturating_take _ _). injection H as <-. exact E.
  - xinv H. apply delivery_money in E. destruct (saturating_take _ _). xinv H. injection H as <-. exact E.
  - xinv H. injection H as <-. by destruct k.
Qed.
Definition count_if (f : xinstr -> bool) (i : xinstr) : N := if f i then 1 else 0.
Definition wrong_buy (need : weight) (i : xinstr) : N := match i with XBuy _ l => if bool_decide (l = Some need) then 0 else 1 | _ => 0 end.
Definition bought_once (e : xenv) (need : weight) (t : trader) : Prop :=
  t = Trader None need (weight_to_fee (xe_base e) need) \/ exists k id min, fee_asset_id k = Some id /\ xe_asset e id = Some (true, min) /\ k <> relay_location /\ costs e need k (N.max (in_terms_of min (weight_to_fee (xe_base e) need)) min) /\
    t = Trader (Some (k, N.max (in_terms_of min (weight_to_fee (xe_base e) need)) min)) (0, 0) 0.
Definition frugal (e : xenv) (need : weight) (m : machine) : Prop :=
  m_refunded m = (0, 0) /\ left_of (count_if asks_refund) m = 0 /\ left_of (wrong_buy need) m = 0 /\
  (m_trader m = no_trader /\ left_of (count_if buys) m <= 1 \/ bought_once e need (m_trader m) /\ left_of (count_if buys) m = 0).
Lemma next_le f m : next_of f m <= left_of f m.
Proof. unfold next_of, left_of. destruct (m_prog m) as [|i p]; [lia|]. rewrite total_step. lia. Qed.
Lemma fee_fits base w : weight_to_fee base w <= u128_max.
Proof. unfold weight_to_fee, ref_time_fee, proof_size_fee, linear_fee, sat128. lia. Qed.
Lemma zero_sat w : fst w <= u64_max -> snd w <= u64_max -> weight_sat_add (0, 0) w = w.
Proof. intros H1 H2. unfold weight_sat_add. cbn [fst snd]. rewrite !N.add_0_l, !sat_small by done. by destruct w. Qed.
Lemma frugal_step e need m m' : fst need <= u64_max -> snd need <= u64_max -> frugal e need m -> xstep e m = XOk m' -> frugal e need m'.
Proof.
  intros B1 B2 (H1 & H2 & H3 & H4) H. pose proof (left_step e (count_if asks_refund) m m' H) as L1. pose proof (left_step e (wrong_buy need) m m' H) as L2. pose proof (left_step e (count_if buys) m m' H) as L3.
  assert (m_refunded m' = (0, 0) /\ (m_trader m' = m_trader m \/ next_of (count_if buys) m = 1 /\ (m_trader m = no_trader -> bought_once e need (m_trader m')))) as [R1 R2].
  { pose proof (next_le (count_if asks_refund) m) as N1. pose proof (next_le (wrong_buy need) m) as N2. unfold next_of in *. unfold xstep in H. destruct (m_prog m) as [|i p].
    - injection H as <-. destruct (halted m); split; try done; by left.
    - destruct (exec_instr e (xset_prog p m) i) as [m1| |] eqn:E; [| |done].
      + injection H as <-. destruct (buys i) eqn:Eb.
        * destruct i as [| | | | | | | | | | | | | | |fee lim| | | | | | | | | | | ]; try discriminate Eb. rewrite H3 in N2. unfold wrong_buy in N2. case_bool_decide as El; [|lia]. subst lim.
          cbn [exec_instr] in E. xinv E. injection E as <-. destruct x0 as [t pr]. cbn [m_refunded m_trader xset_trader xset_hold xset_prog fst snd] in *. split; [done|]. right. split; [done|].
          intros Hnt. rewrite Hnt in *. match goal with H : buy_weight _ _ _ _ _ = Some _ |- _ => apply buy_cases in H as (Hpr & Hc & [(Hk & _ & (id & Hid & _) & ->)|(Hk & -> & ->)]) end.
          -- right. inversion Hc as [Hr|k id' min Hx Hcv Hi]; [by destruct Hk|]. subst k. exists (fst fee), id, min. assert (id' = id) as -> by (apply fee_asset_id_iff in Hid as [_ Hid]; congruence).
             match goal with H : _ = pr |- _ => rewrite H end. by split_and!.
          -- left. cbn [no_trader tr_asset tr_weight tr_native]. rewrite zero_sat by done. rewrite N.add_0_l. f_equal. unfold sat128. pose proof (fee_fits (xe_base e) need). lia.
        * destruct (asks_refund i) eqn:Ea; [rewrite H2 in N1; unfold count_if in N1; rewrite Ea in N1; lia|]. apply exec_money in E as [E1 E2]; [|done|done]. cbn in E1, E2. rewrite E1, E2. split; [done|by left].
      + destruct (m_handler m); injection H as <-; split; try done; by left. }
  pose proof (next_le (count_if buys) m) as N3. split_and!; [done|lia|lia|]. destruct H4 as [[T Hb]|[T Hb]].
  - destruct R2 as [-> | [Hn R2]]; [left; split; [done|lia]|]. right. split; [by apply R2|]. lia.
  - right. destruct R2 as [-> | [Hn R2]]; [split; [done|lia]|]. pose proof (next_le (count_if buys) m). lia.
Qed.
Lemma frugal_steps e need : fst need <= u64_max -> snd need <= u64_max -> forall n m m', frugal e need m -> xsteps e n m = XOk m' -> frugal e need m'.
Proof.
  intros B1 B2. induction n as [|n IH]; intros m m' Hf H; cbn [xsteps] in H; [by injection H as <-|]. xinv H. eapply IH; [|done]. by eapply frugal_step.
Qed.
Lemma wrong_le need p : total_of (wrong_buy need) p <= total_of (count_if buys) p.
Proof. apply total_le. intros i. destruct i; cbn; try done. by case_bool_decide. Qed.
Lemma set_limit_right need fee lim : forall pre p1, forallb loads pre = true -> total_of (count_if buys) (pre ++ XBuy fee lim :: p1) <= 1 ->
  total_of (wrong_buy need) (pre ++ XBuy fee (Some need) :: p1) = 0.
Proof.
  induction pre as [|i pre IH]; intros p1 Hl Hb; cbn [app] in *.
  - rewrite total_step in *. cbn [inner] in *. change (total_of _ []) with 0 in *. pose proof (wrong_le need p1). change (count_if buys (XBuy fee lim)) with 1 in Hb.
    assert (wrong_buy need (XBuy fee (Some need)) = 0) as -> by (unfold wrong_buy; by rewrite bool_decide_eq_true_2). lia.
  - cbn [forallb] in Hl. apply andb_prop in Hl as [Hi Hl]. rewrite total_step in *. rewrite IH; [|done|lia]. destruct i; try discriminate Hi; done.
Qed.

Lemma let_through_paid para origin p need p' : need <> (0, 0) -> parent_or_executive origin = false -> (how_many buys p <= 1)%nat -> let_through para origin p need (0, 0) = Some p' ->
  total_of (wrong_buy need) p' = 0.
Proof.
  unfold let_through. intros Hn Ho Hb H. destruct (computed_origin (universal_location para) 8 origin (map shape p)) as [o r] eqn:Ec. rewrite need_nonzero in H by done.
  destruct (paid_execution r need) eqn:Ep.
  - injection H as <-. destruct (computed_split _ _ _ _ _ _ Ec) as (pre & p1 & -> & Hl & ->). destruct (paid_split _ _ Ep) as (pre2 & fee & lim & p2 & -> & Hl2).
    rewrite app_assoc in *. rewrite set_limit_loads by (by rewrite forallb_app, Hl, Hl2). apply (set_limit_right need fee lim); [by rewrite forallb_app, Hl, Hl2|]. unfold count_if. rewrite total_count. lia.
  - unfold unpaid_execution in H. rewrite (unprivileged _ _ _ _ _ Ho Ec) in H. done.
Qed.
Lemma unit_weight w : weight_le w (0, 0) = true -> w = (0, 0).
Proof. intros H. apply weight_le_iff in H as [H1 H2]. destruct w as [a b]. cbn [fst snd] in *. f_equal; lia. Qed.
Lemma min_left w need : fst w <= fst need -> snd w <= snd need -> weight_min w need = w.
Proof. intros. unfold weight_min. rewrite !N.min_l by done. by destruct w. Qed.
Lemma final_price : forall e para ch origin p need p' n m k paid, honest_calls e -> weigh p = Some need -> need <> (0, 0) -> parent_or_executive origin = false ->
  let_through para origin p need (0, 0) = Some p' -> runs e ch origin p' n m -> (how_many buys p <= 1)%nat -> how_many asks_refund p = 0%nat ->
  owed (m_trader m) k = paid -> paid <> 0 -> (size (m_hold m) < 128)%nat ->
  let unused := (fst need - used_time e (tried e n (start ch origin p')), snd need - used_proof e (tried e n (start ch origin p'))) in
  costs e need k paid /\
  owed (m_trader (settled e m)) k =
    (if bool_decide (k = Location 1 []) then paid - weight_to_fee (xe_base e) unused
     else match convert k with
          | Val (Some id) => match xe_asset e id with Some (_, min) => N.max (paid - in_terms_of min (weight_to_fee (xe_base e) unused)) min | None => paid end
          | _ => paid
          end).
Proof.
  intros e para ch origin p need p' n m k paid Hh Hw Hz Ho Hl Hr Hb Ha Hp Hnz Hsz unused.
  pose proof (surplus_exact _ _ _ _ _ _ _ _ _ Hh Hw Hl Hr) as [S1 S2].
  assert (m_surplus m = unused) as Hs. { unfold unused. destruct (m_surplus m) as [a b]. cbn [fst snd] in *. f_equal; lia. }
  pose proof Hw as Hw2. apply weigh_exact in Hw2 as (_ & B1 & B2 & Hneed). assert (fst need <= u64_max /\ snd need <= u64_max) as [C1 C2] by (by rewrite Hneed). clear Hneed B1 B2.
  assert (frugal e need m) as (F1 & _ & _ & F4).
  { destruct Hr as [Hr _]. eapply (frugal_steps e need C1 C2 n); [|exact Hr]. unfold frugal, left_of. cbn [start m_prog m_handler m_appendix m_trader m_refunded]. change (total_of ?f []) with 0. rewrite !N.add_0_r.
    split_and!; [done| | |].
    - rewrite (let_through_same (count_if asks_refund) _ _ _ _ _ _ ltac:(done) Hl). unfold count_if. rewrite total_count. lia.
    - by apply (let_through_paid para origin p need p').
    - left. split; [done|]. rewrite (let_through_same (count_if buys) _ _ _ _ _ _ ltac:(done) Hl). unfold count_if. rewrite total_count. lia. }
  assert (unrefunded m = unused) as Hu. { unfold unrefunded. rewrite F1, Hs. unfold weight_sub. cbn [fst snd]. rewrite !N.sub_0_r. by destruct unused. }
  assert (can_subsume m [(k, 0)] = true) as Hcs. { unfold can_subsume, holding_limit. cbn [length]. apply Nat.leb_le. lia. }
  destruct F4 as [[T _]|[[T|(k' & id & min & Hid & Hm & Hk' & Hc & T)] _]].
  - rewrite T in Hp. destruct Hnz. rewrite <-Hp. rewrite owed_cases. cbn. by destruct (bool_decide _).
  - rewrite T, owed_cases in Hp. cbn [tr_asset tr_native] in Hp. rewrite N.add_0_l in Hp. case_bool_decide as Hk; [|cbn [ind] in Hp; congruence]. cbn [ind] in Hp. change (k = relay_location) in Hk.
    rewrite (bool_decide_eq_true_2 (k = Location 1 [])) by done. split; [rewrite Hk, <-Hp; apply price_native|].
    unfold settled, refund_surplus. rewrite Hu. destruct (weight_le unused (0, 0)) eqn:E0.
    { apply unit_weight in E0. rewrite E0, T, owed_cases. cbn [tr_asset tr_native]. rewrite bool_decide_eq_true_2 by done. cbn [ind]. rewrite Hp, fee_zero. lia. }
    unfold refund_weight, refund_asset. rewrite T. cbn [tr_asset]. unfold refund_native. cbn [tr_asset tr_weight tr_native]. rewrite min_left by (unfold unused; cbn [fst snd]; lia).
    assert (owed (Trader None (weight_sub need unused) (weight_to_fee (xe_base e) need - weight_to_fee (xe_base e) unused)) k = paid - weight_to_fee (xe_base e) unused) as Hfin.
    { rewrite owed_cases. cbn [tr_asset tr_native]. rewrite bool_decide_eq_true_2 by done. cbn [ind]. by rewrite Hp. }
    destruct (0 <? _); [|exact Hfin]. unfold can_subsume in *. cbn [length fst] in *. rewrite Hcs. cbn [negb]. rewrite andb_false_r. exact Hfin.
  - rewrite T, owed_cases in Hp. cbn [tr_asset tr_native fst snd] in Hp. assert (forall b, ind b 0 = 0) as I0 by (by intros []). rewrite I0, N.add_0_r in Hp.
    case_bool_decide as Hk; [|cbn [ind] in Hp; congruence]. subst k'. cbn [ind] in Hp. rewrite Hp in Hc. split; [done|].
    rewrite (bool_decide_eq_false_2 (k = Location 1 [])) by done. pose proof Hid as Hid2. apply fee_asset_id_iff in Hid2 as [_ Hcv]. rewrite Hcv, Hm.
    unfold settled, refund_surplus. rewrite Hu. destruct (weight_le unused (0, 0)) eqn:E0.
    { apply unit_weight in E0. rewrite E0, T, owed_cases. cbn [tr_asset tr_native fst snd]. rewrite I0, N.add_0_r, bool_decide_eq_true_2 by done. cbn [ind]. rewrite Hp, fee_zero.
      assert (in_terms_of min 0 = 0) as -> by (unfold in_terms_of; rewrite N.mul_0_r; done). lia. }
    unfold refund_weight, refund_asset. rewrite T. cbn [tr_asset]. rewrite Hid. unfold charge_in_asset, to_asset_balance, min_balance. rewrite Hm, terms_eq. rewrite Hp.
    set (c := in_terms_of min (weight_to_fee (xe_base e) unused)).
    assert (forall t, tr_native t = 0 -> forall x, tr_asset t = Some (k, x) -> owed t k = x) as Hown. { intros t Ht x Hx. rewrite owed_cases, Ht, Hx, I0, N.add_0_r. cbn [fst snd]. by rewrite bool_decide_eq_true_2. }
    assert (forall x w, refund_native (xe_base e) (Trader (Some (k, x)) (0, 0) 0) w = (Trader (Some (k, x)) (0, 0) 0, None)) as Hnone.
    { intros x w. unfold refund_native. cbn [tr_asset tr_weight tr_native]. assert (weight_min w (0, 0) = (0, 0)) as -> by (unfold weight_min; cbn [fst snd]; by rewrite !N.min_0_r). by rewrite fee_zero. }
    destruct (N.ltb_spec min (paid - c)) as [Hlt|Hge].
    + destruct (N.ltb_spec 0 c) as [Hc0|Hc0].
      * unfold can_subsume in *. cbn [length fst] in *. rewrite Hcs. cbn [negb]. rewrite andb_false_r. cbn [m_trader xset_hold xset_refunded xset_trader]. erewrite Hown; [|done|done]. lia.
      * rewrite Hnone. cbn [m_trader xset_trader]. erewrite Hown; [|done|done]. lia.
    + destruct (N.ltb_spec 0 (paid - min)) as [Hc0|Hc0].
      * unfold can_subsume in *. cbn [length fst] in *. rewrite Hcs. cbn [negb]. rewrite andb_false_r. cbn [m_trader xset_hold xset_refunded xset_trader]. erewrite Hown; [|done|done]. lia.
      * rewrite Hnone. cbn [m_trader xset_trader]. erewrite Hown; [|done|done]. lia.
Qed.

(** * Weight is refunded once *)

Definition in_order (m : machine) : Prop := forall c, part c -> c (m_refunded m) <= c (m_surplus m) /\ c (m_surplus m) <= u64_max.
Lemma credit_order w m : in_order m -> in_order (credit w m).
Proof. intros H c Hc. specialize (H c Hc). cbn [credit xset_surplus m_refunded m_surplus]. rewrite part_add by done. unfold sat64. lia. Qed.
Lemma order_frame m m' : m_refunded m' = m_refunded m -> m_surplus m' = m_surplus m -> in_order m -> in_order m'.
Proof. intros H1 H2 H c Hc. rewrite H1, H2. exact (H c Hc). Qed.
Lemma refund_settles e m m' : in_order m -> refund_surplus e m = XOk m' -> m_surplus m' = m_surplus m /\ (m_refunded m' = m_refunded m /\ m_hold m' = m_hold m \/ m_refunded m' = m_surplus m).
Proof.
  intros Ho H. split; [by injection (refund_books _ _ _ H)|]. unfold refund_surplus in H. destruct (weight_le _ _); [injection H as <-; by left|].
  destruct (refund_weight _ _ _ _) as [t [a|]]; [destruct (_ && _); [done|]|]; injection H as <-; [right|by left]. cbn [m_refunded xset_hold xset_refunded].
  assert (forall c, part c -> c (weight_sat_add (m_refunded m) (unrefunded m)) = c (m_surplus m)) as Hc.
  { intros c Hc. unfold unrefunded. rewrite part_add, part_sub by done. specialize (Ho c Hc). unfold sat64. lia. }
  pose proof (Hc fst (or_introl eq_refl)) as H1. pose proof (Hc snd (or_intror eq_refl)) as H2. destruct (weight_sat_add _ _), (m_surplus m). cbn [fst snd] in *. congruence.
Qed.
Lemma exec_order e m i m' : in_order m -> exec_instr e m i = XOk m' -> in_order m'.
Proof.
  intros Ho H. destruct (asks_refund i) eqn:Ea.
  { destruct i; try discriminate Ea. destruct (refund_settles _ _ _ Ho H) as [H1 [[H2 _]|H2]]; intros c Hc; rewrite H1, H2; specialize (Ho c Hc); lia. }
  destruct (sets_aside i) eqn:Es.
  - assert (in_order (xset_refunded (m_refunded m) m)) as Ho' by exact Ho. destruct i; try discriminate Es; cbn [exec_instr] in H; xinv H; injection H as <-; [|exact (credit_order _ _ Ho)|exact (credit_order _ _ Ho)].
    apply credit_order. exact (order_frame m _ eq_refl eq_refl Ho).
  - pose proof (exec_books _ _ _ _ Es H) as Hb. injection Hb as Hb _ _ _ _ _. apply (order_frame m); [|done|done].
    destruct (buys i) eqn:Eb; [|by apply (exec_money e m i)]. destruct i; try discriminate Eb. cbn [exec_instr] in H. destruct limit; [|by injection H as <-]. xinv H. by injection H as <-.
Qed.
Lemma step_order e m m' : in_order m -> xstep e m = XOk m' -> in_order m'.
Proof.
  intros Ho H. unfold xstep in H. destruct (m_prog m) as [|i p].
  - injection H as <-. destruct (halted m); [done|]. exact (credit_order _ _ Ho).
  - destruct (exec_instr e (xset_prog p m) i) as [m1| |] eqn:E; [| |done].
    + injection H as <-. eapply exec_order; [|exact E]. exact Ho.
    + destruct (m_handler m); injection H as <-; exact (credit_order _ _ Ho).
Qed.
Lemma steps_order e : forall n m m', in_order m -> xsteps e n m = XOk m' -> in_order m'.
Proof. induction n as [|n IH]; intros m m' Ho H; cbn [xsteps] in H; [by injection H as <-|]. xinv H. eapply IH; [|exact H]. by eapply step_order. Qed.
Lemma refunded_once : forall e n ch origin p m m1, xsteps e n (start ch origin p) = XOk m -> exec_instr e m XRefund = XOk m1 ->
  fst (m_refunded m1) <= fst (m_surplus m1) /\ snd (m_refunded m1) <= snd (m_surplus m1) /\
  (m_hold m1 <> m_hold m -> exec_instr e m1 XRefund = XOk m1 /\ settled e m1 = m1).
Proof.
  intros e n ch origin p m m1 H H1. assert (in_order m) as Ho. { eapply steps_order; [|exact H]. intros c Hc. cbn [start m_refunded m_surplus]. rewrite (part_zero c Hc). split; [lia|]. unfold u64_max. lia. }
  pose proof (exec_order _ _ _ _ Ho H1) as Ho1. split; [apply Ho1; by left|]. split; [apply Ho1; by right|]. intros Hh.
  destruct (refund_settles _ _ _ Ho H1) as [E1 [[_ E2]|E2]]; [done|].
  assert (refund_surplus e m1 = XOk m1) as Hr.
  { unfold refund_surplus, unrefunded. rewrite E1, E2. unfold weight_sub. rewrite !N.sub_diag. done. }
  split; [exact Hr|]. unfold settled. by rewrite Hr.
Qed.

From Verif Require Import Base XcmTypes AssetLocationModel OriginTypes AccountsModel XcmConfigModel XcmConfigSpec XcmCountable XcmExecModel XcmExecSpec XcmExecProofs XcmRunProofs XcmMessageProofs
  XcmWeightsModel XcmWeightsSpec.
From stdpp Require Import gmap.
Open Scope N_scope.

(** * Totals *)

Definition sum_of (f : xinstr -> N) (l : list xinstr) : N := foldr (fun i acc => f i + acc) 0 l.
Lemma sum_of_app f l1 l2 : sum_of f (l1 ++ l2) = sum_of f l1 + sum_of f l2.
Proof. unfold sum_of. induction l1 as [|i l IH]; cbn [app foldr]; [lia|]. rewrite IH. lia. Qed.
Lemma total_cons f i p : total_of f (i :: p) = sum_of f (with_inner i) + total_of f p.
Proof. unfold total_of, all_instrs. cbn [map concat]. apply sum_of_app. Qed.
Definition inner (i : xinstr) : list xinstr := match i with XSetErrorHandler p | XSetAppendix p => p | _ => [] end.
Lemma sum_inner f i : sum_of f (with_inner i) = f i + total_of f (inner i).
Proof. unfold total_of, all_instrs. destruct i; cbn [with_inner inner map concat sum_of foldr]; done. Qed.
Lemma total_step f i p : total_of f (i :: p) = f i + total_of f (inner i) + total_of f p.
Proof. rewrite total_cons, sum_inner. done. Qed.
Lemma xinstr_nested (P : xinstr -> Prop) : (forall i, (forall j, In j (inner i) -> P j) -> P i) -> forall i, P i.
Proof.
  intros H. fix IH 1. intros i. apply H. destruct i; cbn [inner]; try (intros x Hx; exfalso; exact Hx).
  - revert p. fix IHp 1. intros [|j' q]; intros j Hj; [exfalso; exact Hj|]. destruct Hj as [<- | Hj]; [apply IH|exact (IHp q j Hj)].
  - revert p. fix IHp 1. intros [|j' q]; intros j Hj; [exfalso; exact Hj|]. destruct Hj as [<- | Hj]; [apply IH|exact (IHp q j Hj)].
Qed.
Lemma with_inner_unfold i : with_inner i = i :: all_instrs (inner i).
Proof. by destruct i. Qed.
Lemma instr_count_unfold i : instr_count i = S (instructions (inner i)).
Proof. by destruct i. Qed.
Lemma with_inner_count : forall i, length (with_inner i) = instr_count i.
Proof.
  apply (xinstr_nested (fun i => length (with_inner i) = instr_count i)). intros i IH. rewrite with_inner_unfold, instr_count_unfold. cbn [length]. f_equal.
  unfold all_instrs, instructions. revert IH. induction (inner i) as [|j q IHq]; intros IH; [done|]. cbn [map concat]. rewrite app_length, IH, IHq; [done| |by left].
  intros j' Hj'. apply IH. by right.
Qed.
Lemma all_instrs_count p : length (all_instrs p) = instructions p.
Proof.
  unfold all_instrs, instructions. induction p as [|i p IH]; [done|]. cbn [map concat]. rewrite app_length, with_inner_count, IH. done.
Qed.
Lemma total_const p : total_of (fun _ => 1) p = N.of_nat (instructions p).
Proof. rewrite <-all_instrs_count. unfold total_of. induction (all_instrs p) as [|i l IH]; [done|]. cbn [foldr length]. rewrite IH. lia. Qed.

(** * What a program weighs *)

Definition time_of (i : xinstr) : N := fst (instr_weight i) + fst (set_aside i).
Definition proof_of (i : xinstr) : N := snd (instr_weight i) + snd (set_aside i).
Definition inner_count (i : xinstr) : N := N.of_nat (instructions (inner i)).
Definition fits (a b : N) : bool := (a <=? u64_max) && (b <=? u64_max).
Definition weighed (i : xinstr) (left : N) : option (weight * N) :=
  if (inner_count i <=? left) && fits (sum_of time_of (with_inner i)) (sum_of proof_of (with_inner i))
  then Some ((sum_of time_of (with_inner i), sum_of proof_of (with_inner i)), left - inner_count i) else None.
Definition inner_counts (p : list xinstr) : N := foldr (fun i acc => inner_count i + acc) 0 p.
Lemma instructions_split p : N.of_nat (instructions p) = N.of_nat (length p) + inner_counts p.
Proof.
  induction p as [|i p IH]; [done|]. change (instructions (i :: p)) with (instr_count i + instructions p)%nat. rewrite instr_count_unfold.
  change (inner_counts (i :: p)) with (inner_count i + inner_counts p). unfold inner_count. cbn [length]. lia.
Qed.
Lemma weigh_list_eq p : (forall i, In i p -> forall left, weigh_instr left i = weighed i left) -> forall left acc, fits (fst acc) (snd acc) = true ->
  weigh_list left acc p =
  if (inner_counts p <=? left) && fits (fst acc + total_of time_of p) (snd acc + total_of proof_of p)
  then Some ((fst acc + total_of time_of p, snd acc + total_of proof_of p), left - inner_counts p) else None.
Proof.
  intros Hp. induction p as [|i p IH]; intros left acc Ha.
  - cbn [weigh_list inner_counts foldr]. unfold total_of. cbn. rewrite !N.add_0_r, Ha, N.sub_0_r. rewrite (proj2 (N.leb_le 0 left)) by lia. by destruct acc.
  - cbn [weigh_list inner_counts foldr]. rewrite Hp by by left. change (foldr _ 0 p) with (inner_counts p). rewrite !total_cons.
    specialize (IH (fun j Hj => Hp j (or_intror Hj))). unfold weighed.
    destruct (N.leb_spec (inner_count i) left) as [H1|H1]; cbn [andb].
    2: { rewrite (proj2 (N.leb_gt _ _)) by lia. done. }
    set (ti := sum_of time_of (with_inner i)). set (pi := sum_of proof_of (with_inner i)). destruct (fits ti pi) eqn:Hf.
    2: { assert (fits (fst acc + (ti + total_of time_of p)) (snd acc + (pi + total_of proof_of p)) = false) as ->; [|by rewrite andb_false_r].
         unfold fits in *. apply andb_false_iff in Hf as [Hf|Hf]; apply N.leb_gt in Hf; apply andb_false_iff; [left|right]; apply N.leb_gt; lia. }
    unfold weight_add. cbn [fst snd]. fold (fits (fst acc + ti) (snd acc + pi)). destruct (fits (fst acc + ti) (snd acc + pi)) eqn:Hf2.
    2: { assert (fits (fst acc + (ti + total_of time_of p)) (snd acc + (pi + total_of proof_of p)) = false) as ->; [|by rewrite andb_false_r].
         unfold fits in *. apply andb_false_iff in Hf2 as [Hf2|Hf2]; apply N.leb_gt in Hf2; apply andb_false_iff; [left|right]; apply N.leb_gt; lia. }
    rewrite IH by done. cbn [fst snd]. rewrite <-!N.add_assoc.
    assert ((inner_counts p <=? left - inner_count i) = (inner_count i + inner_counts p <=? left)) as ->.
    { destruct (N.leb_spec (inner_counts p) (left - inner_count i)), (N.leb_spec (inner_count i + inner_counts p) left); try done; lia. }
    destruct (_ && _); [|done]. do 2 f_equal. lia.
Qed.
Lemma weigh_instr_flat left i : inner i = [] -> (forall p, i <> XSetErrorHandler p /\ i <> XSetAppendix p) ->
  weigh_instr left i = weighed i left.
Proof.
  intros Hi Hn. assert (weigh_instr left i = (fun s => (s, left)) <$> weight_add (instr_weight i) (set_aside i)) as ->.
  { destruct i; try done; by destruct (Hn p). }
  unfold weighed, inner_count. rewrite !sum_inner, Hi. unfold instructions, total_of. cbn [map list_sum foldr all_instrs concat]. rewrite !N.add_0_r.
  rewrite (proj2 (N.leb_le _ _)) by (cbn; lia). cbn [andb]. rewrite N.sub_0_r. unfold weight_add, fits, time_of, proof_of. destruct (_ && _); done.
Qed.
Lemma weigh_nested left i p : (i = XSetErrorHandler p \/ i = XSetAppendix p) ->
  weigh_instr left i = match (if N.of_nat (length p) <=? left then weigh_list (left - N.of_nat (length p)) (0, 0) p else None) with
                       | Some (w, left') => (fun s => (s, left')) <$> weight_add (instr_weight i) w
                       | None => None
                       end.
Proof.
  intros [-> | ->]; cbn [weigh_instr].
  all: destruct (_ <=? _); [|done].
  all: set (go := fix go left acc q := match q with [] => Some (acc, left) | j :: r => _ end).
  all: assert (forall q l a, go l a q = weigh_list l a q) as Hgo; [|by rewrite Hgo].
  all: induction q as [|j q IH]; intros l a; [done|]; cbn [weigh_list]; cbn; destruct (weigh_instr l j) as [[w l']|]; [|done]; destruct (weight_add a w); [|done]; apply IH.
Qed.
Lemma weigh_instr_eq : forall i left, weigh_instr left i = weighed i left.
Proof.
  apply (xinstr_nested (fun i => forall left, weigh_instr left i = weighed i left)). intros i IH.
  assert (forall p, (i = XSetErrorHandler p \/ i = XSetAppendix p) -> (forall j, In j p -> forall l, weigh_instr l j = weighed j l) -> forall left, weigh_instr left i = weighed i left) as Hnest.
  { intros p Hi Hp left. rewrite (weigh_nested left i p Hi), (weigh_list_eq p Hp) by done. cbn [fst snd]. rewrite !N.add_0_l.
    assert (inner i = p) as Hin by (by destruct Hi as [-> | ->]).
    assert (set_aside i = (0, 0)) as Hs by (by destruct Hi as [-> | ->]).
    unfold weighed. rewrite !sum_inner, Hin. assert (inner_count i = N.of_nat (length p) + inner_counts p) as ->.
    { unfold inner_count. rewrite Hin. apply instructions_split. }
    assert (time_of i = fst (instr_weight i) /\ proof_of i = snd (instr_weight i)) as [-> ->] by (unfold time_of, proof_of; rewrite Hs; cbn; split; lia).
    destruct (N.leb_spec (N.of_nat (length p)) left) as [H1|H1].
    2: { rewrite (proj2 (N.leb_gt _ _)) by lia. done. }
    assert ((inner_counts p <=? left - N.of_nat (length p)) = (N.of_nat (length p) + inner_counts p <=? left)) as ->.
    { destruct (N.leb_spec (inner_counts p) (left - N.of_nat (length p))), (N.leb_spec (N.of_nat (length p) + inner_counts p) left); try done; lia. }
    destruct (_ <=? left); [|done]. cbn [andb]. unfold weight_add.
    destruct (fits (total_of time_of p) (total_of proof_of p)) eqn:Hf; cbn [fst snd].
    - fold (fits (fst (instr_weight i) + total_of time_of p) (snd (instr_weight i) + total_of proof_of p)). rewrite N.sub_add_distr. by destruct (fits (_ + _) _).
    - assert (fits (fst (instr_weight i) + total_of time_of p) (snd (instr_weight i) + total_of proof_of p) = false) as ->; [|done].
      unfold fits in *. apply andb_false_iff in Hf as [Hf|Hf]; apply N.leb_gt in Hf; apply andb_false_iff; [left|right]; apply N.leb_gt; lia. }
  destruct i; try (intros left; by apply weigh_instr_flat).
  - apply (Hnest p); [by left|done].
  - apply (Hnest p); [by right|done].
Qed.
Lemma weigh_exact : forall p w, weigh p = Some w <->
  (instructions p <= 100)%nat /\ total_time p <= u64_max /\ total_proof p <= u64_max /\ w = (total_time p, total_proof p).
Proof.
  intros p w. unfold weigh. change (total_time p) with (total_of time_of p). change (total_proof p) with (total_of proof_of p). pose proof (instructions_split p) as Hs.
  rewrite (weigh_list_eq p (fun i _ => weigh_instr_eq i)) by done. cbn [fst snd]. rewrite !N.add_0_l. unfold max_instructions.
  destruct (N.leb_spec (N.of_nat (length p)) 100) as [H1|H1].
  2: { split; [done|]. intros (? & _). lia. }
  destruct (N.leb_spec (inner_counts p) (100 - N.of_nat (length p))) as [H2|H2]; cbn [andb fmap option_fmap option_map].
  2: { split; [done|]. intros (? & _). lia. }
  unfold fits. destruct (N.leb_spec (total_of time_of p) u64_max) as [H3|H3]; cbn [andb fmap option_fmap option_map fst].
  2: { split; [done|]. intros (_ & ? & _). lia. }
  destruct (N.leb_spec (total_of proof_of p) u64_max) as [H4|H4]; cbn [fmap option_fmap option_map fst].
  2: { split; [done|]. intros (_ & _ & ? & _). lia. }
  split; [intros [= <-]; split_and!; try done; lia|intros (_ & _ & _ & ->); done].
Qed.

(** * Calls made, messages sent, entries trapped *)

Section effects.
  Context (e : xenv).

  (** Everything but balances. *)
  Definition others (ch : chain) := (ch_traps ch, ch_calls ch, ch_sent ch).
  Lemma others_each f l : (forall ch a ch', f ch a = XOk ch' -> others ch' = others ch) -> forall ch ch', each f l ch = XOk ch' -> others ch' = others ch.
  Proof.
    intros Hf. induction l as [|a l IH]; intros ch ch' H; cbn [each] in H; [by injection H as <-|]. xinv H. rewrite (IH _ _ H). by eapply Hf.
  Qed.
  Lemma others_withdraw_one ch a who ch' : withdraw_one e ch a who = XOk ch' -> others ch' = others ch.
  Proof. unfold withdraw_one. intros H. xinv H. by injection H as <-. Qed.
  Lemma others_deposit_to ch t n x ch' : deposit_to e ch t n x = XOk ch' -> others ch' = others ch.
  Proof. unfold deposit_to. intros H. xinv H. by injection H as <-. Qed.
  Lemma others_deposit_one ch a who ch' : deposit_one e ch a who = XOk ch' -> others ch' = others ch.
  Proof. unfold deposit_one. intros H. xinv H. by eapply others_deposit_to. Qed.
  Lemma others_withdraw l who ch ch' : withdraw_all e l who ch = XOk ch' -> others ch' = others ch.
  Proof. apply others_each. intros. by eapply others_withdraw_one. Qed.
  Lemma others_deposit_some who : forall l ch q, deposit_some e l who ch = XOk q -> others (snd q) = others ch.
  Proof.
    induction l as [|a l IH]; intros ch q H; cbn [deposit_some] in H; [by injection H as <-|].
    destruct (deposit_one e ch a who) as [ch1| |] eqn:E; [|..|done].
    - rewrite (IH _ _ H). by eapply others_deposit_one.
    - xinv H. injection H as <-. cbn [snd]. by apply IH.
  Qed.
  Lemma others_deposit l who ch ch' : deposit_all e l who ch = XOk ch' -> others ch' = others ch.
  Proof.
    unfold deposit_all. intros H. xinv H. apply others_deposit_some in E. rewrite <-E. revert H. apply others_each. intros. by eapply others_deposit_one.
  Qed.
  Lemma others_transfer from to l ch ch' : each (transfer_one e from to) l ch = XOk ch' -> others ch' = others ch.
  Proof. apply others_each. intros c a c' H. unfold transfer_one in H. xinv H. apply others_withdraw_one in E. apply others_deposit_one in H. by rewrite H. Qed.
  Lemma others_check_out l ch ch' : each (check_out_one e) l ch = XOk ch' -> others ch' = others ch.
  Proof. apply others_each. intros c a c' H. unfold check_out_one in H. xinv H. destruct (xe_checked e c _); [by apply others_deposit_to in H|by injection H as <-]. Qed.
  Lemma others_pay l : forall ch, others (pay_fees e l ch) = others ch.
  Proof.
    unfold pay_fees. induction l as [|a l IH]; intros ch; cbn [fold_left]; [done|]. rewrite IH. destruct (xtoken _); [|done..]. destruct (deposit_to _ _ _ _ _) eqn:E; [|done..]. by eapply others_deposit_to.
  Qed.
  Definition one_more_sent (ch : chain) := (ch_traps ch, ch_calls ch, ch_sent ch + 1).
  Lemma others_delivery m m' : take_delivery_fee e m = XOk m' -> others (m_chain m') = one_more_sent (m_chain m).
  Proof.
    unfold take_delivery_fee. intros H. xinv H. destruct (m_jit m); xinv H; injection H as <-; [|done].
    match goal with H : withdraw_all _ _ _ _ = _ |- _ => apply others_withdraw in H; injection H as H1 H2 H3 end. unfold others, one_more_sent. cbn. congruence.
  Qed.
  Definition effect_of (m : machine) (i : xinstr) (m' : machine) : Prop :=
    others (m_chain m') = others (m_chain m) \/ (sends i = true /\ others (m_chain m') = one_more_sent (m_chain m)) \/
    (exists k most call d, i = XTransact k most call /\ weight_le (xe_call_weight e call) most = true /\
      others (m_chain m') = (ch_traps (m_chain m), ch_calls (m_chain m) ++ [(d, call)], ch_sent (m_chain m))) \/
    (exists l tr rest, i = XClaim l /\ others (m_chain m') = (rest, ch_calls (m_chain m), ch_sent (m_chain m)) /\ ch_traps (m_chain m) ≡ₚ tr :: rest).
  Lemma exec_effect m i m' : exec_instr e m i = XOk m' -> effect_of m i m'.
  Proof.
    intros H. unfold effect_of. destruct i; cbn [exec_instr] in H.
    - xinv H. injection H as <-. left. by eapply others_withdraw.
    - xinv H. injection H as <-. by left.
    - xinv H. injection H as <-. by left.
    - xinv H. injection H as <-. left. by eapply others_transfer.
    - xinv H. right; left; split; [done|]. apply others_delivery in H. rewrite H. unfold one_more_sent.
      match goal with H : each _ _ _ = _ |- _ => apply others_transfer in H; injection H as H1 H2 H3 end. cbn. congruence.
    - xinv H. injection H as <-. right; right; left. eexists k, most, call, _. split_and!; [done| |done].
      match goal with H : weight_le _ _ = true |- _ => exact H end.
    - injection H as <-. by left.
    - xinv H. injection H as <-. by left.
    - done.
    - done.
    - destruct (saturating_take _ _) as [taken rest]. xinv H. injection H as <-. left. by eapply others_deposit.
    - xinv H. destruct (saturating_take _ _) as [taken rest]. xinv H. injection H as <-. right; left; split; [done|]. apply others_delivery in E. rewrite <-E. by eapply others_deposit.
    - xinv H. destruct (saturating_take _ _) as [taken rest]. injection H as <-. right; left; split; [done|]. by apply others_delivery in E.
    - xinv H. destruct (saturating_take _ _) as [taken rest]. xinv H. injection H as <-. right; left; split; [done|]. apply others_delivery in E. rewrite <-E. by eapply others_check_out.
    - done.
    - destruct limit; [|injection H as <-; by left]. xinv H. injection H as <-. by left.
    - injection H as <-. by left.
    - apply refund_ok in H as (_ & H & _). left. by rewrite H.
    - xinv H. injection H as <-. by left.
    - xinv H. injection H as <-. by left.
    - xinv H. injection H as <-. right; right; right.
      match goal with H : claim _ _ _ = Some _ |- _ => apply claim_ok in H as (l1 & l2 & H1 & H2) end. eexists l, _, _. split_and!; [done|done|].
      rewrite H1, H2. apply Permutation_sym, Permutation_middle.
    - done.
    - injection H as <-. by left.
    - injection H as <-. by left.
    - right; left; split; [done|]. by apply others_delivery.
    - done.
    - xinv H. injection H as <-. destruct k; first [by left|by right; left].
  Qed.

  (** A quantity that grows by at most [f i] with each instruction grows by at most the total over the program. *)
  Lemma grows (f : xinstr -> N) (g : chain -> N) : (forall m i m', exec_instr e m i = XOk m' -> g (m_chain m') <= g (m_chain m) + f i) ->
    forall n m m', xsteps e n m = XOk m' -> g (m_chain m') + total_of f (m_prog m') + total_of f (m_handler m') + total_of f (m_appendix m') <=
      g (m_chain m) + total_of f (m_prog m) + total_of f (m_handler m) + total_of f (m_appendix m).
  Proof.
    intros Hg. assert (forall m m', xstep e m = XOk m' -> g (m_chain m') + total_of f (m_prog m') + total_of f (m_handler m') + total_of f (m_appendix m') <=
      g (m_chain m) + total_of f (m_prog m) + total_of f (m_handler m) + total_of f (m_appendix m)) as Hs.
    { intros m m' H. unfold xstep in H. destruct (m_prog m) as [|i p] eqn:Ep.
      - injection H as <-. destruct (halted m); [rewrite Ep; lia|]. change (total_of f []) with 0. unfold to_appendix, credit. cbn [m_chain m_prog m_handler m_appendix xset_prog xset_handler xset_appendix xset_hweight xset_aweight xset_surplus]. change (total_of f []) with 0. lia.
      - destruct (exec_instr e (xset_prog p m) i) as [m1| |] eqn:E; [|..|done].
        + injection H as <-. pose proof (Hg _ _ _ E) as G. apply exec_progs in E as (E1 & [(E2 & E3)|[(q & -> & E2 & E3)|(q & -> & E2 & E3)]]); cbn in E1, E2, E3, G; rewrite E1, E2, E3, total_step.
          * lia.
          * cbn [inner]. lia.
          * cbn [inner]. lia.
        + rewrite total_step. destruct (m_handler m) as [|j q] eqn:Eh; injection H as <-; unfold to_handler, to_appendix, credit; cbn [m_chain m_prog m_handler m_appendix xset_prog xset_handler xset_appendix xset_hweight xset_aweight xset_surplus]; rewrite ?Eh; change (total_of f []) with 0; lia. }
    induction n as [|n IH]; intros m m' H; cbn [xsteps] in H; [by injection H as <-|]. xinv H. specialize (IH _ _ H). specialize (Hs _ _ E). lia.
  Qed.
  Lemma total_set_limit f need p : (forall a l1 l2, f (XBuy a l1) = f (XBuy a l2)) -> total_of f (set_limit need p) = total_of f p.
  Proof.
    intros Hf. induction p as [|i p IH]; [done|]. destruct i; cbn [set_limit]; rewrite !total_step, ?IH; try done. cbn [inner]. by rewrite (Hf _ (Some need) limit).
  Qed.
  Lemma others_post origin m : ch_calls (post_process e origin m) = ch_calls (m_chain m) /\ ch_sent (post_process e origin m) = ch_sent (m_chain m) /\
    (length (ch_traps (post_process e origin m)) <= S (length (ch_traps (m_chain m))))%nat.
  Proof.
    unfold post_process. pose proof (refund_frame e m) as [F1 _]. set (ch := pay_fees _ _ _). assert (others ch = others (m_chain m)) as Ho.
    { unfold ch. rewrite others_pay. by rewrite F1. }
    injection Ho as O1 O2 O3. destruct (bool_decide _); cbn [ch_calls ch_sent ch_traps]; rewrite O1, O2, O3; split_and!; try done; [lia|]. rewrite app_length. cbn. lia.
  Qed.
  Lemma run_grows (f : xinstr -> N) (g : chain -> N) : (forall m i m', exec_instr e m i = XOk m' -> g (m_chain m') <= g (m_chain m) + f i) ->
    (forall a l1 l2, f (XBuy a l1) = f (XBuy a l2)) -> (forall origin m, g (post_process e origin m) = g (m_chain m)) ->
    forall para ch origin p need credit ch', process e para ch origin p need credit = XOk ch' -> g ch' <= g ch + total_of f p.
  Proof.
    intros Hg Hf Hp para ch origin p need credit ch' H. unfold process in H. destruct (let_through _ _ _ _ _) as [p'|] eqn:El; [|injection H as <-; lia].
    assert (total_of f p' = total_of f p) as <-.
    { unfold let_through in El. destruct (computed_origin _ _ _ _) as [o r]. destruct (take_weight_credit _ _); [by injection El as <-|]. destruct (paid_execution _ _); [injection El as <-; by apply total_set_limit|].
      destruct (unpaid_execution _ _ _ _); by try injection El as <-. }
    xinv H. injection H as <-. rewrite Hp. pose proof (grows f g Hg _ _ _ E) as G. cbn [start m_chain m_prog m_handler m_appendix] in G. change (total_of f []) with 0 in G. lia.
  Qed.
End effects.

(** * How much a message can do *)

Lemma total_count (f : xinstr -> bool) p : total_of (fun i => if f i then 1 else 0) p = N.of_nat (how_many f p).
Proof. unfold total_of, how_many. induction (all_instrs p) as [|i l IH]; [done|]. cbn [foldr List.filter]. rewrite IH. destruct (f i); cbn [length]; lia. Qed.
Lemma how_many_le (f : xinstr -> bool) p : (how_many f p <= instructions p)%nat.
Proof. rewrite <-all_instrs_count. unfold how_many. induction (all_instrs p) as [|i l IH]; [done|]. cbn [List.filter length]. destruct (f i); cbn [length]; lia. Qed.
Lemma process_sent e para ch origin p need credit ch' : process e para ch origin p need credit = XOk ch' -> ch_sent ch' <= ch_sent ch + N.of_nat (how_many sends p).
Proof.
  rewrite <-total_count. apply (run_grows e _ ch_sent); [|done|intros; apply others_post].
  intros m i m' H. apply exec_effect in H as [H|[(Hs & H)|[(k & most & call & d & -> & _ & H)|(l & tr & rest & -> & H & _)]]]; injection H as _ _ H; rewrite H; try rewrite Hs; lia.
Qed.
Lemma process_calls e para ch origin p need credit ch' : process e para ch origin p need credit = XOk ch' -> (length (ch_calls ch') <= length (ch_calls ch) + how_many transacts p)%nat.
Proof.
  intros H. assert (N.of_nat (length (ch_calls ch')) <= N.of_nat (length (ch_calls ch)) + N.of_nat (how_many transacts p)); [|lia].
  revert H. rewrite <-total_count. apply (run_grows e _ (fun c => N.of_nat (length (ch_calls c)))); [|done|intros o m; by destruct (others_post e o m) as (-> & _)].
  intros m i m' H. apply exec_effect in H as [H|[(Hs & H)|[(k & most & call & d & -> & _ & H)|(l & tr & rest & -> & H & _)]]]; injection H as _ H _; rewrite H; try lia.
  rewrite app_length. cbn [length transacts]. lia.
Qed.
Lemma process_traps e para ch origin p need credit ch' : process e para ch origin p need credit = XOk ch' -> (length (ch_traps ch') <= S (length (ch_traps ch)))%nat.
Proof.
  intros H. unfold process in H. destruct (let_through _ _ _ _ _) as [p'|]; [|injection H as <-; lia]. xinv H. injection H as <-.
  pose proof (grows e (fun _ => 0) (fun c => N.of_nat (length (ch_traps c)))) as G.
  assert (forall m i m', exec_instr e m i = XOk m' -> N.of_nat (length (ch_traps (m_chain m'))) <= N.of_nat (length (ch_traps (m_chain m))) + 0) as Hg.
  { intros m i m' Hi. apply exec_effect in Hi as [Hi|[(Hs & Hi)|[(k & most & call & d & -> & _ & Hi)|(l & tr & rest & -> & Hi & Hp)]]]; injection Hi as Hi _ _; rewrite Hi; try lia.
    rewrite Hp. cbn [length]. lia. }
  specialize (G Hg _ _ _ E). cbn [start m_chain m_prog m_handler m_appendix] in G.
  assert (forall q, total_of (fun _ : xinstr => 0) q = 0) as Hz. { intros q. unfold total_of. induction (all_instrs q); done. }
  rewrite !Hz in G. destruct (others_post e origin x) as (_ & _ & T). lia.
Qed.
Lemma message_bounds : forall e para ch origin p ch', receive_message e para ch origin p = XOk ch' ->
  ch_sent ch' <= ch_sent ch + N.of_nat (how_many sends p) /\ ch_sent ch' <= ch_sent ch + 100 /\
  (length (ch_calls ch') <= length (ch_calls ch) + how_many transacts p)%nat /\ (length (ch_calls ch') <= length (ch_calls ch) + 100)%nat /\
  (length (ch_traps ch') <= length (ch_traps ch) + 1)%nat.
Proof.
  intros e para ch origin p ch' H. unfold receive_message in H. destruct (weigh p) as [need|] eqn:Ew; [|injection H as <-; lia]. apply weigh_exact in Ew as (Hc & _).
  pose proof (how_many_le sends p). pose proof (how_many_le transacts p). unfold receive in H. pose proof (process_sent _ _ _ _ _ _ _ _ H). pose proof (process_calls _ _ _ _ _ _ _ _ H).
  pose proof (process_traps _ _ _ _ _ _ _ _ H). lia.
Qed.
Lemma total_le f g p : (forall i, f i <= g i) -> total_of f p <= total_of g p.
Proof. intros H. unfold total_of. induction (all_instrs p) as [|i l IH]; cbn [foldr]; [lia|]. specialize (H i). lia. Qed.
Lemma calls_time_app e l1 l2 : calls_time e (l1 ++ l2) = calls_time e l1 + calls_time e l2.
Proof. unfold calls_time. induction l1 as [|c l IH]; cbn [app foldr]; lia. Qed.
Lemma calls_proof_app e l1 l2 : calls_proof e (l1 ++ l2) = calls_proof e l1 + calls_proof e l2.
Proof. unfold calls_proof. induction l1 as [|c l IH]; cbn [app foldr]; lia. Qed.
Lemma weight_le_iff a b : weight_le a b = true <-> fst a <= fst b /\ snd a <= snd b.
Proof. unfold weight_le. rewrite andb_true_iff, !N.leb_le. done. Qed.
Lemma process_calls_time e para ch origin p need credit ch' : process e para ch origin p need credit = XOk ch' ->
  calls_time e (ch_calls ch') <= calls_time e (ch_calls ch) + total_of (fun i => fst (set_aside i)) p.
Proof.
  apply (run_grows e _ (fun c => calls_time e (ch_calls c))); [|done|intros o m; by destruct (others_post e o m) as (-> & _)].
  intros m i m' H. apply exec_effect in H as [H|[(Hs & H)|[(k & most & call & d & -> & Hw & H)|(l & tr & rest & -> & H & _)]]]; injection H as _ H _; rewrite H; try lia.
  rewrite calls_time_app. apply weight_le_iff in Hw as [Hw _]. unfold calls_time at 2. cbn [foldr snd set_aside]. lia.
Qed.
Lemma process_calls_proof e para ch origin p need credit ch' : process e para ch origin p need credit = XOk ch' ->
  calls_proof e (ch_calls ch') <= calls_proof e (ch_calls ch) + total_of (fun i => snd (set_aside i)) p.
Proof.
  apply (run_grows e _ (fun c => calls_proof e (ch_calls c))); [|done|intros o m; by destruct (others_post e o m) as (-> & _)].
  intros m i m' H. apply exec_effect in H as [H|[(Hs & H)|[(k & most & call & d & -> & Hw & H)|(l & tr & rest & -> & H & _)]]]; injection H as _ H _; rewrite H; try lia.
  rewrite calls_proof_app. apply weight_le_iff in Hw as [_ Hw]. unfold calls_proof at 2. cbn [foldr snd set_aside]. lia.
Qed.
Lemma calls_within : forall e para ch origin p need ch', weigh p = Some need -> receive_message e para ch origin p = XOk ch' ->
  exists new, ch_calls ch' = ch_calls ch ++ new /\ calls_time e new <= fst need /\ calls_proof e new <= snd need.
Proof.
  intros e para ch origin p need ch' Hw H. unfold receive_message in H. rewrite Hw in H. destruct (receive_calls _ _ _ _ _ _ _ H) as (new & Hn & _). exists new. split; [done|].
  unfold receive in H. pose proof (process_calls_time _ _ _ _ _ _ _ _ H) as Ht. pose proof (process_calls_proof _ _ _ _ _ _ _ _ H) as Hp. rewrite Hn, calls_time_app in Ht. rewrite Hn, calls_proof_app in Hp.
  apply weigh_exact in Hw as (_ & _ & _ & ->). cbn [fst snd]. unfold total_time, total_proof.
  pose proof (total_le (fun i => fst (set_aside i)) (fun i => fst (instr_weight i) + fst (set_aside i)) p). pose proof (total_le (fun i => snd (set_aside i)) (fun i => snd (instr_weight i) + snd (set_aside i)) p).
  assert (forall i, fst (set_aside i) <= fst (instr_weight i) + fst (set_aside i)) by (intros; lia). assert (forall i, snd (set_aside i) <= snd (instr_weight i) + snd (set_aside i)) by (intros; lia).
  intuition lia.
Qed.

(** * Instructions that are not offered *)

Lemma total_member f p i : In i (all_instrs p) -> f i <= total_of f p.
Proof. unfold total_of. induction (all_instrs p) as [|j l IH]; [done|]. cbn [foldr]. intros [<- | H]; [lia|]. specialize (IH H). lia. Qed.
Lemma total_two f p i j : In i (all_instrs p) -> In j (all_instrs p) -> i <> j -> f i + f j <= total_of f p.
Proof.
  unfold total_of. intros Hi Hj Hne. induction (all_instrs p) as [|x l IH]; [done|]. cbn [foldr].
  assert (forall y, In y l -> f y <= foldr (fun i acc => f i + acc) 0 l) as Hm.
  { clear. induction l as [|z l IH]; [done|]. cbn [foldr]. intros y [<- | H]; [lia|]. specialize (IH y H). lia. }
  destruct Hi as [-> | Hi], Hj as [-> | Hj].
  - done.
  - specialize (Hm _ Hj). lia.
  - specialize (Hm _ Hi). lia.
  - specialize (IH Hi Hj). lia.
Qed.
Lemma in_all p i : In i p -> In i (all_instrs p).
Proof.
  unfold all_instrs. induction p as [|j p IH]; [done|]. cbn [map concat]. intros [-> | H]; apply in_or_app; [left|right; by apply IH]. rewrite with_inner_unfold. by left.
Qed.
Lemma not_offered_weight i : not_offered i = true -> instr_weight i = weight_max /\ i <> XClearOrigin /\ (forall a l, i <> XBuy a l) /\ (forall l, i <> XUnpaid l).
Proof. destruct i; try done. by destruct k. Qed.
Lemma shape_buy i limit : shape i = BBuyExecution limit -> exists a, i = XBuy a limit.
Proof. destruct i; try done. cbn. intros [= ->]. by eexists. Qed.
Lemma shape_unpaid i limit : shape i = BUnpaidExecution limit -> i = XUnpaid limit.
Proof. destruct i; try done. cbn. by intros [= ->]. Qed.
Lemma computed_in u n : forall o l o' r b, computed_origin u n o l = (o', r) -> In b r -> In b l.
Proof.
  induction n as [|n IH]; intros o l o' r b H Hb; cbn [computed_origin] in H; [by injection H as <- <-|].
  destruct l as [|x l]; [by injection H as <- <-|]. destruct x; try (by injection H as <- <-); right; by eapply IH.
Qed.
Lemma skip_clear_in b : forall l, In b (skip_clear l) -> In b l.
Proof. induction l as [|x l IH]; [done|]. cbn [skip_clear]. destruct x; try done. intros H. right. by apply IH. Qed.
Lemma take_in {A} (b : A) n : forall l, In b (take n l) -> In b l.
Proof. induction n as [|n IH]; intros [|x l]; try done. cbn [take]. intros [-> | H]; [by left|right; by apply IH]. Qed.
Lemma let_through_why para origin p need p' : let_through para origin p need (0, 0) = Some p' ->
  need = (0, 0) \/ (exists a limit, In (XBuy a limit) p) \/ (exists limit, In (XUnpaid limit) p).
Proof.
  unfold let_through. destruct (computed_origin _ _ _ _) as [o r] eqn:Ec. destruct (take_weight_credit _ _) eqn:Et.
  { intros _. left. unfold take_weight_credit in Et. apply weight_le_iff in Et. destruct need as [a b]. cbn in *. f_equal; lia. }
  destruct (paid_execution r need) eqn:Ep.
  { intros _. right; left. unfold paid_execution in Ep. destruct (take 5 r) as [|x r'] eqn:E5; [done|]. destruct x; try done. apply andb_true_iff in Ep as [_ Ep].
    destruct (skip_clear r') as [|y r''] eqn:Es; [done|]. destruct y; try done.
    assert (In (BBuyExecution limit) (map shape p)) as Hin.
    { eapply computed_in; [exact Ec|]. apply (take_in _ 5). rewrite E5. right. apply skip_clear_in. rewrite Es. by left. }
    apply in_map_iff in Hin as (i & Hi & Hp). apply shape_buy in Hi as (a & ->). by exists a, limit. }
  unfold unpaid_execution. destruct (parent_or_executive o); [|done]. cbn [andb]. destruct r as [|x r']; [done|]. destruct x; try done. intros _. right; right.
  assert (In (BUnpaidExecution limit) (map shape p)) as Hin by (eapply computed_in; [exact Ec|by left]).
  apply in_map_iff in Hin as (i & Hi & Hp). apply shape_unpaid in Hi as ->. by exists limit.
Qed.
Lemma not_offered_dropped : forall e para ch origin p i, In i (all_instrs p) -> not_offered i = true -> receive_message e para ch origin p = XOk ch.
Proof.
  intros e para ch origin p i Hi Hn. unfold receive_message. destruct (weigh p) as [need|] eqn:Ew; [|done]. apply weigh_exact in Ew as (_ & Ht & _ & ->).
  apply not_offered_weight in Hn as (Hw & _ & Hb & Hu). unfold receive, process. destruct (let_through _ _ _ _ _) as [p'|] eqn:El; [|done]. exfalso.
  assert (fst (instr_weight i) = u64_max) as Hm by by rewrite Hw.
  apply let_through_why in El as [El|[(a & limit & El)|(limit & El)]].
  - injection El as El _. pose proof (total_member (fun i => fst (instr_weight i) + fst (set_aside i)) p i Hi) as H. cbn beta in H. unfold total_time in El. rewrite El, Hm in H. unfold u64_max in H. lia.
  - apply in_all in El. pose proof (total_two (fun i => fst (instr_weight i) + fst (set_aside i)) p i _ Hi El (Hb a limit)) as H. cbn beta in H. rewrite Hm in H. unfold total_time in Ht.
    change (fst (instr_weight (XBuy a limit))) with 3994000 in H. lia.
  - apply in_all in El. pose proof (total_two (fun i => fst (instr_weight i) + fst (set_aside i)) p i _ Hi El (Hu limit)) as H. cbn beta in H. rewrite Hm in H. unfold total_time in Ht.
    change (fst (instr_weight (XUnpaid limit))) with 2966000 in H. lia.
Qed.

(** * Messages that weigh nothing *)

Lemma times_zero n w : fst (weight_times n w) = 0 -> fst w <> 0 -> n = 0.
Proof. unfold weight_times, sat64, u64_max. cbn [fst]. intros H Hw. destruct (N.eq_dec n 0); [done|]. nia. Qed.
Lemma filter_zero f w : fst w <> 0 -> fst (weigh_filter f w) = 0 <-> no_filter f = true.
Proof.
  intros Hw. split.
  - destruct f as [l| |k nft|n|k nft n]; cbn [weigh_filter no_filter].
    + intros H. unfold weigh_assets in H. apply times_zero in H; [|done]. by destruct l.
    + intros H. by apply times_zero in H.
    + destruct nft; intros H; [|done]. by apply times_zero in H.
    + intros H. apply times_zero in H; [|done]. destruct n; [done|]. unfold max_assets in H. lia.
    + intros H. apply times_zero in H; [|done]. destruct n; [done|]. unfold max_assets in H. lia.
  - assert (fst (weight_times 0 w) = 0) as Hz by (unfold weight_times; cbn [fst]; rewrite N.mul_0_r; done).
    destruct f as [l| |k nft|n|k nft n]; cbn [weigh_filter no_filter]; try done; [destruct l|destruct n|destruct n]; done.
Qed.
Lemma assets_zero {A} (l : list A) w : fst w <> 0 -> fst (weigh_assets l w) = 0 <-> l = [].
Proof.
  intros Hw. unfold weigh_assets. split; [intros H; apply times_zero in H; [by destruct l|done]|]. intros ->. unfold weight_times. cbn. by rewrite N.mul_0_r.
Qed.
Lemma min_zero a b : a <> 0 -> N.min a b = 0 <-> b = 0.
Proof. lia. Qed.
Lemma weightless_time i : fst (instr_weight i) = 0 <-> about_nothing i = true.
Proof.
  destruct i; cbn [instr_weight about_nothing]; try done; try (apply filter_zero; done); try (etransitivity; [apply assets_zero; done|by destruct l]).
  - unfold weight_min. cbn [fst]. etransitivity; [apply min_zero; done|]. by apply filter_zero.
  - destruct k; done.
  - destruct k; cbn [other_weight]; try done. etransitivity; [apply assets_zero; done|by destruct l].
Qed.
Lemma weightless_proof i : about_nothing i = true -> snd (instr_weight i) = 0 /\ set_aside i = (0, 0) /\ inner i = [].
Proof.
  destruct i; cbn [about_nothing]; try done; try (by destruct l); try (destruct f as [[]| |? ?|[]|? ? []]; done). all: destruct k; try done; by destruct l.
Qed.
Lemma total_zero f p : total_of f p = 0 <-> forall i, In i (all_instrs p) -> f i = 0.
Proof.
  split.
  - intros H i Hi. pose proof (total_member f p i Hi). lia.
  - unfold total_of. induction (all_instrs p) as [|j l IH]; intros H; [done|]. cbn [foldr]. rewrite (H j), IH; [done| |by left]. intros i Hi. apply H. by right.
Qed.
Lemma flat_all p : (forall i, In i p -> inner i = []) -> all_instrs p = p.
Proof.
  unfold all_instrs. induction p as [|i p IH]; intros H; [done|]. cbn [map concat]. rewrite with_inner_unfold, (H i) by by left. cbn. f_equal. apply IH. intros j Hj. apply H. by right.
Qed.
Lemma weightless_iff : forall p, weigh p = Some (0, 0) <-> (length p <= 100)%nat /\ forall i, In i p -> about_nothing i = true.
Proof.
  intros p. rewrite weigh_exact. split.
  - intros (Hc & _ & _ & Hw). injection Hw as Ht Hp. assert (forall i, In i p -> about_nothing i = true) as Ha.
    { intros i Hi. apply weightless_time. symmetry in Ht. unfold total_time in Ht. pose proof (proj1 (total_zero _ _) Ht i (in_all _ _ Hi)). cbn beta in *. lia. }
    split; [|done]. rewrite <-all_instrs_count, flat_all in Hc; [done|]. intros i Hi. by apply weightless_proof, Ha.
  - intros (Hl & Ha). assert (all_instrs p = p) as Hf by (apply flat_all; intros i Hi; by apply weightless_proof, Ha).
    assert (total_time p = 0) as Ht.
    { unfold total_time. apply total_zero. rewrite Hf. intros i Hi. destruct (weightless_proof i (Ha i Hi)) as (_ & -> & _). rewrite (proj2 (weightless_time i) (Ha i Hi)). done. }
    assert (total_proof p = 0) as Hp.
    { unfold total_proof. apply total_zero. rewrite Hf. intros i Hi. destruct (weightless_proof i (Ha i Hi)) as (-> & -> & _). done. }
    rewrite Ht, Hp, <-all_instrs_count, Hf. split_and!; done.
Qed.

(** A machine that runs such a program has touched nothing but the number of messages sent. *)
Definition untouched (ch : chain) (left : nat) (m : machine) : Prop :=
  ch_bal (m_chain m) = ch_bal ch /\ ch_traps (m_chain m) = ch_traps ch /\ ch_calls (m_chain m) = ch_calls ch /\
  m_hold m = ∅ /\ m_trader m = no_trader /\ m_jit m = false /\ m_handler m = [] /\ m_appendix m = [] /\ (length (m_prog m) <= left)%nat /\
  (forall i, In i (m_prog m) -> about_nothing i = true).
Lemma try_take_nothing : forall l r, try_take l ∅ = Some r -> r = ∅.
Proof.
  induction l as [|a l IH]; intros r H; cbn [try_take] in H; [by injection H as <-|]. destruct (_ <=? _) eqn:E; [|done]. unfold held_of in *. rewrite lookup_empty in *. cbn [default] in *.
  change (0 - snd a) with (N.sub 0 (snd a)) in H. rewrite N.sub_0_l in H. unfold set_held_of in H. cbn [N.eqb] in H. rewrite delete_empty in H. by apply IH.
Qed.
Lemma delivery_untouched e ch left m m' : untouched ch left m -> take_delivery_fee e m = XOk m' -> untouched ch left m'.
Proof.
  intros (U1 & U2 & U3 & U4 & U5 & U6 & U7 & U8 & U9 & U10) H. unfold take_delivery_fee in H. xinv H. rewrite U6, U4 in H. xinv H. apply try_take_nothing in E0 as ->. injection H as <-. done.
Qed.
Lemma no_request f h : no_filter f = true -> requested f h = [].
Proof. destruct f as [[]| |? ?|[]|? [] []]; done. Qed.
Lemma exec_untouched e ch left m i m' : untouched ch left m -> about_nothing i = true -> exec_instr e m i = XOk m' -> untouched ch left m'.
Proof.
  intros U Ha H. destruct i; cbn [about_nothing] in Ha; try done.
  - destruct l; [|done]. cbn [exec_instr] in H. xinv H. cbn [withdraw_all each] in *. repeat match goal with H : XOk _ = XOk _ |- _ => injection H as <- end. done.
  - destruct l; [|done]. cbn [exec_instr] in H. xinv H. injection H as <-. done.
  - destruct l; [|done]. cbn [exec_instr each] in H. xinv H. match goal with H : XOk _ = XOk _ |- _ => injection H as <- end. match goal with H : XOk _ = XOk _ |- _ => injection H as <- end. done.
  - destruct l; [|done]. cbn [exec_instr each] in H. xinv H. match goal with H : XOk _ = XOk _ |- _ => injection H as <- end. eapply delivery_untouched; [|exact H]. done.
  - cbn [exec_instr] in H. rewrite no_request in H by done. cbn [saturating_take] in H. xinv H. unfold deposit_all in E. cbn in E. injection E as <-. injection H as <-. done.
  - cbn [exec_instr] in H. xinv H. rewrite no_request in H by done. cbn [saturating_take] in H. apply (delivery_untouched e ch left) in E; [|done].
    xinv H. unfold deposit_all in E0. cbn in E0. injection E0 as <-. injection H as <-. done.
  - cbn [exec_instr] in H. xinv H. rewrite no_request in H by done. cbn [saturating_take] in H. apply (delivery_untouched e ch left) in E; [|done]. injection H as <-. done.
  - cbn [exec_instr] in H. xinv H. rewrite no_request in H by done. cbn [saturating_take] in H. apply (delivery_untouched e ch left) in E; [|done].
    xinv H. cbn in E0. injection E0 as <-. injection H as <-. done.
  - destruct l; [|done]. cbn in H. injection H as <-. done.
  - destruct k; try done. cbn [exec_instr] in H. xinv H. injection H as <-. done.
Qed.
Lemma step_untouched e ch left m m' : untouched ch (S left) m -> xstep e m = XOk m' -> untouched ch left m'.
Proof.
  intros U H. pose proof U as (U1 & U2 & U3 & U4 & U5 & U6 & U7 & U8 & U9 & U10). unfold xstep in H. destruct (m_prog m) as [|i p] eqn:Ep.
  - injection H as <-. assert (halted m = true) as -> by (unfold halted; by rewrite Ep, U7, U8). unfold untouched. rewrite Ep. split_and!; try done. cbn. lia.
  - assert (untouched ch left (xset_prog p m)) as Up.
    { unfold untouched. cbn. cbn [length] in U9. split_and!; try done; [lia|]. intros j Hj. apply U10. by right. }
    destruct (exec_instr e (xset_prog p m) i) as [m1| |] eqn:E; [|..|done].
    + injection H as <-. eapply exec_untouched; [exact Up|by apply U10; left|done].
    + rewrite U7 in H. injection H as <-. unfold untouched, to_appendix, credit. cbn. rewrite U7, U8. split_and!; try done. cbn. lia.
Qed.
Lemma about_nothing_size p : (forall i, In i p -> about_nothing i = true) -> prog_size p = length p.
Proof.
  induction p as [|i p IH]; intros H; [done|]. rewrite prog_size_cons, IH by (intros j Hj; apply H; by right). assert (instr_size i = 1%nat) as ->; [|done].
  assert (about_nothing i = true) as Hi by (apply H; by left). by destruct i.
Qed.
Lemma exec_no_panic e ch left m i : untouched ch left m -> about_nothing i = true -> exec_instr e m i <> XPanic.
Proof.
  intros U Ha. assert (take_delivery_fee e m <> XPanic) as Hd.
  { unfold take_delivery_fee. destruct (xe_send_ok e m); [|done]. cbn [xensure xbind]. destruct U as (_ & _ & _ & _ & _ & -> & _). by destruct (try_take _ _). }
  destruct i; cbn [about_nothing] in Ha; try done.
  - destruct l; [|done]. cbn [exec_instr]. destruct (m_origin m); [|done]. cbn [xsome xbind]. by destruct (can_subsume _ _).
  - destruct l; [|done]. cbn [exec_instr]. by destruct (m_origin m).
  - destruct l; [|done]. cbn [exec_instr]. by destruct (m_origin m).
  - destruct l; [|done]. cbn [exec_instr]. destruct (m_origin m); [|done]. cbn [xsome xbind each]. by destruct m.
  - cbn [exec_instr]. by rewrite no_request.
  - cbn [exec_instr]. destruct (take_delivery_fee e m); [|done..]. cbn [xbind]. by rewrite no_request.
  - cbn [exec_instr]. destruct (take_delivery_fee e m); [|done..]. cbn [xbind]. by rewrite no_request.
  - cbn [exec_instr]. destruct (take_delivery_fee e m); [|done..]. cbn [xbind]. by rewrite no_request.
  - destruct k; try done. cbn [exec_instr]. by destruct (xe_other_ok _ _ _).
Qed.
Lemma steps_untouched e ch n : forall m, untouched ch n m -> exists m', xsteps e n m = XOk m' /\ untouched ch 0 m'.
Proof.
  induction n as [|n IH]; intros m U; [by exists m|]. cbn [xsteps]. destruct (xstep e m) as [m1| |] eqn:E.
  - cbn [xbind]. apply IH. by eapply step_untouched.
  - by apply xstep_no_err in E.
  - exfalso. unfold xstep in E. destruct (m_prog m) as [|i p] eqn:Ep; [done|]. destruct (exec_instr e (xset_prog p m) i) as [m1| |] eqn:Ei; [done|by destruct (m_handler m)|].
    revert Ei. destruct U as (U1 & U2 & U3 & U4 & U5 & U6 & U7 & U8 & U9 & U10). apply (exec_no_panic e ch (S n)).
    + unfold untouched. cbn. rewrite Ep in *. cbn [length] in U9. split_and!; try done; [lia|]. intros j Hj. apply U10. by right.
    + apply U10. rewrite Ep. by left.
Qed.
Lemma post_untouched e ch origin m : untouched ch 0 m -> post_process e origin m = m_chain m.
Proof.
  intros (U1 & U2 & U3 & U4 & U5 & _). unfold post_process. assert (m_hold (settled e m) = ∅ /\ m_trader (settled e m) = no_trader /\ m_chain (settled e m) = m_chain m) as (-> & -> & ->).
  { destruct (settled_case e m) as [-> | H]; [done|]. apply refund_ok in H as (_ & -> & [[-> ->]|(w & -> & ->)]); [done|]. rewrite U5, refund_nothing. by rewrite U4. }
  cbn [pay_fees fold_left outstanding no_trader tr_asset tr_native app N.eqb]. by rewrite bool_decide_eq_true_2.
Qed.
Lemma free_message : forall e para ch origin p, weigh p = Some (0, 0) -> exists ch', receive_message e para ch origin p = XOk ch' /\
  ch_bal ch' = ch_bal ch /\ ch_traps ch' = ch_traps ch /\ ch_calls ch' = ch_calls ch /\ ch_sent ch' <= ch_sent ch + N.of_nat (length p).
Proof.
  intros e para ch origin p Hw. pose proof (proj1 (weightless_iff p) Hw) as [Hl Ha]. unfold receive_message. rewrite Hw.
  assert (let_through para origin p (0, 0) (0, 0) = Some p) as Hlt by (unfold let_through; by destruct (computed_origin _ _ _ _)).
  assert (untouched ch (length p) (start ch origin p)) as U by (unfold untouched; cbn; split_and!; done).
  destruct (steps_untouched e ch (length p) _ U) as (m & Hm & Um).
  assert (receive e para ch origin p (0, 0) = XOk (m_chain m)) as Hr.
  { unfold receive, process. rewrite Hlt, about_nothing_size, Hm by done. cbn [xbind]. by rewrite (post_untouched e ch). }
  exists (m_chain m). destruct Um as (U1 & U2 & U3 & _). split_and!; try done.
  pose proof (process_sent _ _ _ _ _ _ _ _ Hr) as Hs. pose proof (how_many_le sends p) as Hh. rewrite <-all_instrs_count, flat_all in Hh; [lia|]. intros i Hi. by apply weightless_proof, Ha.
Qed.

(** * Holding *)

Lemma size_set h k v : (size (set_held_of h k v) <= S (size h))%nat.
Proof.
  unfold set_held_of. destruct (v =? 0).
  - destruct (h !! k) eqn:E; [rewrite map_size_delete, E; lia|]. rewrite delete_notin by done. lia.
  - rewrite map_size_insert. destruct (h !! k); cbn; lia.
Qed.
Lemma size_less h k v : v <= held_of h k -> (size (set_held_of h k v) <= size h)%nat.
Proof.
  unfold set_held_of, held_of. intros Hv. destruct (N.eqb_spec v 0).
  - destruct (h !! k) eqn:E; [rewrite map_size_delete, E; lia|]. by rewrite delete_notin.
  - rewrite map_size_insert. destruct (h !! k) eqn:E; cbn in *; lia.
Qed.
Lemma size_subsume : forall l h, (size (subsume h l) <= size h + length l)%nat.
Proof.
  induction l as [|a l IH]; intros h; [cbn; lia|]. rewrite subsume_cons. etransitivity; [apply IH|]. pose proof (size_set h (fst a) (sat128 (held_of h (fst a) + snd a))). cbn [length]. lia.
Qed.
Lemma size_take : forall l h, (size (snd (saturating_take l h)) <= size h)%nat.
Proof.
  induction l as [|a l IH]; intros h; [done|]. cbn [saturating_take]. set (h' := set_held_of _ _ _). specialize (IH h'). destruct (saturating_take l h') as [taken rest]. cbn [snd] in *.
  assert (size h' <= size h)%nat by (apply size_less; lia). lia.
Qed.
Lemma size_try_take : forall l h r, try_take l h = Some r -> (size r <= size h)%nat.
Proof.
  induction l as [|a l IH]; intros h r H; cbn [try_take] in H; [by injection H as <-|]. destruct (_ <=? _) eqn:E; [|done]. apply IH in H. etransitivity; [exact H|]. apply size_less. lia.
Qed.
Lemma size_delivery e m m' : take_delivery_fee e m = XOk m' -> (size (m_hold m') <= size (m_hold m))%nat.
Proof.
  unfold take_delivery_fee. intros H. xinv H. destruct (m_jit m); xinv H; injection H as <-; [done|]. cbn. by eapply size_try_take.
Qed.
Lemma size_exec e m i m' : (size (m_hold m) <= 128)%nat -> exec_instr e m i = XOk m' -> (size (m_hold m') <= 128)%nat.
Proof.
  intros Hs H.
  assert (forall l, can_subsume m l = true -> (size (subsume (m_hold m) l) <= 128)%nat) as Hc.
  { intros l Hl. unfold can_subsume, holding_limit in Hl. apply Nat.leb_le in Hl. pose proof (size_subsume l (m_hold m)). lia. }
  destruct i; cbn [exec_instr] in H; try done.
  - xinv H. injection H as <-. by apply Hc.
  - xinv H. injection H as <-. by apply Hc.
  - xinv H. injection H as <-. done.
  - xinv H. injection H as <-. done.
  - xinv H. apply size_delivery in H. cbn in H. lia.
  - xinv H. injection H as <-. done.
  - injection H as <-. done.
  - xinv H. injection H as <-. done.
  - pose proof (size_take (requested f (m_hold m)) (m_hold m)). destruct (saturating_take _ _). xinv H. injection H as <-. cbn in *. lia.
  - xinv H. apply size_delivery in E. pose proof (size_take (requested f (m_hold x)) (m_hold x)). destruct (saturating_take _ _). xinv H. injection H as <-. cbn in *. lia.
  - xinv H. apply size_delivery in E. pose proof (size_take (requested f (m_hold x)) (m_hold x)). destruct (saturating_take _ _). injection H as <-. cbn in *. lia.
  - xinv H. apply size_delivery in E. pose proof (size_take (requested f (m_hold x)) (m_hold x)). destruct (saturating_take _ _). xinv H. injection H as <-. cbn in *. lia.
  - destruct limit; [|by injection H as <-]. xinv H. injection H as <-. cbn. pose proof (size_less (m_hold m) (fst fee) (held_of (m_hold m) (fst fee) - snd x0)). lia.
  - by injection H as <-.
  - unfold refund_surplus in H. destruct (weight_le _ _); [by injection H as <-|]. destruct (refund_weight _ _ _ _) as [t [a|]]; [|by injection H as <-].
    destruct (N.eqb_spec (held_of (m_hold m) (fst a)) 0) as [Ea|Ea]; cbn [andb] in H.
    + destruct (can_subsume m [a]) eqn:Ec; [|done]. injection H as <-. exact (Hc [a] Ec).
    + injection H as <-. cbn [m_hold xset_hold]. rewrite set_held_nonzero by (unfold sat128, u128_max; lia). rewrite map_size_insert_Some; [done|]. unfold held_of in Ea. destruct (_ !! _); by eauto.
  - xinv H. by injection H as <-.
  - xinv H. by injection H as <-.
  - xinv H. injection H as <-. by apply Hc.
  - injection H as <-. cbn. pose proof (size_take l (m_hold m)). lia.
  - by injection H as <-.
  - apply size_delivery in H. lia.
  - xinv H. injection H as <-. by destruct k.
Qed.
Lemma holding_bounded : forall e n ch origin p m, xsteps e n (start ch origin p) = XOk m -> (size (m_hold m) <= 128)%nat.
Proof.
  intros e n ch origin p m. assert (forall n m m', (size (m_hold m) <= 128)%nat -> xsteps e n m = XOk m' -> (size (m_hold m') <= 128)%nat) as Hn.
  { clear. induction n as [|n IH]; intros m m' Hs H; cbn [xsteps] in H; [by injection H as <-|]. xinv H. eapply IH; [|exact H]. clear H IH.
    unfold xstep in E. destruct (m_prog m) as [|i p]; [injection E as <-; by destruct (halted m)|]. destruct (exec_instr e (xset_prog p m) i) as [m1| |] eqn:Ei; [|..|done].
    - injection E as <-. eapply size_exec; [|exact Ei]. done.
    - destruct (m_handler m); by injection E as <-. }
  apply Hn. cbn [start m_hold]. rewrite map_size_empty. lia.
Qed.

(** * What is charged per asset *)

Lemma times_covers n k w : k <= n -> fst w * k <= u64_max -> snd w * k <= u64_max -> fst w * k <= fst (weight_times n w) /\ snd w * k <= snd (weight_times n w).
Proof. intros H H1 H2. unfold weight_times, sat64. cbn [fst snd]. split; nia. Qed.
Lemma small_cost i c : cost_per_asset i = Some c -> fst c <= 1000000000 /\ snd c <= 10000.
Proof. destruct i; try done; intros [= <-]; vm_compute; split; discriminate. Qed.
Lemma filter_covers f h w : fst w <= 1000000000 -> snd w <= 10000 -> (forall l, f = FDefinite l -> (length l <= 20)%nat) -> (size h <= 100)%nat ->
  fst w * N.of_nat (length (requested f h)) <= fst (weigh_filter f w) /\ snd w * N.of_nat (length (requested f h)) <= snd (weigh_filter f w).
Proof.
  intros W1 W2 Hl Hs. assert (length (map_to_list h) = size h) as Hm by done. destruct f as [l| |k nft|n|k nft n]; cbn [requested weigh_filter].
  - specialize (Hl l eq_refl). apply times_covers; unfold u64_max; [lia|nia|nia].
  - rewrite Hm. apply times_covers; unfold u64_max, max_assets; [lia|nia|nia].
  - destruct nft; cbn [length]; [|lia]. rewrite !N.mul_0_r. lia.
  - rewrite take_length, Hm. apply times_covers; unfold u64_max, max_assets; [lia|nia|nia].
  - destruct nft; cbn [orb length]; [rewrite !N.mul_0_r; lia|]. destruct (Nat.eqb_spec n 0); cbn [length]; [rewrite !N.mul_0_r; lia|].
    apply times_covers; unfold u64_max, max_assets; [lia|nia|nia].
Qed.
Lemma charged_enough : forall i h, deposits i = false -> (length (assets_named i) <= 20)%nat -> (size h <= 100)%nat -> covers i h.
Proof.
  intros i h Hd Hn Hs c Hc. pose proof (small_cost i c Hc) as [W1 W2]. destruct i; try done; injection Hc as <-; cbn [instr_weight assets_handled assets_named] in *.
  all: try (apply times_covers; [lia|unfold u64_max; nia|unfold u64_max; nia]).
  all: apply filter_covers; try done; intros l ->; done.
Qed.
Lemma deposit_charge f dest h : (forall l, f = FDefinite l -> (length l <= 20)%nat) -> (size h <= 100)%nat ->
  snd (instr_weight (XDeposit f dest)) = 0 /\
  (fst w_deposit_asset * N.of_nat (assets_handled (XDeposit f dest) h) <= fst (instr_weight (XDeposit f dest)) <-> (assets_handled (XDeposit f dest) h <= 6)%nat).
Proof.
  intros Hl Hs. cbn [instr_weight assets_handled]. unfold weight_min. cbn [fst snd]. split; [lia|]. pose proof (filter_covers f h w_deposit_asset) as H.
  change (fst w_deposit_asset) with 152186000 in *. change (snd w_deposit_asset) with 3593 in *. destruct H as [H _]; [lia|lia|done|done|]. lia.
Qed.
(** Accepted messages that deposit twenty assets, or send away all of more than a hundred. *)
Definition many_message (i : xinstr) : list xinstr :=
  [XReserveDeposited (hub_assets 1 2); XBuy (Location 1 [Parachain 1000; PalletInstance 50; GeneralIndex 1], 1000) None; XReserveDeposited (hub_assets 3 20); XReserveDeposited (hub_assets 23 20);
   XReserveDeposited (hub_assets 43 20); XReserveDeposited (hub_assets 63 20); XReserveDeposited (hub_assets 83 20); i].
Lemma many_reached i need m : weigh (many_message i) = Some need -> let_through 2281 (Location 1 [Parachain 1000]) (many_message i) need (0, 0) = Some (set_limit need (many_message i)) ->
  xsteps (calm_env 1) 7 (start (Chain ∅ [] [] 0) (Location 1 [Parachain 1000]) (set_limit need (many_message i))) = XOk m -> m_prog m = [i] ->
  comes_to (calm_env 1) 2281 (Chain ∅ [] [] 0) (Location 1 [Parachain 1000]) (many_message i) i m.
Proof. intros H1 H2 H3 H4. exists need, (set_limit need (many_message i)), 7%nat, []. exact (conj H1 (conj H2 (conj H3 H4))). Qed.
Lemma many_run i : (i = XDeposit (FAllCounted 20) (Location 1 [Parachain 2000]) \/ i = XInitiateReserveWithdraw FAll) ->
  exists m, comes_to (calm_env 1) 2281 (Chain ∅ [] [] 0) (Location 1 [Parachain 1000]) (many_message i) i m /\ size (m_hold m) = 102%nat.
Proof.
  intros Hi. set (need := default (0, 0) (weigh (many_message i))).
  destruct (xsteps (calm_env 1) 7 (start (Chain ∅ [] [] 0) (Location 1 [Parachain 1000]) (set_limit need (many_message i)))) as [m| |] eqn:E.
  all: assert (match xsteps (calm_env 1) 7 (start (Chain ∅ [] [] 0) (Location 1 [Parachain 1000]) (set_limit need (many_message i))) with
               | XOk m' => (size (m_hold m'), m_prog m') | _ => (0%nat, []) end = (102%nat, [i])) as Hx by (destruct Hi as [-> | ->]; vm_compute; reflexivity).
  all: rewrite E in Hx. 2,3: discriminate Hx.
  injection Hx as H1 H2. exists m. split; [|done]. eapply many_reached; [| |exact E|exact H2]; destruct Hi as [-> | ->]; vm_compute; reflexivity.
Qed.
Lemma undercharged : (exists e para ch origin p f dest m, comes_to e para ch origin p (XDeposit f dest) m /\ ~ covers (XDeposit f dest) (m_hold m)) /\
  (exists e para ch origin p f m, comes_to e para ch origin p (XInitiateReserveWithdraw f) m /\ ~ covers (XInitiateReserveWithdraw f) (m_hold m)).
Proof.
  split.
  - destruct (many_run (XDeposit (FAllCounted 20) (Location 1 [Parachain 2000]))) as (m & H & Hs); [by left|]. do 8 eexists. split; [exact H|].
    intros Hc. destruct (Hc w_deposit_asset eq_refl) as [H1 _]. revert H1. cbn [assets_handled requested]. rewrite take_length. change (length (map_to_list (m_hold m))) with (size (m_hold m)). rewrite Hs. vm_compute. by intros H1.
  - destruct (many_run (XInitiateReserveWithdraw FAll)) as (m & H & Hs); [by right|]. do 7 eexists. split; [exact H|].
    intros Hc. destruct (Hc w_initiate_reserve_withdraw eq_refl) as [H1 _]. revert H1. cbn [assets_handled requested]. change (length (map_to_list (m_hold m))) with (size (m_hold m)). rewrite Hs. vm_compute. by intros H1.
Qed.
Lemma runs_free : exists e para ch p ch', Forall (fun i => i = XInitiateReserveWithdraw (FDefinite [])) p /\ weigh p = Some (0, 0) /\
  receive_message e para ch (Location 1 [Parachain 2000]) p = XOk ch' /\ ch_bal ch' = ch_bal ch /\ ch_sent ch' = ch_sent ch + 100.
Proof.
  exists (calm_env 1), 2281, (Chain ∅ [] [] 0), (repeat (XInitiateReserveWithdraw (FDefinite [])) 100), (Chain ∅ [] [] 100). split_and!; try (vm_compute; reflexivity).
  apply Forall_forall. intros i Hi. apply elem_of_list_In in Hi. by apply repeat_spec in Hi.
Qed.

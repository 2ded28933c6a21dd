(** Proofs about whole messages from other chains. *)
From Verif Require Import Base XcmTypes AssetLocationModel AssetLocationProofs OriginTypes AccountsModel PaymentsSpec LedgerProofs XcmConfigModel XcmConfigSpec
  XcmConfigProofs XcmCountable XcmExecModel XcmExecSpec XcmTraderProofs XcmExecProofs.
From stdpp Require Import gmap.
Open Scope N_scope.

Section runs.
  Context (e : xenv).

  (** Units in existence while a message runs. *)
  Definition worth (m : machine) (t : option asset_id) (k : location) : N := around m t k + owed (m_trader m) k.
  Record ran (origin : location) (m0 m : machine) : Prop := Ran {
    rn_origin : forall o, m_origin m = Some o -> extends origin o;
    rn_bal : forall t a, bal (m_chain m) t a < bal (m_chain m0) t a -> account_of_or_under origin a;
    rn_worth : forall t k, token_of k = Val (Some t) -> k <> relay_location -> (forall o, extends origin o -> is_reserve k o = false) -> worth m t k <= worth m0 t k;
    rn_traps : forall tr, ~ extends origin (fst tr) -> times_trapped tr (m_chain m) = times_trapped tr (m_chain m0);
    rn_calls : exists l, ch_calls (m_chain m) = ch_calls (m_chain m0) ++ l /\
      Forall (fun c => exists o kind, extends origin o /\ transact_origin o kind = Some (fst c)) l;
    rn_trader : trader_ok (xe_asset e) (m_trader m)
  }.
  Lemma ran_refl origin m : (forall o, m_origin m = Some o -> extends origin o) -> trader_ok (xe_asset e) (m_trader m) -> ran origin m m.
  Proof. intros H. split; [done|intros t a Hlt; lia|intros; lia|done|exists []; by rewrite app_nil_r|done]. Qed.

  (** The part of a machine that control flow leaves alone. *)
  Lemma ran_same origin m0 m m' : ran origin m0 m -> m_chain m' = m_chain m -> m_origin m' = m_origin m -> m_hold m' = m_hold m -> m_trader m' = m_trader m -> ran origin m0 m'.
  Proof. intros [H1 H2 H3 H4 H5 H6] E1 E2 E3 E4. split; unfold worth, around in *; rewrite ?E1, ?E2, ?E3, ?E4; done. Qed.
  Lemma ran_allowed origin i m0 m m' : ran origin m0 m -> allowed e (m_origin m) i m m' -> (m_trader m' = m_trader m \/ trader_ok (xe_asset e) (m_trader m')) -> ran origin m0 m'.
  Proof.
    intros [H1 H2 H3 H4 H5 H6] [A1 A2 A3 A4 A5] Hok. split.
    - intros o Ho. destruct (A1 o Ho) as (o0 & E & Hx). eapply extends_trans; [by apply H1|done].
    - intros t a Hlt. destruct (decide (bal (m_chain m) t a < bal (m_chain m0) t a)); [by apply (H2 t)|].
      destruct (A2 t a ltac:(lia)) as (o0 & E & Hx). exists o0. split; [by apply H1|done].
    - intros t k Hk Hn Hr. specialize (H3 t k Hk Hn Hr). etransitivity; [|done]. unfold worth.
      destruct (A3 t k Hk) as [[B1 B2]|[(a & w & p & -> & B1 & B2)|(_ & w & B1 & B2)]]; [intros o0 Ho; apply Hr; by apply H1|rewrite B1; lia|..].
      + rewrite (buy_owed _ _ _ _ _ _ _ _ B1) by done. lia.
      + destruct (refund_cases (xe_base e) (xe_asset e) (m_trader m) w H6) as (_ & B3 & _). specialize (B3 k Hn). rewrite B1. lia.
    - intros tr Htr. rewrite <-(H4 tr Htr). unfold times_trapped. destruct A4 as [->|(o0 & h & l1 & l2 & Ho & -> & ->)]; [done|].
      rewrite !filter_app, filter_cons. rewrite decide_False; [done|]. intros <-. apply Htr. by apply H1.
    - destruct H5 as (l & E & Hl). destruct A5 as [->|(o0 & kind & d & c & Ho & Hd & ->)]; [by exists l|].
      exists (l ++ [(d, c)]). rewrite E, app_assoc. split; [done|]. apply Forall_app. split; [done|]. constructor; [|constructor].
      exists o0, kind. split; [by apply H1|done].
    - destruct Hok as [-> | ?]; done.
  Qed.
  Lemma exec_trader_ok m i m' : trader_ok (xe_asset e) (m_trader m) -> exec_instr e m i = XOk m' -> trader_ok (xe_asset e) (m_trader m').
  Proof.
    intros Ht H. pose proof (exec_allowed e m i m' H) as [_ _ A3 _ _]. clear A3.
    assert (Hd : forall m m', take_delivery_fee e m = XOk m' -> m_trader m' = m_trader m) by (intros m1 m2 Hm; by apply delivery_ok in Hm as (_ & ? & _)).
    destruct i; cbn [exec_instr] in H; try done.
    all: try (xinv H; injection H as <-; exact Ht).
    - xinv H. apply Hd in H. cbn in H. by rewrite H.
    - destruct (saturating_take _ _). xinv H. injection H as <-. exact Ht.
    - xinv H. apply Hd in E. destruct (saturating_take _ _). xinv H. injection H as <-. cbn. by rewrite E.
    - xinv H. apply Hd in E. destruct (saturating_take _ _). injection H as <-. cbn. by rewrite E.
    - xinv H. apply Hd in E. destruct (saturating_take _ _). xinv H. injection H as <-. cbn. by rewrite E.
    - destruct limit; [|injection H as <-; exact Ht]. xinv H. injection H as <-. destruct x0 as [t p]. cbn. by eapply buy_ok.
    - apply refund_ok in H as (_ & _ & [[H _]|(w & H & _)]); rewrite H; [done|]. by apply refund_cases.
    - apply Hd in H. by rewrite H.
    - xinv H. injection H as <-. destruct k; exact Ht.
  Qed.
  Lemma ran_step origin m0 m m' : ran origin m0 m -> xstep e m = XOk m' -> ran origin m0 m'.
  Proof.
    intros Hr H. unfold xstep in H. destruct (m_prog m) as [|i p].
    - injection H as <-. destruct (halted m); [done|]. by eapply ran_same.
    - destruct (exec_instr e (xset_prog p m) i) as [m1| |] eqn:E; [|..|done].
      + injection H as <-. apply (ran_allowed _ i _ (xset_prog p m)); [by eapply ran_same|by apply (exec_allowed e _ i)|right]. eapply exec_trader_ok; [|done]. by destruct Hr.
      + destruct (m_handler m); injection H as <-; by eapply ran_same.
  Qed.
  Lemma ran_steps origin m0 n : forall m m', ran origin m0 m -> xsteps e n m = XOk m' -> ran origin m0 m'.
  Proof.
    induction n as [|n IH]; intros m m' Hr H; cbn [xsteps] in H; [by injection H as <-|].
    xinv H. eapply IH; [|done]. by eapply ran_step.
  Qed.

  (** The end of a message. *)
  Lemma pay_fees_only l : forall ch, only_from None ch (pay_fees e l ch).
  Proof.
    induction l as [|a l IH]; intros ch; [apply only_from_refl|]. unfold pay_fees. cbn [fold_left]. fold (pay_fees e).
    eapply only_from_trans; [|apply IH]. destruct (xtoken (fst a)) as [t| |]; try apply only_from_refl.
    destruct (deposit_to e ch t (snd a) treasury_account) eqn:E; try apply only_from_refl. by eapply deposit_to_only.
  Qed.
  Lemma pay_fees_amount t k : token_of k = Val (Some t) -> forall l ch, in_accounts (pay_fees e l ch) t <= in_accounts ch t + amt l k.
  Proof.
    intros Hk. induction l as [|a l IH]; intros ch; [cbn; lia|]. unfold pay_fees. cbn [fold_left]. fold (pay_fees e).
    etransitivity; [apply IH|]. rewrite amt_cons. destruct (xtoken (fst a)) as [t0| |] eqn:Et; [|lia..].
    destruct (deposit_to e ch t0 (snd a) treasury_account) eqn:E; [|lia..]. apply (deposit_to_amount _ _ _ _ _ _ t) in E.
    apply xtoken_ok in Et. rewrite (ind_token _ _ k t) in E by done. lia.
  Qed.
  Lemma settled_case m : settled e m = m \/ refund_surplus e m = XOk (settled e m).
  Proof. unfold settled. destruct (refund_surplus e m); [by right|by left|by left]. Qed.
  Lemma refund_frame m : m_chain (settled e m) = m_chain m /\ m_origin (settled e m) = m_origin m.
  Proof. destruct (settled_case m) as [-> | H]; [done|]. by apply refund_ok in H as (H1 & H2 & _). Qed.
  Lemma settled_ok m k : trader_ok (xe_asset e) (m_trader m) -> k <> relay_location ->
    held_of (m_hold (settled e m)) k + owed (m_trader (settled e m)) k <= held_of (m_hold m) k + owed (m_trader m) k.
  Proof.
    intros Ht Hk. destruct (settled_case m) as [-> | H]; [done|]. destruct (refund_held _ _ _ k H) as [[-> H1]|(w & H1 & H2)]; [lia|].
    destruct (refund_cases (xe_base e) (xe_asset e) (m_trader m) w Ht) as (_ & H3 & _). specialize (H3 k Hk). rewrite H1. lia.
  Qed.

  (** What a whole message may do to the chain. *)
  Record fair (origin : location) (ch ch' : chain) : Prop := Fair {
    fr_bal : forall t a, bal ch' t a < bal ch t a -> account_of_or_under origin a;
    fr_worth : forall t k, token_of k = Val (Some t) -> k <> relay_location -> (forall o, extends origin o -> is_reserve k o = false) -> in_existence ch' t k <= in_existence ch t k;
    fr_traps : forall tr, ~ extends origin (fst tr) -> times_trapped tr ch' = times_trapped tr ch;
    fr_calls : exists l, ch_calls ch' = ch_calls ch ++ l /\ Forall (fun c => exists o kind, extends origin o /\ transact_origin o kind = Some (fst c)) l
  }.
  Lemma post_fair origin ch p m : ran origin (start ch origin p) m -> fair origin ch (post_process e origin m).
  Proof.
    intros [H1 H2 H3 H4 H5 H0]. unfold post_process. pose proof (refund_frame m) as [F1 F2]. pose proof (fun k => settled_ok m k H0) as F3.
    set (m' := settled e m) in *. clearbody m'. cbn [m_chain start] in *.
    destruct (pay_fees_only (outstanding (m_trader m')) (m_chain m')) as (P1 & P2 & P3).
    assert (P4 : forall t k, token_of k = Val (Some t) -> in_accounts (pay_fees e (outstanding (m_trader m')) (m_chain m')) t <= in_accounts (m_chain m') t + owed (m_trader m') k).
    { intros t k Hk. by apply pay_fees_amount. }
    set (c := pay_fees e (outstanding (m_trader m')) (m_chain m')) in *. clearbody c. rewrite F1, ?F2 in *.
    assert (Hb : forall t a, bal c t a < bal ch t a -> account_of_or_under origin a).
    { intros t a Hlt. destruct (decide (bal c t a < bal (m_chain m) t a)) as [Hl|Hl]; [by destruct (P3 t a Hl) as (? & [=] & _)|]. apply (H2 t). lia. }
    assert (Hw : forall t k, token_of k = Val (Some t) -> k <> relay_location -> (forall o, extends origin o -> is_reserve k o = false) ->
      in_accounts c t + in_traps (ch_traps c) k + held_of (m_hold m') k <= in_existence ch t k).
    { intros t k Hk Hn Hr. specialize (H3 t k Hk Hn Hr). specialize (P4 t k Hk). specialize (F3 k Hn). unfold worth, around in H3. unfold in_existence. cbn [m_chain m_hold m_trader start] in H3.
      change (owed no_trader k) with 0 in H3.
      assert (held_of ∅ k = 0) as Hz by (unfold held_of; by rewrite lookup_empty). rewrite Hz in H3. rewrite P1. lia. }
    destruct H5 as (l & H5 & H6).
    case_bool_decide as E.
    - split; [done| |intros tr Htr; rewrite <-(H4 tr Htr); unfold times_trapped; by rewrite P1|exists l; split; [congruence|done]].
      intros t k Hk Hn Hr. specialize (Hw t k Hk Hn Hr). unfold in_existence in *. lia.
    - split; cbn [ch_traps ch_calls]; [done|..].
      + intros t k Hk Hn Hr. specialize (Hw t k Hk Hn Hr). unfold in_existence in *. cbn [ch_traps]. rewrite in_traps_app, in_traps_cons. cbn [snd]. unfold in_accounts in *. cbn [ch_bal]. 
        replace (in_traps [] k) with 0 by done. lia.
      + intros tr Htr. rewrite <-(H4 tr Htr). unfold times_trapped. cbn [ch_traps]. rewrite P1, filter_app, app_length, filter_cons.
        rewrite decide_False; [cbn; lia|]. intros <-. apply Htr. cbn [fst]. destruct (m_origin m) as [o|]; cbn; [by apply H1|apply extends_refl].
      + exists l. split; [congruence|done].
  Qed.
  Lemma fair_refl origin ch : fair origin ch ch.
  Proof. split; [intros t a H; lia|intros; lia|done|exists []; by rewrite app_nil_r]. Qed.
  Lemma receive_fair para ch origin p need credit ch' : process e para ch origin p need credit = XOk ch' -> fair origin ch ch'.
  Proof.
    unfold process. destruct (let_through para origin p need credit) as [p'|]; [|intros [= <-]; apply fair_refl].
    intros H. xinv H. injection H as <-. eapply (post_fair origin ch p'). eapply ran_steps; [|done]. apply ran_refl; [intros o [= <-]; apply extends_refl|apply no_trader_ok].
  Qed.

  (** * Programs end *)

  Definition later_size (p : list xinstr) : nat := match p with [] => 0 | _ => S (prog_size p) end.
  Definition work_left (m : machine) : nat := prog_size (m_prog m) + later_size (m_handler m) + later_size (m_appendix m).
  Lemma later_size_le p : (later_size p <= S (prog_size p))%nat.
  Proof. destruct p; cbn [later_size]; lia. Qed.
  Lemma prog_size_cons i p : prog_size (i :: p) = (instr_size i + prog_size p)%nat.
  Proof. done. Qed.
  Lemma instr_size_pos i : (1 <= instr_size i)%nat.
  Proof. destruct i; cbn [instr_size]; lia. Qed.
  Lemma delivery_progs m m' : take_delivery_fee e m = XOk m' -> m_prog m' = m_prog m /\ m_handler m' = m_handler m /\ m_appendix m' = m_appendix m.
  Proof. unfold take_delivery_fee. intros H. xinv H. destruct (m_jit m); xinv H; by injection H as <-. Qed.
  Lemma exec_progs m i m' : exec_instr e m i = XOk m' -> m_prog m' = m_prog m /\
    (m_handler m' = m_handler m /\ m_appendix m' = m_appendix m \/
     (exists p, i = XSetErrorHandler p /\ m_handler m' = p /\ m_appendix m' = m_appendix m) \/
     (exists p, i = XSetAppendix p /\ m_appendix m' = p /\ m_handler m' = m_handler m)).
  Proof.
    intros H. destruct i; cbn [exec_instr] in H; try done.
    all: try (xinv H; injection H as <-; split; [done|by left]).
    - xinv H. apply delivery_progs in H as (H1 & H2 & H3). split; [done|by left].
    - destruct (saturating_take _ _). xinv H. injection H as <-. split; [done|by left].
    - xinv H. apply delivery_progs in E as (H1 & H2 & H3). destruct (saturating_take _ _). xinv H. injection H as <-. split; [done|by left].
    - xinv H. apply delivery_progs in E as (H1 & H2 & H3). destruct (saturating_take _ _). injection H as <-. split; [done|by left].
    - xinv H. apply delivery_progs in E as (H1 & H2 & H3). destruct (saturating_take _ _). xinv H. injection H as <-. split; [done|by left].
    - destruct limit; [|injection H as <-; split; [done|by left]]. xinv H; injection H as <-; split; [done|by left].
    - unfold refund_surplus in H. destruct (weight_le _ _); [injection H as <-; split; [done|by left]|]. destruct (refund_weight _ _ _ _) as [t [a|]]; [destruct (_ && _); [done|]|]; injection H as <-; (split; [done|by left]).
    - xinv H. injection H as <-. split; [done|]. right. left. by eexists.
    - xinv H. injection H as <-. split; [done|]. right. right. by eexists.
    - apply delivery_progs in H as (H1 & H2 & H3). split; [done|by left].
    - xinv H. injection H as <-. destruct k; (split; [done|by left]).
  Qed.
  Lemma halted_stays m : halted m = true -> xstep e m = XOk m.
  Proof. intros H. unfold xstep. rewrite H. unfold halted in H. by destruct (m_prog m). Qed.
  Lemma step_work m m' : xstep e m = XOk m' -> halted m = true /\ m' = m \/ (work_left m' < work_left m)%nat.
  Proof.
    destruct (halted m) eqn:Eh; [intros H; rewrite halted_stays in H by done; injection H as <-; by left|]. intros H. right. revert H Eh.
    unfold xstep, work_left. destruct (m_prog m) as [|i p] eqn:Ep.
    - intros [= <-] Eh. rewrite Eh. unfold halted in Eh. rewrite Ep in Eh.
      cbn [m_prog m_handler m_appendix xset_prog xset_appendix xset_handler to_appendix to_handler xset_hweight xset_aweight xset_surplus credit].
      destruct (m_handler m), (m_appendix m); try done; cbn [later_size]; unfold prog_size; cbn; lia.
    - intros H _. rewrite prog_size_cons. destruct (exec_instr e (xset_prog p m) i) as [m1| |] eqn:E; [|..|done].
      + injection H as <-. apply exec_progs in E as (E1 & [(E2 & E3)|[(q & -> & E2 & E3)|(q & -> & E2 & E3)]]); cbn in E1, E2, E3; rewrite E1, E2, E3.
        * pose proof (instr_size_pos i). lia.
        * cbn [instr_size]. fold (prog_size q). pose proof (later_size_le q). lia.
        * cbn [instr_size]. fold (prog_size q). pose proof (later_size_le q). lia.
      + pose proof (instr_size_pos i). destruct (m_handler m) as [|j q] eqn:Eh; injection H as <-; cbn [m_prog m_handler m_appendix xset_prog xset_appendix xset_handler to_appendix to_handler xset_hweight xset_aweight xset_surplus credit]; rewrite ?Eh; cbn [later_size].
        * destruct (m_appendix m); cbn [later_size]; unfold prog_size; cbn; lia.
        * lia.
  Qed.
  Lemma halted_step m m' : halted m = true -> xstep e m = XOk m' -> halted m' = true.
  Proof. intros H. rewrite halted_stays by done. by intros [= <-]. Qed.
  Lemma halted_steps n : forall m m', halted m = true -> xsteps e n m = XOk m' -> halted m' = true.
  Proof. induction n as [|n IH]; intros m m' Hh H; cbn [xsteps] in H; [by injection H as <-|]. xinv H. eapply IH; [|done]. by eapply halted_step. Qed.
  Lemma steps_halt n : forall m m', (work_left m <= n)%nat -> xsteps e n m = XOk m' -> halted m' = true.
  Proof.
    induction n as [|n IH]; intros m m' Hw H; cbn [xsteps] in H.
    - injection H as <-. unfold work_left in Hw. unfold halted. destruct (m_prog m) as [|i p]; [|rewrite prog_size_cons in Hw; pose proof (instr_size_pos i); lia].
      destruct (m_handler m), (m_appendix m); [done|..]; cbn [later_size] in Hw; lia.
    - xinv H. destruct (step_work _ _ E) as [[H1 ->]|Hlt]; [by eapply halted_steps|]. eapply IH; [|done]. lia.
  Qed.
  Lemma set_limit_size need p : prog_size (set_limit need p) = prog_size p.
  Proof. induction p as [|i p IH]; [done|]. cbn [set_limit]. destruct i; rewrite !prog_size_cons; try rewrite IH; done. Qed.
  Lemma start_work ch origin p : work_left (start ch origin p) = prog_size p.
  Proof. unfold work_left. cbn [start m_prog m_handler m_appendix later_size]. lia. Qed.
  Lemma message_ends ch origin p m : xsteps e (prog_size p) (start ch origin p) = XOk m -> halted m = true.
  Proof. apply steps_halt. by rewrite start_work. Qed.
  (** The number of steps does not matter once enough. *)
  Lemma halted_all n m : halted m = true -> xsteps e n m = XOk m.
  Proof. intros H. induction n as [|n IH]; [done|]. cbn [xsteps]. by rewrite halted_stays. Qed.
End runs.

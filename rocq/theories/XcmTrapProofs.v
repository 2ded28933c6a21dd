(** Proofs about calls that send messages, lost routes and trapped assets. *)
From Verif Require Import Base XcmTypes AssetLocationModel AssetLocationProofs OriginTypes AccountsModel PaymentsSpec LedgerProofs XcmConfigModel XcmConfigSpec
  XcmConfigProofs XcmCountable AccountsSpec AccountsProofs XcmExecModel XcmExecSpec XcmTraderProofs XcmExecProofs XcmRunProofs XcmMessageProofs XcmSendModel XcmSendSpec XcmSendProofs.
From stdpp Require Import gmap.
Open Scope N_scope.

(** * Sending *)

Lemma send_exact : forall e open para w o dest message w', (forall a, o = OSigned a -> account_wf a) -> xcall_run e open para w o (CSend dest message) = XOk w' ->
  n_chain w' = n_chain w /\ exists c part, n_out w' = n_out w ++ [(dest, [RDescendOrigin [Plurality (BIndex c) part]; RCustom message])] /\
    ((exists s, o = OCommunity c s) \/
     (part = Voice /\ exists a p, o = OSigned a /\ is_bytes p /\ length p = 8%nat /\ account_bytes a = derived_bytes str_modl p c)).
Proof.
  intros e open para w o dest message w' Hwf H. cbn [xcall_run] in H. xinv H. injection H as <-. cbn [n_chain n_out]. split; [done|].
  destruct (sent_as_community_bytes _ _ Hwf E) as (c & part & -> & Ho). exists c, part. split; [|done]. done.
Qed.
Lemma send_possible : forall e open para w c dest message, c <= u16_max -> reachable open dest = true ->
  xcall_run e open para w (OCommunity c None) (CSend dest message) =
    XOk (Net (n_chain w) (n_out w ++ [(dest, [RDescendOrigin [Plurality (BIndex c) Voice]; RCustom message])])).
Proof. intros e open para w c dest message Hc Hr. cbn [xcall_run]. cbn. by rewrite Hr. Qed.
Lemma never : forall e open para w o dest b assets p, xcall_run e open para w o (CTeleport dest b assets) = XErr /\ xcall_run e open para w o (CExecute p) = XErr /\
  (forall message, o = ORoot -> xcall_run e open para w o (CSend dest message) = XErr).
Proof. intros. split_and!; try done. by intros message ->. Qed.

(** * A way that loses assets *)

Definition usdt_call (dest : location) : xcall := CTransfer dest (Location 0 [AccountId32 None (account_bytes 9)]) [(usdt, 70)] 0 None.
Definition usdt_world : net := Net (Chain {[(Some usdt_id, 77) := 100]} [] [] 0) [].
Lemma usdt_lost : exists e open para w c w' dest target msg, xcall_run e open para w (OSigned 77) c = XOk w' /\
  transfers_by_itself c = Some (dest, [(usdt, 70)]) /\ caller_wf (OSigned 77) /\ dustless e /\
  n_out w' = n_out w ++ [(target, msg)] /\ amount_at (meant (our_place para) target) (withdrawn msg) (meant (our_place para) usdt) = 70 /\ ~ holds_reserve usdt target /\
  bal (n_chain w') (Some usdt_id) 77 + 70 = bal (n_chain w) (Some usdt_id) 77 /\ in_existence (n_chain w') (Some usdt_id) usdt + 70 = in_existence (n_chain w) (Some usdt_id) usdt.
Proof.
  set (r := xcall_run (calm_env 1) (fun _ => true) 2281 usdt_world (OSigned 77) (usdt_call (Location 1 [Parachain 2000]))).
  exists (calm_env 1), (fun _ => true), 2281, usdt_world, (usdt_call (Location 1 [Parachain 2000])), (match r with XOk w => w | _ => usdt_world end), (Location 1 [Parachain 2000]),
    (Location 1 [Parachain 2000]), [RWithdraw [(usdt, 70)]; RClearOrigin; RBuy (usdt, 70) None; RDeposit 1 (Location 0 [AccountId32 None (account_bytes 9)])].
  assert (exists w', r = XOk w') as [w' Hr].
  { destruct r as [w'| |] eqn:E; [by exists w'|by vm_compute in E..]. }
  split; [fold r; by rewrite Hr|]. split; [done|]. split; [split; [intros who [= <-]; by vm_compute|done]|]. split; [done|]. clear Hr. split; [by vm_compute|]. split; [by vm_compute|]. split.
  - intros [H|[(s & H) _]]; [by injection H|done].
  - split; by vm_compute.
Qed.

(** * Trapped assets *)

Lemma only_traps who c1 c2 : only_from who c1 c2 -> ch_traps c2 = ch_traps c1.
Proof. by intros (H & _). Qed.
Lemma exec_traps e m i m' : exec_instr e m i = XOk m' -> ch_traps (m_chain m') = ch_traps (m_chain m) \/
  exists l o l1 l2, i = XClaim l /\ ch_traps (m_chain m) = l1 ++ (o, subsume ∅ l) :: l2 /\ ch_traps (m_chain m') = l1 ++ l2.
Proof.
  intros H. assert (Hd : forall m m', take_delivery_fee e m = XOk m' -> ch_traps (m_chain m') = ch_traps (m_chain m)) by (intros m1 m2 Hm; apply delivery_ok in Hm as (_ & _ & Hm & _); by eapply only_traps).
  destruct i; cbn [exec_instr] in H; try done.
  all: try (left; xinv H; injection H as <-; reflexivity).
  - left. xinv H. injection H as <-. apply withdraw_all_only in E1. by apply only_traps in E1.
  - left. xinv H. injection H as <-. cbn [m_chain xset_chain]. eapply only_traps. eapply each_only; [|done]. intros. by eapply transfer_one_only.
  - left. xinv H. apply Hd in H. rewrite H. cbn [m_chain xset_chain]. eapply only_traps. eapply each_only; [|done]. intros. by eapply transfer_one_only.
  - left. destruct (saturating_take _ _). xinv H. injection H as <-. apply deposit_all_only in E. by apply only_traps in E.
  - left. xinv H. apply Hd in E. rewrite <-E. destruct (saturating_take _ _). xinv H. injection H as <-. apply deposit_all_only in E0. by apply only_traps in E0.
  - left. xinv H. apply Hd in E. rewrite <-E. destruct (saturating_take _ _). injection H as <-. done.
  - left. xinv H. apply Hd in E. rewrite <-E. destruct (saturating_take _ _). xinv H. injection H as <-. cbn [m_chain xset_chain xset_hold]. eapply only_traps. eapply each_only; [|done]. intros. by eapply check_out_one_only.
  - left. destruct limit; [|by injection H as <-]. xinv H. by injection H as <-.
  - left. apply refund_ok in H as (_ & -> & _). done.
  - right. xinv H. injection H as <-. apply claim_ok in E1 as (l1 & l2 & E1 & E2). eexists _, _, l1, l2. split_and!; try done.
  - left. by apply Hd.
  - left. xinv H. injection H as <-. by destruct k.
Qed.

Lemma encodable_handler p : instr_encodable (XSetErrorHandler p) <-> encodable p.
Proof.
  unfold encodable. cbn [instr_encodable]. induction p as [|i p IH]; [split; [constructor|done]|]. rewrite Forall_cons. by rewrite IH.
Qed.
Lemma encodable_appendix p : instr_encodable (XSetAppendix p) <-> encodable p.
Proof. apply encodable_handler. Qed.
Lemma exec_programs e m i m' : exec_instr e m i = XOk m' -> m_prog m' = m_prog m /\ (m_handler m' = m_handler m \/ i = XSetErrorHandler (m_handler m')) /\
  (m_appendix m' = m_appendix m \/ i = XSetAppendix (m_appendix m')).
Proof.
  intros H. assert (Hd : forall m m', take_delivery_fee e m = XOk m' -> m_prog m' = m_prog m /\ m_handler m' = m_handler m /\ m_appendix m' = m_appendix m).
  { intros m1 m2 Hm. unfold take_delivery_fee in Hm. xinv Hm. destruct (m_jit m1); xinv Hm; by injection Hm as <-. }
  destruct i; cbn [exec_instr] in H; try done.
  all: try (xinv H; injection H as <-; cbn; auto; fail).
  - xinv H. apply Hd in H as (-> & -> & ->). cbn. auto.
  - destruct (saturating_take _ _). xinv H. injection H as <-. cbn. auto.
  - xinv H. apply Hd in E as (E & E' & E''). rewrite <-E, <-E', <-E''. destruct (saturating_take _ _). xinv H. injection H as <-. cbn. auto.
  - xinv H. apply Hd in E as (E & E' & E''). rewrite <-E, <-E', <-E''. destruct (saturating_take _ _). injection H as <-. cbn. auto.
  - xinv H. apply Hd in E as (E & E' & E''). rewrite <-E, <-E', <-E''. destruct (saturating_take _ _). xinv H. injection H as <-. cbn. auto.
  - destruct limit; [|injection H as <-; auto]. xinv H. injection H as <-. cbn. auto.
  - unfold refund_surplus in H. destruct (weight_le _ _); [injection H as <-; auto|]. destruct (refund_weight _ _ _ _) as [t [a|]]; [|injection H as <-; cbn; auto].
    destruct (_ && _); [done|]. injection H as <-. cbn. auto.
  - apply Hd in H as (-> & -> & ->). auto.
  - xinv H. injection H as <-. destruct k; cbn; auto.
Qed.

Definition fits (m : machine) : Prop := encodable (m_prog m) /\ encodable (m_handler m) /\ encodable (m_appendix m).
Lemma fits_exec e i m m' : fits m -> instr_encodable i -> exec_instr e m i = XOk m' -> fits m'.
Proof.
  intros (F1 & F2 & F3) Hi H. destruct (exec_programs _ _ _ _ H) as (H1 & H2 & H3). split_and!; [by rewrite H1|..].
  - destruct H2 as [-> |H2]; [done|]. rewrite H2 in Hi. by apply encodable_handler.
  - destruct H3 as [-> |H3]; [done|]. rewrite H3 in Hi. by apply encodable_appendix.
Qed.
Section big.
  Context (tr : location * gmap location N) (Hbig : (20 < size (snd tr))%nat).
  Lemma exec_big e i m m' : instr_encodable i -> exec_instr e m i = XOk m' -> (times_trapped tr (m_chain m) <= times_trapped tr (m_chain m'))%nat.
  Proof.
    intros Hi H. unfold times_trapped. destruct (exec_traps _ _ _ _ H) as [-> |(l & o & l1 & l2 & -> & -> & ->)]; [done|].
    rewrite !filter_app, filter_cons, decide_False; [done|]. intros <-. cbn [snd instr_encodable] in *. pose proof (subsume_size l ∅) as Hs. rewrite map_size_empty in Hs. lia.
  Qed.
  Lemma step_big e m m' : fits m -> xstep e m = XOk m' -> fits m' /\ (times_trapped tr (m_chain m) <= times_trapped tr (m_chain m'))%nat.
  Proof.
    intros (F1 & F2 & F3) H. unfold xstep in H. destruct (m_prog m) as [|i p] eqn:Ep.
    - injection H as <-. destruct (halted m); [split; [|done]; unfold fits; by rewrite Ep|]. split; [|done]. unfold fits. cbn. split_and!; [done|constructor|constructor].
    - inversion F1 as [|? ? Hi Hp]; subst. destruct (exec_instr e (xset_prog p m) i) as [m1| |] eqn:E; [|..|done].
      + injection H as <-. split; [eapply fits_exec; [|done..]; by split_and!|]. apply (exec_big _ _ _ _ Hi E).
      + destruct (m_handler m) eqn:Eh; injection H as <-; (split; [|done]); unfold fits; cbn; rewrite ?Eh; split_and!; try done; constructor.
  Qed.
  Lemma steps_big e n : forall m m', fits m -> xsteps e n m = XOk m' -> (times_trapped tr (m_chain m) <= times_trapped tr (m_chain m'))%nat.
  Proof.
    induction n as [|n IH]; intros m m' F H; cbn [xsteps] in H; [by injection H as <-|]. xinv H. destruct (step_big _ _ _ F E) as [F' H']. specialize (IH _ _ F' H). lia.
  Qed.
  Lemma post_big e origin m : (times_trapped tr (m_chain m) <= times_trapped tr (post_process e origin m))%nat.
  Proof.
    unfold post_process. destruct (refund_frame e m) as [F1 _]. destruct (pay_fees_only e (outstanding (m_trader (settled e m))) (m_chain (settled e m))) as (P & _ & _).
    rewrite F1 in P. unfold times_trapped. case_bool_decide; [by rewrite F1, P|]. cbn [ch_traps]. rewrite F1, P, filter_app, app_length. lia.
  Qed.
  Lemma set_limit_encodable need : forall p, encodable p -> encodable (set_limit need p).
  Proof.
    induction p as [|i p IH]; intros H; [done|]. inversion H as [|? ? H1 H2]; subst. destruct i; cbn [set_limit]; constructor; try done; try (by apply IH).
  Qed.
  Lemma receive_big e para ch origin p need ch' : encodable p -> receive e para ch origin p need = XOk ch' -> (times_trapped tr ch <= times_trapped tr ch')%nat.
  Proof.
    intros Hp. unfold receive, process. destruct (let_through para origin p need (0, 0)) as [p'|] eqn:El; [|by intros [= <-]]. intros H. xinv H. injection H as <-.
    assert (encodable p') as Hp'.
    { unfold let_through in El. destruct (computed_origin _ _ _ _) as [o r]. destruct (take_weight_credit _ _); [by injection El as <-|].
      destruct (paid_execution r need); [injection El as <-; by apply set_limit_encodable|]. destruct (unpaid_execution _ _ _ _); [by injection El as <-|done]. }
    etransitivity; [|apply post_big]. apply (steps_big e _ _ _) in E; [done|]. split_and!; [done|constructor|constructor].
  Qed.
  Lemma all_big e p : forall m m', encodable p -> exec_all e p m = XOk m' -> (times_trapped tr (m_chain m) <= times_trapped tr (m_chain m'))%nat.
  Proof.
    induction p as [|i p IH]; intros m m' Hp H; cbn [exec_all] in H; [by injection H as <-|]. inversion Hp; subst. xinv H. etransitivity; [by eapply exec_big|by eapply IH].
  Qed.
  Lemma run_local_big e l p ch ch' : encodable p -> run_local e l p ch = XOk ch' -> (times_trapped tr ch <= times_trapped tr ch')%nat.
  Proof. intros Hp H. apply run_local_ok in H as (m & H & ->). etransitivity; [|apply post_big]. by eapply (all_big e p (start ch l []) m). Qed.
  Definition claimless (p : list xinstr) : Prop := Forall (fun i => forall l, i <> XClaim l) p.
  Lemma all_claimless e p : forall m m', claimless p -> exec_all e p m = XOk m' -> ch_traps (m_chain m') = ch_traps (m_chain m).
  Proof.
    induction p as [|i p IH]; intros m m' Hp H; cbn [exec_all] in H; [by injection H as <-|]. inversion Hp; subst. xinv H. rewrite (IH _ _ ltac:(done) H).
    destruct (exec_traps _ _ _ _ E) as [-> |(l & o & l1 & l2 & -> & _)]; [done|]. by destruct (H2 l).
  Qed.
  Lemma run_claimless e l p ch ch' : claimless p -> run_local e l p ch = XOk ch' -> (times_trapped tr ch <= times_trapped tr ch')%nat.
  Proof.
    intros Hp H. apply run_local_ok in H as (m & H & ->). etransitivity; [|apply post_big]. apply all_claimless in H; [|done]. unfold times_trapped. by rewrite H.
  Qed.
  Lemma transfer_claimless para dest r assets item ft t limit local target msg : transfer_programs para dest r assets item ft t limit = Some (local, (target, msg)) -> claimless local.
  Proof.
    unfold transfer_programs. destruct (assets !! item) as [fee|] eqn:Ei; [|done]. case_bool_decide as Et.
    - destruct t; cbn [build]; try done.
      + unfold local_reserve_programs. cbn [add_fees app]. intros [= <- <- <-]. by repeat constructor.
      + unfold destination_reserve_programs. destruct (forallb _ assets); [|done]. cbn [add_fees app fmap option_fmap option_map fst snd]. intros [= <- <- <-]. by repeat constructor.
      + unfold remote_reserve_program. destruct (halve fee) as [[]|]; [|done]. cbn [fmap option_fmap option_map fst snd]. intros [= <- <- <-]. by repeat constructor.
    - destruct (fees_programs para dest fee ft limit) as [f|] eqn:Ef; [|by destruct t].
      assert (exists lf a b, f = Separate lf [a; b] /\ claimless lf) as (lf & a & b & -> & Ha).
      { destruct ft; cbn [fees_programs] in Ef; try done; [|destruct (is_reserve _ _); [|done]]; injection Ef as <-; eexists _, _, _; (split; [reflexivity|]); by repeat constructor. }
      destruct t; cbn [build]; try done.
      + unfold local_reserve_programs. cbn [add_fees app]. intros [= <- <- <-]. apply Forall_app. split; [done|]. by repeat constructor.
      + unfold destination_reserve_programs. destruct (forallb _ (delete _ _)); [|done]. cbn [add_fees app fmap option_fmap option_map fst snd]. intros [= <- <- <-]. apply Forall_app. split; [done|]. by repeat constructor.
  Qed.
  Lemma call_big e open para w o c w' : xcall_run e open para w o c = XOk w' -> (times_trapped tr (n_chain w) <= times_trapped tr (n_chain w'))%nat.
  Proof.
    intros H. destruct (transfers c) as [[dest assets]|] eqn:Et.
    - destruct (transfers_run _ _ _ _ _ _ _ _ _ H Et) as (l & r & item & ft & t & limit & local & target & msg & Hl & Hs & Hp & Hr & _).
      unfold execute_transfer in Hr. xinv Hr. injection Hr as <-. cbn [fst snd n_chain] in *. eapply run_claimless; [by eapply transfer_claimless|done].
    - destruct c; try done; cbn [xcall_run] in H; try done.
      + xinv H. by injection H as <-.
      + xinv H. injection H as <-. cbn [n_chain]. eapply run_local_big; [|done]. unfold assets_decode in E0. apply andb_prop in E0 as [E0 _]. apply andb_prop in E0 as [_ E0]. apply Nat.leb_le in E0.
        constructor; [done|]. by repeat constructor.
  Qed.
End big.
Lemma stuck : forall para tr w w', (20 < size (snd tr))%nat -> xcm_later para w w' -> (times_trapped tr (n_chain w) <= times_trapped tr (n_chain w'))%nat.
Proof.
  intros para tr w w' Hbig H. induction H as [|w1 w2 w3 H _ IH]; [done|]. etransitivity; [|exact IH]. destruct H as [e w origin p need ch' Hp H|e open w o c w' H].
  - cbn [n_chain]. by eapply receive_big.
  - by eapply call_big.
Qed.

Definition hub_asset (i : N) : location := Location 1 [Parachain 1000; PalletInstance 50; GeneralIndex i].
Definition hub_id (i : N) : asset_id := Sibling (Para 1000 50 i).
Definition kinds (from n : nat) : list (location * N) := map (fun i => (hub_asset (N.of_nat i), 5)) (seq from n).
Definition many_chain : chain :=
  Chain (<[(None, sibling_account 2000) := 10000000000000]> (list_to_map (map (fun i => ((Some (hub_id (N.of_nat i)), sibling_account 2000), 5)) (seq 1 22)))) [] [] 0.
Definition many_program : list xinstr :=
  [XWithdraw [(relay_location, 9000000000000)]; XBuy (relay_location, 9000000000000) None; XWithdraw (kinds 1 11); XWithdraw (kinds 12 11)].
Definition many_result : chain := match receive_message (calm_env 1) 2281 many_chain (Location 1 [Parachain 2000]) many_program with XOk ch => ch | _ => many_chain end.
Lemma stuck_happens : exists e para ch p need ch' tr, encodable p /\ receive e para ch (Location 1 [Parachain 2000]) p need = XOk ch' /\
  fst tr = Location 1 [Parachain 2000] /\ (forall i, 1 <= i <= 22 -> default 0 (snd tr !! hub_asset i) = 5) /\ times_trapped tr ch = 0%nat /\ times_trapped tr ch' = 1%nat /\
  forall w w', n_chain w = ch' -> xcm_later para w w' -> (1 <= times_trapped tr (n_chain w'))%nat.
Proof.
  set (need := default (0, 0) (weigh many_program)).
  exists (calm_env 1), 2281, many_chain, many_program, need, many_result, (default (Location 0 [], ∅) (head (ch_traps many_result))).
  assert (receive (calm_env 1) 2281 many_chain (Location 1 [Parachain 2000]) many_program need = XOk many_result) as Hr.
  { assert (Hb : match receive_message (calm_env 1) 2281 many_chain (Location 1 [Parachain 2000]) many_program with XOk _ => true | _ => false end = true) by (vm_compute; reflexivity).
    assert (Hw : weigh many_program = Some need) by (vm_compute; reflexivity).
    assert (Hr : receive_message (calm_env 1) 2281 many_chain (Location 1 [Parachain 2000]) many_program = XOk many_result).
    { unfold many_result. destruct (receive_message _ _ _ _ _); [reflexivity|discriminate Hb|discriminate Hb]. }
    unfold receive_message in Hr. rewrite Hw in Hr. exact Hr. }
  assert (Ht : times_trapped (default (Location 0 [], ∅) (head (ch_traps many_result))) many_result = 1%nat) by (vm_compute; reflexivity).
  assert (Hp : encodable many_program) by (unfold many_program; repeat constructor; cbn; lia).
  split; [exact Hp|]. split; [exact Hr|]. split; [vm_compute; reflexivity|]. split; [|split; [vm_compute; reflexivity|split; [exact Ht|]]].
  - intros i Hi. assert (forallb (fun i => default 0 (snd (default (Location 0 [], ∅) (head (ch_traps many_result))) !! hub_asset (N.of_nat i)) =? 5) (seq 1 22) = true) as Hf by (vm_compute; reflexivity).
    rewrite forallb_forall in Hf. specialize (Hf (N.to_nat i)). rewrite N2Nat.id in Hf. apply N.eqb_eq, Hf, in_seq. lia.
  - intros w w' Hw Hl. assert (Hs : (20 < size (snd (default (Location 0 [], ∅) (head (ch_traps many_result)))))%nat) by (apply Nat.ltb_lt; vm_compute; reflexivity).
    pose proof (stuck _ _ _ _ Hs Hl) as H. rewrite Hw, Ht in H. exact H.
Qed.

(** Claiming. *)
Lemma subsume_own (h : gmap location N) : no_zero h -> (forall k n, h !! k = Some n -> n <= u128_max) -> subsume ∅ (map_to_list h) = h.
Proof.
  intros Hz Hb. assert (Hn : NoDup (map fst (map_to_list h))) by apply NoDup_fst_map_to_list.
  assert (Hbb : forallb (fun a => snd a <=? u128_max) (map_to_list h) = true).
  { apply forallb_forall. intros [k n] Hin. apply elem_of_list_In, elem_of_map_to_list in Hin. apply N.leb_le. by eapply Hb. }
  pose proof (subsume_fresh (map_to_list h) ∅ Hn ltac:(intros; by rewrite lookup_empty) Hbb) as Hf.
  apply map_eq. intros k. specialize (Hf k). rewrite amt_map_to_list in Hf. unfold held_of in Hf at 2. rewrite lookup_empty in Hf. cbn [default from_option] in Hf.
  pose proof (subsume_no_zero (map_to_list h) ∅ no_zero_nil k) as Hz'. specialize (Hz k). unfold held_of in Hf.
  destruct (h !! k) as [v|] eqn:E1, (subsume ∅ (map_to_list h) !! k) as [v'|] eqn:E2; cbn in Hf; try done; try congruence; f_equal; try lia; exfalso; [apply Hz|apply Hz']; f_equal; lia.
Qed.
Lemma claim_found o h l : (o, h) ∈ l -> exists l', claim o h l = Some l'.
Proof.
  induction l as [|t l IH]; intros H; [by inversion H|]. cbn [claim]. case_bool_decide as E; [by eexists|]. apply elem_of_cons in H as [<-|H]; [done|]. destruct (IH H) as [l' ->]. by eexists.
Qed.
Lemma deposits_calm e who y : calm e -> location_to_account who = Some y -> forall l ch, NoDup (map fst l) ->
  Forall (fun a => exists t, token_of (fst a) = Val (Some t) /\ bal ch t y + snd a <= u128_max) l ->
  exists ch', deposit_some e l who ch = XOk ([], ch') /\ (forall t a, bal ch' t a = bal ch t a + ind (bool_decide (a = y)) (token_amount l t)) /\ ch_traps ch' = ch_traps ch.
Proof.
  intros He Hy. induction l as [|a l IH]; intros ch Hn Hf.
  { exists ch. split_and!; try done. intros t x. destruct (bool_decide (x = y)); cbn; lia. }
  cbn [map] in Hn. apply NoDup_cons in Hn as [Hi Hn]. inversion Hf as [|? ? (t & Ht & Hle) Hf']; subst.
  cbn [deposit_some]. unfold deposit_one. unfold xtoken. rewrite Ht, Hy. cbn [xbind xsome]. unfold deposit_to. rewrite (cl_deposit e He), (proj2 (N.leb_le _ _) Hle). cbn [andb xensure xbind].
  destruct (IH (set_bal ch t y (bal ch t y + snd a)) Hn) as (ch' & H1 & H2 & H3).
  { apply Forall_forall. intros b Hb. rewrite Forall_forall in Hf'. destruct (Hf' b Hb) as (t' & Ht' & Hle'). exists t'. split; [done|]. rewrite bal_set, bool_decide_eq_false_2; [done|].
    intros [<- _]. apply Hi. rewrite (token_of_inj _ _ _ Ht Ht'). by apply elem_of_list_In, in_map, elem_of_list_In. }
  exists ch'. split_and!; [done| |done]. intros t' x. rewrite H2, bal_set, (token_amount_cons _ _ _ _ Ht).
  destruct (decide (t = t' /\ y = x)) as [[<- <-]|E].
  - rewrite !bool_decide_eq_true_2 by done. cbn [ind]. lia.
  - rewrite (bool_decide_eq_false_2 _ E). destruct (decide (x = y)) as [->|Ex]; [|rewrite !bool_decide_eq_false_2 by done; cbn; lia].
    rewrite (bool_decide_eq_true_2 (y = y)) by done. rewrite bool_decide_eq_false_2; [cbn [ind]; lia|]. intros ->. by apply E.
Qed.
Lemma take_whole (h : gmap location N) : forall l, NoDup (map fst l) -> (forall a, a ∈ l -> held_of h (fst a) = snd a) -> fst (saturating_take l h) = l.
Proof.
  intros l. revert h. induction l as [|a l IH]; intros h Hn Hh; [done|]. cbn [map] in Hn. apply NoDup_cons in Hn as [Hi Hn]. cbn [saturating_take].
  rewrite (Hh a) by left. rewrite N.min_id, N.sub_diag.
  specialize (IH (set_held_of h (fst a) 0) Hn). destruct (saturating_take l _) as [tk rest]. cbn [fst] in *. rewrite IH; [by destruct a|].
  intros b Hb. rewrite held_set, bool_decide_eq_false_2; [apply Hh; by right|]. intros E. apply Hi. rewrite E. by apply elem_of_list_In, in_map, elem_of_list_In.
Qed.

(** Nobody here ever has trapped assets. *)
Lemma only_only who ch ch' : only_from who ch ch' -> ch_traps ch' = ch_traps ch.
Proof. intros H. by eapply only_traps. Qed.
Lemma quiet_withdraw e l a ch ch' : withdraw_all e a l ch = XOk ch' -> ch_traps ch' = ch_traps ch.
Proof. intros H. eapply only_only, withdraw_all_only, H. Qed.
Lemma quiet_transfer e l dest a : forall ch ch', each (transfer_one e l dest) a ch = XOk ch' -> ch_traps ch' = ch_traps ch.
Proof. intros ch ch' H. eapply only_only, each_only, H. intros. by eapply transfer_one_only. Qed.
Definition quiet (e : xenv) (l : location) (p : list xinstr) : Prop := forall ch m, exec_all e p (start ch l []) = XOk m -> ch_traps (post_process e l m) = ch_traps ch.
Lemma quiet_nil e l : quiet e l [].
Proof. intros ch m [= <-]. done. Qed.
Lemma quiet_t e l a dest p : quiet e l p -> quiet e l (XTransfer a dest :: p).
Proof. intros H ch m Hr. apply run_transfer in Hr as (c & H1 & H2). rewrite (H _ _ H2). by eapply quiet_transfer. Qed.
Lemma quiet_b e l a p : NoDup (map fst a) -> forallb (fun a => snd a <=? u128_max) a = true -> quiet e l p -> quiet e l (XWithdraw a :: XBurn a :: p).
Proof. intros Hn Hb H ch m Hr. apply run_burn in Hr as (c & H1 & H2); [|done..]. rewrite (H _ _ H2). by eapply quiet_withdraw. Qed.
Lemma quiet_r e l a : (forall m, xe_delivery e m = []) -> quiet e l [XWithdraw a; XSetFeesMode true; XInitiateReserveWithdraw (FAllCounted (length a))].
Proof. intros Hd ch m Hr. apply run_remote in Hr as (c & H1 & H2 & _); [|done]. rewrite H2. cbn [ch_traps]. by eapply quiet_withdraw. Qed.
Lemma transfer_quiet e l para dest r assets item ft t limit local target msg : sound_list assets -> (forall m, xe_delivery e m = []) ->
  transfer_programs para dest r assets item ft t limit = Some (local, (target, msg)) -> quiet e l local.
Proof.
  intros Hs Hd. unfold transfer_programs. destruct (assets !! item) as [fee|] eqn:Ei; [|done]. destruct (sound_delete _ _ _ Hs Ei) as [[F1 F2] [D1 D2]]. destruct Hs as [S1 S2]. case_bool_decide as Et.
  - destruct t; cbn [build]; try done.
    + unfold local_reserve_programs. cbn [add_fees app]. intros [= <- <- <-]. apply quiet_t, quiet_nil.
    + unfold destination_reserve_programs. destruct (forallb (fun a => is_reserve (fst a) dest) assets); [|done]. cbn [add_fees app fmap option_fmap option_map fst snd]. intros [= <- <- <-]. by apply quiet_b, quiet_nil.
    + unfold remote_reserve_program. destruct (halve fee) as [[]|]; [|done]. cbn [fmap option_fmap option_map fst snd]. intros [= <- <- <-]. by apply quiet_r.
  - destruct (fees_programs para dest fee ft limit) as [f|] eqn:Ef; [|by destruct t].
    assert (exists lf a b, f = Separate lf [a; b] /\ forall p, quiet e l p -> quiet e l (lf ++ p)) as (lf & a & b & -> & Ha).
    { destruct ft; cbn [fees_programs] in Ef; try done; [|destruct (is_reserve _ _); [|done]]; injection Ef as <-; eexists _, _, _; (split; [reflexivity|]); intros p Hp; cbn [app]; [by apply quiet_t|by apply quiet_b]. }
    destruct t; cbn [build]; try done.
    + unfold local_reserve_programs. cbn [add_fees app]. intros [= <- <- <-]. apply Ha. apply quiet_t, quiet_nil.
    + unfold destination_reserve_programs. destruct (forallb (fun a => is_reserve (fst a) dest) (delete _ _)); [|done]. cbn [add_fees app fmap option_fmap option_map fst snd]. intros [= <- <- <-]. apply Ha. by apply quiet_b, quiet_nil.
Qed.
Lemma execute_local o l : can_execute_xcm o = Some l -> loc_parents l = 0.
Proof. unfold can_execute_xcm, or_else. destruct o; cbn [community_to_location signed_to_account]; try done; [intros H; by injection H as <-|]. destruct s as [[]|]; cbn; try done; intros H; by injection H as <-. Qed.
Lemma claim_elem o h l l' : claim o h l = Some l' -> (o, h) ∈ l.
Proof. intros H. apply claim_ok in H as (l1 & l2 & -> & _). apply elem_of_app. right. by left. Qed.
Lemma claim_fails e open para w o assets b w' : none_here w -> xcall_run e open para w o (CClaim assets b) <> XOk w'.
Proof.
  intros Hn H. cbn [xcall_run] in H. xinv H. apply run_local_ok in E1 as (m & H1 & _). cbn [exec_all] in H1. xinv H1. cbn [exec_instr] in E1. xinv E1.
  match goal with H : claim _ _ _ = Some _ |- _ => apply claim_elem in H as Hel end. cbn [start m_chain ch_traps m_origin] in *. match goal with H : Some _ = Some _ |- _ => injection H as <- end. unfold none_here in Hn. rewrite Forall_forall in Hn. specialize (Hn _ Hel). cbn [fst] in Hn. apply execute_local in E. lia.
Qed.
Lemma call_none_here e open para w o c w' : none_here w -> xcall_run e open para w o c = XOk w' -> none_here w'.
Proof.
  intros Hn H. destruct (transfers c) as [[dest assets]|] eqn:Et.
  - destruct (transfers_run _ _ _ _ _ _ _ _ _ H Et) as (l & r & item & ft & t & limit & local & target & msg & Hl & Hs & Hp & Hr & _).
    unfold execute_transfer in Hr. xinv Hr. injection Hr as <-. cbn [fst snd n_chain] in *. apply run_local_ok in E as (m & E & ->).
    unfold none_here. cbn [n_chain]. by rewrite (transfer_quiet (sending e open target) l _ _ _ _ _ _ _ _ _ _ _ Hs ltac:(done) Hp _ _ E).
  - destruct c; try done; cbn [xcall_run] in H; try done.
    + xinv H. by injection H as <-.
    + exfalso. exact (claim_fails e open para w o _ _ w' Hn H).
Qed.
Lemma receive_none_here e para ch origin p need ch' : 0 < loc_parents origin -> Forall (fun tr => 0 < loc_parents (fst tr)) (ch_traps ch) -> receive e para ch origin p need = XOk ch' ->
  Forall (fun tr => 0 < loc_parents (fst tr)) (ch_traps ch').
Proof.
  intros Ho Hn H. apply Forall_forall. intros tr Hin. destruct (N.lt_ge_cases 0 (loc_parents (fst tr))) as [|Hz]; [done|]. exfalso.
  assert (times_trapped tr ch' = times_trapped tr ch) as Ht. { eapply receive_traps; [exact H|]. intros [s Hs]. rewrite Hs in Hz. cbn [loc_parents] in Hz. lia. }
  rewrite Forall_forall in Hn. unfold times_trapped in Ht.
  assert (tr ∈ filter (fun x => x = tr) (ch_traps ch')) as Hin' by (by apply elem_of_list_filter).
  destruct (filter (fun x => x = tr) (ch_traps ch)) as [|x l] eqn:E.
  - destruct (filter (fun x => x = tr) (ch_traps ch')); [by inversion Hin'|done].
  - assert (x ∈ filter (fun x => x = tr) (ch_traps ch)) as Hx by (rewrite E; left). apply elem_of_list_filter in Hx as [-> Hx]. specialize (Hn _ Hx). cbn in Hn. lia.
Qed.
Lemma never_here : forall para w w', none_here w -> outside_later para w w' -> none_here w' /\
  (forall e open o assets b w'', xcall_run e open para w' o (CClaim assets b) <> XOk w'').
Proof.
  intros para w w' Hn H. assert (none_here w') as Hn'.
  { induction H as [|w1 w2 w3 H _ IH]; [done|]. apply IH. destruct H as [e w origin p need ch' Ho H|e open w o c w' H]; [|by eapply call_none_here].
    unfold none_here in *. cbn [n_chain] in *. by eapply receive_none_here. }
  split; [done|]. intros. by apply claim_fails.
Qed.

(** Places elsewhere recover what lies trapped for them with a message. *)
Lemma token_amount_amt k t l : token_of k = Val (Some t) -> token_amount l t = amt l k.
Proof.
  intros Hk. induction l as [|a l IH]; [done|]. cbn [token_amount foldr amt]. fold (token_amount l t). rewrite IH. f_equal.
  destruct (decide (fst a = k)) as [->|E]; [by rewrite Hk, !bool_decide_eq_true_2|]. rewrite (bool_decide_eq_false_2 (fst a = k)) by done.
  destruct (token_of (fst a)) as [[t'|]| |] eqn:Ea; [|done..]. rewrite bool_decide_eq_false_2; [done|]. intros ->. apply E. by eapply token_of_inj.
Qed.
Lemma token_amount_none t l : (forall a, a ∈ l -> token_of (fst a) <> Val (Some t)) -> token_amount l t = 0.
Proof.
  induction l as [|a l IH]; intros H; [done|]. cbn [token_amount foldr]. fold (token_amount l t). rewrite IH by (intros b Hb; apply H; by right).
  specialize (H a ltac:(left)). destruct (token_of (fst a)) as [[t'|]| |]; [|done..]. rewrite bool_decide_eq_false_2; [done|]. by intros ->.
Qed.
Lemma elem_held (h : gmap location N) a : a ∈ map_to_list h -> held_of h (fst a) = snd a.
Proof. destruct a as [k v]. intros H. apply elem_of_map_to_list in H. unfold held_of. cbn [fst snd]. by rewrite H. Qed.
Lemma held_elem (h : gmap location N) k : held_of h k <> 0 -> (k, held_of h k) ∈ map_to_list h.
Proof. unfold held_of. destruct (h !! k) as [v|] eqn:E; [|done]. intros _. by apply elem_of_map_to_list. Qed.
Lemma let_through_bought para origin i fee limit rest need : (exists n, shape i = BAssets n /\ (n <= 2)%nat) -> need <> (0, 0) -> within need limit = true ->
  let_through para origin (i :: XBuy fee limit :: rest) need (0, 0) = Some (i :: XBuy fee (Some need) :: rest).
Proof.
  intros (n & Hs & Hn2) Hn Hw. unfold let_through. cbn [map]. rewrite Hs. cbn [shape computed_origin]. rewrite need_nonzero by done.
  unfold paid_execution. cbn [take skip_clear]. rewrite (proj2 (Nat.leb_le n 2) Hn2), Hw. cbn [andb].
  cbn [set_limit]. destruct i; try done.
Qed.
Lemma claimed_once tr l l1 l2 : l = l1 ++ tr :: l2 -> length (filter (fun x : location * gmap location N => x = tr) l) = S (length (filter (fun x => x = tr) (l1 ++ l2))).
Proof. intros ->. rewrite !filter_app, filter_cons, decide_True by done. rewrite !app_length. cbn [length]. lia. Qed.
Local Opaque treasury_account.
Lemma claim_works : forall e para ch origin y k t n price limit need h dest x, calm e -> costs e need k price -> token_of k = Val (Some t) ->
  location_to_account origin = Some y -> location_to_account dest = Some x -> (origin, h) ∈ ch_traps ch -> (size h <= 20)%nat ->
  (forall k' v, h !! k' = Some v -> 0 < v /\ v <= u128_max /\ exists t', token_of k' = Val (Some t')) ->
  0 < n -> n <= bal ch t y -> n <= u128_max -> 0 < price -> price <= n -> (forall t' a, bal ch t' a + token_amount (map_to_list h) t' + n <= u128_max) ->
  need <> (0, 0) -> within need limit = true -> encodable (claim_message k n limit (map_to_list h) dest) /\
  exists ch', receive e para ch origin (claim_message k n limit (map_to_list h) dest) need = XOk ch' /\
    times_trapped (origin, h) ch = S (times_trapped (origin, h) ch') /\
    forall t' a, bal ch' t' a + ind (bool_decide (t' = t /\ a = y)) n =
      bal ch t' a + ind (bool_decide (a = x)) (token_amount (map_to_list h) t' + ind (bool_decide (t' = t)) (n - price)) + ind (bool_decide (t' = t /\ a = treasury_account)) price.
Proof.
  intros e para ch origin y k t n price limit need h dest x Hc Hcost Ht Hy Hx Htrap Hsize Hknown Hn0 Hb Hn Hp0 Hp Hbound Hneed Hw.
  assert (Hlen : (length (map_to_list h) <= 20)%nat) by exact Hsize.
  split; [unfold claim_message, encodable; rewrite !Forall_cons, Forall_nil; cbn [instr_encodable filter_encodable length]; split_and!; try done; lia|].
  destruct (claim_found _ _ _ Htrap) as [traps Hclaim].
  set (l := map_to_list h) in *.
  assert (Hl0 : forall k', amt l k' = held_of h k') by (intros k'; apply amt_map_to_list).
  assert (Hnz : no_zero h). { intros k' E. destruct (Hknown _ _ E) as [? _]. lia. }
  assert (Hlb : forall k', held_of h k' + n <= u128_max).
  { intros k'. unfold held_of. destruct (h !! k') as [v|] eqn:E; [|cbn; lia]. destruct (Hknown _ _ E) as (_ & _ & t' & Ht'). specialize (Hbound t' x). rewrite (token_amount_amt _ _ _ Ht'), Hl0 in Hbound. unfold held_of in Hbound. rewrite E in Hbound. cbn in *. lia. }
  set (h1 := set_held_of ({[k := n]} : gmap location N) k (n - price)).
  assert (Hh1 : forall k', held_of h1 k' = ind (bool_decide (k = k')) (n - price)).
  { intros k'. unfold h1. rewrite held_set. case_bool_decide as E; [done|]. unfold held_of. by rewrite lookup_singleton_ne. }
  assert (Hh1s : (size h1 <= 1)%nat). { unfold h1, set_held_of. destruct (_ =? 0); [rewrite delete_singleton, map_size_empty; lia|]. rewrite insert_singleton, map_size_singleton. lia. }
  set (h2 := subsume h1 l).
  assert (Hh2 : forall k', held_of h2 k' = held_of h k' + ind (bool_decide (k = k')) (n - price)).
  { intros k'. unfold h2. rewrite held_subsume, <-Hh1, <-Hl0. specialize (Hlb k'). rewrite <-Hl0 in Hlb. pose proof (Hh1 k') as H1. destruct l as [|a l'] eqn:El; [cbn; lia|]. rewrite <-El in *.
    destruct (decide (k' ∈ map fst l)) as [E|E]; [rewrite (bool_decide_eq_true_2 _ E); unfold sat128; rewrite N.min_l; [lia|destruct (bool_decide (k = k')); cbn [ind] in H1; lia]|]. rewrite (bool_decide_eq_false_2 _ E).
    enough (amt l k' = 0) by lia. clear -E. clearbody l. induction l as [|a l IH]; [done|]. cbn [map] in E. apply not_elem_of_cons in E as [E1 E2]. cbn [amt foldr]. rewrite bool_decide_eq_false_2 by done. fold (amt l k'). rewrite IH by done. done. }
  assert (Hz1 : no_zero h1). { unfold h1. apply set_held_no_zero. intros k' E. apply lookup_singleton_Some in E as [_ E]. lia. }
  assert (Hz2 : no_zero h2) by (unfold h2; by apply subsume_no_zero).
  assert (Hs2 : (length (map_to_list h2) <= S (length l))%nat). { change (length (map_to_list h2)) with (size h2). unfold h2. pose proof (subsume_size l h1). lia. }
  assert (Hta : forall t', token_amount (map_to_list h2) t' = token_amount l t' + ind (bool_decide (t' = t)) (n - price)).
  { intros t'. destruct (decide (t' = t)) as [->|E].
    - rewrite bool_decide_eq_true_2 by done. cbn [ind]. rewrite !(token_amount_amt _ _ _ Ht), Hl0, amt_map_to_list, Hh2, bool_decide_eq_true_2 by done. done.
    - rewrite bool_decide_eq_false_2 by done. cbn [ind]. rewrite N.add_0_r.
      assert (Hdec : Exists (fun a : location * N => token_of (fst a) = Val (Some t')) l \/ ~ Exists (fun a : location * N => token_of (fst a) = Val (Some t')) l).
      { destruct (existsb (fun a => match token_of (fst a) with Val (Some t0) => bool_decide (t0 = t') | _ => false end) l) eqn:Ex.
        - left. apply existsb_exists in Ex as (a & Ha & Et). apply Exists_exists. exists a. split; [by apply elem_of_list_In|]. destruct (token_of (fst a)) as [[t0|]| |]; try done. apply bool_decide_eq_true in Et. by subst.
        - right. intros Hex. apply Exists_exists in Hex as (a & Ha & Et). apply not_true_iff_false in Ex. apply Ex, existsb_exists. exists a. split; [by apply elem_of_list_In|]. rewrite Et. by apply bool_decide_eq_true. }
      destruct Hdec as [Hex|Hno].
      + apply Exists_exists in Hex as (a & _ & Ha). rewrite !(token_amount_amt _ _ _ Ha), Hl0, amt_map_to_list, Hh2, bool_decide_eq_false_2; [cbn; lia|]. intros Eq. rewrite <-Eq in Ha. congruence.
      + rewrite (token_amount_none t' l) by (intros a Ha Ea; apply Hno, Exists_exists; eauto). apply token_amount_none. intros a Ha Ea. pose proof (elem_held _ _ Ha) as Eh. rewrite Hh2 in Eh.
        destruct (decide (k = fst a)) as [Ek|Ek]; [congruence|]. rewrite bool_decide_eq_false_2 in Eh by done. cbn [ind] in Eh. apply Hno, Exists_exists. eexists. split; [apply (held_elem h (fst a))|done].
        assert (snd a <> 0); [|lia]. destruct a as [ka va]. apply elem_of_map_to_list in Ha. cbn [snd]. intros ->. by apply (Hz2 ka). }
  assert (Hknown2 : forall a, a ∈ map_to_list h2 -> exists t', token_of (fst a) = Val (Some t')).
  { intros a Ha. pose proof (elem_held _ _ Ha) as Eh. rewrite Hh2 in Eh. destruct (decide (k = fst a)) as [<-|Ek]; [eauto|]. rewrite bool_decide_eq_false_2 in Eh by done. cbn [ind] in Eh.
    destruct a as [ka va]. apply elem_of_map_to_list in Ha. cbn [fst snd] in *. unfold held_of in Eh. destruct (h !! ka) as [v|] eqn:E; [by destruct (Hknown _ _ E) as (_ & _ & ?)|]. cbn in Eh. exfalso. apply (Hz2 ka). rewrite Ha. f_equal. lia. }
  unfold receive, process, claim_message. rewrite let_through_bought; [|by eexists; split; [done|cbn; lia]|done|done].
  change (prog_size _) with 4%nat. cbn [xsteps]. unfold start. unfold xstep at 1. cbn [m_prog exec_instr xset_prog m_hold m_origin xsome xbind m_chain].
  match goal with |- context [can_subsume ?m [(k, n)]] => change (can_subsume m [(k, n)]) with true end. cbn [xensure xbind].
  unfold withdraw_all. cbn [each]. unfold withdraw_one. cbn [fst snd]. unfold xtoken at 1. rewrite Ht. cbn [xbind]. rewrite Hy. cbn [xsome xbind]. pose proof Hc as [C2 C3 C4]. rewrite C2, C3, (proj2 (N.leb_le _ _) Hb).
  cbn [andb xensure xbind]. unfold subsume at 1. mcbn. assert (held_of ∅ k = 0) as Hz by (unfold held_of; by rewrite lookup_empty). rewrite Hz, N.add_0_l. unfold sat128 at 1. rewrite N.min_l by done. rewrite set_held_nonzero by lia.
  change (<[k:=n]> (∅ : gmap location N)) with ({[k := n]} : gmap location N).
  set (ch1 := set_bal ch t y (bal ch t y - n)).
  assert (held_of {[k := n]} k = n) as Hh by (unfold held_of; by rewrite lookup_singleton).
  unfold xstep at 1. mcbn. cbn [exec_instr]. mcbn. rewrite Hh, N.leb_refl. mcbn.
  rewrite (buy_first _ _ _ _ _ _ Hcost) by lia. mcbn. set (tr := if bool_decide _ then _ else _).
  assert (outstanding tr = [(k, price)]) as Ho.
  { unfold tr. case_bool_decide as Er; unfold outstanding; cbn [tr_asset tr_native app]; [|done]. unfold sat128. rewrite N.min_l by lia. rewrite (proj2 (N.eqb_neq price 0)) by lia. by rewrite Er. }
  clearbody tr. fold h1. unfold xstep at 1. mcbn. cbn [exec_instr]. mcbn.
  match goal with |- context [can_subsume ?m _] => assert (can_subsume m l = true) as Hcan end.
  { unfold can_subsume. mcbn. apply Nat.leb_le. unfold holding_limit. lia. }
  rewrite Hcan. mcbn. fold l. unfold l at 1. rewrite subsume_own; [|done|intros k' v E; by destruct (Hknown _ _ E) as (_ & ? & _)]. change (ch_traps ch1) with (ch_traps ch). rewrite Hclaim. mcbn.
  fold h2. set (ch2 := Chain (ch_bal ch1) traps (ch_calls ch1) (ch_sent ch1)).
  unfold xstep at 1. mcbn. cbn [exec_instr requested]. mcbn. rewrite take_ge by done.
  pose proof (take_whole h2 (map_to_list h2) (NoDup_fst_map_to_list h2) (elem_held h2)) as Htk.
  assert (Hrest : snd (saturating_take (map_to_list h2) h2) = ∅). { apply no_zero_empty; [by apply take_no_zero|]. intros k'. rewrite take_amt, amt_map_to_list. lia. }
  destruct (saturating_take (map_to_list h2) h2) as [tk rest]. cbn [fst snd] in Htk, Hrest. subst tk rest.
  assert (Hbal1 : forall t' a, bal ch2 t' a + ind (bool_decide (t' = t /\ a = y)) n = bal ch t' a).
  { intros t' a. change (bal ch2 t' a) with (bal ch1 t' a). unfold ch1. rewrite bal_set. destruct (decide (t = t' /\ y = a)) as [[<- <-]|E].
    - rewrite !bool_decide_eq_true_2 by done. cbn [ind]. lia.
    - rewrite !bool_decide_eq_false_2; [cbn; lia| |done]. intros [-> ->]. by apply E. }
  destruct (deposits_calm e dest x Hc Hx (map_to_list h2) ch2 (NoDup_fst_map_to_list h2)) as (ch3 & D1 & D2 & D3).
  { apply Forall_forall. intros a Ha. destruct (Hknown2 _ Ha) as [t' Ht']. exists t'. split; [done|]. specialize (Hbound t' x). specialize (Hbal1 t' x).
    assert (snd a <= token_amount (map_to_list h2) t') as Hle by (rewrite (token_amount_amt _ _ _ Ht'), amt_map_to_list, (elem_held _ _ Ha); done). rewrite Hta in Hle. fold l in Hbound. destruct (bool_decide (t' = t)); cbn [ind] in Hle; lia. }
  unfold deposit_all. rewrite D1. cbn [xbind fst snd each]. mcbn. eexists. split; [reflexivity|].
  unfold post_process, settled, refund_surplus, unrefunded. mcbn. change (weight_le (weight_sub (0, 0) (0, 0)) (0, 0)) with true. cbv iota. mcbn.
  rewrite bool_decide_eq_true_2 by done. rewrite Ho. unfold pay_fees. cbn [fold_left fst snd]. unfold xtoken. rewrite Ht. unfold deposit_to.
  assert (bal ch3 t treasury_account + price <= u128_max) as Hpay.
  { rewrite D2, Hta, (bool_decide_eq_true_2 (t = t)) by done. cbn [ind]. specialize (Hbal1 t treasury_account). specialize (Hbound t treasury_account). fold l in Hbound. destruct (bool_decide (treasury_account = x)); cbn [ind]; lia. }
  rewrite C4, (proj2 (N.leb_le _ _) Hpay). cbn [andb xensure xbind]. split.
  - unfold times_trapped. cbn [ch_traps set_bal]. change (ch_traps (set_bal ch3 t treasury_account (bal ch3 t treasury_account + price))) with (ch_traps ch3). rewrite D3. unfold ch2. cbn [ch_traps].
    destruct (claim_ok _ _ _ _ Hclaim) as (l1 & l2 & E1 & ->). by apply claimed_once.
  - intros t' a. rewrite bal_set. specialize (Hbal1 t' a). destruct (decide (t = t' /\ treasury_account = a)) as [[<- <-]|E].
    + rewrite (bool_decide_eq_true_2 (t = t /\ treasury_account = treasury_account)) by done. cbn [ind]. rewrite D2, Hta. lia.
    + rewrite (bool_decide_eq_false_2 _ E), (bool_decide_eq_false_2 (t' = t /\ a = treasury_account)) by (intros [-> ->]; by apply E). cbn [ind]. rewrite D2, Hta. lia.
Qed.

(** Proofs about messages sent to other chains. *)
From Verif Require Import Base XcmTypes AssetLocationModel AssetLocationProofs OriginTypes AccountsModel PaymentsSpec LedgerProofs XcmConfigModel XcmConfigSpec
  XcmConfigProofs XcmCountable AccountsProofs XcmExecModel XcmExecSpec XcmTraderProofs XcmExecProofs XcmRunProofs XcmMessageProofs XcmSendModel XcmSendSpec.
From stdpp Require Import gmap.
Open Scope N_scope.

(** * Locations *)

Lemma simplify_meant context : forall fuel p inside p' inside', simplify_in fuel context p inside = (p', inside') -> (p <= length context)%nat ->
  (p' <= p)%nat /\ forall pre, take (length (pre ++ context) - p') (pre ++ context) ++ inside' = take (length (pre ++ context) - p) (pre ++ context) ++ inside.
Proof.
  induction fuel as [|f IH]; intros p inside p' inside' H Hp; cbn [simplify_in] in H; [by injection H as <- <-|].
  destruct p as [|p]; [by injection H as <- <-|]. destruct inside as [|i r]; [by injection H as <- <-|].
  case_bool_decide as E; [|by injection H as <- <-].
  destruct (IH _ _ _ _ H ltac:(lia)) as [H1 H2]. split; [lia|]. intros pre. rewrite H2, app_length in *.
  rewrite (cons_middle i), app_assoc. f_equal.
  replace (length pre + length context - p)%nat with (S (length pre + length context - S p)) by lia. apply take_S_r.
  rewrite lookup_app_r by lia. rewrite <-E. f_equal. lia.
Qed.

Lemma reanchor_meant : forall para target k, proper (our_place para) target -> proper (our_place para) k ->
  meant (meant (our_place para) target) (reanchor k target (universal_location para)) = meant (our_place para) k /\
  proper (meant (our_place para) target) (reanchor k target (universal_location para)).
Proof.
  intros para [tp ti] [kp ki] Ht Hk. unfold proper in *. cbn [loc_parents our_place length] in Ht, Hk.
  set (pre := take (2 - N.to_nat tp) (our_place para)).
  assert (Hpre : length pre = (2 - N.to_nat tp)%nat) by (unfold pre; rewrite take_length; cbn [our_place length]; lia).
  assert (Hm : meant (our_place para) (Location tp ti) = pre ++ ti) by done. rewrite Hm.
  set (q := prepend_with (Location kp ki) (invert_target (universal_location para) (Location tp ti))).
  assert (Hq : (N.to_nat (loc_parents q) <= length (pre ++ ti))%nat /\ take (length (pre ++ ti) - N.to_nat (loc_parents q)) (pre ++ ti) ++ loc_interior q = meant (our_place para) (Location kp ki)).
  { unfold q, prepend_with, invert_target. cbn [loc_parents loc_interior]. unfold meant. cbn [loc_parents loc_interior length]. unfold pre in *.
    assert (N.to_nat tp = 0 \/ N.to_nat tp = 1 \/ N.to_nat tp = 2)%nat as [Et|[Et|Et]] by lia; rewrite Et in *;
      assert (N.to_nat kp = 0 \/ N.to_nat kp = 1 \/ N.to_nat kp = 2)%nat as [Ek|[Ek|Ek]] by lia; rewrite Ek in *;
      cbn [our_place universal_location last_junctions length replicate Nat.sub drop app take] in *;
      rewrite N2Nat.inj_add, !Nat2N.id;
      (split; [rewrite ?app_length; cbn [length]; lia|]);
      repeat match goal with |- context [take ?n (?l)] => match n with context [length ti] => idtac | _ => fail end;
        first [replace n with 0%nat by (cbn [length app]; rewrite ?app_length; cbn [length]; lia)
              |replace n with 1%nat by (cbn [length app]; rewrite ?app_length; cbn [length]; lia)
              |replace n with 2%nat by (cbn [length app]; rewrite ?app_length; cbn [length]; lia)] end; try done. }
  destruct Hq as [Hq1 Hq2]. unfold reanchor. fold q. cbn [loc_interior]. unfold simplify.
  destruct (length ti <? N.to_nat (loc_parents q))%nat eqn:E; [done|]. apply Nat.ltb_ge in E.
  destruct (simplify_in (N.to_nat (loc_parents q)) ti (N.to_nat (loc_parents q)) (loc_interior q)) as [p' inside'] eqn:Es.
  destruct (simplify_meant _ _ _ _ _ _ Es E) as [H1 H2]. unfold meant at 1. cbn [loc_parents loc_interior]. rewrite Nat2N.id, H2. split; [done|]. lia.
Qed.

(** What the other chain is told is what is meant here. *)
Lemma amount_at_cons place a l path : amount_at place (a :: l) path = (if bool_decide (meant place (fst a) = path) then snd a else 0) + amount_at place l path.
Proof. done. Qed.
Lemma amount_seen para target l path : proper (our_place para) target -> Forall (fun a => proper (our_place para) (fst a)) l ->
  amount_at (meant (our_place para) target) (seen_all para target l) path = amount_at (our_place para) l path.
Proof.
  intros Ht. induction 1 as [|a l Ha _ IH]; [done|]. unfold seen_all in *. cbn [map]. rewrite !amount_at_cons, IH. cbn [seen fst snd].
  by rewrite (proj1 (reanchor_meant _ _ _ Ht Ha)).
Qed.
Lemma amount_at_app place l1 l2 path : amount_at place (l1 ++ l2) path = amount_at place l1 path + amount_at place l2 path.
Proof. induction l1 as [|a l IH]; [done|]. cbn [app]. rewrite !amount_at_cons, IH. lia. Qed.

Lemma token_proper para k t : token_of k = Val (Some t) -> proper (our_place para) k.
Proof.
  unfold token_of, proper. case_bool_decide as E; [subst; cbn; lia|]. destruct (convert k) as [[id|]| |] eqn:Ec; try discriminate. intros _.
  pose proof (convert_shape _ _ Ec ltac:(done)) as S. inversion S; subst; cbn; lia.
Qed.
Lemma reachable_proper para open dest : reachable open dest = true -> proper (our_place para) dest.
Proof. destruct dest as [[|[| |]] [|[]]]; cbn; try discriminate; unfold proper; cbn; intros; lia. Qed.

(** * Balances *)

Lemma token_amount_cons a l t t' : token_of (fst a) = Val (Some t') -> token_amount (a :: l) t = ind (bool_decide (t' = t)) (snd a) + token_amount l t.
Proof. intros H. cbn [token_amount foldr]. rewrite H. fold (token_amount l t). by destruct (bool_decide (t' = t)). Qed.
Lemma token_amount_app l1 l2 t : token_amount (l1 ++ l2) t = token_amount l1 t + token_amount l2 t.
Proof. induction l1 as [|a l IH]; [done|]. cbn [app token_amount foldr]. fold (token_amount (l ++ l2) t) (token_amount l t). rewrite IH. lia. Qed.

Section moves.
  Context (e : xenv) (He : dustless e).

  Lemma withdraw_one_exact ch a who ch' x : withdraw_one e ch a who = XOk ch' -> location_to_account who = Some x ->
    exists t, token_of (fst a) = Val (Some t) /\ snd a <= bal ch t x /\ ch' = set_bal ch t x (bal ch t x - snd a).
  Proof.
    unfold withdraw_one. intros H Hx. xinv H. injection H as <-. apply andb_prop in E1 as [_ E1]. apply N.leb_le in E1. rewrite Hx in E0. injection E0 as <-.
    rewrite He. eauto.
  Qed.
  Lemma withdraw_all_exact who x : location_to_account who = Some x -> forall l ch ch', withdraw_all e l who ch = XOk ch' ->
    (forall t a, bal ch' t a + ind (bool_decide (a = x)) (token_amount l t) = bal ch t a) /\ ch_traps ch' = ch_traps ch /\ ch_calls ch' = ch_calls ch /\
    Forall (fun a => exists t, token_of (fst a) = Val (Some t)) l.
  Proof.
    intros Hx. unfold withdraw_all. induction l as [|a l IH]; intros ch ch' H; cbn [each] in H.
    { injection H as <-. split_and!; try done. intros. destruct (bool_decide _); cbn; lia. }
    xinv H. destruct (withdraw_one_exact _ _ _ _ _ E Hx) as (t & Ht & Hle & ->). destruct (IH _ _ H) as (H1 & H2 & H3 & H4).
    split_and!; [|done|done|constructor; eauto]. intros t' a'. specialize (H1 t' a'). rewrite (token_amount_cons _ _ _ _ Ht). rewrite bal_set in H1.
    destruct (decide (t = t' /\ x = a')) as [[-> ->]|E1].
    - rewrite !bool_decide_eq_true_2 in * by done. cbn [ind] in *. lia.
    - rewrite (bool_decide_eq_false_2 _ E1) in H1. destruct (bool_decide (a' = x)) eqn:Ea; cbn [ind] in *; [|lia]. apply bool_decide_eq_true in Ea as ->.
      rewrite bool_decide_eq_false_2; [cbn [ind]; lia|]. intros ->. by apply E1.
  Qed.
  Lemma transfer_each_exact who x dest : location_to_account who = Some x -> forall l ch ch', each (transfer_one e who dest) l ch = XOk ch' ->
    (forall t a, bal ch' t a + ind (bool_decide (a = x)) (token_amount l t) = bal ch t a + ind (bool_decide (location_to_account dest = Some a)) (token_amount l t)) /\
    ch_traps ch' = ch_traps ch /\ ch_calls ch' = ch_calls ch /\ Forall (fun a => exists t, token_of (fst a) = Val (Some t)) l.
  Proof.
    intros Hx. induction l as [|a l IH]; intros ch ch' H; cbn [each] in H.
    { injection H as <-. split_and!; try done. intros. destruct (bool_decide (a = x)), (bool_decide (location_to_account dest = Some a)); cbn; lia. }
    xinv H. unfold transfer_one in E. xinv E. destruct (withdraw_one_exact _ _ _ _ _ E0 Hx) as (t & Ht & Hle & ->).
    apply deposit_one_ok in E as (t1 & y & Ht1 & Hy & ->). assert (t1 = t) as -> by congruence.
    destruct (IH _ _ H) as (H1 & H2 & H3 & H4).
    split_and!; [|done|done|constructor; eauto]. intros t' a'. specialize (H1 t' a'). rewrite (token_amount_cons _ _ _ _ Ht). rewrite Hy in *.
    rewrite !bal_set in H1.
    destruct (decide (t = t')) as [<-|Hne].
    - rewrite (bool_decide_eq_true_2 (t = t)) by done. cbn [ind]. 
      destruct (decide (x = a')) as [Hxa|Hxa], (decide (y = x)) as [Hyx|Hyx], (decide (y = a')) as [Hya|Hya]; try congruence; subst;
        repeat match goal with
        | H : context [bool_decide ?P] |- _ => first [rewrite (bool_decide_eq_true_2 P) in H by (split_and?; congruence)|rewrite (bool_decide_eq_false_2 P) in H by (intros ?; destruct_and?; congruence)]
        | |- context [bool_decide ?P] => first [rewrite (bool_decide_eq_true_2 P) by (split_and?; congruence)|rewrite (bool_decide_eq_false_2 P) by (intros ?; destruct_and?; congruence)]
        end; cbn [ind] in *; try congruence; lia.
    - rewrite (bool_decide_eq_false_2 (t = t')) by done. rewrite !(bool_decide_eq_false_2 (t = t' /\ _)) in H1 by (by intros [? _]).
      destruct (bool_decide (a' = x)), (bool_decide (Some y = Some a')); cbn [ind] in *; lia.
  Qed.
End moves.

(** * Programs run here *)

Lemma subsume_fresh l : forall h : gmap location N, NoDup (map fst l) -> (forall a, a ∈ l -> h !! fst a = None) -> forallb (fun a => snd a <=? u128_max) l = true ->
  forall k, held_of (subsume h l) k = held_of h k + amt l k.
Proof.
  unfold subsume. induction l as [|a l IH]; intros h Hn Hf Hb k; [cbn; lia|]. cbn [fold_left]. cbn [map] in Hn. apply NoDup_cons in Hn as [Hi Hn].
  cbn [forallb] in Hb. apply andb_prop in Hb as [Hb1 Hb2]. apply N.leb_le in Hb1.
  assert (Hz : held_of h (fst a) = 0) by (unfold held_of; rewrite Hf; [done|left]).
  rewrite IH; [|done| |done].
  - rewrite held_set, amt_cons, Hz. unfold sat128. case_bool_decide as E; cbn [ind]; [rewrite <-E, Hz; lia|lia].
  - intros b Hb. unfold set_held_of. assert (fst b <> fst a). { intros Eb. apply Hi. rewrite <-Eb. apply elem_of_list_In, in_map, elem_of_list_In, Hb. }
    destruct (_ =? 0); [rewrite lookup_delete_ne by done|rewrite lookup_insert_ne by done]; apply Hf; by right.
Qed.
Lemma take_amt l : forall h k, held_of (snd (saturating_take l h)) k = held_of h k - amt l k.
Proof.
  induction l as [|a l IH]; intros h k; cbn [saturating_take]; [cbn; lia|].
  destruct (saturating_take l _) as [taken rest] eqn:E. cbn [snd]. specialize (IH (set_held_of h (fst a) (held_of h (fst a) - N.min (snd a) (held_of h (fst a)))) k).
  rewrite E in IH. cbn [snd] in IH. rewrite IH, held_set, amt_cons. case_bool_decide as Ek; cbn [ind]; [subst k|]; lia.
Qed.
(** Entries of holding are never zero. *)
Definition no_zero (h : gmap location N) : Prop := forall k, h !! k <> Some 0.
Lemma set_held_no_zero h k v : no_zero h -> no_zero (set_held_of h k v).
Proof.
  intros H k'. unfold set_held_of. destruct (v =? 0) eqn:E.
  - destruct (decide (k = k')) as [<-|]; [by rewrite lookup_delete|by rewrite lookup_delete_ne].
  - apply N.eqb_neq in E. destruct (decide (k = k')) as [<-|]; [rewrite lookup_insert; congruence|by rewrite lookup_insert_ne].
Qed.
Lemma subsume_no_zero l : forall h, no_zero h -> no_zero (subsume h l).
Proof. unfold subsume. induction l as [|a l IH]; intros h H; [done|]. cbn [fold_left]. apply IH, set_held_no_zero, H. Qed.
Lemma take_no_zero l : forall h, no_zero h -> no_zero (snd (saturating_take l h)).
Proof.
  induction l as [|a l IH]; intros h H; [done|]. cbn [saturating_take]. destruct (saturating_take l _) as [taken rest] eqn:E. cbn [snd].
  specialize (IH _ (set_held_no_zero h (fst a) (held_of h (fst a) - N.min (snd a) (held_of h (fst a))) H)). by rewrite E in IH.
Qed.
Lemma no_zero_empty (h : gmap location N) : no_zero h -> (forall k, held_of h k = 0) -> h = ∅.
Proof.
  intros H1 H2. apply map_empty. intros k. specialize (H1 k). specialize (H2 k). unfold held_of in H2. destruct (h !! k) as [v|]; [|done]. cbn in H2. by subst v.
Qed.
Lemma no_zero_nil : no_zero ∅. Proof. intros k. by rewrite lookup_empty. Qed.

Lemma burn_all l : NoDup (map fst l) -> forallb (fun a => snd a <=? u128_max) l = true -> snd (saturating_take l (subsume ∅ l)) = ∅.
Proof.
  intros H1 H2. apply no_zero_empty; [apply take_no_zero, subsume_no_zero, no_zero_nil|].
  intros k. rewrite take_amt, subsume_fresh by done. unfold held_of. rewrite lookup_empty. cbn. lia.
Qed.
Lemma subsume_size l : forall h : gmap location N, (size (subsume h l) <= size h + length l)%nat.
Proof.
  unfold subsume. induction l as [|a l IH]; intros h; cbn [fold_left length]; [lia|]. etransitivity; [apply IH|].
  enough (size (set_held_of h (fst a) (sat128 (held_of h (fst a) + snd a))) <= S (size h))%nat by lia.
  unfold set_held_of. destruct (_ =? 0).
  - rewrite map_size_delete. destruct (h !! fst a); unfold id; lia.
  - rewrite map_size_insert. destruct (h !! fst a); unfold id; lia.
Qed.
Lemma take_everything l n : (length l <= n)%nat -> forall h, h = subsume ∅ l -> snd (saturating_take (take n (map_to_list h)) h) = ∅.
Proof.
  intros Hn h ->. rewrite take_ge.
  - apply no_zero_empty; [apply take_no_zero, subsume_no_zero, no_zero_nil|]. intros k. rewrite take_amt, amt_map_to_list. lia.
  - pose proof (subsume_size l ∅) as H. rewrite map_size_empty in H. change (size (subsume ∅ l)) with (length (map_to_list (subsume ∅ l))) in H. lia.
Qed.

Ltac mcbn := cbn [m_chain m_origin m_hold m_trader m_jit m_prog m_handler m_appendix m_hweight m_aweight m_surplus m_refunded xset_chain xset_origin xset_hold xset_trader xset_jit xset_prog
  xset_handler xset_appendix xset_hweight xset_aweight xset_surplus xset_refunded fold_left fst snd xbind xsome xensure].

Lemma run_nil e l ch : post_process e l (start ch l []) = ch.
Proof. done. Qed.
Lemma run_transfer e a dest p ch l m : exec_all e (XTransfer a dest :: p) (start ch l []) = XOk m ->
  exists ch1, each (transfer_one e l dest) a ch = XOk ch1 /\ exec_all e p (start ch1 l []) = XOk m.
Proof. cbn [exec_all]. intros H. xinv H. cbn [exec_instr] in E. xinv E. injection E as <-. injection E0 as <-. mcbn. by eexists. Qed.
Lemma run_burn e a p ch l m : NoDup (map fst a) -> forallb (fun a => snd a <=? u128_max) a = true -> exec_all e (XWithdraw a :: XBurn a :: p) (start ch l []) = XOk m ->
  exists ch1, withdraw_all e a l ch = XOk ch1 /\ exec_all e p (start ch1 l []) = XOk m.
Proof.
  intros Hn Hb. cbn [exec_all]. intros H. xinv H. cbn [exec_instr] in E. xinv E. injection E as <-. injection E1 as <-. cbn [exec_instr] in E0. injection E0 as <-.
  revert H. mcbn. cbn [m_hold m_chain start] in *. rewrite burn_all by done. intros H. by eexists.
Qed.
Lemma run_remote e a ch l m : (forall m, xe_delivery e m = []) -> exec_all e [XWithdraw a; XSetFeesMode true; XInitiateReserveWithdraw (FAllCounted (length a))] (start ch l []) = XOk m ->
  exists ch1, withdraw_all e a l ch = XOk ch1 /\ post_process e l m = Chain (ch_bal ch1) (ch_traps ch1) (ch_calls ch1) (ch_sent ch1 + 1) /\ exists m0, xe_send_ok e m0 = true.
Proof.
  intros Hd. cbn [exec_all]. intros H. xinv H. cbn [exec_instr] in E. xinv E. injection E as <-. injection E2 as <-. cbn [exec_instr] in E0. injection E0 as <-.
  cbn [exec_instr] in E1. xinv E1. unfold take_delivery_fee in E. xinv E. rewrite Hd in E. revert E. cbn [start]. mcbn. unfold withdraw_all at 1. cbn [each]. mcbn. intros [= <-].
  injection H as <-. revert E1. unfold mark_sent. mcbn. cbn [requested].
  pose proof (take_everything a (length a) ltac:(lia) _ eq_refl) as Ht.
  destruct (saturating_take _ _) as [tk rest]. cbn [snd] in Ht. subst rest. intros [= <-]. cbn [start m_chain] in E4.
  eexists. split; [done|]. split; [done|]. by eexists.
Qed.

Lemma token_amount_perm l1 l2 t : l1 ≡ₚ l2 -> token_amount l1 t = token_amount l2 t.
Proof. induction 1; cbn [token_amount foldr] in *; fold token_amount in *; unfold token_amount in *; lia. Qed.
Lemma amount_at_perm place l1 l2 path : l1 ≡ₚ l2 -> amount_at place l1 path = amount_at place l2 path.
Proof. induction 1; rewrite ?amount_at_cons; lia. Qed.
Lemma withdrawn_app p q : withdrawn (p ++ q) = withdrawn p ++ withdrawn q.
Proof. unfold withdrawn. by rewrite map_app, concat_app. Qed.
Lemma declared_app p q : declared (p ++ q) = declared p ++ declared q.
Proof. unfold declared. by rewrite map_app, concat_app. Qed.
Lemma withdrawn_final r n : withdrawn (final_step r n) = [] /\ declared (final_step r n) = [].
Proof. by destruct r. Qed.

Lemma xcall_location o l : caller_wf o -> can_execute_xcm o = Some l -> exists x, location_to_account l = Some x /\ acts_for o x.
Proof.
  intros [Hwf Hid] El. unfold can_execute_xcm, or_else in El. destruct o; cbn [community_to_location signed_to_account] in El; try done.
  - apply (inj Some) in El as <-. exists who. split; [|by left]. specialize (Hwf _ eq_refl).
    apply location_to_account_iff. right. right. right. eexists 0, _, _. split; [by left|]. split; [done|]. split; [|symmetry; by apply account_of_bytes_bytes].
    by right.
  - specialize (Hid _ _ eq_refl). destruct s as [[]|]; cbn in El; try done; injection El as <-;
      (eexists; split; [apply location_to_account_iff; right; right; left; by eexists _, _|right; eexists _, _; split; [done|f_equal; lia]]).
Qed.

(** Effects of parts of local programs. *)
Record step_moved (ch ch' : chain) (x : N) (dest : location) (assets kept : list (location * N)) : Prop := StepMoved {
  sm_moved : moved ch ch' x dest assets kept;
  sm_known : Forall (fun a => exists t, token_of (fst a) = Val (Some t)) assets
}.
Lemma step_moved_nil ch x dest : step_moved ch ch x dest [] [].
Proof. split; [|constructor]. split_and!; try done. intros t a. destruct (bool_decide (a = x)), (bool_decide (location_to_account dest = Some a)); cbn; lia. Qed.
Lemma step_moved_trans c1 c2 c3 x dest a1 k1 a2 k2 : step_moved c1 c2 x dest a1 k1 -> step_moved c2 c3 x dest a2 k2 -> step_moved c1 c3 x dest (a1 ++ a2) (k1 ++ k2).
Proof.
  intros [(A1 & A2 & A3) A4] [(B1 & B2 & B3) B4]. split; [|by apply Forall_app]. split_and!; try congruence. intros t a. specialize (A1 t a). specialize (B1 t a).
  rewrite !token_amount_app. destruct (bool_decide (a = x)), (bool_decide (location_to_account dest = Some a)); cbn [ind] in *; lia.
Qed.
Lemma step_moved_perm ch ch' x dest a a' k : a ≡ₚ a' -> step_moved ch ch' x dest a k -> step_moved ch ch' x dest a' k.
Proof.
  intros P [(A1 & A2 & A3) A4]. split; [|by rewrite <-P]. split_and!; try done. intros t y. by rewrite <-A1, (token_amount_perm _ _ t P).
Qed.
Lemma step_withdraw e ch ch' l x dest a : dustless e -> location_to_account l = Some x -> withdraw_all e a l ch = XOk ch' -> step_moved ch ch' x dest a [].
Proof.
  intros He Hx H. destruct (withdraw_all_exact e He l x Hx _ _ _ H) as (H1 & H2 & H3 & H4). split; [|done]. split_and!; try done.
  intros t y. specialize (H1 t y). destruct (bool_decide (location_to_account dest = Some y)); cbn [token_amount foldr ind]; lia.
Qed.
Lemma step_transfer e ch ch' l x dest a : dustless e -> location_to_account l = Some x -> each (transfer_one e l dest) a ch = XOk ch' -> step_moved ch ch' x dest a a.
Proof. intros He Hx H. by destruct (transfer_each_exact e He l x dest Hx _ _ _ H) as (H1 & H2 & H3 & H4). Qed.

Definition sound_list (l : list (location * N)) : Prop := NoDup (map fst l) /\ forallb (fun a => snd a <=? u128_max) l = true.
Lemma sound_delete l i fee : sound_list l -> l !! i = Some fee -> sound_list [fee] /\ sound_list (delete i l).
Proof.
  intros [H1 H2] Hi. pose proof (delete_Permutation l i fee Hi) as P. 
  assert (sound_list (fee :: delete i l)) as [S1 S2].
  { split; [by rewrite <-P|]. apply forallb_forall. rewrite forallb_forall in H2. intros a Ha. apply H2. apply elem_of_list_In. rewrite P. by apply elem_of_list_In. }
  cbn [map forallb] in *. apply NoDup_cons in S1 as [S0 S1]. apply andb_prop in S2 as [S2 S3]. split; split; try done; cbn [map forallb].
  - apply NoDup_singleton.
  - by rewrite S2.
Qed.

(** What the programs of a transfer do and say. *)
Record programs_ok (e : xenv) (para : N) (l : location) (x : N) (dest : location) (way : location * N -> transfer_type) (assets : list (location * N)) (local : list xinstr) (target : location) (msg : list rinstr) : Prop := ProgramsOk {
  po_run : forall ch ch', run_local e l local ch = XOk ch' -> exists kept given, assets ≡ₚ kept ++ given /\ step_moved ch ch' x dest assets kept /\
    withdrawn msg = seen_all para target given /\ declared msg = seen_all para target kept /\ (kept <> [] -> target = dest) /\
    Forall (fun a => way a = LocalReserve) kept /\ Forall (fun a => (way a = DestinationReserve /\ target = dest) \/ way a = RemoteReserve target) given;
  po_shape : exists pre post, msg = pre ++ RClearOrigin :: post /\ Forall only_assets pre /\ withdrawn post = [] /\ declared post = []
}.

Section programs.
  Context (e : xenv) (para : N) (l : location) (x : N) (dest : location) (way : location * N -> transfer_type).
  Context (He : dustless e) (Hx : location_to_account l = Some x) (Hfree : forall m, xe_delivery e m = []).

  Ltac finish := split_and!; try done; repeat match goal with |- Forall _ (_ :: _) => constructor | |- Forall _ [] => constructor end; try done; try (by left);
    try (eapply Forall_impl; [eassumption|]; cbn beta; intros; by left).
  Lemma run_local_ok p ch ch' : run_local e l p ch = XOk ch' -> exists m, exec_all e p (start ch l []) = XOk m /\ ch' = post_process e l m.
  Proof. unfold run_local. intros H. xinv H. injection H as <-. by eexists. Qed.

  Lemma local_batched r assets fee limit local msg : Forall (fun a => way a = LocalReserve) assets -> local_reserve_programs para dest r assets (Batched fee) limit = (local, msg) ->
    programs_ok e para l x dest way assets local dest msg.
  Proof.
    intros Hw. unfold local_reserve_programs. cbn [add_fees app most_assets]. intros [= <- <-]. split.
    - intros ch ch' H. apply run_local_ok in H as (m & H & ->). apply run_transfer in H as (ch1 & H1 & H2). injection H2 as <-. rewrite run_nil.
      exists assets, []. rewrite app_nil_r. split; [done|]. split; [by eapply step_transfer|].
      destruct r; cbn [withdrawn declared final_step concat map app]; rewrite ?app_nil_r; finish.
    - eexists [_], _. split; [reflexivity|]. split; [by constructor|]. by destruct r.
  Qed.
  Lemma destination_batched r assets fee limit local msg : Forall (fun a => way a = DestinationReserve) assets -> sound_list assets -> destination_reserve_programs para dest r assets (Batched fee) limit = Some (local, msg) ->
    programs_ok e para l x dest way assets local dest msg.
  Proof.
    intros Hw [S1 S2]. unfold destination_reserve_programs. destruct (forallb (fun a => is_reserve (fst a) dest) assets); [|done]. cbn [add_fees app most_assets]. intros [= <- <-]. split.
    - intros ch ch' H. apply run_local_ok in H as (m & H & ->). apply run_burn in H as (ch1 & H1 & H2); [|done..]. injection H2 as <-. rewrite run_nil.
      exists [], assets. split; [done|]. split; [by eapply step_withdraw|].
      destruct r; cbn [withdrawn declared final_step concat map app]; rewrite ?app_nil_r; finish.
    - eexists [_], _. split; [reflexivity|]. split; [by constructor|]. by destruct r.
  Qed.
  Lemma remote_batched reserve r assets fee limit local msg : Forall (fun a => way a = RemoteReserve reserve) assets -> remote_reserve_program para reserve dest r assets fee limit = Some (local, msg) ->
    programs_ok e para l x dest way assets local reserve msg.
  Proof.
    intros Hw. unfold remote_reserve_program. destruct (halve fee) as [[f1 f2]|]; [|done]. intros [= <- <-]. split.
    - intros ch ch' H. apply run_local_ok in H as (m & H & ->). apply run_remote in H as (ch1 & H1 & -> & _); [|done].
      exists [], assets. split; [done|]. split; [|split; [cbn [withdrawn concat map app]; by rewrite app_nil_r|]; split_and!; try done; eapply Forall_impl; [done|]; intros; by right].
      destruct (step_withdraw e ch ch1 l x dest assets He Hx H1) as [(A1 & A2 & A3) A4]. split; [|done]. split_and!; done.
    - eexists [_], _. split; [reflexivity|]. split; [by repeat constructor|]. done.
  Qed.
  Lemma local_separate r fee rest ft limit local msg f : way fee = ft -> Forall (fun a => way a = LocalReserve) rest -> sound_list [fee] -> fees_programs para dest fee ft limit = Some f ->
    local_reserve_programs para dest r rest f limit = (local, msg) -> programs_ok e para l x dest way (fee :: rest) local dest msg.
  Proof.
    intros Hw1 Hw2 [S1 S2] Hf. destruct ft; cbn [fees_programs] in Hf; try done.
    - injection Hf as <-. unfold local_reserve_programs. cbn [add_fees app most_assets]. intros [= <- <-]. split.
      + intros ch ch' H. apply run_local_ok in H as (m & H & ->). apply run_transfer in H as (ch1 & H1 & H). apply run_transfer in H as (ch2 & H2 & H). injection H as <-. rewrite run_nil.
        exists (fee :: rest), []. rewrite app_nil_r. split; [done|].
        split; [apply (step_moved_trans _ _ _ _ _ [fee] [fee] rest rest (step_transfer e _ _ l x dest _ He Hx H1) (step_transfer e _ _ l x dest _ He Hx H2))|].
        destruct r; cbn [withdrawn declared final_step concat map app]; rewrite ?app_nil_r; finish.
      + eexists [_; _; _], _. split; [reflexivity|]. split; [by repeat constructor|]. by destruct r.
    - destruct (is_reserve (fst fee) dest); [|done]. injection Hf as <-. unfold local_reserve_programs. cbn [add_fees app most_assets]. intros [= <- <-]. split.
      + intros ch ch' H. apply run_local_ok in H as (m & H & ->). apply run_burn in H as (ch1 & H1 & H); [|done..]. apply run_transfer in H as (ch2 & H2 & H). injection H as <-. rewrite run_nil.
        exists rest, [fee]. split; [by rewrite Permutation_app_comm|].
        split; [apply (step_moved_trans _ _ _ _ _ [fee] [] rest rest (step_withdraw e _ _ l x dest _ He Hx H1) (step_transfer e _ _ l x dest _ He Hx H2))|].
        destruct r; cbn [withdrawn declared final_step concat map app]; rewrite ?app_nil_r; finish.
      + eexists [_; _; _], _. split; [reflexivity|]. split; [by repeat constructor|]. by destruct r.
  Qed.
  Lemma destination_separate r fee rest ft limit local msg f : way fee = ft -> Forall (fun a => way a = DestinationReserve) rest -> sound_list [fee] -> sound_list rest -> fees_programs para dest fee ft limit = Some f ->
    destination_reserve_programs para dest r rest f limit = Some (local, msg) -> programs_ok e para l x dest way (fee :: rest) local dest msg.
  Proof.
    intros Hw1 Hw2 [S1 S2] [S3 S4] Hf. unfold destination_reserve_programs. destruct (forallb (fun a => is_reserve (fst a) dest) rest); [|done]. destruct ft; cbn [fees_programs] in Hf; try done.
    - injection Hf as <-. cbn [add_fees app most_assets]. intros [= <- <-]. split.
      + intros ch ch' H. apply run_local_ok in H as (m & H & ->). apply run_transfer in H as (ch1 & H1 & H). apply run_burn in H as (ch2 & H2 & H); [|done..]. injection H as <-. rewrite run_nil.
        exists [fee], rest. split; [done|].
        split; [apply (step_moved_trans _ _ _ _ _ [fee] [fee] rest [] (step_transfer e _ _ l x dest _ He Hx H1) (step_withdraw e _ _ l x dest _ He Hx H2))|].
        destruct r; cbn [withdrawn declared final_step concat map app]; rewrite ?app_nil_r; finish.
      + eexists [_; _; _], _. split; [reflexivity|]. split; [by repeat constructor|]. by destruct r.
    - destruct (is_reserve (fst fee) dest); [|done]. injection Hf as <-. cbn [add_fees app most_assets]. intros [= <- <-]. split.
      + intros ch ch' H. apply run_local_ok in H as (m & H & ->). apply run_burn in H as (ch1 & H1 & H); [|done..]. apply run_burn in H as (ch2 & H2 & H); [|done..]. injection H as <-. rewrite run_nil.
        exists [], (fee :: rest). split; [done|].
        split; [apply (step_moved_trans _ _ _ _ _ [fee] [] rest [] (step_withdraw e _ _ l x dest _ He Hx H1) (step_withdraw e _ _ l x dest _ He Hx H2))|].
        destruct r; cbn [withdrawn declared final_step concat map app]; rewrite ?app_nil_r; finish.
      + eexists [_; _; _], _. split; [reflexivity|]. split; [by repeat constructor|]. by destruct r.
  Qed.
  Lemma programs_perm a a' local target msg : a ≡ₚ a' -> programs_ok e para l x dest way a local target msg -> programs_ok e para l x dest way a' local target msg.
  Proof.
    intros P [H1 H2]. split; [|done]. intros ch ch' H. destruct (H1 _ _ H) as (kept & given & A1 & A2 & A3). exists kept, given. split; [by rewrite <-P|].
    split; [by eapply step_moved_perm|done].
  Qed.
  Lemma transfer_programs_ok r assets item ft t limit local target msg : (forall fee, assets !! item = Some fee -> way fee = ft) -> Forall (fun a => way a = t) (delete item assets) -> sound_list assets -> transfer_programs para dest r assets item ft t limit = Some (local, (target, msg)) ->
    programs_ok e para l x dest way assets local target msg.
  Proof.
    intros Hw1 Hw2 S. unfold transfer_programs. destruct (assets !! item) as [fee|] eqn:Ei; [|done]. specialize (Hw1 _ eq_refl). case_bool_decide as E.
    - assert (Forall (fun a => way a = t) assets) as Hw by (rewrite (delete_Permutation _ _ _ Ei); constructor; [congruence|done]).
      destruct t; cbn [build]; try done.
      + destruct (local_reserve_programs _ _ _ _ _ _) as [lo ms] eqn:El. intros [= <- <- <-]. by eapply local_batched.
      + destruct (destination_reserve_programs _ _ _ _ _ _) as [[lo ms]|] eqn:El; [|done]. intros [= <- <- <-]. by eapply destination_batched.
      + destruct (remote_reserve_program _ _ _ _ _ _ _) as [[lo ms]|] eqn:El; [|done]. intros [= <- <- <-]. by eapply remote_batched.
    - destruct (sound_delete _ _ _ S Ei) as [S1 S2]. destruct (fees_programs para dest fee ft limit) as [f|] eqn:Ef; [|by destruct t].
      intros H. apply (programs_perm (fee :: delete item assets)); [symmetry; by apply delete_Permutation|]. revert H. destruct t; cbn [build]; try done.
      + destruct (local_reserve_programs _ _ _ _ _ _) as [lo ms] eqn:El. intros [= <- <- <-]. by eapply local_separate.
      + destruct (destination_reserve_programs _ _ _ _ _ _) as [[lo ms]|] eqn:El; [|done]. intros [= <- <- <-]. by eapply destination_separate.
  Qed.
End programs.

(** * Calls *)

Lemma transferable_sound l : transferable l = true -> sound_list l.
Proof. unfold transferable, assets_decode. intros H. apply andb_prop in H as [H _]. apply andb_prop in H as [H H2]. apply andb_prop in H as [H1 _]. split; [by apply bool_decide_eq_true in H1|done]. Qed.
Lemma transfers_run e open para w o c w' dest assets : xcall_run e open para w o c = XOk w' -> transfers c = Some (dest, assets) ->
  exists l r item ft t limit local target msg, can_execute_xcm o = Some l /\ sound_list assets /\
    transfer_programs para dest r assets item ft t limit = Some (local, (target, msg)) /\ execute_transfer e open w l (local, (target, msg)) = XOk w' /\
    (forall d a, transfers_by_itself c = Some (d, a) -> find_types assets item dest = Some (ft, t)).
Proof.
  intros H Ht. destruct c; try done; injection Ht as <- <-; cbn [xcall_run] in H; xinv H.
  - apply transferable_sound in E0. destruct x3 as [local [target msg]], x1 as [ft t]. cbn [fst snd] in *. eexists _, _, _, _, _, _, _, _, _. split_and!; try done.
  - apply transferable_sound in E0. destruct x2 as [local [target msg]], x1 as [ft t]. cbn [fst snd] in *. eexists _, _, _, _, _, _, _, _, _. split_and!; try done.
  - apply transferable_sound in E0. destruct x2 as [local [target msg]]. cbn [fst snd] in *. eexists _, _, _, _, _, _, _, _, _. split_and!; try done.
Qed.
Lemma sending_dustless e open target : dustless e -> dustless (sending e open target).
Proof. done. Qed.

Lemma types_agree_ok t dest : forall l, types_agree t l dest = true -> Forall (fun a => determine_for (fst a) dest = Some t) l.
Proof.
  induction l as [|a l IH]; [constructor|]. cbn [types_agree]. intros H. apply andb_prop in H as [H1 H2]. apply bool_decide_eq_true in H1. constructor; [done|by apply IH].
Qed.
Lemma find_types_ok assets item dest ft t : find_types assets item dest = Some (ft, t) ->
  (forall fee, assets !! item = Some fee -> determine_for (fst fee) dest = Some ft) /\ Forall (fun a => determine_for (fst a) dest = Some t) (delete item assets).
Proof.
  unfold find_types. destruct (_ && _); [|done]. destruct (assets !! item) as [fee|]; [|done]. destruct (determine_for (fst fee) dest) as [f|] eqn:Ef; [|done].
  destruct (delete item assets) as [|a r]; [intros [= <- <-]; split; [by intros ? [= <-]|constructor]|].
  destruct (determine_for (fst a) dest) as [t'|] eqn:Ea; [|done]. destruct (types_agree t' r dest) eqn:Er; [|done]. intros [= <- <-].
  split; [by intros ? [= <-]|]. constructor; [done|by apply types_agree_ok].
Qed.

Lemma transfer_whole : forall e open para w o c w' dest assets, xcall_run e open para w o c = XOk w' -> transfers c = Some (dest, assets) -> caller_wf o -> dustless e ->
  exists x kept given target msg, acts_for o x /\ assets ≡ₚ kept ++ given /\ n_out w' = n_out w ++ [(target, msg)] /\ reachable open target = true /\
    moved (n_chain w) (n_chain w') x dest assets kept /\ (kept <> [] -> target = dest) /\
    (forall path, amount_at (meant (our_place para) target) (withdrawn msg) path = amount_at (our_place para) given path) /\
    (forall path, amount_at (meant (our_place para) target) (declared msg) path = amount_at (our_place para) kept path) /\
    Forall (fun a => exists t, token_of (fst a) = Val (Some t)) assets /\
    (transfers_by_itself c = Some (dest, assets) -> Forall (fun a => determine_for (fst a) dest = Some LocalReserve) kept /\
      Forall (fun a => (determine_for (fst a) dest = Some DestinationReserve /\ target = dest) \/ determine_for (fst a) dest = Some (RemoteReserve target)) given).
Proof.
  intros e open para w o c w' dest assets H Ht Hwf He. destruct (transfers_run _ _ _ _ _ _ _ _ _ H Ht) as (l & r & item & ft & t & limit & local & target & msg & Hl & Hs & Hp & Hr & Hself).
  destruct (xcall_location _ _ Hwf Hl) as (x & Hx & Ha). unfold execute_transfer in Hr. xinv Hr. cbn [fst snd] in *. injection Hr as <-. cbn [n_chain n_out].
  assert (exists fee, assets !! item = Some fee) as [fee Hfee].
  { unfold transfer_programs in Hp. destruct (assets !! item) as [fee|]; [by exists fee|done]. }
  set (way := fun a : location * N => if decide (fst a = fst fee) then ft else t).
  assert (Hne : Forall (fun a => fst a <> fst fee) (delete item assets)).
  { destruct Hs as [Hs _]. rewrite (delete_Permutation _ _ _ Hfee) in Hs. cbn [map] in Hs. apply NoDup_cons in Hs as [Hs _]. apply Forall_forall. intros a Ha' Eq. apply Hs. rewrite <-Eq.
    by apply elem_of_list_In, in_map, elem_of_list_In. }
  assert (W1 : forall f, assets !! item = Some f -> way f = ft) by (intros f Hf; rewrite Hfee in Hf; injection Hf as <-; unfold way; by rewrite decide_True).
  assert (W2 : Forall (fun a => way a = t) (delete item assets)) by (eapply Forall_impl; [done|]; intros a Hn; unfold way; cbn beta in Hn; by rewrite decide_False).
  pose proof (transfer_programs_ok (sending e open target) para l x dest way (sending_dustless _ _ _ He) Hx ltac:(done) _ _ _ _ _ _ _ _ _ W1 W2 Hs Hp) as [P _].
  destruct (P _ _ E) as (kept & given & A1 & [A2 A3] & A4 & A5 & A6 & A7 & A8). exists x, kept, given, target, msg. split_and!; try done.
  - intros path. rewrite A4. apply amount_seen; [by eapply reachable_proper|]. rewrite A1 in A3. apply Forall_app in A3 as [_ A3]. eapply Forall_impl; [exact A3|]. intros a [t' Ha']. by eapply token_proper.
  - intros path. rewrite A5. apply amount_seen; [by eapply reachable_proper|]. rewrite A1 in A3. apply Forall_app in A3 as [A3 _]. eapply Forall_impl; [exact A3|]. intros a [t' Ha']. by eapply token_proper.
  - intros Hi. destruct (find_types_ok _ _ _ _ _ (Hself _ _ Hi)) as [T1 T2]. specialize (T1 _ Hfee).
    assert (Hd : forall a, a ∈ assets -> determine_for (fst a) dest = Some (way a)).
    { intros a Hin. unfold way. destruct (decide (fst a = fst fee)) as [Ef|Ef]; [by rewrite Ef|]. assert (a ∈ fee :: delete item assets) as Hin' by (by rewrite <-(delete_Permutation _ _ _ Hfee)). apply elem_of_cons in Hin' as [-> |Hin']; [done|].
      rewrite Forall_forall in T2. by apply T2. }
    split; apply Forall_forall; intros a Hin; rewrite (Hd a) by (rewrite A1; apply elem_of_app; auto).
    + rewrite Forall_forall in A7. by rewrite A7.
    + rewrite Forall_forall in A8. destruct (A8 a Hin) as [[-> ->]| ->]; auto.
Qed.
Lemma transfer_exact : forall e open para w o c w' dest assets, xcall_run e open para w o c = XOk w' -> transfers c = Some (dest, assets) -> caller_wf o -> dustless e ->
  exists x kept given target msg, acts_for o x /\ assets ≡ₚ kept ++ given /\ n_out w' = n_out w ++ [(target, msg)] /\
    moved (n_chain w) (n_chain w') x dest assets kept /\ (kept <> [] -> target = dest) /\
    (forall path, amount_at (meant (our_place para) target) (withdrawn msg) path = amount_at (our_place para) given path) /\
    (forall path, amount_at (meant (our_place para) target) (declared msg) path = amount_at (our_place para) kept path).
Proof.
  intros e open para w o c w' dest assets H Ht Hwf He. destruct (transfer_whole _ _ _ _ _ _ _ _ _ H Ht Hwf He) as (x & kept & given & target & msg & A).
  exists x, kept, given, target, msg. by destruct_and!.
Qed.

(** * Routes *)

Lemma chain_location_parents k : loc_parents (chain_location k) = loc_parents k.
Proof. done. Qed.
Lemma reserve_of open k target : is_reserve k target = true -> reachable open target = true -> holds_reserve k target \/ extends (Location 1 [Parachain 1000]) k.
Proof.
  intros H Hr. apply reserves_exact in H as [-> |[H|[-> H]]]; [|by right|].
  - left. left. destruct target as [[|[| |]] [|[]]]; cbn in Hr; try discriminate; try done. by destruct l.
  - left. right. done.
Qed.
Lemma transfer_route : forall e open para w o c w' dest assets, xcall_run e open para w o c = XOk w' -> transfers_by_itself c = Some (dest, assets) -> caller_wf o -> dustless e ->
  (forall a, a ∈ assets -> extends (Location 1 [Parachain 1000]) (fst a) -> dest = Location 1 [Parachain 1000]) ->
  exists kept given target msg, assets ≡ₚ kept ++ given /\ n_out w' = n_out w ++ [(target, msg)] /\
    (forall path, amount_at (meant (our_place para) target) (withdrawn msg) path = amount_at (our_place para) given path) /\
    (forall path, amount_at (meant (our_place para) target) (declared msg) path = amount_at (our_place para) kept path) /\
    Forall (fun a => ours (fst a) /\ target = dest) kept /\ Forall (fun a => holds_reserve (fst a) target) given.
Proof.
  intros e open para w o c w' dest assets H Ht Hwf He Hh. assert (transfers c = Some (dest, assets)) as Ht' by (by destruct c).
  destruct (transfer_whole _ _ _ _ _ _ _ _ _ H Ht' Hwf He) as (x & kept & given & target & msg & _ & A1 & A2 & A3 & _ & A4 & A5 & A6 & _ & A7).
  destruct (A7 Ht) as [B1 B2]. exists kept, given, target, msg. split_and!; try done.
  - apply Forall_forall. intros a Hin. rewrite Forall_forall in B1. specialize (B1 a Hin). split; [|by apply A4; intros ->; inversion Hin].
    unfold determine_for in B1. destruct (is_reserve (fst a) dest); [done|]. case_bool_decide as E; [|by destruct (is_reserve _ _)]. unfold ours. rewrite <-(chain_location_parents (fst a)), E. done.
  - apply Forall_forall. intros a Hin. rewrite Forall_forall in B2.
    assert (a ∈ assets) as Hia by (rewrite A1; apply elem_of_app; auto).
    assert (is_reserve (fst a) target = true) as Hr.
    { destruct (B2 a Hin) as [[B ->]|B]; unfold determine_for in B.
      - destruct (is_reserve (fst a) dest); [done|]. case_bool_decide; [done|]. by destruct (is_reserve _ _).
      - destruct (is_reserve (fst a) dest); [done|]. case_bool_decide; [done|]. destruct (is_reserve (fst a) (chain_location (fst a))) eqn:E; [|done]. by injection B as <-. }
    destruct (reserve_of _ _ _ Hr A3) as [?|Hx]; [done|]. specialize (Hh a Hia Hx).
    destruct (B2 a Hin) as [[B ->]|B].
    + left. rewrite Hh. destruct Hx as [s Hx]. rewrite Hx. done.
    + unfold determine_for in B. rewrite (proj2 (reserves_exact _ _)) in B by (right; by left). done.
Qed.
Lemma transfer_authority : forall e open para w o c w' dest assets target msg, xcall_run e open para w o c = XOk w' -> transfers c = Some (dest, assets) ->
  n_out w' = n_out w ++ [(target, msg)] -> exists pre post, msg = pre ++ RClearOrigin :: post /\ Forall only_assets pre.
Proof.
  intros e open para w o c w' dest assets target msg H Ht Ho. destruct (transfers_run _ _ _ _ _ _ _ _ _ H Ht) as (l & r & item & ft & t & limit & local & target' & msg' & Hl & Hs & Hp & Hr & _).
  unfold execute_transfer in Hr. xinv Hr. cbn [fst snd] in *. injection Hr as <-. cbn [n_out] in Ho. apply app_inj_2 in Ho as [_ Ho]; [|done]. injection Ho as -> ->.
  revert Hp. unfold transfer_programs. destruct (assets !! item) as [fee|] eqn:Ei; [|done]. case_bool_decide as Et.
  - destruct t; cbn [build]; try done.
    + unfold local_reserve_programs. cbn [add_fees app]. intros [= <- <- <-]. eexists [_], _. split; [reflexivity|]. by constructor.
    + unfold destination_reserve_programs. destruct (forallb _ assets); [|done]. cbn [add_fees app fmap option_fmap option_map fst snd]. intros [= <- <- <-]. eexists [_], _. split; [reflexivity|]. by constructor.
    + unfold remote_reserve_program. destruct (halve fee) as [[]|]; [|done]. cbn [fmap option_fmap option_map fst snd]. intros [= <- <- <-]. eexists [_], _. split; [reflexivity|]. by constructor.
  - destruct (fees_programs para dest fee ft limit) as [f|] eqn:Ef; [|by destruct t].
    assert (exists lf a b, f = Separate lf [a; b] /\ only_assets a /\ only_assets b) as (lf & a & b & -> & Ha & Hb).
    { destruct ft; cbn [fees_programs] in Ef; try done; [|destruct (is_reserve _ _); [|done]]; injection Ef as <-; by eexists _, _, _. }
    destruct t; cbn [build]; try done.
    + unfold local_reserve_programs. cbn [add_fees app]. intros [= <- <- <-]. eexists [_; _; _], _. split; [reflexivity|]. by repeat constructor.
    + unfold destination_reserve_programs. destruct (forallb _ (delete _ _)); [|done]. cbn [add_fees app fmap option_fmap option_map fst snd]. intros [= <- <- <-]. eexists [_; _; _], _. split; [reflexivity|]. by repeat constructor.
Qed.
Lemma beneficiary_run e open para w o c w' dest b : xcall_run e open para w o c = XOk w' -> beneficiary_of c = Some (dest, b) ->
  exists l assets item ft t limit local target msg, transfers c = Some (dest, assets) /\
    transfer_programs para dest (Beneficiary b) assets item ft t limit = Some (local, (target, msg)) /\ execute_transfer e open w l (local, (target, msg)) = XOk w'.
Proof.
  intros H Ht. destruct c; try done; injection Ht as <- <-; cbn [xcall_run] in H; xinv H.
  - destruct x3 as [local [target msg]], x1 as [ft t]. cbn [fst snd] in *. eexists _, _, _, _, _, _, _, _, _. split_and!; try done.
  - destruct x2 as [local [target msg]], x1 as [ft t]. cbn [fst snd] in *. eexists _, _, _, _, _, _, _, _, _. split_and!; try done.
Qed.
Lemma transfer_delivers : forall e open para w o c w' dest b, xcall_run e open para w o c = XOk w' -> beneficiary_of c = Some (dest, b) ->
  exists assets target msg, transfers c = Some (dest, assets) /\ n_out w' = n_out w ++ [(target, msg)] /\ delivers para target msg (length assets) dest b.
Proof.
  intros e open para w o c w' dest b H Hb. destruct (beneficiary_run _ _ _ _ _ _ _ _ _ H Hb) as (l & assets & item & ft & t & limit & local & target & msg & Ht & Hp & Hr).
  exists assets, target, msg. split; [done|]. unfold execute_transfer in Hr. xinv Hr. cbn [fst snd] in *. injection Hr as <-. split; [done|].
  assert (Hk : keeps_going RClearOrigin) by by right.
  assert (Hw : forall l, keeps_going (RWithdraw l)) by (intros ?; by left). assert (Hd : forall l, keeps_going (RReserveDeposited l)) by (intros ?; by left).
  assert (Hy : forall f l, keeps_going (RBuy f l)) by (intros ? ?; by left).
  assert (Hm : forall fee, most_assets assets (Batched fee) = length assets) by (intros; unfold most_assets; lia).
  revert Hp. unfold transfer_programs. destruct (assets !! item) as [fee|] eqn:Ei; [|done]. case_bool_decide as Et.
  - destruct t; cbn [build]; try done.
    + unfold local_reserve_programs. cbn [add_fees app final_step]. rewrite Hm. intros [= <- <- <-]. left. split; [done|]. exists [RReserveDeposited (seen_all para dest assets); RClearOrigin; RBuy (seen para dest fee) limit]. split; [done|by repeat constructor].
    + unfold destination_reserve_programs. destruct (forallb _ assets); [|done]. cbn [add_fees app fmap option_fmap option_map fst snd final_step]. rewrite Hm. intros [= <- <- <-]. left. split; [done|].
      exists [RWithdraw (seen_all para dest assets); RClearOrigin; RBuy (seen para dest fee) limit]. split; [done|by repeat constructor].
    + unfold remote_reserve_program. destruct (halve fee) as [[f1 f2]|]; [|done]. cbn [fmap option_fmap option_map fst snd final_step]. intros [= <- <- <-]. right.
      exists [RWithdraw (seen_all para r assets); RClearOrigin; RBuy (seen para r f1) limit], (reanchor dest r (universal_location para)), (seen para dest f2), limit. split; [done|]. split; [by repeat constructor|].
      intros Hpr. apply reanchor_meant; [by eapply reachable_proper|done].
  - assert (Hlen : (length (delete item assets) + 1 = length assets)%nat). { pose proof (Permutation_length (delete_Permutation _ _ _ Ei)) as Hpl. cbn [length] in Hpl. lia. }
    destruct (fees_programs para dest fee ft limit) as [f|] eqn:Ef; [|by destruct t].
    assert (Hm2 : forall lf rf, most_assets (delete item assets) (Separate lf rf) = length assets) by (intros; unfold most_assets; lia).
    assert (exists lf a b, f = Separate lf [a; b] /\ keeps_going a /\ keeps_going b) as (lf & a & b' & -> & Ha & Hb').
    { destruct ft; cbn [fees_programs] in Ef; try done; [|destruct (is_reserve _ _); [|done]]; injection Ef as <-; by eexists _, _, _. }
    destruct t; cbn [build]; try done.
    + unfold local_reserve_programs. cbn [add_fees app final_step]. rewrite Hm2. intros [= <- <- <-]. left. split; [done|]. exists [a; b'; RReserveDeposited (seen_all para dest (delete item assets)); RClearOrigin]. split; [done|rewrite !Forall_cons, Forall_nil; auto 10].
    + unfold destination_reserve_programs. destruct (forallb _ (delete _ _)); [|done]. cbn [add_fees app fmap option_fmap option_map fst snd final_step]. rewrite Hm2. intros [= <- <- <-]. left. split; [done|].
      exists [a; b'; RWithdraw (seen_all para dest (delete item assets)); RClearOrigin]. split; [done|rewrite !Forall_cons, Forall_nil; auto 10].
Qed.

(** Proofs about messages from other chains. *)
From Verif Require Import Base XcmTypes AssetLocationModel AssetLocationProofs OriginTypes AccountsModel PaymentsSpec LedgerProofs XcmConfigModel XcmConfigSpec
  XcmConfigProofs XcmCountable XcmExecModel XcmExecSpec XcmTraderProofs.
From stdpp Require Import gmap.
Open Scope N_scope.

(** * Results *)

Lemma xbind_ok {A B} (x : xres A) (f : A -> xres B) b : xbind x f = XOk b -> exists a, x = XOk a /\ f a = XOk b.
Proof. destruct x; cbn; try done. eauto. Qed.
Lemma xensure_ok b u : xensure b = XOk u -> b = true.
Proof. by destruct b. Qed.
Lemma xsome_ok {A} (x : option A) a : xsome x = XOk a -> x = Some a.
Proof. destruct x; cbn; congruence. Qed.
Lemma xtoken_ok l t : xtoken l = XOk t -> token_of l = Val (Some t).
Proof. unfold xtoken. destruct (token_of l) as [[]| |]; congruence. Qed.
Ltac xinv H :=
  repeat match type of H with
  | xbind _ _ = XOk _ => let a := fresh "x" in let E := fresh "E" in apply xbind_ok in H as (a & E & H);
      first [apply xensure_ok in E|apply xsome_ok in E|apply xtoken_ok in E|idtac]
  end.

(** * Tokens *)

Lemma convert_inj l1 l2 a : convert l1 = Val (Some a) -> convert l2 = Val (Some a) -> l1 = l2.
Proof.
  intros H1 H2. pose proof (convert_shape _ _ H1 ltac:(done)) as S1. pose proof (convert_shape _ _ H2 ltac:(done)) as S2.
  inversion S1; subst; inversion S2; subst; try done;
    repeat match goal with H : network_try_from ?n = Some ?m |- _ => apply network_from_try_from in H; subst n end; done.
Qed.
Lemma convert_relay : convert relay_location = Val None.
Proof. done. Qed.
Lemma token_of_inj k1 k2 t : token_of k1 = Val (Some t) -> token_of k2 = Val (Some t) -> k1 = k2.
Proof.
  unfold token_of. intros H1 H2. destruct (bool_decide (k1 = relay_location)) eqn:E1; destruct (bool_decide (k2 = relay_location)) eqn:E2.
  - apply bool_decide_eq_true in E1, E2. congruence.
  - destruct (convert k2) as [[]| |]; congruence.
  - destruct (convert k1) as [[]| |]; congruence.
  - destruct (convert k1) as [[a1|]| |] eqn:C1; try congruence. destruct (convert k2) as [[a2|]| |] eqn:C2; try congruence.
    apply (convert_inj _ _ a1); [done|]. congruence.
Qed.

(** * Balances *)

Lemma bal_set ch t a v t' a' : bal (set_bal ch t a v) t' a' = if bool_decide (t = t' /\ a = a') then v else bal ch t' a'.
Proof.
  unfold bal, set_bal; cbn [ch_bal]. case_bool_decide as E; [destruct E as [-> ->]; by rewrite lookup_insert|].
  rewrite lookup_insert_ne; [done|]. intros [= -> ->]. by apply E.
Qed.
Lemma in_accounts_set ch t a v t' : in_accounts (set_bal ch t a v) t' + ind (bool_decide (t = t')) (bal ch t a) = in_accounts ch t' + ind (bool_decide (t = t')) v.
Proof.
  unfold in_accounts, set_bal, bal; cbn [ch_bal].
  pose proof (gsum_insert (fun (key : option asset_id * N) v => ind (bool_decide (fst key = t')) v) (t, a) v (ch_bal ch)) as H. cbn [fst] in H.
  destruct (ch_bal ch !! (t, a)); cbn [from_option default] in *; unfold id; [lia|]. destruct (bool_decide (t = t')); cbn [ind] in *; lia.
Qed.

Lemma amt_perm l1 l2 k : l1 ≡ₚ l2 -> amt l1 k = amt l2 k.
Proof. induction 1; rewrite ?amt_cons in *; lia. Qed.
Lemma amt_map_to_list (h : gmap location N) k : amt (map_to_list h) k = held_of h k.
Proof.
  induction h as [|k' v h Hn IH] using map_ind; [by rewrite map_to_list_empty|].
  rewrite (amt_perm _ _ k (map_to_list_insert h k' v Hn)), amt_cons, IH. cbn [fst snd]. unfold held_of.
  case_bool_decide as E; cbn [ind].
  - subst. rewrite lookup_insert, Hn. cbn. lia.
  - rewrite lookup_insert_ne by done. lia.
Qed.

Section moves.
  Context (e : xenv).

  Lemma withdraw_one_ok ch a who ch' : withdraw_one e ch a who = XOk ch' -> exists t x v, token_of (fst a) = Val (Some t) /\
    location_to_account who = Some x /\ snd a <= bal ch t x /\ v <= bal ch t x - snd a /\ ch' = set_bal ch t x v.
  Proof.
    unfold withdraw_one. intros H. xinv H. injection H as <-. apply andb_prop in E1 as [_ E1]. apply N.leb_le in E1.
    eexists _, _, _. split_and!; [done|done|done| |reflexivity]. destruct (xe_dust e ch _ _); lia.
  Qed.
  Lemma deposit_to_ok ch t n x ch' : deposit_to e ch t n x = XOk ch' -> ch' = set_bal ch t x (bal ch t x + n).
  Proof. unfold deposit_to. intros H. xinv H. by injection H. Qed.
  Lemma deposit_one_ok ch a who ch' : deposit_one e ch a who = XOk ch' -> exists t x, token_of (fst a) = Val (Some t) /\
    location_to_account who = Some x /\ ch' = set_bal ch t x (bal ch t x + snd a).
  Proof. unfold deposit_one. intros H. xinv H. apply deposit_to_ok in H. eauto. Qed.

  (** [who] may lose, nobody else; traps and calls stay. *)
  Definition only_from (who : option location) (ch ch' : chain) : Prop :=
    ch_traps ch' = ch_traps ch /\ ch_calls ch' = ch_calls ch /\
    forall t a, bal ch' t a < bal ch t a -> exists o, who = Some o /\ location_to_account o = Some a.
  Lemma only_from_refl who ch : only_from who ch ch.
  Proof. split_and!; try done. intros t a H. lia. Qed.
  Lemma only_from_trans who c1 c2 c3 : only_from who c1 c2 -> only_from who c2 c3 -> only_from who c1 c3.
  Proof.
    intros (A1 & A2 & A3) (B1 & B2 & B3). split_and!; try congruence. intros t a H.
    destruct (decide (bal c2 t a < bal c1 t a)); [by apply (A3 t)|apply (B3 t); lia].
  Qed.
  Lemma only_from_weaken who c1 c2 : only_from None c1 c2 -> only_from who c1 c2.
  Proof. intros (A1 & A2 & A3). split_and!; try done. intros t a H. by destruct (A3 t a H) as (o & [=] & _). Qed.

  Lemma withdraw_one_only ch a who ch' : withdraw_one e ch a who = XOk ch' -> only_from (Some who) ch ch'.
  Proof.
    intros H. apply withdraw_one_ok in H as (t & x & v & _ & Hx & _ & _ & ->). split_and!; try done. intros t' a' H.
    rewrite bal_set in H. case_bool_decide as E; [|lia]. destruct E as [<- <-]. eauto.
  Qed.
  Lemma deposit_to_only ch t n x ch' : deposit_to e ch t n x = XOk ch' -> only_from None ch ch'.
  Proof.
    intros H. apply deposit_to_ok in H as ->. split_and!; try done. intros t' a' H. rewrite bal_set in H.
    case_bool_decide as E; [destruct E as [<- <-]|]; lia.
  Qed.
  Lemma deposit_one_only ch a who ch' : deposit_one e ch a who = XOk ch' -> only_from None ch ch'.
  Proof. unfold deposit_one. intros H. xinv H. by eapply deposit_to_only. Qed.

  (** Accounts of a token against an asset list. *)
  Lemma withdraw_one_amount ch a who ch' t k : token_of k = Val (Some t) -> withdraw_one e ch a who = XOk ch' ->
    in_accounts ch' t + ind (bool_decide (fst a = k)) (snd a) <= in_accounts ch t.
  Proof.
    intros Hk H. apply withdraw_one_ok in H as (t0 & x & v & Ht & _ & H1 & H2 & ->).
    pose proof (in_accounts_set ch t0 x v t) as Hs.
    assert (bool_decide (t0 = t) = bool_decide (fst a = k)) as Eb.
    { apply bool_decide_ext. split; [intros ->; by eapply token_of_inj|intros E; rewrite E in Ht; congruence]. }
    rewrite Eb in Hs. destruct (bool_decide (fst a = k)) eqn:E; cbn [ind] in *; [|lia]. apply bool_decide_eq_true in Eb as ->. lia.
  Qed.
  Lemma deposit_to_amount ch t n x ch' t' : deposit_to e ch t n x = XOk ch' -> in_accounts ch' t' = in_accounts ch t' + ind (bool_decide (t = t')) n.
  Proof. intros H. apply deposit_to_ok in H as ->. pose proof (in_accounts_set ch t x (bal ch t x + n) t') as Hs. destruct (bool_decide (t = t')); cbn [ind] in *; lia. Qed.
  Lemma ind_token l t0 k t n : token_of l = Val (Some t0) -> token_of k = Val (Some t) -> ind (bool_decide (t0 = t)) n = ind (bool_decide (l = k)) n.
  Proof.
    intros H1 H2. f_equal. apply bool_decide_ext. split; [intros ->; by eapply token_of_inj|intros ->; congruence].
  Qed.
  Lemma deposit_one_amount ch a who ch' t k : token_of k = Val (Some t) -> deposit_one e ch a who = XOk ch' ->
    in_accounts ch' t = in_accounts ch t + ind (bool_decide (fst a = k)) (snd a).
  Proof.
    unfold deposit_one. intros Hk H. xinv H. rewrite (deposit_to_amount _ _ _ _ _ t H). f_equal. by apply ind_token.
  Qed.

  (** Lists of assets. *)
  Lemma each_only who f l : (forall ch a ch', f ch a = XOk ch' -> only_from who ch ch') -> forall ch ch', each f l ch = XOk ch' -> only_from who ch ch'.
  Proof.
    intros Hf. induction l as [|a l IH]; intros ch ch' H; cbn [each] in H; [injection H as <-; apply only_from_refl|].
    xinv H. eapply only_from_trans; [by eapply Hf|by apply IH].
  Qed.
  Lemma withdraw_all_only l who ch ch' : withdraw_all e l who ch = XOk ch' -> only_from (Some who) ch ch'.
  Proof. apply each_only. intros. by eapply withdraw_one_only. Qed.
  Lemma withdraw_all_amount t k who : token_of k = Val (Some t) -> forall l ch ch', withdraw_all e l who ch = XOk ch' -> in_accounts ch' t + amt l k <= in_accounts ch t.
  Proof.
    intros Hk. unfold withdraw_all. induction l as [|a l IH]; intros ch ch' H; cbn [each] in H; [injection H as <-; cbn; lia|].
    xinv H. rewrite amt_cons. apply (withdraw_one_amount _ _ _ _ t k Hk) in E. apply IH in H. lia.
  Qed.
  Lemma deposit_each_amount t k who : token_of k = Val (Some t) -> forall l ch ch', each (fun ch a => deposit_one e ch a who) l ch = XOk ch' ->
    in_accounts ch' t = in_accounts ch t + amt l k.
  Proof.
    intros Hk. induction l as [|a l IH]; intros ch ch' H; cbn [each] in H; [injection H as <-; cbn; lia|].
    xinv H. rewrite amt_cons. apply (deposit_one_amount _ _ _ _ t k Hk) in E. apply IH in H. lia.
  Qed.
  Lemma deposit_some_ok who : forall l ch q, deposit_some e l who ch = XOk q -> only_from None ch (snd q) /\
    (forall t k, token_of k = Val (Some t) -> in_accounts (snd q) t + amt (fst q) k = in_accounts ch t + amt l k).
  Proof.
    induction l as [|a l IH]; intros ch q H; cbn [deposit_some] in H.
    { injection H as <-. cbn [fst snd]. split; [apply only_from_refl|]. intros; lia. }
    destruct (deposit_one e ch a who) as [ch1| |] eqn:E; try done.
    - destruct (IH _ _ H) as [H1 H2]. split; [eapply only_from_trans; [by eapply deposit_one_only|done]|].
      intros t k Hk. rewrite (H2 t k Hk), amt_cons. apply (deposit_one_amount _ _ _ _ t k Hk) in E. lia.
    - xinv H. injection H as <-. cbn [fst snd]. destruct (IH _ _ E0) as [H1 H2]. split; [done|].
      intros t k Hk. rewrite !amt_cons. specialize (H2 t k Hk). lia.
  Qed.
  Lemma deposit_all_only l who ch ch' : deposit_all e l who ch = XOk ch' -> only_from None ch ch'.
  Proof.
    unfold deposit_all. intros H. xinv H. apply deposit_some_ok in E as [E _]. eapply only_from_trans; [done|].
    revert H. apply each_only. intros. by eapply deposit_one_only.
  Qed.
  Lemma deposit_all_amount t k l who ch ch' : token_of k = Val (Some t) -> deposit_all e l who ch = XOk ch' -> in_accounts ch' t = in_accounts ch t + amt l k.
  Proof.
    intros Hk. unfold deposit_all. intros H. xinv H. apply deposit_some_ok in E as [_ E]. specialize (E t k Hk).
    apply (deposit_each_amount t k _ Hk) in H. lia.
  Qed.
  Lemma transfer_one_only from to ch a ch' : transfer_one e from to ch a = XOk ch' -> only_from (Some from) ch ch'.
  Proof.
    unfold transfer_one. intros H. xinv H. eapply only_from_trans; [by eapply withdraw_one_only|]. apply only_from_weaken. by eapply deposit_one_only.
  Qed.
  Lemma transfer_one_amount from to ch a ch' t k : token_of k = Val (Some t) -> transfer_one e from to ch a = XOk ch' -> in_accounts ch' t <= in_accounts ch t.
  Proof.
    intros Hk. unfold transfer_one. intros H. xinv H. apply (withdraw_one_amount _ _ _ _ t k Hk) in E.
    apply (deposit_one_amount _ _ _ _ t k Hk) in H. lia.
  Qed.
  Lemma transfer_each_amount from to t k : token_of k = Val (Some t) -> forall l ch ch', each (transfer_one e from to) l ch = XOk ch' -> in_accounts ch' t <= in_accounts ch t.
  Proof.
    intros Hk. induction l as [|a l IH]; intros ch ch' H; cbn [each] in H; [injection H as <-; lia|].
    xinv H. apply (transfer_one_amount _ _ _ _ _ t k Hk) in E. apply IH in H. lia.
  Qed.
  Lemma check_out_one_only ch a ch' : check_out_one e ch a = XOk ch' -> only_from None ch ch'.
  Proof.
    unfold check_out_one. intros H. xinv H. destruct (xe_checked e ch x); [by eapply deposit_to_only|]. injection H as <-. apply only_from_refl.
  Qed.
  Lemma check_out_amount t k : token_of k = Val (Some t) -> forall l ch ch', each (check_out_one e) l ch = XOk ch' -> in_accounts ch' t <= in_accounts ch t + amt l k.
  Proof.
    intros Hk. induction l as [|a l IH]; intros ch ch' H; cbn [each] in H; [injection H as <-; cbn; lia|].
    xinv H. rewrite amt_cons. apply IH in H. unfold check_out_one in E. xinv E. destruct (xe_checked e ch x0).
    - apply (deposit_to_amount _ _ _ _ _ t) in E. rewrite (ind_token _ _ k t) in E by done. lia.
    - injection E as <-. lia.
  Qed.

  (** Holding. *)
  Lemma held_set h k v k' : held_of (set_held_of h k v) k' = if bool_decide (k = k') then v else held_of h k'.
  Proof.
    unfold held_of, set_held_of. destruct (N.eqb_spec v 0) as [->|].
    - case_bool_decide as E; [subst; by rewrite lookup_delete|by rewrite lookup_delete_ne].
    - case_bool_decide as E; [subst; by rewrite lookup_insert|by rewrite lookup_insert_ne].
  Qed.
  Lemma subsume_cons h a l : subsume h (a :: l) = subsume (set_held_of h (fst a) (sat128 (held_of h (fst a) + snd a))) l.
  Proof. done. Qed.
  Lemma held_subsume k : forall l h, held_of (subsume h l) k = match l with [] => held_of h k | _ => if bool_decide (k ∈ map fst l) then sat128 (held_of h k + amt l k) else held_of h k end.
  Proof.
    assert (Hz : forall l, k ∉ map fst l -> amt l k = 0).
    { induction l as [|c l IH]; [done|]. cbn [map]. rewrite not_elem_of_cons. intros [Hn1 Hn2]. rewrite amt_cons, IH by done.
      rewrite bool_decide_eq_false_2 by congruence. done. }
    induction l as [|a l IH]; intros h; [done|]. rewrite subsume_cons, IH, amt_cons. clear IH. rewrite held_set.
    destruct (decide (fst a = k)) as [Ek|Hne].
    - rewrite !(bool_decide_eq_true_2 (fst a = k)) by done. rewrite (bool_decide_eq_true_2 (k ∈ map fst (a :: l))) by (cbn [map]; rewrite Ek; left). cbn [ind].
      rewrite Ek. unfold sat128. destruct l as [|b l]; [cbn; lia|]. destruct (bool_decide (k ∈ map fst (b :: l))) eqn:E; [lia|].
      apply bool_decide_eq_false in E. rewrite Hz by done. lia.
    - rewrite !(bool_decide_eq_false_2 (fst a = k)) by done. cbn [ind].
      rewrite (bool_decide_ext (k ∈ map fst (a :: l)) (k ∈ map fst l)) by (cbn [map]; split; [by intros [?|?]%elem_of_cons|by right]).
      rewrite N.add_0_l. destruct l as [|b l]; [|done]. rewrite bool_decide_eq_false_2; [done|]. apply not_elem_of_nil.
  Qed.
  Lemma held_subsume_le k l h : held_of (subsume h l) k <= held_of h k + amt l k.
  Proof. rewrite held_subsume. destruct l; [lia|]. case_bool_decide; unfold sat128; lia. Qed.
  Lemma held_subsume_empty k l h : held_of (subsume h l) k <= held_of h k + held_of (subsume ∅ l) k.
  Proof.
    rewrite !held_subsume. assert (held_of ∅ k = 0) as Hz by (unfold held_of; by rewrite lookup_empty). rewrite Hz.
    destruct l; [lia|]. case_bool_decide; unfold sat128; lia.
  Qed.
  Lemma take_amount k : forall l h, amt (fst (saturating_take l h)) k + held_of (snd (saturating_take l h)) k = held_of h k.
  Proof.
    induction l as [|a l IH]; intros h; cbn [saturating_take fst snd]; [cbn; lia|].
    destruct (saturating_take l _) as [taken rest] eqn:E. cbn [fst snd]. rewrite amt_cons. cbn [fst snd].
    specialize (IH (set_held_of h (fst a) (held_of h (fst a) - N.min (snd a) (held_of h (fst a))))). rewrite E in IH. cbn [fst snd] in IH.
    rewrite held_set in IH. case_bool_decide as Ek; cbn [ind]; [subst k|]; lia.
  Qed.
  Lemma try_take_amount k : forall l h r, try_take l h = Some r -> amt l k + held_of r k = held_of h k.
  Proof.
    induction l as [|a l IH]; intros h r H; cbn [try_take] in H; [injection H as <-; cbn; lia|].
    destruct (N.leb_spec (snd a) (held_of h (fst a))); [|done]. apply IH in H. rewrite held_set in H. rewrite amt_cons.
    case_bool_decide as Ek; cbn [ind]; [subst k|]; lia.
  Qed.
  Lemma claim_ok o h l : forall l', claim o h l = Some l' -> exists l1 l2, l = l1 ++ (o, h) :: l2 /\ l' = l1 ++ l2.
  Proof.
    induction l as [|t l IH]; intros l' H; cbn [claim] in H; [done|]. case_bool_decide as E.
    - injection H as <-. exists [], l. by subst t.
    - destruct (claim o h l) as [r|]; [|done]. injection H as <-. destruct (IH r eq_refl) as (l1 & l2 & -> & ->).
      by exists (t :: l1), l2.
  Qed.
  Lemma in_traps_app l1 l2 k : in_traps (l1 ++ l2) k = in_traps l1 k + in_traps l2 k.
  Proof. unfold in_traps. induction l1 as [|a l1 IH]; cbn; [done|]. rewrite IH. lia. Qed.
  Lemma in_traps_cons a l k : in_traps (a :: l) k = held_of (snd a) k + in_traps l k.
  Proof. done. Qed.

  (** * What one instruction may do *)

  (** Units in accounts, traps and holding; those the traders keep are not counted. *)
  Definition around (m : machine) (t : option asset_id) (k : location) : N :=
    in_accounts (m_chain m) t + in_traps (ch_traps (m_chain m)) k + held_of (m_hold m) k.
  Definition buying (i : xinstr) (t t' : trader) (k : location) (before after : N) : Prop :=
    exists a w p, i = XBuy a (Some w) /\ buy_weight (xe_base e) (xe_asset e) t w a = Some (t', p) /\ after + ind (bool_decide (fst a = k)) p <= before.
  Definition refunding (t t' : trader) (k : location) (before after : N) : Prop :=
    exists w, t' = fst (refund_weight (xe_base e) (xe_asset e) t w) /\ after <= before + back_of (refund_weight (xe_base e) (xe_asset e) t w) k.
  Record allowed (o : option location) (i : xinstr) (m m' : machine) : Prop := Allowed {
    al_origin : forall o', m_origin m' = Some o' -> exists o0, o = Some o0 /\ extends o0 o';
    al_bal : forall t a, bal (m_chain m') t a < bal (m_chain m) t a -> exists o0, o = Some o0 /\ location_to_account o0 = Some a;
    al_worth : forall t k, token_of k = Val (Some t) -> (forall o0, o = Some o0 -> is_reserve k o0 = false) ->
      m_trader m' = m_trader m /\ around m' t k <= around m t k \/
      buying i (m_trader m) (m_trader m') k (around m t k) (around m' t k) \/
      i = XRefund /\ refunding (m_trader m) (m_trader m') k (around m t k) (around m' t k);
    al_traps : ch_traps (m_chain m') = ch_traps (m_chain m) \/
      exists o0 h l1 l2, o = Some o0 /\ ch_traps (m_chain m) = l1 ++ (o0, h) :: l2 /\ ch_traps (m_chain m') = l1 ++ l2;
    al_calls : ch_calls (m_chain m') = ch_calls (m_chain m) \/
      exists o0 kind d c, o = Some o0 /\ transact_origin o0 kind = Some d /\ ch_calls (m_chain m') = ch_calls (m_chain m) ++ [(d, c)]
  }.
  Lemma extends_refl l : extends l l.
  Proof. exists []. rewrite app_nil_r. by destruct l. Qed.
  Lemma extends_trans a b c : extends a b -> extends b c -> extends a c.
  Proof. intros [s1 ->] [s2 ->]. exists (s1 ++ s2). cbn. by rewrite app_assoc. Qed.

  (** Instructions that only move assets: the chain changes by [only_from], the origin stays. *)
  Lemma allowed_moves o i m m' : m_origin m = o -> m_origin m' = o -> only_from o (m_chain m) (m_chain m') -> m_trader m' = m_trader m ->
    (forall t k, token_of k = Val (Some t) -> in_accounts (m_chain m') t + held_of (m_hold m') k <= in_accounts (m_chain m) t + held_of (m_hold m) k) -> allowed o i m m'.
  Proof.
    intros Ho Ho' (H1 & H2 & H3) Ht Hw. split.
    - intros o' Hx. rewrite Ho' in Hx. exists o'. split; [done|apply extends_refl].
    - done.
    - intros t k Hk _. left. split; [done|]. specialize (Hw t k Hk). unfold around. rewrite H1. lia.
    - by left.
    - by left.
  Qed.
  Lemma delivery_ok m m' : take_delivery_fee e m = XOk m' -> m_origin m' = m_origin m /\ m_trader m' = m_trader m /\
    only_from (m_origin m) (m_chain m) (m_chain m') /\
    (forall t k, token_of k = Val (Some t) -> in_accounts (m_chain m') t + held_of (m_hold m') k <= in_accounts (m_chain m) t + held_of (m_hold m) k).
  Proof.
    unfold take_delivery_fee. intros H. xinv H. destruct (m_jit m).
    - xinv H. injection H as <-. cbn [m_origin m_trader m_hold m_chain mark_sent xset_chain]. rewrite E0. split_and!; [done|done|..].
      + change (only_from (Some x0) (m_chain m) x1). by eapply withdraw_all_only.
      + intros t k Hk. apply (withdraw_all_amount t k _ Hk) in E1. change (in_accounts (Chain _ _ _ _) t) with (in_accounts x1 t). lia.
    - xinv H. injection H as <-. cbn [m_origin m_trader m_hold m_chain mark_sent xset_chain xset_hold].
      split_and!; [done|done|exact (only_from_refl (m_origin m) (m_chain m))|].
      intros t k Hk. apply (try_take_amount k) in E0. change (in_accounts (Chain _ _ _ _) t) with (in_accounts (m_chain m) t). lia.
  Qed.
  Lemma refund_ok m m' : refund_surplus e m = XOk m' -> m_origin m' = m_origin m /\ m_chain m' = m_chain m /\
    ((m_trader m' = m_trader m /\ m_hold m' = m_hold m) \/
     exists w, m_trader m' = fst (refund_weight (xe_base e) (xe_asset e) (m_trader m) w) /\
       m_hold m' = match snd (refund_weight (xe_base e) (xe_asset e) (m_trader m) w) with Some a => subsume (m_hold m) [a] | None => m_hold m end).
  Proof.
    unfold refund_surplus. destruct (weight_le _ _); [intros [= <-]; split_and!; [done|done|by left]|]. intros H.
    destruct (refund_weight (xe_base e) (xe_asset e) (m_trader m) (unrefunded m)) as [t [a|]] eqn:E.
    - destruct (_ && _); [done|]. injection H as <-. split_and!; [done|done|]. right. exists (unrefunded m). by rewrite E.
    - injection H as <-. split_and!; [done|done|]. right. exists (unrefunded m). by rewrite E.
  Qed.
  Lemma refund_held m m' k : refund_surplus e m = XOk m' -> m_trader m' = m_trader m /\ held_of (m_hold m') k <= held_of (m_hold m) k \/
    refunding (m_trader m) (m_trader m') k (held_of (m_hold m) k) (held_of (m_hold m') k).
  Proof.
    intros H. apply refund_ok in H as (_ & _ & [[H1 H2]|(w & H1 & H2)]); [left; by rewrite H2|]. right. exists w. split; [done|]. rewrite H2. unfold back_of.
    destruct (snd _) as [a|]; [|lia]. pose proof (held_subsume_le k [a] (m_hold m)) as Hs. rewrite amt_cons in Hs. cbn [amt foldr] in Hs. lia.
  Qed.

  Lemma exec_allowed m i m' : exec_instr e m i = XOk m' -> allowed (m_origin m) i m m'.
  Proof.
    intros H. assert (Hsame : forall m', m_origin m' = m_origin m -> m_chain m' = m_chain m -> m_trader m' = m_trader m ->
      (forall t k, token_of k = Val (Some t) -> held_of (m_hold m') k <= held_of (m_hold m) k) -> allowed (m_origin m) i m m').
    { intros m1 H1 H2 H3 H4. apply allowed_moves; [done|done|rewrite H2; apply only_from_refl|done|]. intros t k Hk. rewrite H2. specialize (H4 t k Hk). lia. }
    destruct i; cbn [exec_instr] in H; try done.
    - xinv H. injection H as <-. rewrite E. apply allowed_moves; [done|done|cbn; by eapply withdraw_all_only|done|]. intros t k Hk. cbn.
      apply (withdraw_all_amount t k _ Hk) in E1. pose proof (held_subsume_le k l (m_hold m)). lia.
    - xinv H. injection H as <-. split; cbn.
      + intros o' Ho. exists o'. split; [done|apply extends_refl].
      + intros t a Hlt. lia.
      + intros t k Hk Hr. left. split; [done|]. unfold around; cbn. pose proof (held_subsume_le k l (m_hold m)).
        assert (amt l k = 0); [|lia]. specialize (Hr _ E). clear -E1 Hr. induction l as [|a l IH]; [done|]. cbn [forallb] in E1.
        apply andb_prop in E1 as [E0 E1]. rewrite amt_cons, IH by done. rewrite bool_decide_eq_false_2; [done|]. congruence.
      + by left.
      + by left.
    - xinv H. injection H as <-. by apply Hsame.
    - xinv H. injection H as <-. rewrite E. apply allowed_moves; [done|done|cbn; eapply each_only; [|done]; intros; by eapply transfer_one_only|done|].
      intros t k Hk. cbn. apply (transfer_each_amount _ _ t k Hk) in E0. lia.
    - xinv H. apply delivery_ok in H as (H1 & H2 & H3 & H4). cbn in *. rewrite E in *. apply allowed_moves; [done|done|..].
      + eapply only_from_trans; [eapply each_only; [|done]; intros; by eapply transfer_one_only|done].
      + done.
      + intros t k Hk. apply (transfer_each_amount _ _ t k Hk) in E0. specialize (H4 t k Hk). lia.
    - xinv H. injection H as <-. split; cbn.
      + intros o' Ho. exists o'. split; [done|apply extends_refl].
      + unfold bal; cbn. intros t a Hlt. lia.
      + intros t k0 _ _. left. split; [done|]. apply N.le_refl.
      + by left.
      + right. eexists _, _, _, _. by split_and!.
    - injection H as <-. split; cbn; [done|intros t a Hlt; lia|intros t k _ _; left; split; [done|apply N.le_refl]|by left|by left].
    - xinv H. injection H as <-. split; cbn; [|intros t a Hlt; lia|intros t k _ _; left; split; [done|apply N.le_refl]|by left|by left].
      intros o' [= <-]. eexists. split; [done|]. by eexists.
    - pose proof (fun k => take_amount k (requested f (m_hold m)) (m_hold m)) as Ht.
      destruct (saturating_take (requested f (m_hold m)) (m_hold m)) as [taken rest]. xinv H. injection H as <-. cbn [fst snd] in Ht.
      apply allowed_moves; [done|done|cbn; apply only_from_weaken; by eapply deposit_all_only|done|]. intros t k Hk. cbn.
      apply (deposit_all_amount t k _ _ _ _ Hk) in E. specialize (Ht k). lia.
    - xinv H. apply delivery_ok in E as (H1 & H2 & H3 & H4).
      pose proof (fun k => take_amount k (requested f (m_hold x)) (m_hold x)) as Ht.
      destruct (saturating_take (requested f (m_hold x)) (m_hold x)) as [taken rest]. xinv H. injection H as <-. cbn [fst snd] in Ht.
      apply allowed_moves; cbn; [done|done|eapply only_from_trans; [done|apply only_from_weaken; by eapply deposit_all_only]|done|]. intros t k Hk. 
      apply (deposit_all_amount t k _ _ _ _ Hk) in E. specialize (Ht k). specialize (H4 t k Hk). lia.
    - xinv H. apply delivery_ok in E as (H1 & H2 & H3 & H4).
      pose proof (fun k => take_amount k (requested f (m_hold x)) (m_hold x)) as Ht.
      destruct (saturating_take (requested f (m_hold x)) (m_hold x)) as [taken rest]. injection H as <-. cbn [fst snd] in Ht.
      apply allowed_moves; cbn; [done|done|done|done|]. intros t k Hk. specialize (Ht k). specialize (H4 t k Hk). lia.
    - xinv H. apply delivery_ok in E as (H1 & H2 & H3 & H4).
      pose proof (fun k => take_amount k (requested f (m_hold x)) (m_hold x)) as Ht.
      destruct (saturating_take (requested f (m_hold x)) (m_hold x)) as [taken rest]. xinv H. injection H as <-. cbn [fst snd] in Ht.
      apply allowed_moves; cbn; [done|done|eapply only_from_trans; [done|apply only_from_weaken; eapply each_only; [|done]; intros; by eapply check_out_one_only]|done|].
      intros t k Hk. apply (check_out_amount t k Hk) in E. specialize (Ht k). specialize (H4 t k Hk). lia.
    - destruct limit as [w|]; [|injection H as <-; by apply Hsame]. xinv H. injection H as <-. destruct x0 as [t' p]. apply N.leb_le in E. cbn [fst snd].
      pose proof (buy_cases _ _ _ _ _ _ _ E0) as (Hp & _). split; cbn [m_origin m_chain m_trader m_hold xset_trader xset_hold]; [|intros t a Hlt; lia| |by left|by left].
      + intros o' Ho. exists o'. split; [done|apply extends_refl].
      + intros t k Hk _. right. left. exists fee, w, p. split_and!; [done|done|]. unfold around. cbn [m_chain m_hold xset_trader xset_hold]. rewrite held_set.
        destruct (bool_decide (fst fee = k)) eqn:Ek; cbn [ind]; [apply bool_decide_eq_true in Ek; subst k|]; lia.
    - injection H as <-. by apply Hsame.
    - pose proof (fun k => refund_held _ _ k H) as Hr. apply refund_ok in H as (H1 & H2 & _). split; [|rewrite H2; intros t a Hlt; lia| |left; by rewrite H2|left; by rewrite H2].
      + intros o' Ho. exists o'. split; [congruence|apply extends_refl].
      + intros t k _ _. unfold around. rewrite H2. destruct (Hr k) as [[R1 R2]|(w & R1 & R2)]; [left; split; [done|lia]|right; right; split; [done|]]. exists w. split; [done|lia].
    - xinv H. injection H as <-. by apply Hsame.
    - xinv H. injection H as <-. by apply Hsame.
    - xinv H. injection H as <-. apply claim_ok in E1 as (l1 & l2 & E1 & E2). split; cbn.
      + intros o' Ho. exists o'. split; [done|apply extends_refl].
      + unfold bal; cbn. intros t a Hlt. lia.
      + intros t k _ _. left. split; [done|]. unfold around, in_accounts; cbn [m_chain m_hold m_trader xset_hold xset_chain ch_bal ch_traps]. rewrite E1, E2, !in_traps_app, in_traps_cons. cbn [snd].
        pose proof (held_subsume_empty k l (m_hold m)). lia.
      + right. eexists _, _, _, _. by split_and!.
      + by left.
    - injection H as <-. apply Hsame; [done|done|done|]. intros t k _. cbn. pose proof (take_amount k l (m_hold m)). lia.
    - injection H as <-. by apply Hsame.
    - apply delivery_ok in H as (H1 & H2 & H3 & H4). apply allowed_moves; [done|done|done|done|]. intros t k' Hk. specialize (H4 t k' Hk). lia.
    - xinv H. injection H as <-. destruct k; try (by apply Hsame). split; cbn.
      + intros o' Ho. exists o'. split; [done|apply extends_refl].
      + unfold bal; cbn. intros t a Hlt. lia.
      + intros t k0 _ _. left. split; [done|]. apply N.le_refl.
      + by left.
      + by left.
  Qed.
End moves.

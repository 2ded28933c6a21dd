(** Proofs about what calls write to storage. *)
From stdpp Require Import gmap.
From Verif Require Import BaseProofs XcmTypes OriginTypes FeesModel LedgerModel AccountsModel PaymentsModel PaymentsSpec FeesProofs KreivoPaymentsModel KreivoPaymentsSpec
  KreivoPaymentsProofs CommunitiesModel CommunitiesSpec TracksModel ManagerModel XcmConfigModel XcmInstrModel XcmWeightsModel CostModel WritesModel WritesSpec.
Open Scope N_scope.

(* ------------------------------------------------------------------ *)
(** * Balances *)

Definition lwithin (a : N) (fs hs : list N) (l l' : ledger) : Prop :=
  (forall b x, free l b x <> free l' b x -> b = a /\ x ∈ fs) /\
  (forall b x, held l b x <> held l' b x -> b = a /\ x ∈ hs) /\
  (forall b, dusted l b <> dusted l' b -> b = a).

Lemma lwithin_refl a fs hs l : lwithin a fs hs l l.
Proof. split_and!; intros; by exfalso. Qed.
Lemma lwithin_trans a fs hs l1 l2 l3 : lwithin a fs hs l1 l2 -> lwithin a fs hs l2 l3 -> lwithin a fs hs l1 l3.
Proof.
  intros (F1 & H1 & D1) (F2 & H2 & D2). split_and!.
  - intros b x H. destruct (decide (free l1 b x = free l2 b x)) as [E|E]; [apply F2; congruence|by apply F1].
  - intros b x H. destruct (decide (held l1 b x = held l2 b x)) as [E|E]; [apply H2; congruence|by apply H1].
  - intros b H. destruct (decide (dusted l1 b = dusted l2 b)) as [E|E]; [apply D2; congruence|by apply D1].
Qed.

Lemma lwithin_set_free a fs hs l x v : x ∈ fs -> lwithin a fs hs l (set_free l a x v).
Proof.
  intros Hx. split_and!; [|intros; by exfalso..]. intros b y. unfold free, set_free. cbn [l_free].
  destruct (decide ((a, x) = (b, y))) as [[= <- <-]|Hne]; [done|]. rewrite lookup_insert_ne by done. done.
Qed.
Lemma lwithin_set_held a fs hs l x v : x ∈ hs -> lwithin a fs hs l (set_held l a x v).
Proof.
  intros Hx. split_and!; [intros; by exfalso| |intros; by exfalso]. intros b y. unfold held, set_held. cbn [l_held].
  destruct (decide ((a, x) = (b, y))) as [[= <- <-]|Hne]; [done|]. rewrite lookup_insert_ne by done. done.
Qed.
Lemma lwithin_add_dust a fs hs l v : lwithin a fs hs l (add_dust l a v).
Proof.
  split_and!; [intros; by exfalso..|]. intros b. unfold add_dust, dusted. cbn [l_dusted].
  destruct (decide (a = b)) as [<-|Hne]; [done|]. rewrite lookup_insert_ne by done. done.
Qed.

Lemma hold_within e l a who amt l' fs hs : ledger_hold e l a who amt = Some l' -> who ∈ fs -> who ∈ hs -> lwithin a fs hs l l'.
Proof.
  unfold ledger_hold. case_match; [|discriminate]. intros [= <-] H1 H2.
  eapply lwithin_trans; [by apply lwithin_set_free|by apply lwithin_set_held].
Qed.
Lemma release_within e l a who amt l' fs hs : ledger_release e l a who amt = Some l' -> who ∈ fs -> who ∈ hs -> lwithin a fs hs l l'.
Proof.
  unfold ledger_release. case_match; [|discriminate]. intros [= <-] H1 H2.
  eapply lwithin_trans; [by apply lwithin_set_free|by apply lwithin_set_held].
Qed.
Lemma transfer_within e l a src dst amt p l' fs hs : ledger_transfer e l a src dst amt p = Some l' -> src ∈ fs -> dst ∈ fs -> lwithin a fs hs l l'.
Proof.
  unfold ledger_transfer. case_match; [|discriminate]. case_match; [intros [= <-] _ _; apply lwithin_refl|]. case_match; [|discriminate].
  intros E H2 H3.
  assert (K : lwithin a fs hs l (set_free (set_free l a src (free l a src - amt)) a dst (free l a dst + amt))).
  { eapply lwithin_trans; by apply lwithin_set_free. }
  destruct p; [|by injection E as <-]. destruct ((_ <? _) && _); injection E as <-; [|done].
  eapply lwithin_trans; [exact K|]. eapply lwithin_trans; [by apply (lwithin_set_free a fs hs _ src 0)|apply lwithin_add_dust].
Qed.
Lemma transfer_hold_within e l a src dst amt l' fs hs : ledger_transfer_hold e l a src dst amt = Some l' -> src ∈ fs -> dst ∈ hs -> lwithin a fs hs l l'.
Proof.
  unfold ledger_transfer_hold. case_match; [|discriminate]. intros [= <-] H1 H2.
  eapply lwithin_trans; [by apply lwithin_set_free|by apply lwithin_set_held].
Qed.
Lemma fees_within e a fs hs from : from ∈ fs -> forall rs l l' b, (forall f, f ∈ rs -> fee_to f ∈ fs) ->
  try_transfer_fees e l from a rs b = POk l' -> lwithin a fs hs l l'.
Proof.
  intros Hf rs. induction rs as [|f rs IH]; intros l l' b Hr; cbn [try_transfer_fees].
  { intros [= <-]. apply lwithin_refl. }
  assert (Hr' : forall g, g ∈ rs -> fee_to g ∈ fs) by (intros g Hg; apply Hr; by right).
  destruct (_ || _).
  - destruct (ledger_transfer _ _ _ _ _ _ _) as [l1|] eqn:E; cbn [ok_or pbind]; [|discriminate]. intros H.
    eapply lwithin_trans; [eapply transfer_within; [exact E|done|apply Hr; left]|]. by eapply IH.
  - by apply IH.
Qed.

(* ------------------------------------------------------------------ *)
(** * Payments *)

Ltac pb H :=
  repeat match type of H with
  | pbind (ok_or ?o _) _ = POk _ => let E := fresh "E" in destruct o eqn:E; cbn [ok_or pbind] in H; [|discriminate H]
  | pbind (ensure ?b _) _ = POk _ => let E := fresh "E" in destruct b eqn:E; cbn [ensure pbind] in H; [|discriminate H]
  | ok_or ?o _ = POk _ => let E := fresh "E" in destruct o eqn:E; cbn [ok_or] in H; [|discriminate H]
  end.

(** Everything a call touches: a record, what it is about, a task, and balances of one asset. *)
Definition touches (rec par task : list pthing) (a : N) (fs hs : list N) (dust : bool) : list pthing :=
  rec ++ par ++ task ++ map (PFree a) fs ++ map (PHeld a) hs ++ (if dust then [PAsset a] else []).

Lemma touches_only st st' a fs hs s id (np nt : bool) :
  lwithin a fs hs (st_ledger st) (st_ledger st') ->
  (forall k, k <> (s, id) -> st_pays st !! k = st_pays st' !! k) ->
  (forall i, i <> id \/ np = false -> st_parties st !! i = st_parties st' !! i) ->
  (forall i, i <> id \/ nt = false -> st_agenda st !! i = st_agenda st' !! i) ->
  only (pdiffers st st') (touches [PRecord s id] (if np then [PParties id] else []) (if nt then [PTask id] else []) a fs hs true).
Proof.
  intros (F & H & D) Hp Hq Ht x Hx. unfold touches. rewrite !elem_of_app. destruct x as [s' i|i|i|b w|b w|b]; cbn [pdiffers] in Hx.
  - left. destruct (decide ((s', i) = (s, id))) as [[= -> ->]|Hne]; [left|]. by destruct Hx; apply Hp.
  - right; left. destruct (decide (i = id)) as [->|Hne]; [|destruct Hx; apply Hq; by left].
    destruct np; [left|]. destruct Hx. apply Hq. by right.
  - do 2 right; left. destruct (decide (i = id)) as [->|Hne]; [|destruct Hx; apply Ht; by left].
    destruct nt; [left|]. destruct Hx. apply Ht. by right.
  - do 3 right; left. apply F in Hx as [-> Hw]. by apply elem_of_list_fmap_1.
  - do 4 right; left. apply H in Hx as [-> Hw]. by apply elem_of_list_fmap_1.
  - do 5 right. apply D in Hx as ->. left.
Qed.

Lemma kreivo_fee_to st s id d : kreivo_reachable st -> st_pays st !! (s, id) = Some d ->
  forall r b f, f ∈ fst (fst (summary_for (d_fees d) r b)) -> fee_to f = treasury_account.
Proof.
  intros Hr Hd r b f. destruct (kreivo_reachable_record st (s, id) d Hr Hd) as [_ (min & remark & _ & E)].
  unfold summary_for. rewrite E. unfold kreivo_fees. cbn [fst sender_pays beneficiary_pays].
  assert (K : forall l, (forall g, g ∈ l -> fee_to g = treasury_account) -> f ∈ fst (fst (get_summary l b)) -> fee_to f = treasury_account).
  { intros l Hl Hf. assert (f ∈ fmerge l) as Hm.
    { destruct b; [rewrite get_summary_true in Hf|rewrite get_summary_false in Hf]; exact Hf. }
    apply merge_mem in Hm as (g & Hg & <- & _). by apply Hl. }
  apply K. intros g Hg.
  destruct r; [destruct (is_community s)|destruct (is_community (d_beneficiary d))]; try (by apply elem_of_nil in Hg);
    by apply elem_of_list_singleton in Hg as ->.
Qed.

Lemma settle_within st e s b id m st' : kreivo_reachable st -> settle_payment e st s b id m = POk st' ->
  (forall r t, m = Some (r, t) -> t = treasury_account) ->
  exists d, st_pays st !! (s, id) = Some d /\ lwithin (d_asset d) [s; b; treasury_account] [s; b] (st_ledger st) (st_ledger st') /\
    (forall k, k <> (s, id) -> st_pays st !! k = st_pays st' !! k) /\ st_parties st = st_parties st' /\ st_agenda st = st_agenda st'.
Proof.
  intros Hr H Hm. unfold settle_payment in H. pb H. rename E into Ed. exists d.
  set (dis := match m with Some _ => true | None => false end) in *.
  destruct (summary_for (d_fees d) RSender dis) as [[fsd x1] x2] eqn:Es. pb H. rename E into El1.
  destruct (summary_for (d_fees d) RBeneficiary dis) as [[fbn x3] x4] eqn:Eb. pb H. rename E into El2.
  destruct (try_transfer_fees e l0 s _ fsd dis) as [l3|] eqn:E3; cbn [pbind] in H; [|discriminate].
  destruct (try_transfer_fees e l3 b _ fbn dis) as [l4|] eqn:E4; cbn [pbind] in H; [|discriminate].
  assert (Hs : forall f, f ∈ fsd -> fee_to f ∈ [s; b; treasury_account]).
  { intros f Hf. rewrite (kreivo_fee_to st s id d Hr Ed RSender dis f) by (by rewrite Es). do 2 right. left. }
  assert (Hb : forall f, f ∈ fbn -> fee_to f ∈ [s; b; treasury_account]).
  { intros f Hf. rewrite (kreivo_fee_to st s id d Hr Ed RBeneficiary dis f) by (by rewrite Eb). do 2 right. left. }
  set (fs := [s; b; treasury_account]) in *. assert (I1 : s ∈ fs) by left. assert (I2 : b ∈ fs) by (right; left).
  assert (I3 : treasury_account ∈ fs) by (right; right; left).
  assert (K : lwithin (d_asset d) fs [s; b] (st_ledger st) l4).
  { eapply lwithin_trans; [eapply release_within; [exact El1|done|left]|].
    eapply lwithin_trans; [eapply release_within; [exact El2|done|right; left]|].
    eapply lwithin_trans; [eapply fees_within; [exact I1|exact Hs|exact E3]|]. eapply fees_within; [exact I2|exact Hb|exact E4]. }
  assert (Q : forall l5, match m with None => POk l4 | Some (r, rs) => split_dispute e l4 s b d r rs end = POk l5 ->
    lwithin (d_asset d) fs [s; b] (st_ledger st) l5).
  { intros l5. destruct m as [[r rs]|]; [|by intros [= <-]]. rewrite (Hm r rs eq_refl). unfold split_dispute. intros H5.
    destruct (in_favor_of r); pb H5; injection H5 as <-; (eapply lwithin_trans; [exact K|]);
      (eapply lwithin_trans; [eapply transfer_within; [eassumption|done|done]|]); (eapply transfer_within; [eassumption|done|done]). }
  destruct (match m with None => POk l4 | Some (r, rs) => split_dispute e l4 s b d r rs end) as [l5|] eqn:E5; cbn [pbind] in H; [|discriminate].
  injection H as <-. split_and!; [done|by apply Q| |done|done].
  intros k Hk. cbn. by rewrite lookup_insert_ne.
Qed.

Lemma create_touches c e st s b a amount p remark st1 id d : create_payment c e st s b a amount p remark = POk (st1, id, d) ->
  d_asset d = a /\ d_beneficiary d = b /\ st_ledger st1 = st_ledger st /\ st_agenda st1 = st_agenda st /\
  (forall k, k <> (s, id) -> st_pays st !! k = st_pays st1 !! k) /\ (forall i, i <> id -> st_parties st !! i = st_parties st1 !! i).
Proof.
  unfold create_payment. intros H. pb H. injection H as <- <- <-. cbn. split_and!; try done.
  - intros k Hk. by rewrite lookup_insert_ne.
  - intros i Hi. by rewrite lookup_insert_ne.
Qed.

Lemma kreivo_writes st e o k st' : kreivo_reachable st -> dispatch kreivo_payments e st o k = POk st' ->
  exists l, only (pdiffers st st') l /\ count pentries l <= bn_writes (pcall_benched k).
Proof.
  intros Hr H. destruct k as [ba a amount remark|id|id|id|id|id|sa a amount|id r]; cbn [dispatch] in H.
  - unfold pay in H. pb H. rename n into s, n0 into b. destruct (create_payment _ _ _ _ _ _ _ _ _) as [[[st1 id] d]|] eqn:Ec; cbn [pbind] in H; [|discriminate].
    apply create_touches in Ec as (<- & Hb & Hl & Ha & Hp & Hq). subst b.
    destruct (reserve_payment_amount _ _ _ _) as [l|] eqn:El; cbn [pbind] in H; [|discriminate]. injection H as <-.
    unfold reserve_payment_amount in El. pb El. injection El as <-. rewrite Hl in *.
    exists (touches [PRecord s id] [PParties id] [] (d_asset d) [s] [s; d_beneficiary d] true). split; [|vm_compute; discriminate].
    apply (touches_only _ _ _ _ _ s id true false); cbn.
    + eapply lwithin_trans; [eapply hold_within; [eassumption|left|left]|]. eapply transfer_hold_within; [eassumption|left|right; left].
    + done.
    + intros i [Hi|Hi]; [by apply Hq|discriminate].
    + intros i _. by rewrite Ha.
  - unfold PaymentsModel.release in H. pb H. rename n into s. destruct (settle_within _ _ _ _ _ _ _ Hr H ltac:(discriminate)) as (d' & Hd & Hw & Hp & Hq & Ht).
    eexists (touches [PRecord s id] [] [] (d_asset d') [s; _; treasury_account] [s; _] true). split; [|vm_compute; discriminate].
    apply (touches_only _ _ _ _ _ s id false false); [exact Hw|done|by rewrite Hq|by rewrite Ht].
  - unfold request_refund in H. pb H. rename n into s. injection H as <-.
    exists (touches [PRecord s id] [] [PTask id] (d_asset d) [] [] false). split; [|vm_compute; discriminate].
    assert (O : only (pdiffers st (with_pay (with_agenda st (<[id:=(st_now st + cfg_cancel_buffer kreivo_payments, d_beneficiary d)]> (st_agenda st))) (s, id)
      (set_state d (RefundRequested (st_now st + cfg_cancel_buffer kreivo_payments))))) (touches [PRecord s id] [] [PTask id] (d_asset d) [] [] true)).
    { apply (touches_only _ _ _ _ _ s id false true); cbn.
      - apply lwithin_refl.
      - intros k Hk. by rewrite lookup_insert_ne.
      - done.
      - intros i [Hi|Hi]; [by rewrite lookup_insert_ne|discriminate]. }
    intros x Hx. pose proof (O x Hx) as Hin. unfold touches in *. cbn [map app] in *. destruct x; cbn [pdiffers] in Hx; try (by exfalso; apply Hx).
    + rewrite !elem_of_cons, elem_of_nil in *. naive_solver.
    + rewrite !elem_of_cons, elem_of_nil in *. naive_solver.
  - unfold accept_and_pay in H. pb H. rename n into s, E0 into Ep, E1 into Ed.
    destruct (summary_for (d_fees d) RSender false) as [[fsd x1] x2] eqn:Es.
    destruct (summary_for (d_fees d) RBeneficiary false) as [[fbn x3] x4] eqn:Eb.
    destruct (try_transfer_fees _ _ s _ fsd _) as [l1|] eqn:E1; cbn [pbind] in H; [|discriminate]. pb H. rename l into l2, E0 into E2.
    destruct (try_transfer_fees _ l2 _ _ fbn _) as [l3|] eqn:E3; cbn [pbind] in H; [|discriminate]. injection H as <-.
    set (b := snd p) in *. set (fs := [s; b; treasury_account]).
    exists (touches [PRecord s id] [] [] (d_asset d) fs [] true). split; [|vm_compute; discriminate].
    apply (touches_only _ _ _ _ _ s id false false); cbn; try done.
    + eapply lwithin_trans; [eapply fees_within; [left| |exact E1]|].
      { intros f Hf. rewrite (kreivo_fee_to st s id d Hr Ed RSender false f) by (by rewrite Es). do 2 right. left. }
      eapply lwithin_trans; [eapply transfer_within; [exact E2|left|right; left]|].
      eapply fees_within; [right; left| |exact E3].
      intros f Hf. rewrite (kreivo_fee_to st s id d Hr Ed RBeneficiary false f) by (by rewrite Eb). do 2 right. left.
    + intros k Hk. by rewrite lookup_insert_ne.
  - unfold cancel_call in H. pb H. destruct p as [s b]. pb H.
    destruct (match d_state d with Created => _ | _ => _ end) as [l|] eqn:El; cbn [pbind] in H; [|discriminate]. injection H as <-.
    assert (cancel_payment e (st_ledger st) s d = POk l) as Hc by (destruct (d_state d); try discriminate; done).
    unfold cancel_payment in Hc. pb Hc. injection Hc as <-.
    exists (touches [PRecord s id] [PParties id] [] (d_asset d) [s; d_beneficiary d] [s; d_beneficiary d] true). split; [|vm_compute; discriminate].
    apply (touches_only _ _ _ _ _ s id true false); cbn.
    + eapply lwithin_trans; [eapply release_within; [eassumption|left|left]|].
      eapply lwithin_trans; [eapply release_within; [eassumption|right; left|right; left]|].
      eapply transfer_within; [eassumption|right; left|left].
    + intros k Hk. by rewrite lookup_delete_ne.
    + intros i [Hi|Hi]; [by rewrite lookup_delete_ne|discriminate].
    + done.
  - unfold dispute_refund in H. pb H. destruct p as [s b]. pb H. rename n into who.
    destruct (match d_state d with RefundRequested cb => _ | _ => _ end) as [cb|]; cbn [pbind] in H; [|discriminate]. pb H. injection H as <-.
    exists (touches [PRecord s id] [] [PTask id] (d_asset d) [who] [who] true). split; [|vm_compute; discriminate].
    apply (touches_only _ _ _ _ _ s id false true); cbn.
    + eapply hold_within; [eassumption|left|left].
    + intros k Hk. by rewrite lookup_insert_ne.
    + done.
    + intros i [Hi|Hi]; [by rewrite lookup_delete_ne|discriminate].
  - unfold request_payment in H. pb H. rename n into b, n0 into s.
    destruct (create_payment _ _ _ _ _ _ _ _ _) as [[[st1 id] d]|] eqn:Ec; cbn [pbind] in H; [|discriminate]. injection H as <-.
    apply create_touches in Ec as (_ & _ & Hl & Ha & Hp & Hq).
    exists [PRecord s id; PParties id]. split; [|vm_compute; discriminate].
    intros x Hx. destruct x as [s' i|i|i|a' w|a' w|a']; cbn [pdiffers] in Hx; rewrite ?Hl, ?Ha in Hx; try done.
    + destruct (decide ((s', i) = (s, id))) as [[= -> ->]|Hne]; [left|]. by destruct Hx; apply Hp.
    + destruct (decide (i = id)) as [->|Hne]; [right; left|]. by destruct Hx; apply Hq.
  - unfold resolve_dispute in H. pb H. destruct p as [s b]. pb H.
    assert (n = treasury_account) as -> by (destruct o; try discriminate E; exact (eq_sym (f_equal (default 0) E))).
    assert (Hm : forall r0 t, Some (r, treasury_account) = Some (r0, t) -> t = treasury_account).
    { intros r0 t Heq. exact (eq_sym (f_equal (fun z => match z with Some (_, y) => y | None => t end) Heq)). }
    destruct (settle_within _ _ _ _ _ _ _ Hr H Hm) as (d' & Hd & Hw & Hp & Hq & Ht).
    eexists (touches [PRecord s id] [] [] (d_asset d') [s; b; treasury_account] [s; b] true). split; [|vm_compute; discriminate].
    apply (touches_only _ _ _ _ _ s id false false); [exact Hw|done|by rewrite Hq|by rewrite Ht].
Qed.

(* ------------------------------------------------------------------ *)
(** * Communities *)

Ltac cb H :=
  repeat match type of H with
  | cbind (from_option_err ?o _) _ = COk _ => let E := fresh "E" in destruct o eqn:E; cbn [from_option_err cbind] in H; [|discriminate H]
  | cbind (censure ?b _) _ = COk _ => let E := fresh "E" in destruct b eqn:E; cbn [censure cbind] in H; [|discriminate H]
  | cbind ?r _ = COk _ => let E := fresh "E" in destruct r eqn:E; cbn [cbind] in H; [|discriminate H]
  end.

(** Only some of what pallet_communities keeps of voting differs. *)
Definition vwithin (s s' : cstate) (vs ls : list (N * N)) (ps : list N) (fs : list (option N * N)) : Prop :=
  (forall i, i ∉ vs -> c_votes s !! i = c_votes s' !! i) /\ (forall i, i ∉ ls -> c_locks s !! i = c_locks s' !! i) /\
  (forall i, i ∉ ps -> c_polls s !! i = c_polls s' !! i) /\ (forall i, i ∉ fs -> c_frozen s !! i = c_frozen s' !! i) /\
  c_info s = c_info s' /\ c_admin s = c_admin s' /\ c_method s = c_method s' /\ c_members s = c_members s' /\
  c_balance s = c_balance s' /\ c_providers s = c_providers s' /\ c_assets s = c_assets s'.

Lemma vwithin_refl s vs ls ps fs : vwithin s s vs ls ps fs.
Proof. by split_and!. Qed.
Lemma vwithin_trans s1 s2 s3 vs ls ps fs : vwithin s1 s2 vs ls ps fs -> vwithin s2 s3 vs ls ps fs -> vwithin s1 s3 vs ls ps fs.
Proof.
  intros (A1 & A2 & A3 & A4 & A5 & A6 & A7 & A8 & A9 & A10 & A11) (B1 & B2 & B3 & B4 & B5 & B6 & B7 & B8 & B9 & B10 & B11).
  split_and!; try congruence; intros i Hi; [rewrite A1|rewrite A2|rewrite A3|rewrite A4]; auto.
Qed.

Definition vthings (vs ls : list (N * N)) (ps : list N) (fs : list (option N * N)) : list cthing :=
  map (fun i => WVote i.1 i.2) vs ++ map (fun i => WLock i.1 i.2) ls ++ map WPoll ps ++ map (fun i => WFrozen i.1 i.2) fs.

Lemma vwithin_only s s' vs ls ps fs : vwithin s s' vs ls ps fs -> only (cdiffers (alone s) (alone s')) (vthings vs ls ps fs).
Proof.
  intros (A1 & A2 & A3 & A4 & A5 & A6 & A7 & A8 & A9 & A10 & A11) x Hx. unfold vthings. rewrite !elem_of_app.
  destruct x as [i|o|i|p m|w p|p|m|t w|w|a|i|c i|i|o|w]; cbn [cdiffers alone mset_c mg_c m_empty mg_collections mg_items mg_tracks mg_track_of mg_collective] in Hx; try congruence.
  - left. destruct (decide ((p, m) ∈ vs)) as [H|H]; [|by destruct Hx; apply A1]. by apply (elem_of_list_fmap_1 (fun i => WVote i.1 i.2)) in H.
  - right; left. destruct (decide ((w, p) ∈ ls)) as [H|H]; [|by destruct Hx; apply A2]. by apply (elem_of_list_fmap_1 (fun i => WLock i.1 i.2)) in H.
  - do 2 right; left. destruct (decide (p ∈ ps)) as [H|H]; [|by destruct Hx; apply A3]. by apply elem_of_list_fmap_1.
  - do 3 right. destruct (decide ((t, w) ∈ fs)) as [H|H]; [|by destruct Hx; apply A4]. by apply (elem_of_list_fmap_1 (fun i : option N * N => WFrozen i.1 i.2)) in H.
  - destruct Hx. split; congruence.
Qed.

Lemma set_frozen_within e s k who n s' vs ls ps fs : (k, who) ∈ fs -> set_frozen e s k who n = COk s' -> vwithin s s' vs ls ps fs.
Proof.
  intros Hi. unfold set_frozen. intros H. cb H. injection H as <-. split_and!; try done.
  intros i Hn. cbn. rewrite lookup_insert_ne; [done|]. by intros <-.
Qed.
Lemma remove_lock_within e s who p v s' vs ls ps fs : (forall k n, vote_lock v = Some (k, n) -> (who, p) ∈ ls /\ (k, who) ∈ fs) ->
  remove_lock e s who p v = COk s' -> vwithin s s' vs ls ps fs.
Proof.
  intros Hk. unfold remove_lock. destruct (vote_lock v) as [[k n]|]; [|intros [= <-]; apply vwithin_refl].
  destruct (Hk k n eq_refl) as [Hl Hf]. intros H. eapply vwithin_trans; [|eapply set_frozen_within; [exact Hf|exact H]].
  split_and!; try done. intros i Hn. cbn. rewrite lookup_delete_ne; [done|]. by intros <-.
Qed.
Lemma add_lock_within e s who p v s' vs ls ps fs : (forall k n, vote_lock v = Some (k, n) -> (who, p) ∈ ls /\ (k, who) ∈ fs) ->
  add_lock e s who p v = COk s' -> vwithin s s' vs ls ps fs.
Proof.
  intros Hk. unfold add_lock. destruct (vote_lock v) as [[k n]|]; [|intros [= <-]; apply vwithin_refl].
  destruct (Hk k n eq_refl) as [Hl Hf]. intros H. eapply vwithin_trans; [|eapply set_frozen_within; [exact Hf|exact H]].
  split_and!; try done. intros i Hn. cbn. rewrite lookup_insert_ne; [done|]. by intros <-.
Qed.
Lemma votes_within s vs ls ps fs x : (forall i, i ∉ vs -> c_votes s !! i = x !! i) -> vwithin s (set_votes x s) vs ls ps fs.
Proof. intros H. by split_and!. Qed.
Lemma tally_within s p t class vs ls ps fs : p ∈ ps -> vwithin s (put_tally s p t class) vs ls ps fs.
Proof. intros H. split_and!; try done. intros i Hi. cbn. rewrite lookup_insert_ne; [done|]. by intros <-. Qed.

Lemma try_remove_vote_within e s g dm m p s' v voter vs ls ps fs :
  c_votes s !! (p, m) = Some (v, voter) -> (p, m) ∈ vs -> p ∈ ps -> (forall k n, vote_lock v = Some (k, n) -> (voter, p) ∈ ls /\ (k, voter) ∈ fs) ->
  try_remove_vote e s g dm m p = COk s' -> vwithin s s' vs ls ps fs.
Proof.
  intros Hv Hi Hp Hk H. unfold try_remove_vote in H. destruct (ongoing s p) as [[t class]|]; cbn [cbind] in H; [|discriminate].
  rewrite Hv in H. destruct (g =? class); cbn [censure cbind from_option_err] in H; [|discriminate]. cb H. injection H as <-.
  eapply vwithin_trans; [|apply tally_within; exact Hp].
  eapply vwithin_trans; [|eapply remove_lock_within; [exact Hk|eassumption]].
  apply votes_within. intros i Hn. rewrite lookup_delete_ne; [done|]. by intros <-.
Qed.
Lemma try_vote_within e s g dm who m p v s' vs ls ps fs :
  (p, m) ∈ vs -> p ∈ ps -> (forall k n, vote_lock v = Some (k, n) -> (who, p) ∈ ls /\ (k, who) ∈ fs) ->
  try_vote e s g dm who m p v = COk s' -> vwithin s s' vs ls ps fs.
Proof.
  intros Hi Hp Hk H. unfold try_vote in H. destruct (ongoing s p) as [[t class]|]; cbn [cbind] in H; [|discriminate].
  cb H. injection H as <-.
  eapply vwithin_trans; [|apply tally_within; exact Hp].
  eapply vwithin_trans; [|eapply add_lock_within; [exact Hk|eassumption]].
  apply votes_within. intros i Hn. rewrite lookup_insert_ne; [done|]. by intros <-.
Qed.

Lemma token_lock v k n : vote_lock v = Some (k, n) -> with_token v = Some k.
Proof. destruct v; cbn; congruence. Qed.

Lemma community_writes e s o k s' evs : ccall_run kreivo_communities e s o k = COk (s', evs) ->
  match k with
  | CVote m p v => forall v' who', c_votes s !! (p, m) = Some (v', who') -> with_token v' = None \/ (o = OSigned who' /\ with_token v' = with_token v)
  | CRemoveVote m p => forall v' who', c_votes s !! (p, m) = Some (v', who') -> with_token v' = None
  | CAddMember _ | CRemoveMember _ _ | CPromote _ | CDemote _ => False
  | _ => True
  end ->
  exists l, only (cdiffers (alone s) (alone s')) l /\ count centries l <= bn_writes (ccall_benched k).
Proof.
  intros H Hk. destruct k as [ad id|ad|?|? ?|?|?|id dm|m p v|m p|p]; try (by destruct Hk); cbn [ccall_run] in H.
  - unfold call_set_admin in H. cb H. injection H as <- _.
    exists [WAdmin o; WAdmin ad]. split; [|vm_compute; discriminate].
    intros x Hx. destruct x as [i|o'|i|p m|w p|p|m|t w|w|a|i|c i|i|o'|w]; cbn in Hx; try congruence; [|by destruct Hx].
    unfold admin_insert, admin_remove in Hx. destruct (decide (o' = ad)) as [->|]; [right; left|].
    destruct (decide (o' = o)) as [->|]; [left|done].
  - unfold call_set_method in H. cb H. injection H as <- _.
    set (s1 := match dm with ByCommunityAsset a min => create_asset kreivo_communities s a min | _ => s end).
    assert (K : s1 = s \/ exists a y, dm = ByCommunityAsset a y /\ exists z, s1 = set_assets (<[a := z]> (c_assets s)) s).
    { unfold s1. destruct dm as [| |a y|]; try by left. unfold create_asset. destruct (c_assets s !! a); [by left|]. destruct (y =? 0); [by left|].
      right. exists a, y. split; [done|]. by eexists. }
    destruct K as [->|(a & y & _ & z & ->)].
    + exists [WMethod id]. split; [|vm_compute; discriminate].
      intros x Hx. destruct x as [i|o'|i|p m|w p|p|m|t w|w|a|i|c i|i|o'|w]; cbn in Hx; try congruence; [|by destruct Hx].
      destruct (decide (i = id)) as [->|]; [left|]. by rewrite lookup_insert_ne in Hx.
    + exists [WMethod id; WAsset a]. split; [|vm_compute; discriminate].
      intros x Hx. destruct x as [i|o'|i|p m|w p|p|m|t w|w|b|i|c i|i|o'|w]; cbn in Hx; try congruence; [|by destruct Hx|].
      * destruct (decide (i = id)) as [->|]; [left|]. by rewrite lookup_insert_ne in Hx.
      * destruct (decide (b = a)) as [->|]; [right; left|]. by rewrite lookup_insert_ne in Hx.
  - unfold call_vote in H. cb H. injection H as <- _. rename n into who. destruct o as [| |w|? ?|?|?|?]; cbn in E0; try discriminate. injection E0 as ->.
    set (fs := match with_token v with Some t => [(t, who)] | None => match c_votes s !! (p, m) with Some (v', _) => match with_token v' with Some t => [(t, who)] | None => [] end | None => [] end end).
    exists (vthings [(p, m)] [(who, p)] [p] fs). split.
    + apply vwithin_only. apply (vwithin_trans s a).
      * destruct (c_votes s !! (p, m)) as [[v' who']|] eqn:Ev; [|by injection E2 as <-; apply vwithin_refl].
        eapply try_remove_vote_within; [exact Ev|left|left| |exact E2]. intros t am Ht. destruct (Hk v' who' eq_refl) as [Hn|[[= ->] Hn]].
        { by rewrite (token_lock _ _ _ Ht) in Hn. }
        split; [left|]. unfold fs. rewrite <- Hn, (token_lock _ _ _ Ht). left.
      * eapply try_vote_within; [left|left| |exact E3]. intros t am Ht. split; [left|]. unfold fs. rewrite (token_lock _ _ _ Ht). left.
    + unfold vthings. cbn [map app]. unfold fs.
      destruct (with_token v); [vm_compute; discriminate|]. destruct (c_votes s !! (p, m)) as [[v' ?]|]; [|vm_compute; discriminate].
      destruct (with_token v'); vm_compute; discriminate.
  - unfold call_remove_vote in H. cb H. injection H as <- _. destruct (c_votes s !! (p, m)) as [[v' who']|] eqn:Ev.
    2:{ unfold try_remove_vote in E1. rewrite Ev in E1. destruct (ongoing s p) as [[t class]|]; cbn [cbind] in E1; [|discriminate]. by cb E1. }
    exists (vthings [(p, m)] [] [p] []). split; [|vm_compute; discriminate]. apply vwithin_only.
    eapply try_remove_vote_within; [exact Ev|left|left| |exact E1]. intros t am Ht. specialize (Hk v' who' eq_refl). by rewrite (token_lock _ _ _ Ht) in Hk.
  - unfold call_unlock in H. cb H. injection H as <- _. rename n into who.
    exists (vthings [] [(who, p)] [] (match with_token v with Some t => [(t, who)] | None => [] end)). split.
    + apply vwithin_only. eapply remove_lock_within; [|exact E2]. intros t am Ht. split; [left|]. rewrite (token_lock _ _ _ Ht). left.
    + destruct (with_token v); vm_compute; discriminate.
Qed.

Lemma one_membership e s o k s' evs : ccall_run kreivo_communities e s o k = COk (s', evs) ->
  match k with CAddMember _ | CRemoveMember _ _ | CPromote _ | CDemote _ => True | _ => False end ->
  exists m, only (cdiffers (alone s) (alone s')) [WMembership m].
Proof.
  intros H Hk.
  assert (K : forall m y, only (cdiffers (alone s) (alone (set_members (<[m := y]> (c_members s)) s))) [WMembership m]).
  { intros m y x Hx. destruct x as [i|o'|i|p n|w p|p|n|t w|w|b|i|c i|i|o'|w]; cbn in Hx; try congruence; [|by destruct Hx].
    destruct (decide (n = m)) as [->|]; [left|]. by rewrite lookup_insert_ne in Hx. }
  destruct k as [ad id|ad|wa|wa m|m|m|id dm|m p v|m p|p]; try (by destruct Hk); cbn [ccall_run] in H.
  - unfold call_add_member in H. cb H. injection H as <- _. unfold assign in E2. cb E2. injection E2 as <-. eauto.
  - unfold call_remove_member in H. cb H. injection H as <- _. unfold release in E2. cb E2. injection E2 as <-. eauto.
  - unfold call_promote in H. cb H. injection H as <- _. unfold set_rank in E1. cb E1. injection E1 as <-. eauto.
  - unfold call_demote in H. cb H. injection H as <- _. unfold set_rank in E1. cb E1. injection E1 as <-. eauto.
Qed.

(* ------------------------------------------------------------------ *)
(** * The manager *)

Ltac mb H :=
  repeat match type of H with
  | mbind_ (msome ?o _) _ = MOk _ => let E := fresh "E" in destruct o eqn:E; cbn [msome mbind_] in H; [|discriminate H]
  | mbind_ (mensure ?b _) _ = MOk _ => let E := fresh "E" in destruct b eqn:E; cbn [mensure mbind_] in H; [|discriminate H]
  | mbind_ ?r _ = MOk _ => let E := fresh "E" in destruct r eqn:E; cbn [mbind_] in H; [|discriminate H]
  end.

Lemma register_writes e s id name a ti s' evs : mg_register kreivo_manager e s ORoot id name a None ti = MOk (s', evs) ->
  exists l, only (cdiffers s s') l /\ count centries l <= bn_writes register_benched.
Proof.
  intros H. unfold mg_register in H. cbn [mc_register_origin kreivo_manager kreivo_register_origin msome mbind_] in H. mb H.
  injection H as <- <-. rename n into ad.
  destruct (register _ _ _ _ _ _) as [c'|] eqn:Er in E1; cbn [lift] in E1; [|discriminate]. injection E1 as <-.
  unfold register in Er. cb Er. injection Er as <-.
  unfold create_collection in E2. mb E2. injection E2 as <-. unfold insert_track in E3. mb E3. injection E3 as <-.
  unfold induct in E4. mb E4. injection E4 as <-.
  set (acc := cc_account (mc_c kreivo_manager) id).
  exists [WCommunity id; WAdmin (OSigned ad); WAccount acc; WCollection id; WTrack id; WTrackOf (OCommunity id None); WSeat acc].
  split; [|vm_compute; discriminate].
  intros x Hx. rewrite !elem_of_cons. destruct x as [i|o'|i|p n|w p|p|n|t w|w|b|i|c i|i|o'|w]; cbn in Hx; try congruence.
  - destruct (decide (i = id)) as [->|]; [tauto|]. by rewrite lookup_insert_ne in Hx.
  - unfold admin_insert in Hx. destruct (decide (o' = OSigned ad)) as [->|]; [tauto|done].
  - destruct (decide (w = acc)) as [->|Hne]; [tauto|]. destruct Hx. split; [done|]. rewrite lookup_insert_ne; [done|]. intros Hc. apply Hne. by rewrite <- Hc.
  - destruct (decide (i = id)) as [->|]; [tauto|]. by rewrite lookup_insert_ne in Hx.
  - destruct (decide (i = id)) as [->|]; [tauto|]. by rewrite lookup_insert_ne in Hx.
  - destruct (decide (o' = OCommunity id None)) as [->|]; [tauto|]. done.
  - destruct (decide (w = acc)) as [->|Hne]; [tauto|]. destruct Hx. rewrite lookup_insert_ne; [done|]. intros Hc. apply Hne. by rewrite <- Hc.
Qed.

Definition same_but_items (s s' : mstate) : Prop :=
  mg_c s = mg_c s' /\ mg_collections s = mg_collections s' /\ mg_tracks s = mg_tracks s' /\ mg_track_of s = mg_track_of s' /\ mg_collective s = mg_collective s'.

Lemma mint_loop_writes c e n : forall s id price minted s' k, mint_loop c e s n id price minted = MOk (s', k) ->
  same_but_items s s' /\ exists ids, (length ids <= n)%nat /\ forall i, i ∉ (fun j => (mc_collection c, j)) <$> ids -> mg_items s !! i = mg_items s' !! i.
Proof.
  induction n as [|n IH]; intros s id price minted s' k; cbn [mint_loop].
  - intros [= <- _]. split; [by split_and!|]. exists []. split; [cbn; lia|done].
  - intros H. mb H. unfold mint_into in E. mb E. injection E as <-. unfold set_price in E0. mb E0. injection E0 as <-.
    cbn [mg_items mset_items] in *.
    assert (K : forall s'' ids, same_but_items (mset_items (<[(mc_collection c, id):=Item (it_owner i) (Some price)]> (<[(mc_collection c, id):=Item (mc_owner c) None]> (mg_items s))) s) s'' ->
      (length ids <= n)%nat -> (forall j, j ∉ (fun j => (mc_collection c, j)) <$> ids ->
         mg_items (mset_items (<[(mc_collection c, id):=Item (it_owner i) (Some price)]> (<[(mc_collection c, id):=Item (mc_owner c) None]> (mg_items s))) s) !! j = mg_items s'' !! j) ->
      same_but_items s s'' /\ exists ids, (length ids <= S n)%nat /\ forall i, i ∉ (fun j => (mc_collection c, j)) <$> ids -> mg_items s !! i = mg_items s'' !! i).
    { intros s'' ids HS Hl Hi. split; [exact HS|]. exists (id :: ids). split; [cbn; lia|]. intros j Hj. rewrite fmap_cons, not_elem_of_cons in Hj. destruct Hj as [Hj1 Hj2].
      rewrite <- (Hi j Hj2). cbn. by rewrite !lookup_insert_ne. }
    destruct (next_id id) as [id'|].
    + destruct (IH _ _ _ _ _ _ H) as [HS (ids & Hl & Hi)]. by apply (K s' ids).
    + injection H as <- <-. apply (K _ []); [by split_and!|cbn; lia|done].
Qed.

Lemma count_items coll ids : count centries (WItem coll <$> ids) = 4 * N.of_nat (length ids).
Proof. unfold count. induction ids as [|i ids IH]; [done|]. rewrite fmap_cons. cbn [foldr length centries]. rewrite IH. lia. Qed.

Lemma memberships_writes e s o n at_ price s' evs : mg_create_memberships kreivo_manager e s o n at_ price = MOk (s', evs) ->
  exists l, only (cdiffers s s') l /\ count centries l <= bn_writes (create_memberships_benched n).
Proof.
  intros H. unfold mg_create_memberships in H. mb H. destruct a as [s2 k]. injection H as <- _.
  destruct (mint_loop_writes _ _ _ _ _ _ _ _ _ E1) as [(A1 & A2 & A3 & A4 & A5) (ids & Hl & Hi)].
  exists (WItem 0 <$> ids). split; [|rewrite count_items; cbn [bn_writes create_memberships_benched]; lia].
  intros x Hx. destruct x as [i|o'|i|p m|w p|p|m|t w|w|b|i|c i|i|o'|w]; cbn [cdiffers] in Hx; rewrite ?A1, ?A2, ?A3, ?A4, ?A5 in Hx; try done.
  - by destruct Hx.
  - destruct (decide ((c, i) ∈ (fun j => (mc_collection kreivo_manager, j)) <$> ids)) as [Hin|Hn]; [|by destruct Hx; apply Hi].
    apply elem_of_list_fmap in Hin as (j & [= -> ->] & Hj). by apply elem_of_list_fmap_1.
Qed.

(* ------------------------------------------------------------------ *)
(** * Where more is written than is charged for *)

(** A fee handler that has the sender pay 50 accounts, the most a payment's fees can name on one side (runtime/kreivo/src/payments.rs [MaxFees]). *)
Definition fifty : list N := N.of_nat <$> seq 101 50.
Definition fifty_env (id : option N) : penv := PEnv (Ext (fun _ _ => true) (fun _ _ => false) (fun _ => 1)) (fun _ _ _ _ _ => Fees ((fun x => Fee x 1 true) <$> fifty) []) id true.
Definition fifty_state : pstate := run kreivo_payments (genesis {[ (1, 10) := 1000; (1, 20) := 1000 ]} 100) [SCall (OSigned 10) (CPay (AddrId 20) 1 200 None) (fifty_env (Some 7))].

Lemma fifty_released : exists st', dispatch kreivo_payments (fifty_env None) fifty_state (OSigned 10) (CRelease 7) = POk st' /\
  at_least (pdiffers fifty_state st') (PFree 1 <$> fifty).
Proof.
  destruct (dispatch kreivo_payments (fifty_env None) fifty_state (OSigned 10) (CRelease 7)) as [st'|er] eqn:E.
  2:{ exfalso. assert (match dispatch kreivo_payments (fifty_env None) fifty_state (OSigned 10) (CRelease 7) with POk _ => true | PErr _ => false end = true) as H
        by (vm_compute; reflexivity). by rewrite E in H. }
  exists st'. split; [done|]. split.
  - apply (@NoDup_fmap_2 _ _ (PFree 1) ltac:(intros x y Hxy; congruence)). apply (bool_decide_eq_true_1 (NoDup fifty)). vm_compute. reflexivity.
  - assert (H : match dispatch kreivo_payments (fifty_env None) fifty_state (OSigned 10) (CRelease 7) with
                | POk st' => forallb (fun x => negb (free (st_ledger fifty_state) 1 x =? free (st_ledger st') 1 x)) fifty | PErr _ => false end = true)
      by (vm_compute; reflexivity).
    rewrite E in H. apply Forall_fmap. rewrite forallb_forall in H. apply Forall_forall. intros x Hx.
    apply elem_of_list_In in Hx. apply H in Hx. change (free (st_ledger fifty_state) 1 x <> free (st_ledger st') 1 x). intros Heq. rewrite Heq, N.eqb_refl in Hx. discriminate Hx.
Qed.

Lemma release_more_refuted : exists st e id st', reachable kreivo_payments st /\ dispatch kreivo_payments e st (OSigned 10) (CRelease id) = POk st' /\
  exists l, at_least (pdiffers st st') l /\ bn_writes (pcall_benched (CRelease id)) + 42 <= count pentries l.
Proof.
  destruct fifty_released as (st' & H1 & H2). exists fifty_state, (fifty_env None), 7, st'. split; [by eexists _, _, _|]. split; [done|].
  eexists. split; [exact H2|]. vm_compute. discriminate.
Qed.

(** Membership 101 of community 1, where votes are cast with the native token, is with account 10, who votes in poll 7; then it is with account 11. *)
Definition token_vote : list cstep :=
  [StRegister easy_env (OSigned 1) 1 None; StMember 101 (Some (Membership 1 10 1)); StCall easy_env (OSigned 1) (CSetMethod 1 ByNativeToken);
   StPollOpen 7 1; StCall easy_env (OSigned 10) (CVote 101 7 (NativeBalance true 5))].
Definition token_state : cstate := crun kreivo_communities c_empty token_vote.
Definition passed_on : cstate := crun kreivo_communities c_empty (token_vote ++ [StMember 101 (Some (Membership 1 11 1))]).

Ltac distinct := repeat (apply NoDup_cons; split; [rewrite ?elem_of_cons, ?elem_of_nil; intros HH; repeat destruct HH as [HH|HH]; discriminate || done|]); apply NoDup_nil; done.

Lemma remove_vote_more_refuted : exists hist, let s := crun kreivo_communities c_empty hist in exists s' evs,
  ccall_run kreivo_communities easy_env s (OSigned 10) (CRemoveVote 101 7) = COk (s', evs) /\
  exists l, at_least (cdiffers (alone s) (alone s')) l /\ bn_writes (ccall_benched (CRemoveVote 101 7)) + 3 <= count centries l.
Proof.
  exists token_vote. cbv zeta. destruct (ccall_run kreivo_communities easy_env (crun kreivo_communities c_empty token_vote) (OSigned 10) (CRemoveVote 101 7)) as [[s' evs]|] eqn:E;
    [|vm_compute in E; discriminate].
  exists s', evs. split; [done|]. exists [WVote 7 101; WPoll 7; WLock 10 7; WFrozen None 10]. split; [|vm_compute; discriminate].
  vm_compute in E. injection E as <- _. split; [distinct|]. repeat constructor; vm_compute; discriminate.
Qed.

Lemma vote_more_refuted : exists hist, let s := crun kreivo_communities c_empty hist in exists s' evs,
  ccall_run kreivo_communities easy_env s (OSigned 11) (CVote 101 7 (NativeBalance true 6)) = COk (s', evs) /\
  exists l, at_least (cdiffers (alone s) (alone s')) l /\ bn_writes (ccall_benched (CVote 101 7 (NativeBalance true 6))) + 2 <= count centries l.
Proof.
  exists (token_vote ++ [StMember 101 (Some (Membership 1 11 1))]). cbv zeta.
  destruct (ccall_run kreivo_communities easy_env (crun kreivo_communities c_empty (token_vote ++ [StMember 101 (Some (Membership 1 11 1))])) (OSigned 11) (CVote 101 7 (NativeBalance true 6))) as [[s' evs]|] eqn:E;
    [|vm_compute in E; discriminate].
  exists s', evs. split; [done|]. exists [WVote 7 101; WPoll 7; WLock 10 7; WLock 11 7; WFrozen None 10; WFrozen None 11]. split; [|vm_compute; discriminate].
  vm_compute in E. injection E as <- _. split; [distinct|]. repeat constructor; vm_compute; discriminate.
Qed.

Lemma register_more_refuted : exists e s, let reg := mg_register kreivo_manager e s (OSigned 9) 1 [] (AddrId 5) (Some (ByCommunityAsset 3 1)) None in
  exists s' evs, reg = MOk (s', evs) /\
  exists l, at_least (cdiffers s s') l /\ WAccount 9 ∉ l /\ bn_writes register_benched + 3 <= count centries l.
Proof.
  set (e := MEnv easy_env true true true (fun _ => true)). set (s := mstep_run kreivo_manager m_empty (MCommunityStep (StBalance 9 community_deposit))).
  exists e, s. cbv zeta. destruct (mg_register kreivo_manager e s (OSigned 9) 1 [] (AddrId 5) (Some (ByCommunityAsset 3 1)) None) as [[s' evs]|] eqn:E;
    [|vm_compute in E; discriminate].
  exists s', evs. split; [done|].
  exists [WCommunity 1; WAdmin (OSigned 5); WMethod 1; WAccount treasury_account; WAccount (community_account 1); WAsset 3; WCollection 1; WTrack 1;
    WTrackOf (OCommunity 1 None); WSeat (community_account 1)].
  vm_compute in E. injection E as <- _. split_and!; [split| |vm_compute; discriminate].
  - distinct.
  - repeat constructor; try (vm_compute; discriminate); vm_compute; intros [? ?]; discriminate.
  - rewrite !elem_of_cons, elem_of_nil. intros HH; repeat destruct HH as [HH|HH]; try discriminate HH; try done; apply (f_equal (fun x => match x with WAccount y => y | _ => 0 end)) in HH; vm_compute in HH; discriminate HH.
Qed.

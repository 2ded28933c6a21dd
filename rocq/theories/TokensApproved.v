(** Proofs on approvals, deposits and supply of assets (C184 to C186). *)
From stdpp Require Import gmap.
From Coq Require Import Lia.
From Verif Require Import Base RuntimeModel TokensModel TokensSpec Tokens.
Open Scope N_scope.

(* ------------------------------------------------------------------ *)
(** * Sums over maps *)
Section Sum.
Context {K V : Type} `{Countable K}.
Definition msum (f : K -> V -> N) (m : gmap K V) : N := map_fold (fun k v acc => f k v + acc) 0 m.
Lemma msum_insert f m k v : m !! k = None -> msum f (<[k := v]> m) = f k v + msum f m.
Proof. intros E. unfold msum. rewrite map_fold_insert_L; [reflexivity| |exact E]. intros. lia. Qed.
Definition oval (f : K -> V -> N) (k : K) (o : option V) : N := match o with Some v => f k v | None => 0 end.
Lemma msum_delete f m k : msum f m = oval f k (m !! k) + msum f (delete k m).
Proof.
  destruct (m !! k) as [v|] eqn:E; cbn [oval]; [|rewrite delete_notin by exact E; lia].
  rewrite <- (insert_delete m k v E) at 1. rewrite msum_insert by apply lookup_delete. reflexivity.
Qed.
Lemma msum_alter f m k o : msum f (partial_alter (fun _ => o) k m) + oval f k (m !! k) = msum f m + oval f k o.
Proof.
  rewrite (msum_delete f m k), (msum_delete f (partial_alter (fun _ => o) k m) k). rewrite lookup_partial_alter.
  replace (delete k (partial_alter (fun _ => o) k m)) with (delete k m); [lia|].
  apply map_eq. intros j. destruct (decide (j = k)) as [->|Hj]; [rewrite !lookup_delete; reflexivity|].
  rewrite !lookup_delete_ne by congruence. rewrite lookup_partial_alter_ne by congruence. reflexivity.
Qed.
Lemma msum_zero f m : (forall k v, m !! k = Some v -> f k v = 0) -> msum f m = 0.
Proof.
  unfold msum. apply (map_fold_ind (fun r m => (forall k v, m !! k = Some v -> f k v = 0) -> r = 0)); [reflexivity|].
  intros k v m' r E IH H1. rewrite (H1 k v) by apply lookup_insert. rewrite IH; [reflexivity|].
  intros j w Hj. apply H1. rewrite lookup_insert_ne; [exact Hj|]. intros ->. congruence.
Qed.
Lemma msum_ge f m k v : m !! k = Some v -> f k v <= msum f m.
Proof. intros E. rewrite (msum_delete f m k), E. cbn. lia. Qed.
Lemma msum_list f (P : K -> Prop) ks : forall m, NoDup ks -> (forall k, k ∈ ks <-> m !! k <> None /\ P k) -> (forall k v, ~ P k -> f k v = 0) ->
  (forall k, P k \/ ~ P k) -> msum f m = foldr (fun k z => oval f k (m !! k) + z) 0 ks.
Proof.
  induction ks as [|k ks IH]; intros m ND Hk Hz Hd; cbn [foldr].
  - apply msum_zero. intros k v E. destruct (Hd k) as [Hp|Hp]; [|exact (Hz k v Hp)]. exfalso. apply (not_elem_of_nil k). apply Hk. split; [congruence|exact Hp].
  - apply NoDup_cons in ND as [N1 N2]. rewrite (msum_delete f m k). f_equal. rewrite (IH (delete k m)); [|exact N2| |exact Hz|exact Hd].
    + clear IH Hk. induction ks as [|j ks IH2]; [reflexivity|]. cbn [foldr]. apply NoDup_cons in N2 as [N3 N4]. rewrite IH2; [|intros Hx; apply N1; apply elem_of_cons; auto|exact N4].
      f_equal. rewrite lookup_delete_ne; [reflexivity|]. intros ->. apply N1. apply elem_of_cons. auto.
    + intros j. split.
      * intros Hj. assert (Hne : j <> k) by (intros ->; contradiction). rewrite lookup_delete_ne by congruence. apply Hk. apply elem_of_cons. auto.
      * intros [H1 H2]. destruct (decide (j = k)) as [->|Hne]; [rewrite lookup_delete in H1; congruence|]. rewrite lookup_delete_ne in H1 by congruence.
        assert (Hj : j ∈ k :: ks) by (apply Hk; auto). apply elem_of_cons in Hj as [Hj|Hj]; [contradiction|exact Hj].
Qed.
End Sum.

Definition due (a : N) (k : N * N * N) (p : approval) : N := if k.1.2 =? a then ap_deposit p else 0.
Definition in_asset (id : N) (k : N * N) (c : taccount) : N := if k.1 =? id then tc_balance c else 0.
Definition owed (a : N) (s : tst) : N := msum (due a) (t_approvals s).
Definition held (id : N) (s : tst) : N := msum (in_asset id) (t_accounts s).

(* ------------------------------------------------------------------ *)
(** * Approvals, step by step *)

Lemma appr_put id a d o s k : t_approvals (put_approval id a d o s) !! k = if bool_decide (k = (id, a, d)) then o else t_approvals s !! k.
Proof.
  unfold put_approval. cbn [t_approvals]. destruct (decide (k = (id, a, d))) as [->|Hk].
  - rewrite bool_decide_eq_true_2 by reflexivity. apply lookup_partial_alter.
  - rewrite bool_decide_eq_false_2 by exact Hk. apply lookup_partial_alter_ne. congruence.
Qed.
Lemma owed_put id a d o s b : owed b (put_approval id a d o s) + oval (due b) (id, a, d) (t_approvals s !! (id, a, d)) = owed b s + oval (due b) (id, a, d) o.
Proof. unfold owed, put_approval. cbn [t_approvals]. apply msum_alter. Qed.

Definition same_rest (s s' : tst) : Prop := t_approvals s' = t_approvals s /\ t_reserved s' = t_reserved s /\ t_free s' = t_free s.
Lemma transfer_keeps id from to n need keep ok s s' : transfer id from to n need keep ok s = Some s' ->
  same_rest s s' /\ t_assets s' = t_assets s /\ t_locked s' = t_locked s.
Proof.
  intros H. destruct (transfer_does _ _ _ _ _ _ _ _ _ H) as [[_ ->]|(d & m & c & _ & _ & _ & _ & _ & [[_ ->]|[_ ->]])]; try (unfold same_rest; split_and!; reflexivity).
  unfold debit. destruct (m =? 0); [unfold same_rest; split_and!; reflexivity|]. destruct (t_accounts (credit id to m s) !! (id, from)); unfold same_rest; split_and!; reflexivity.
Qed.
Lemma debit_keeps d id a n s : same_rest s (debit d id a n s) /\ t_assets (debit d id a n s) = t_assets s.
Proof. unfold debit. destruct (n =? 0); [unfold same_rest; split_and!; reflexivity|]. destruct (t_accounts s !! (id, a)); unfold same_rest; split_and!; reflexivity. Qed.

Inductive effect (s : tst) (x : tstep) (s' : tst) : Prop :=
| eff_none : t_approvals s' = t_approvals s -> t_reserved s' = t_reserved s -> (forall id a d, allows id a d x = 0) -> (forall id a d, spends id a d x = 0) -> effect s x s'
| eff_approve ok id a d n : x = TCall ok (Some a) (KApprove id d n) -> in_state s id TLive -> approve id a d n ok s = Some s' -> effect s x s'
| eff_spend ok id a d to n : x = TCall ok (Some d) (KTransferApproved id a to n) -> in_state s id TLive -> transfer_approved id a d to n ok s = Some s' -> effect s x s'
| eff_cancel ok o id a d k : x = TCall ok o k -> in_state s id TLive ->
    (o = Some a /\ k = KCancelApproval id d) \/ (k = KForceCancelApproval id a d /\ (o = None \/ exists b, o = Some b /\ is_admin s id b)) ->
    cancel id a d s = Some s' -> effect s x s'
| eff_destroy ok b id l : x = TCall ok (Some b) (KDestroyApprovals id l) -> in_state s id TDestroying -> s' = fold_left (destroy_approval id) l s -> effect s x s'.

Lemma live_state d : is_live d = true -> ta_status d = TLive.
Proof. unfold is_live. intros H. destruct (ta_status d); [reflexivity|discriminate H|discriminate H]. Qed.
Lemma destroying_state d : is_destroying d = true -> ta_status d = TDestroying.
Proof. unfold is_destroying. intros H. destruct (ta_status d); [discriminate H|discriminate H|reflexivity]. Qed.

Lemma effects s x s' : tstep_try s x = Some s' -> effect s x s'.
Proof.
  intros E. destruct x as [ok o k|id' b n|id' b n|id' b n|b n|b n]; cbn [tstep_try] in E.
  - unfold tcall_run in E.
    destruct k; destruct o as [b|]; try discriminate E;
      try (destruct (t_assets s !! id) as [d|] eqn:Ed; [|discriminate E]);
      try (apply if_some in E as [B E]).
    all: try (injection E as <-; apply eff_none; reflexivity).
    + destruct (transfer_keeps _ _ _ _ _ _ _ _ _ E) as ((H1 & H2 & H3) & _ & _). apply eff_none; auto.
    + destruct (transfer_keeps _ _ _ _ _ _ _ _ _ E) as ((H1 & H2 & H3) & _ & _). apply eff_none; auto.
    + destruct (n =? 0); [injection E as <-; apply eff_none; reflexivity|]. apply if_some in E as [B2 E]. injection E as <-. apply eff_none; reflexivity.
    + destruct (n =? 0); [injection E as <-; apply eff_none; reflexivity|]. destruct (prep_debit d id from n false true s) as [m|]; [|discriminate E].
      apply if_some in E as [B2 E]. injection E as <-. destruct (debit_keeps d id from m (put_asset id (set_supply d (ta_supply d - m)) s)) as ((H1 & H2 & H3) & _). apply eff_none; auto.
    + eapply eff_approve; [reflexivity| |exact E]. exists d. split; [exact Ed|exact (live_state d B)].
    + eapply eff_spend; [reflexivity| |exact E]. exists d. split; [exact Ed|exact (live_state d B)].
    + eapply eff_cancel; [reflexivity| | |exact E]; [exists d; split; [exact Ed|exact (live_state d B)]|]. left. split; reflexivity.
    + apply andb_true_iff in B as [B1 B2]. eapply eff_cancel; [reflexivity| | |exact E]; [exists d; split; [exact Ed|exact (live_state d B1)]|]. right. split; [reflexivity|].
      right. exists b. split; [reflexivity|]. exists d. split; [exact Ed|]. apply N.eqb_eq in B2. auto.
    + apply andb_true_iff in B as [B1 B2]. eapply eff_cancel; [reflexivity| | |exact E]; [exists d; split; [exact Ed|exact (live_state d B1)]|]. right. split; [reflexivity|].
      left. reflexivity.
    + destruct (close_does _ _ _ _ _ E) as (_ & H1 & _ & _ & H2 & _). apply eff_none; auto.
    + destruct (close_does _ _ _ _ _ E) as (_ & H1 & _ & _ & H2 & _). apply eff_none; auto.
    + destruct (close_does _ _ _ _ _ E) as (_ & H1 & _ & _ & H2 & _). apply eff_none; auto.
    + destruct (t_assets s !! id); [discriminate E|]. apply if_some in E as [_ E]. injection E as <-. apply eff_none; reflexivity.
    + injection E as <-. destruct (fold_drop id l s) as (_ & H1 & _ & _ & H2 & _). apply eff_none; auto.
    + injection E as <-. eapply eff_destroy; [reflexivity| |reflexivity]. exists d. split; [exact Ed|exact (destroying_state d B)].
  - destruct (t_assets s !! id') as [d|]; [|discriminate E]. apply if_some in E as [_ E]. injection E as <-. apply eff_none; reflexivity.
  - destruct (t_assets s !! id') as [d|]; [|discriminate E]. destruct (prep_debit d id' b n false false s) as [m|]; [|discriminate E]. injection E as <-.
    destruct (debit_keeps d id' b m (put_asset id' (set_supply d (ta_supply d - m)) s)) as ((H1 & H2 & H3) & _). apply eff_none; auto.
  - injection E as <-. apply eff_none; reflexivity.
  - injection E as <-. apply eff_none; reflexivity.
  - apply if_some in E as [_ E]. injection E as <-. apply eff_none; reflexivity.
Qed.

Lemma approve_does id a d n ok s s' : approve id a d n ok s = Some s' ->
  let p := default (Approval 0 0) (t_approvals s !! (id, a, d)) in
  let paid := approval_deposit - ap_deposit p in
  paid <= tamt (t_free s) a /\
  (forall k, t_approvals s' !! k = if bool_decide (k = (id, a, d)) then Some (Approval (N.min (ap_amount p + n) u128_max) (N.max (ap_deposit p) approval_deposit)) else t_approvals s !! k) /\
  t_approvals s' = partial_alter (fun _ => Some (Approval (N.min (ap_amount p + n) u128_max) (N.max (ap_deposit p) approval_deposit))) (id, a, d) (t_approvals s) /\
  (forall b, tamt (t_reserved s') b = tamt (t_reserved s) b + (if b =? a then paid else 0)) /\
  (forall b, tamt (t_free s') b = tamt (t_free s) b - (if b =? a then paid else 0)).
Proof.
  intros H. cbv zeta. unfold approve in H. set (p := default (Approval 0 0) (t_approvals s !! (id, a, d))) in *.
  destruct (N.ltb_spec (ap_deposit p) approval_deposit) as [Hd|Hd].
  - unfold treserve in H. destruct (N.leb_spec (approval_deposit - ap_deposit p) (tamt (t_free s) a)) as [Hf|Hf]; [|discriminate H]. destruct ok; [|discriminate H].
    injection H as <-. split; [exact Hf|]. split; [intros k; rewrite appr_put; reflexivity|]. split; [reflexivity|]. cbn [t_reserved t_free put_approval put_native]. unfold tamt. split; intros b.
    + destruct (N.eqb_spec b a) as [->|Hb]; [rewrite lookup_insert; reflexivity|rewrite lookup_insert_ne by congruence; lia].
    + destruct (N.eqb_spec b a) as [->|Hb]; [rewrite lookup_insert; reflexivity|rewrite lookup_insert_ne by congruence; lia].
  - injection H as <-. replace (approval_deposit - ap_deposit p) with 0 by lia. split; [lia|]. split; [intros k; rewrite appr_put; reflexivity|]. split; [reflexivity|].
    cbn [t_reserved t_free put_approval put_native]. split; intros b; destruct (b =? a); lia.
Qed.

Lemma approved_put id a d o s id' a' d' : approved (put_approval id a d o s) id' a' d' =
  if bool_decide ((id', a', d') = (id, a, d)) then match o with Some p => ap_amount p | None => 0 end else approved s id' a' d'.
Proof. unfold approved. rewrite appr_put. destruct (bool_decide _); reflexivity. Qed.
Lemma approved_same s s' id a d : t_approvals s' = t_approvals s -> approved s' id a d = approved s id a d.
Proof. intros E. unfold approved. rewrite E. reflexivity. Qed.

Lemma approved_fold id l id' a d : forall s, approved (fold_left (destroy_approval id) l s) id' a d <= approved s id' a d.
Proof.
  induction l as [|k l IH]; intros s; cbn [fold_left]; [lia|]. etransitivity; [apply IH|]. unfold destroy_approval.
  destruct (cancel id (fst k) (snd k) s) as [s'|] eqn:E; cbn; [|lia]. unfold cancel in E. destruct (t_approvals s !! (id, fst k, snd k)); [|discriminate E]. injection E as <-.
  rewrite approved_put. destruct (bool_decide _); [lia|]. rewrite (approved_same s) by reflexivity. lia.
Qed.

Lemma budget_step s x s' id a d : tstep_try s x = Some s' -> spends id a d x + approved s' id a d <= allows id a d x + approved s id a d.
Proof.
  intros E. destruct (effects _ _ _ E) as [H1 _ H2 H3|ok i b e n -> _ H|ok i b e to n -> _ H|ok o i b e k -> _ Hk H|ok b i l -> _ ->].
  - rewrite H2, H3, (approved_same _ _ _ _ _ H1). lia.
  - destruct (approve_does _ _ _ _ _ _ _ H) as (_ & Hp & _). unfold approved. rewrite Hp. cbn [spends allows].
    destruct (decide ((id, a, d) = (i, b, e))) as [Heq|Hne].
    + injection Heq as -> -> ->. rewrite bool_decide_eq_true_2 by reflexivity. rewrite !N.eqb_refl. cbn. destruct (t_approvals s !! (i, b, e)); cbn; lia.
    + rewrite bool_decide_eq_false_2 by exact Hne. lia.
  - destruct (approved_does _ _ _ _ _ _ _ _ H) as (p & s1 & Ep & Hp & Et & Hs). destruct (transfer_keeps _ _ _ _ _ _ _ _ _ Et) as ((H1 & _) & _).
    cbn [spends allows]. destruct (decide ((id, a, d) = (i, b, e))) as [Heq|Hne].
    + injection Heq as -> -> ->. rewrite !N.eqb_refl. cbn [andb]. unfold approved at 2. rewrite Ep.
      destruct Hs as [[Hn ->]|[Hn ->]]; rewrite approved_put, bool_decide_eq_true_2 by reflexivity; cbn [ap_amount]; lia.
    + assert (approved s' id a d = approved s id a d) as ->.
      { destruct Hs as [[Hn ->]|[Hn ->]]; rewrite approved_put, bool_decide_eq_false_2 by exact Hne; apply approved_same; exact H1. }
      destruct (N.eqb_spec e d) as [->|]; [|cbn [andb]; lia]. destruct (N.eqb_spec i id) as [->|]; [|cbn [andb]; lia].
      destruct (N.eqb_spec b a) as [->|]; [congruence|cbn [andb]; lia].
  - assert (spends id a d (TCall ok o k) = 0) as -> by (destruct Hk as [(-> & ->)|(-> & Ho)]; [reflexivity|destruct o; reflexivity]).
    unfold cancel in H. destruct (t_approvals s !! (i, b, e)); [|discriminate H]. injection H as <-.
    rewrite approved_put. destruct (bool_decide _); [lia|]. rewrite (approved_same s) by reflexivity. lia.
  - cbn [spends allows]. pose proof (approved_fold i l id a d s). lia.
Qed.
Lemma budget id a d : forall l s, in_all (spends id a d) s l + approved (trun s l) id a d <= in_all (allows id a d) s l + approved s id a d.
Proof.
  induction l as [|x l IH]; intros s; cbn [in_all]; [unfold trun; cbn; lia|]. specialize (IH (tstep_run s x)).
  change (trun s (x :: l)) with (trun (tstep_run s x) l). unfold tstep_run in *. destruct (tstep_try s x) as [s'|] eqn:E.
  - change (default s (Some s')) with s' in *. pose proof (budget_step s x s' id a d E). lia.
  - change (default s None) with s in *. lia.
Qed.
Lemma budget_start l id a d : in_all (spends id a d) t_start l + approved (t_end l) id a d <= in_all (allows id a d) t_start l.
Proof. pose proof (budget id a d l t_start) as B. unfold t_end. cbn in B. rewrite N.add_0_r in B. exact B. Qed.

(** Nobody is a delegate unless named. *)
Lemma delegate_fold id l k : forall s, t_approvals s !! k = None -> t_approvals (fold_left (destroy_approval id) l s) !! k = None.
Proof.
  induction l as [|j l IH]; intros s H; cbn [fold_left]; [exact H|]. apply IH. unfold destroy_approval.
  destruct (cancel id (fst j) (snd j) s) as [s'|] eqn:E; cbn; [|exact H]. unfold cancel in E. destruct (t_approvals s !! (id, fst j, snd j)); [|discriminate E]. injection E as <-.
  rewrite appr_put. destruct (bool_decide _); [reflexivity|exact H].
Qed.
Lemma stays_none s x id a d : ~ names_delegate id a d x -> t_approvals s !! (id, a, d) = None -> t_approvals (tstep_run s x) !! (id, a, d) = None.
Proof.
  intros Hx Hn. unfold tstep_run. destruct (tstep_try s x) as [s'|] eqn:E; [|exact Hn]. change (default s (Some s')) with s'.
  destruct (effects _ _ _ E) as [H1 _ H2 H3|ok i b e n -> _ H|ok i b e to n -> _ H|ok o i b e k -> _ Hk H|ok b i l -> _ ->].
  - rewrite H1. exact Hn.
  - destruct (approve_does _ _ _ _ _ _ _ H) as (_ & Hp & _). rewrite Hp. destruct (decide ((id, a, d) = (i, b, e))) as [Heq|Hne].
    + injection Heq as -> -> ->. exfalso. apply Hx. exists ok, n. reflexivity.
    + rewrite bool_decide_eq_false_2 by exact Hne. exact Hn.
  - destruct (approved_does _ _ _ _ _ _ _ _ H) as (p & s1 & Ep & Hp & Et & Hs). destruct (transfer_keeps _ _ _ _ _ _ _ _ _ Et) as ((H1 & _) & _).
    assert (Hne : (id, a, d) <> (i, b, e)) by (intros Heq; rewrite Heq in Hn; congruence).
    destruct Hs as [[_ ->]|[_ ->]]; rewrite appr_put, bool_decide_eq_false_2 by exact Hne; cbn [tunreserve put_native t_approvals]; rewrite H1; exact Hn.
  - unfold cancel in H. destruct (t_approvals s !! (i, b, e)); [|discriminate H]. injection H as <-. rewrite appr_put. destruct (bool_decide _); [reflexivity|exact Hn].
  - apply delegate_fold. exact Hn.
Qed.
Lemma stays_none_run id a d : forall l s, Forall (fun x => ~ names_delegate id a d x) l -> t_approvals s !! (id, a, d) = None -> t_approvals (trun s l) !! (id, a, d) = None.
Proof.
  induction l as [|x l IH]; intros s F Hn; [exact Hn|]. apply Forall_cons in F as [F1 F2]. apply (IH (tstep_run s x) F2). apply stays_none; assumption.
Qed.
Lemma no_approval_fails s ok id a d to n : t_approvals s !! (id, a, d) = None -> ~ goes_through s (TCall ok (Some d) (KTransferApproved id a to n)).
Proof.
  intros H (s' & E). cbn in E. destruct (t_assets s !! id); [|discriminate E]. apply if_some in E as [_ E]. unfold transfer_approved in E. rewrite H in E. discriminate E.
Qed.
Lemma withdrawn s id a d ok l : goes_through s (TCall ok (Some a) (KCancelApproval id d)) -> Forall (fun x => ~ names_delegate id a d x) l ->
  forall ok' to n, ~ goes_through (trun s (TCall ok (Some a) (KCancelApproval id d) :: l)) (TCall ok' (Some d) (KTransferApproved id a to n)).
Proof.
  intros (s1 & E) F ok' to n. apply no_approval_fails. change (trun s (?x :: l)) with (trun (tstep_run s x) l).
  apply stays_none_run; [exact F|]. unfold tstep_run. rewrite E. cbn [default]. cbn in E.
  destruct (t_assets s !! id); [|discriminate E]. apply if_some in E as [_ E]. unfold cancel in E. destruct (t_approvals s !! (id, a, d)); [|discriminate E]. injection E as <-.
  cbv [Datatypes.id]. rewrite appr_put, bool_decide_eq_true_2 by reflexivity. reflexivity.
Qed.

(** What is approved can be used. *)
Lemma can_use s ok id a d to n c e : let x := TCall ok (Some d) (KTransferApproved id a to n) in
  t_assets s !! id = Some e -> ta_status e = TLive -> t_accounts s !! (id, a) = Some c -> tc_closed c = TOpen -> t_locked s !! (id, a) = None ->
  n <= tc_balance c -> tc_balance c <= ta_supply e -> is_delegate s id a d -> n <= approved s id a d ->
  (forall m, n <= m -> m <= tc_balance c -> can_increase e id to m ok s = true) -> goes_through s x.
Proof.
  intros x Ed Es Ec Eo El Hn Hs Hd Ha Hi. unfold goes_through, x. cbn [tstep_try tcall_run]. rewrite Ed. unfold is_live. rewrite Es. cbn [if_].
  unfold transfer_approved. unfold is_delegate in Hd. unfold approved in Ha. destruct (t_approvals s !! (id, a, d)) as [p|]; [|congruence].
  destruct (N.leb_spec n (ap_amount p)) as [_|?]; [|lia].
  assert (exists s1, transfer id a to n None false ok s = Some s1) as (s1 & ->).
  { unfold transfer. destruct (n =? 0) eqn:Ez; [eauto|]. apply N.eqb_neq in Ez. rewrite Ed. unfold prep_debit, reducible. rewrite Es, Ec, Eo, El.
    replace (N.min (N.min (tc_balance c) (ta_supply e)) n) with n by lia. rewrite N.ltb_irrefl. cbn [negb andb].
    destruct (N.eqb_spec n 0) as [?|_]; [lia|].
    assert (exists m, (n <= m /\ m <= tc_balance c) /\ (if tc_balance c - n <? ta_min e then Some (n + (tc_balance c - n)) else Some n) = Some m) as (m & Hm & ->).
    { destruct (tc_balance c - n <? ta_min e); eexists; (split; [|reflexivity]); lia. }
    rewrite Hi by lia. cbn [andb]. destruct (a =? to); eauto. }
  destruct (ap_amount p - n =? 0); eauto.
Qed.

(* ------------------------------------------------------------------ *)
(** * What always holds *)

(** Approvals. *)
Definition ainv (s : tst) : Prop := (forall k p, t_approvals s !! k = Some p -> ap_deposit p = approval_deposit) /\ (forall a, tamt (t_reserved s) a = owed a s).

Lemma unreserve_does a n s : n <= tamt (t_reserved s) a ->
  (forall b, tamt (t_reserved (tunreserve a n s)) b = tamt (t_reserved s) b - if b =? a then n else 0) /\
  (forall b, tamt (t_free (tunreserve a n s)) b = tamt (t_free s) b + if b =? a then n else 0).
Proof.
  intros H. unfold tunreserve. rewrite N.min_l by exact H. cbn [t_reserved t_free put_native]. unfold tamt. split; intros b.
  - destruct (N.eqb_spec b a) as [->|Hb]; [rewrite lookup_insert; reflexivity|rewrite lookup_insert_ne by congruence; lia].
  - destruct (N.eqb_spec b a) as [->|Hb]; [rewrite lookup_insert; reflexivity|rewrite lookup_insert_ne by congruence; lia].
Qed.
Lemma due_le s id a d p : ainv s -> t_approvals s !! (id, a, d) = Some p -> ap_deposit p <= tamt (t_reserved s) a.
Proof.
  intros [_ I] E. rewrite I. unfold owed. pose proof (msum_ge (due a) (t_approvals s) _ _ E) as G. unfold due in G at 1. cbn in G. rewrite N.eqb_refl in G. exact G.
Qed.
(** An approval ends: all its deposit comes back. *)
Lemma end_approval s s1 id a d p : ainv s -> t_approvals s !! (id, a, d) = Some p -> same_rest s s1 ->
  let s' := put_approval id a d None (tunreserve a (ap_deposit p) s1) in
  ainv s' /\ (forall b, tamt (t_reserved s') b = tamt (t_reserved s) b - if b =? a then ap_deposit p else 0) /\
  (forall b, tamt (t_free s') b = tamt (t_free s) b + if b =? a then ap_deposit p else 0).
Proof.
  intros I E (R1 & R2 & R3). pose proof (due_le _ _ _ _ _ I E) as L. cbv zeta.
  destruct (unreserve_does a (ap_deposit p) s1) as [U1 U2]; [rewrite R2; exact L|].
  assert (H1 : forall b, tamt (t_reserved (put_approval id a d None (tunreserve a (ap_deposit p) s1))) b = tamt (t_reserved s) b - if b =? a then ap_deposit p else 0).
  { intros b. change (t_reserved (put_approval id a d None ?x)) with (t_reserved x). rewrite U1, R2. reflexivity. }
  split; [|split; [exact H1|intros b; change (t_free (put_approval id a d None ?x)) with (t_free x); rewrite U2, R3; reflexivity]].
  split.
  - intros k q Hk. rewrite appr_put in Hk. destruct (bool_decide _); [discriminate Hk|]. cbn [tunreserve put_native t_approvals] in Hk. rewrite R1 in Hk. exact (proj1 I k q Hk).
  - intros b. rewrite H1. pose proof (owed_put id a d None (tunreserve a (ap_deposit p) s1) b) as O. cbn [tunreserve put_native t_approvals] in O. rewrite R1, E in O. cbn [oval] in O.
    unfold due in O at 1. cbn in O.
    change (owed b (tunreserve a (ap_deposit p) s1)) with (msum (due b) (t_approvals s1)) in O. rewrite R1 in O. pose proof (proj2 I b) as Ib. unfold owed in Ib.
    rewrite (N.eqb_sym b a). destruct (a =? b) eqn:Eb; lia.
Qed.
Lemma end_all id l : forall s, ainv s -> ainv (fold_left (destroy_approval id) l s).
Proof.
  induction l as [|k l IH]; intros s I; cbn [fold_left]; [exact I|]. apply IH. unfold destroy_approval, cancel.
  destruct (t_approvals s !! (id, fst k, snd k)) as [p|] eqn:E; cbn; [|exact I]. apply (end_approval s s id (fst k) (snd k) p I E). unfold same_rest. auto.
Qed.
Lemma ainv_step s x s' : ainv s -> tstep_try s x = Some s' -> ainv s'.
Proof.
  intros I E. destruct (effects _ _ _ E) as [H1 H1r _ _|ok i b e n -> _ H|ok i b e to n -> _ H|ok o i b e k -> _ Hk H|ok b i l -> _ ->].
  - destruct I as [I1 I2]. split; [rewrite H1; exact I1|]. intros a. unfold owed. rewrite H1, H1r. exact (I2 a).
  - destruct (approve_does _ _ _ _ _ _ _ H) as (_ & Hp & Ha & Hr & _). set (p := default (Approval 0 0) (t_approvals s !! (i, b, e))) in *.
    assert (Hd : ap_deposit p = 0 \/ ap_deposit p = approval_deposit).
    { unfold p. destruct (t_approvals s !! (i, b, e)) as [q|] eqn:Eq; [right; exact (proj1 I _ q Eq)|left; reflexivity]. }
    split.
    + intros k q Hk. rewrite Hp in Hk. destruct (bool_decide _); [|exact (proj1 I k q Hk)]. injection Hk as <-. cbn [ap_deposit]. lia.
    + intros a. rewrite Hr. unfold owed. rewrite Ha. pose proof (msum_alter (due a) (t_approvals s) (i, b, e) (Some (Approval (N.min (ap_amount p + n) u128_max) (N.max (ap_deposit p) approval_deposit)))) as M.
      cbn [oval] in M. unfold due at 4 in M. cbn [fst snd ap_deposit] in M. rewrite (proj2 I a). unfold owed.
      assert (Ho : oval (due a) (i, b, e) (t_approvals s !! (i, b, e)) = if b =? a then ap_deposit p else 0).
      { unfold p. destruct (t_approvals s !! (i, b, e)) as [q|]; cbn; unfold due; cbn; destruct (b =? a); reflexivity. }
      rewrite Ho in M. rewrite (N.eqb_sym a b). destruct (b =? a); lia.
  - destruct (approved_does _ _ _ _ _ _ _ _ H) as (p & s1 & Ep & Hp & Et & Hs). destruct (transfer_keeps _ _ _ _ _ _ _ _ _ Et) as (SR & _).
    destruct Hs as [[_ ->]|[_ ->]]; [exact (proj1 (end_approval s s1 _ _ _ _ I Ep SR))|]. destruct SR as (R1 & R2 & R3). split.
    + intros k q Hk. rewrite appr_put in Hk. destruct (bool_decide _); [|rewrite R1 in Hk; exact (proj1 I k q Hk)]. injection Hk as <-. cbn. exact (proj1 I _ _ Ep).
    + intros a. change (t_reserved (put_approval i b e ?o s1)) with (t_reserved s1). rewrite R2, (proj2 I a).
      pose proof (owed_put i b e (Some (Approval (ap_amount p - n) (ap_deposit p))) s1 a) as O. rewrite R1, Ep in O. cbn [oval] in O. unfold due in O. cbn [fst snd ap_deposit] in O.
      change (owed a s1) with (msum (due a) (t_approvals s1)) in O. rewrite R1 in O. unfold owed at 1. lia.
  - unfold cancel in H. destruct (t_approvals s !! (i, b, e)) as [p|] eqn:Ep; [|discriminate H]. injection H as <-. apply (end_approval s s i b e p I Ep). unfold same_rest. auto.
  - apply end_all. exact I.
Qed.
Lemma ainv_run : forall l s, ainv s -> ainv (trun s l).
Proof.
  induction l as [|x l IH]; intros s I; [exact I|]. apply (IH (tstep_run s x)). unfold tstep_run. destruct (tstep_try s x) as [s'|] eqn:E; [exact (ainv_step s x s' I E)|exact I].
Qed.
Lemma ainv_end l : ainv (t_end l).
Proof. apply ainv_run. split; [intros k p H; cbn in H; rewrite lookup_empty in H; discriminate H|intros a; reflexivity]. Qed.

(** The deposits, counted. *)
Lemma deposits_exact l a ks : NoDup ks -> (forall id d, (id, d) ∈ ks <-> is_delegate (t_end l) id a d) ->
  put_down (t_end l) a = N.of_nat (length ks) * approval_deposit.
Proof.
  intros ND Hk. pose proof (ainv_end l) as [I1 I2]. unfold put_down. change (default 0 (t_reserved (t_end l) !! a)) with (tamt (t_reserved (t_end l)) a). rewrite I2. unfold owed.
  set (key := fun q : N * N => (fst q, a, snd q)).
  rewrite (msum_list (due a) (fun k => k.1.2 = a) (map key ks)).
  - assert (Hall : forall q, q ∈ ks -> exists p, t_approvals (t_end l) !! key q = Some p /\ ap_deposit p = approval_deposit).
    { intros [id d] Hq. apply Hk in Hq. unfold is_delegate in Hq. unfold key. cbn. destruct (t_approvals (t_end l) !! (id, a, d)) as [p|] eqn:E; [|congruence]. exists p. split; [reflexivity|exact (I1 _ _ E)]. }
    clear Hk ND. induction ks as [|q ks IH]; [reflexivity|]. cbn [map foldr length]. rewrite IH by (intros q' Hq'; apply Hall; apply elem_of_cons; auto).
    destruct (Hall q) as (p & -> & Hp); [apply elem_of_cons; auto|]. cbn [oval]. unfold due, key. cbn [fst snd]. rewrite N.eqb_refl, Hp. lia.
  - apply NoDup_ListNoDup. apply NoDup_ListNoDup in ND. apply FinFun.Injective_map_NoDup; [|exact ND]. intros [u v] [u' v'] Hq. unfold key in Hq. cbn in Hq. congruence.
  - intros [[id b] d]. cbn [fst snd]. split.
    + intros Hq. apply elem_of_list_In, in_map_iff in Hq as ([u v] & Hq & Hin). unfold key in Hq. cbn in Hq. injection Hq as -> <- ->.
      split; [|reflexivity]. apply Hk. apply elem_of_list_In. exact Hin.
    + intros [H1 ->]. apply elem_of_list_In, in_map_iff. exists (id, d). split; [reflexivity|]. apply elem_of_list_In. apply Hk. exact H1.
  - intros k v Hn. unfold due. destruct (N.eqb_spec k.1.2 a); [contradiction|reflexivity].
  - intros k. destruct (N.eq_dec k.1.2 a); [left|right]; assumption.
Qed.

(** They come back. *)
Lemma back_cancel l id a d ok : is_delegate (t_end l) id a d -> in_state (t_end l) id TLive ->
  exists s', tstep_try (t_end l) (TCall ok (Some a) (KCancelApproval id d)) = Some s' /\ put_down s' a + approval_deposit = put_down (t_end l) a /\
    spare s' a = spare (t_end l) a + approval_deposit /\ ~ is_delegate s' id a d.
Proof.
  intros Hd (e & Ee & Es). pose proof (ainv_end l) as I. cbn [tstep_try tcall_run]. rewrite Ee. unfold is_live. rewrite Es. cbn [if_]. unfold cancel.
  unfold is_delegate in *. destruct (t_approvals (t_end l) !! (id, a, d)) as [p|] eqn:Ep; [|congruence].
  destruct (end_approval (t_end l) (t_end l) id a d p I Ep) as (_ & H1 & H2); [unfold same_rest; auto|]. pose proof (due_le _ _ _ _ _ I Ep) as L.
  pose proof (proj1 I _ _ Ep) as Hp. specialize (H1 a). specialize (H2 a). rewrite N.eqb_refl in H1, H2. cbv zeta in *.
  eexists. split; [reflexivity|]. rewrite <- Hp. unfold put_down, spare. unfold tamt in *. split; [lia|]. split; [lia|].
  rewrite appr_put, bool_decide_eq_true_2 by reflexivity. congruence.
Qed.
Lemma back_used l ok id a d to : let x := TCall ok (Some d) (KTransferApproved id a to (approved (t_end l) id a d)) in
  goes_through (t_end l) x -> let s' := tstep_run (t_end l) x in
  put_down s' a + approval_deposit = put_down (t_end l) a /\ spare s' a = spare (t_end l) a + approval_deposit /\ ~ is_delegate s' id a d.
Proof.
  intros x (s' & E). cbv zeta. unfold tstep_run. rewrite E. change (default (t_end l) (Some s')) with s'. pose proof (ainv_end l) as I.
  unfold x in E. cbn [tstep_try tcall_run] in E. destruct (t_assets (t_end l) !! id); [|discriminate E]. apply if_some in E as [_ E].
  destruct (approved_does _ _ _ _ _ _ _ _ E) as (p & s1 & Ep & Hp & Et & Hs). unfold approved in Hs. rewrite Ep in Hs.
  destruct Hs as [[_ ->]|[Hlt _]]; [|lia]. destruct (transfer_keeps _ _ _ _ _ _ _ _ _ Et) as (SR & _).
  destruct (end_approval (t_end l) s1 id a d p I Ep SR) as (_ & H1 & H2). pose proof (due_le _ _ _ _ _ I Ep) as L.
  pose proof (proj1 I _ _ Ep) as Hd. specialize (H1 a). specialize (H2 a). rewrite N.eqb_refl in H1, H2. cbv zeta in *.
  rewrite <- Hd. unfold put_down, spare. unfold tamt in *. split; [lia|]. split; [lia|]. unfold is_delegate. rewrite appr_put, bool_decide_eq_true_2 by reflexivity. congruence.
Qed.
Lemma back_destroyed l id a d b ok : is_delegate (t_end l) id a d -> in_state (t_end l) id TDestroying ->
  exists s', tstep_try (t_end l) (TCall ok (Some b) (KDestroyApprovals id [(a, d)])) = Some s' /\ put_down s' a + approval_deposit = put_down (t_end l) a /\
    spare s' a = spare (t_end l) a + approval_deposit /\ ~ is_delegate s' id a d.
Proof.
  intros Hd (e & Ee & Es). pose proof (ainv_end l) as I. cbn [tstep_try tcall_run]. rewrite Ee. unfold is_destroying. rewrite Es. cbn [if_ fold_left].
  unfold is_delegate in *. destruct (t_approvals (t_end l) !! (id, a, d)) as [p|] eqn:Ep; [|congruence].
  eexists. split; [reflexivity|]. unfold destroy_approval, cancel. cbn [fst snd]. rewrite Ep. change (default ?u (Some ?v)) with v.
  destruct (end_approval (t_end l) (t_end l) id a d p I Ep) as (_ & H1 & H2); [unfold same_rest; auto|]. pose proof (due_le _ _ _ _ _ I Ep) as L.
  pose proof (proj1 I _ _ Ep) as Hp. specialize (H1 a). specialize (H2 a). rewrite N.eqb_refl in H1, H2. cbv zeta in *.
  rewrite <- Hp. unfold put_down, spare. unfold tamt in *. split; [lia|]. split; [lia|].
  rewrite appr_put, bool_decide_eq_true_2 by reflexivity. congruence.
Qed.

(** Proofs about proxies and the scheduler's privilege order. *)
From Verif Require Import Base XcmTypes OriginTypes PaymentsModel ProxyModel ProxySpec.
Open Scope N_scope.

Section ind.
  Context (P : rcall -> Prop).
  Context (Hleaf : forall c, match c with RBatch _ | RBatchAll _ | RForceBatch _ | RAsDerivative _ _ | RAsMultiThreshold1 _ _ | RProxy _ _ _ => False | _ => True end -> P c).
  Context (H1 : forall l, Forall P l -> P (RBatch l)) (H2 : forall l, Forall P l -> P (RBatchAll l)) (H3 : forall l, Forall P l -> P (RForceBatch l)).
  Context (H4 : forall i c, P c -> P (RAsDerivative i c)) (H5 : forall o c, P c -> P (RAsMultiThreshold1 o c)) (H6 : forall r f c, P c -> P (RProxy r f c)).
  Fixpoint rcall_nested_ind (c : rcall) : P c :=
    let all := fix all (l : list rcall) : Forall P l := match l with [] => Forall_nil_2 P | c :: r => Forall_cons_2 P c r (rcall_nested_ind c) (all r) end in
    match c with
    | RBatch l => H1 l (all l)
    | RBatchAll l => H2 l (all l)
    | RForceBatch l => H3 l (all l)
    | RAsDerivative i c' => H4 i c' (rcall_nested_ind c')
    | RAsMultiThreshold1 o c' => H5 o c' (rcall_nested_ind c')
    | RProxy r f c' => H6 r f c' (rcall_nested_ind c')
    | c => Hleaf c I
    end.
End ind.

(* ------------------------------------------------------------------ *)
(** * The order of proxy types *)

Lemma superset_refl : forall a, is_superset a a = true.
Proof. by intros []. Qed.
Lemma superset_trans : forall a b c, is_superset a b = true -> is_superset b c = true -> is_superset a c = true.
Proof. intros [] [] []; cbn; done. Qed.
Lemma superset_antisym : forall a b, is_superset a b = true -> is_superset b a = true -> a = b.
Proof. intros [] []; cbn; done. Qed.

Lemma filter_superset a b c : is_superset a b = true -> proxy_filter b c = true -> proxy_filter a c = true.
Proof. intros H. destruct a, b; try discriminate H; cbn; try done; destruct c as [|[]| | | | | | | | | | | | | | | | | |]; cbn; done. Qed.
Lemma proxied_superset a b c : is_superset a b = true -> proxied_filter b c = true -> proxied_filter a c = true.
Proof.
  intros H. pose proof (filter_superset a b c H) as Hf. unfold proxied_filter in *. destruct c; try exact Hf.
  - destruct (is_superset b ty) eqn:E; [|done]. by rewrite (superset_trans a b ty H E).
  - destruct (is_superset b ty) eqn:E; [|done]. by rewrite (superset_trans a b ty H E).
  - destruct (decide (b = Any)) as [->|]; [|done]. destruct a; by try discriminate H.
  - destruct (decide (b = Any)) as [->|]; [|done]. destruct a; by try discriminate H.
Qed.
Lemma any_allows c : proxied_filter Any c = true.
Proof. destruct c; try reflexivity; by destruct ty. Qed.

(* ------------------------------------------------------------------ *)
(** * Dispatch *)

Section dispatch.
  Context (dv : derivation) (px : N -> list (N * proxy_type)).

  Lemma batch_prefix_mono (run run' : rcall -> option (list (N * rcall))) l :
    Forall (fun c => forall x, run c = Some x -> exists x', run' c = Some x' /\ x `sublist_of` x') l ->
    batch_prefix run l `sublist_of` batch_prefix run' l.
  Proof.
    induction 1 as [|c r Hc _ IH]; cbn; [constructor|]. destruct (run c) as [x|]; [|apply sublist_nil_l].
    destruct (Hc x eq_refl) as (x' & -> & Hx). by apply sublist_app.
  Qed.
  Lemma batch_force_mono (run run' : rcall -> option (list (N * rcall))) l :
    Forall (fun c => forall x, run c = Some x -> exists x', run' c = Some x' /\ x `sublist_of` x') l ->
    batch_force run l `sublist_of` batch_force run' l.
  Proof.
    induction 1 as [|c r Hc _ IH]; cbn; [constructor|]. destruct (run c) as [x|].
    - destruct (Hc x eq_refl) as (x' & -> & Hx). by apply sublist_app.
    - destruct (run' c) as [x'|]; [by apply sublist_inserts_l|done].
  Qed.
  Lemma batch_all_mono (run run' : rcall -> option (list (N * rcall))) l :
    Forall (fun c => forall x, run c = Some x -> exists x', run' c = Some x' /\ x `sublist_of` x') l ->
    forall x, batch_all run l = Some x -> exists x', batch_all run' l = Some x' /\ x `sublist_of` x'.
  Proof.
    induction 1 as [|c r Hc _ IH]; cbn; intros x H; [injection H as <-; by eexists|].
    destruct (run c) as [y|]; [|done]. destruct (batch_all run r) as [z|]; [|done]. injection H as <-.
    destruct (Hc y eq_refl) as (y' & -> & Hy), (IH z eq_refl) as (z' & -> & Hz). eexists. split; [done|]. by apply sublist_app.
  Qed.

  Lemma exec_mono c : forall (f g : rcall -> bool) who x, (forall k, f k = true -> g k = true) ->
    exec dv px f who c = Some x -> exists x', exec dv px g who c = Some x' /\ x `sublist_of` x'.
  Proof.
    induction c as [c Hl|l IH|l IH|l IH|i c IH|o c IH|r fo c IH] using rcall_nested_ind; intros f g who x Hfg H.
    - assert (Hx : f c = true /\ x = [(who, c)]) by (destruct c; try done; cbn in H; destruct (f _); try done; injection H as <-; done).
      destruct Hx as [Hf ->]. eexists. split; [|reflexivity]. pose proof (Hfg c Hf) as Hg. destruct c; try done; cbn; by rewrite Hg.
    - cbn [exec] in *. destruct (f _) eqn:E; [|done]. rewrite (Hfg _ E). injection H as <-. eexists. split; [done|]. apply batch_prefix_mono.
      eapply Forall_impl; [exact IH|]. intros c1 Hc y. by apply Hc.
    - cbn [exec] in *. destruct (f _) eqn:E; [|done]. rewrite (Hfg _ E). revert H. apply batch_all_mono.
      eapply Forall_impl; [exact IH|]. intros c1 Hc y. by apply Hc.
    - cbn [exec] in *. destruct (f _) eqn:E; [|done]. rewrite (Hfg _ E). injection H as <-. eexists. split; [done|]. apply batch_force_mono.
      eapply Forall_impl; [exact IH|]. intros c1 Hc y. by apply Hc.
    - cbn [exec] in *. destruct (f _) eqn:E; [|done]. rewrite (Hfg _ E). by eapply IH.
    - cbn [exec] in *. destruct (f _) eqn:E; [|done]. rewrite (Hfg _ E). by exists x.
    - cbn [exec] in *. destruct (f _) eqn:E; [|done]. rewrite (Hfg _ E). by exists x.
  Qed.

  Lemma exec_ext c : forall (f g : rcall -> bool) who, (forall k, f k = g k) -> exec dv px f who c = exec dv px g who c.
  Proof.
    assert (Hb : forall run run' l, Forall (fun c => run c = run' c) l -> batch_prefix run l = batch_prefix run' l /\ batch_all run l = batch_all run' l /\
      batch_force run l = batch_force run' l).
    { intros run run' l. induction 1 as [|c0 r Hc _ (E1 & E2 & E3)]; cbn; [done|]. by rewrite Hc, E1, E2, E3. }
    induction c as [c Hl|l IH|l IH|l IH|i c IH|o c IH|r fo c IH] using rcall_nested_ind; intros f g who Hfg.
    - destruct c; try done; cbn; by rewrite Hfg.
    - cbn [exec]. rewrite Hfg. destruct (Hb (exec dv px f who) (exec dv px g who) l) as (-> & _ & _); [|done].
      eapply Forall_impl; [exact IH|]. intros c1 Hc. by apply Hc.
    - cbn [exec]. rewrite Hfg. destruct (Hb (exec dv px f who) (exec dv px g who) l) as (_ & -> & _); [|done].
      eapply Forall_impl; [exact IH|]. intros c1 Hc. by apply Hc.
    - cbn [exec]. rewrite Hfg. destruct (Hb (exec dv px f who) (exec dv px g who) l) as (_ & _ & ->); [|done].
      eapply Forall_impl; [exact IH|]. intros c1 Hc. by apply Hc.
    - cbn [exec]. rewrite Hfg. destruct (g _); [|done]. by apply IH.
    - cbn [exec]. by rewrite Hfg.
    - cbn [exec]. by rewrite Hfg.
  Qed.

  Lemma batch_elem (run : rcall -> option (list (N * rcall))) y l :
    (y ∈ batch_prefix run l \/ (exists z, batch_all run l = Some z /\ y ∈ z) \/ y ∈ batch_force run l) ->
    exists c x, c ∈ l /\ run c = Some x /\ y ∈ x.
  Proof.
    induction l as [|c r IH]; cbn.
    { intros [H|[(z & [= <-] & H)|H]]; by apply elem_of_nil in H. }
    destruct (run c) as [x|] eqn:E.
    - assert (G : y ∈ x \/ (y ∈ batch_prefix run r \/ (exists z, batch_all run r = Some z /\ y ∈ z) \/ y ∈ batch_force run r) ->
        exists c0 x0, c0 ∈ c :: r /\ run c0 = Some x0 /\ y ∈ x0).
      { intros [Hy|H]; [exists c, x; split; [by left|done]|]. destruct (IH H) as (c0 & x0 & Hc & ?). exists c0, x0. split; [by right|done]. }
      intros [H|[(z & Hz & H)|H]]; apply G.
      + apply elem_of_app in H as [H|H]; auto.
      + destruct (batch_all run r) as [z0|]; [|done]. injection Hz as <-. apply elem_of_app in H as [H|H]; [by left|]. right. right. left. by exists z0.
      + apply elem_of_app in H as [H|H]; auto.
    - intros [H|[(z & Hz & H)|H]]; [by apply elem_of_nil in H|done|].
      destruct IH as (c0 & x0 & Hc & ?); [by right; right|]. exists c0, x0. split; [by right|done].
  Qed.

  Lemma find_proxy_in real who force t : find_proxy px real who force = Some t -> exists d, d ∈ px real /\ fst d = who /\ snd d = t.
  Proof.
    unfold find_proxy. destruct (find _ (px real)) as [d|] eqn:E; [|done]. cbn. intros [= <-]. apply find_some in E as [Hin Hd].
    exists d. split; [by apply elem_of_list_In|]. apply andb_prop in Hd as [Hd _]. apply N.eqb_eq in Hd. done.
  Qed.

  (** Calls that act as an ordinary account come with its own filter or through one of its proxies. *)
  Lemma exec_allowed c : forall (f : rcall -> bool) who x a k, ordinary dv a ->
    exec dv px f who c = Some x -> (a, k) ∈ x -> (a = who /\ f k = true) \/ exists d, d ∈ px a /\ proxied_filter (snd d) k = true.
  Proof.
    induction c as [c Hl|l IH|l IH|l IH|i c IH|o c IH|r fo c IH] using rcall_nested_ind; intros f who x a k Ha H Hin.
    - assert (Hx : f c = true /\ x = [(who, c)]) by (destruct c; try done; cbn in H; destruct (f _); try done; injection H as <-; done).
      destruct Hx as [Hf ->]. apply elem_of_list_singleton in Hin. injection Hin as -> ->. by left.
    - cbn [exec] in H. destruct (f _); [|done]. injection H as <-.
      destruct (batch_elem _ _ _ (or_introl Hin)) as (c1 & y & Hc & Hy & Hk). rewrite Forall_forall in IH. by eapply IH.
    - cbn [exec] in H. destruct (f _); [|done].
      destruct (batch_elem (exec dv px f who) (a, k) l) as (c1 & y & Hc & Hy & Hk); [right; left; by eexists|]. rewrite Forall_forall in IH. by eapply IH.
    - cbn [exec] in H. destruct (f _); [|done]. injection H as <-.
      destruct (batch_elem _ _ _ (or_intror (or_intror Hin))) as (c1 & y & Hc & Hy & Hk). rewrite Forall_forall in IH. by eapply IH.
    - cbn [exec] in H. destruct (f _); [|done]. destruct (IH _ _ _ _ _ Ha H Hin) as [[-> _]|G]; [|by right]. by destruct (proj1 Ha who i).
    - cbn [exec] in H. destruct (f _); [|done]. destruct (IH _ _ _ _ _ Ha H Hin) as [[-> _]|G]; [|by right]. by destruct (proj2 Ha who o).
    - cbn [exec] in H. destruct (f _); [|done]. destruct (find_proxy px r who fo) as [t|] eqn:E; [|done]. injection H as <-.
      destruct (exec dv px (proxied_filter t) r c) as [y|] eqn:Ey; [|by apply elem_of_nil in Hin]. cbn in Hin.
      right. destruct (find_proxy_in _ _ _ _ E) as (d & Hd & _ & <-).
      destruct (IH _ _ _ _ _ Ha Ey Hin) as [[-> Hf]|G]; [by exists d|done].
  Qed.
End dispatch.

(* ------------------------------------------------------------------ *)
(** * Statements *)

Lemma superset_allows_more : forall dv px a b who c x, is_superset a b = true ->
  exec dv px (proxied_filter b) who c = Some x -> exists x', exec dv px (proxied_filter a) who c = Some x' /\ x `sublist_of` x'.
Proof. intros dv px a b who c x H. apply exec_mono. intros k. by apply proxied_superset. Qed.

Lemma any_allows_everything : forall dv px who c, exec dv px (proxied_filter Any) who c = exec dv px (fun _ => true) who c.
Proof. intros dv px who c. apply exec_ext. apply any_allows. Qed.

Lemma only_through_proxies : forall dv px a who c k, ordinary dv a -> who <> a ->
  (a, k) ∈ signed_effects dv px who c -> exists d, d ∈ px a /\ proxied_filter (snd d) k = true.
Proof.
  intros dv px a who c k Ha Hw H. unfold signed_effects in H. destruct (exec _ _ _ _ _) as [x|] eqn:E; [|by apply elem_of_nil in H].
  destruct (exec_allowed _ _ _ _ _ _ _ _ Ha E H) as [[-> _]|G]; [by destruct Hw|done].
Qed.

Lemma filter_meaning : forall t c, proxy_filter t c = true <-> meant_for t c \/ (t <> NonTransfer /\ utility_or_multisig c).
Proof.
  intros t c. unfold utility_or_multisig.
  destruct t; cbn [proxy_filter meant_for].
  - split; auto.
  - split; [|intros [[H1 H2]|[H _]]; [|done]; destruct c; try done; [by destruct (H1 c)|by destruct (H2 c)]].
    intros H. left. split; intros b ->; discriminate.
  - split; [intros H|intros [->|[_ H]]]; [|done|].
    + destruct c; try discriminate H; auto; right; (split; [done|]); auto.
    + destruct c; cbn in *; try done; by destruct H.
  - split; [intros H|intros [[a ->]|[_ H]]]; [|done|].
    + destruct c; try discriminate H; [by left; eexists|..]; right; (split; [done|]); auto.
    + destruct c; cbn in *; try done; by destruct H.
  - split; [intros H|intros [H|[_ H]]].
    + destruct c as [|[]| | | | | | | | | | | | | | | | | |]; try discriminate H; try (left; set_solver); right; (split; [done|]); auto.
    + rewrite elem_of_list_fmap in H. destruct H as (a & -> & H). repeat (apply elem_of_cons in H as [->|H]; [done|]). by apply elem_of_nil in H.
    + destruct c as [|[]| | | | | | | | | | | | | | | | | |]; cbn in *; try done; by destruct H.
  - split; [intros H|intros [H|[_ H]]].
    + destruct c as [|[]| | | | | | | | | | | | | | | | | |]; try discriminate H; try (left; set_solver); right; (split; [done|]); auto.
    + rewrite elem_of_list_fmap in H. destruct H as (a & -> & H). repeat (apply elem_of_cons in H as [->|H]; [done|]). by apply elem_of_nil in H.
    + destruct c as [|[]| | | | | | | | | | | | | | | | | |]; cbn in *; try done; by destruct H.
  - split; [intros H|intros [[a ->]|[_ H]]]; [|done|].
    + destruct c; try discriminate H; [by left; eexists|..]; right; (split; [done|]); auto.
    + destruct c; cbn in *; try done; by destruct H.
Qed.

(** What proxies can do to an ordinary account: only what one of its proxies is meant for. *)
Lemma proxies_keep_to_their_calls : forall dv px a who c k, ordinary dv a -> who <> a ->
  (a, k) ∈ signed_effects dv px who c -> exists d, d ∈ px a /\ (meant_for (snd d) k \/ utility_or_multisig k).
Proof.
  intros dv px a who c k Ha Hw H. destruct (only_through_proxies _ _ _ _ _ _ Ha Hw H) as (d & Hd & Hf). exists d. split; [done|].
  assert (proxy_filter (snd d) k = true) as Hp.
  { unfold proxied_filter in Hf. destruct k; try done; try (by destruct (is_superset _ _)); by destruct (decide _). }
  apply filter_meaning in Hp as [Hp|[_ Hp]]; auto.
Qed.

Lemma no_balances_or_assets : forall dv px a who c k, ordinary dv a -> who <> a ->
  (forall d, d ∈ px a -> snd d = NonTransfer \/ snd d = Collator \/ snd d = CancelProxy) ->
  (a, k) ∈ signed_effects dv px who c -> (forall b, k <> RBalances b) /\ (forall b, k <> RAssets b).
Proof.
  intros dv px a who c k Ha Hw Hd H. destruct (proxies_keep_to_their_calls _ _ _ _ _ _ Ha Hw H) as (d & Hin & [Hm|Hu]).
  - destruct (Hd d Hin) as [Ht|[Ht|Ht]]; rewrite Ht in Hm; cbn in Hm; [done|destruct Hm as [i ->]; done|subst k; done].
  - unfold utility_or_multisig in Hu. split; intros b ->; by destruct Hu.
Qed.

(** No proxy gives away more than it has, and only a full proxy removes all. *)
Lemma no_escalation : forall dv px a who c, ordinary dv a -> who <> a ->
  (forall t, (a, RAddProxy t) ∈ signed_effects dv px who c \/ (a, RRemoveProxy t) ∈ signed_effects dv px who c ->
     exists d, d ∈ px a /\ is_superset (snd d) t = true) /\
  ((a, RRemoveProxies) ∈ signed_effects dv px who c \/ (a, RKillPure) ∈ signed_effects dv px who c -> exists d, d ∈ px a /\ snd d = Any).
Proof.
  intros dv px a who c Ha Hw. split.
  - intros t [H|H]; destruct (only_through_proxies _ _ _ _ _ _ Ha Hw H) as (d & Hd & Hf); exists d; (split; [done|]); cbn in Hf; by destruct (is_superset _ _).
  - intros [H|H]; destruct (only_through_proxies _ _ _ _ _ _ Ha Hw H) as (d & Hd & Hf); exists d; (split; [done|]); cbn in Hf; by destruct (decide _).
Qed.

(** Nobody but its proxies acts as an account. *)
Lemma no_proxies_no_calls : forall dv px a who c k, ordinary dv a -> who <> a -> px a = [] -> ~ (a, k) ∈ signed_effects dv px who c.
Proof. intros dv px a who c k Ha Hw Hp H. destruct (only_through_proxies _ _ _ _ _ _ Ha Hw H) as (d & Hd & _). rewrite Hp in Hd. by apply elem_of_nil in Hd. Qed.

(* ------------------------------------------------------------------ *)
(** * Scheduler *)

Lemma privilege_equal : forall l r, cmp_privilege l r = Some Eq <-> l = r.
Proof. intros l r. unfold cmp_privilege. destruct (decide (l = r)); [done|]. split; [by destruct l|done]. Qed.
Lemma privilege_greater : forall l r, cmp_privilege l r = Some Gt <-> l = ORoot /\ r <> ORoot.
Proof.
  intros l r. unfold cmp_privilege. destruct (decide (l = r)) as [->|Hn]; [split; [done|intros [-> ?]; done]|].
  split; [destruct l; try done; intros _; split; congruence|by intros [-> _]].
Qed.
Lemma privilege_unrelated : forall l r, l <> ORoot -> l <> r -> cmp_privilege l r = None.
Proof. intros l r Hl Hn. unfold cmp_privilege. rewrite decide_False by done. by destruct l. Qed.
Lemma cancelling : forall by_ owner, may_cancel by_ owner = true <-> by_ = owner \/ by_ = ORoot.
Proof.
  intros b o. unfold may_cancel, cmp_privilege. destruct (decide (b = o)) as [->|Hn]; [by split; auto|].
  split; [destruct b; try done; auto|]. intros [->| ->]; done.
Qed.
Lemma cancelling_order : (forall a, may_cancel a a = true) /\
  (forall a b, may_cancel a b = true -> may_cancel b a = true -> a = b) /\
  (forall a b c, may_cancel a b = true -> may_cancel b c = true -> may_cancel a c = true).
Proof.
  split_and!; intros *; rewrite !cancelling; [by left|..].
  - intros [->| ->] [H|H]; congruence.
  - intros [->| ->]; auto.
Qed.

(* ------------------------------------------------------------------ *)
(** * Contracts *)
Lemma contract_effects : forall dv px who c a k, (a, k) ∈ default [] (exec dv px contract_call_allowed who c) ->
  a = who /\ k = RBalances TransferAllowDeath.
Proof.
  intros dv px who c a k H. destruct c; cbn [exec contract_call_allowed default] in H; try (by apply elem_of_nil in H).
  destruct c; cbn [exec contract_call_allowed default] in H; [|by apply elem_of_nil in H]. apply elem_of_list_singleton in H. by injection H as -> ->.
Qed.

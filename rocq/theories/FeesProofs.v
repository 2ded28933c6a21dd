(** Facts about the fee summary. *)
From Verif Require Import BaseProofs FeesModel LedgerModel PaymentsModel PaymentsSpec.
From stdpp Require Import gmap sorting.
Open Scope N_scope.

Lemma fee_sum_cons f l : fee_sum (f :: l) = fee_amount f + fee_sum l. Proof. done. Qed.
Lemma fee_sum_nil : fee_sum [] = 0. Proof. done. Qed.
Lemma fee_sum_app l1 l2 : fee_sum (l1 ++ l2) = fee_sum l1 + fee_sum l2.
Proof. induction l1 as [|f l1 IH]; cbn [app]; [done|]. rewrite !fee_sum_cons. lia. Qed.

Lemma fees_to_cons x f l : fees_to x (f :: l) = ind (fee_to f =? x) (fee_amount f) + fees_to x l.
Proof.
  unfold fees_to. rewrite filter_cons. destruct (decide (fee_to f = x)) as [E|E].
  - rewrite E, N.eqb_refl. done.
  - destruct (N.eqb_spec (fee_to f) x); [congruence|]. cbn [ind]. lia.
Qed.
Lemma fees_to_nil x : fees_to x [] = 0. Proof. done. Qed.
Lemma fees_to_app x l1 l2 : fees_to x (l1 ++ l2) = fees_to x l1 + fees_to x l2.
Proof. unfold fees_to. by rewrite filter_app, fee_sum_app. Qed.
Lemma fees_to_le x l : fees_to x l <= fee_sum l.
Proof.
  induction l as [|f l IH]; [done|]. rewrite fees_to_cons. unfold fee_sum in *; cbn [foldr].
  destruct (_ =? _); cbn [ind]; lia.
Qed.
Lemma fee_sum_split l : fee_sum (mandatory_fees l) + fee_sum (optional_fees l) = fee_sum l.
Proof.
  unfold mandatory_fees, optional_fees. induction l as [|f l IH]; [done|].
  rewrite !filter_cons. destruct (fee_mandatory f); cbn [decide]; 
  repeat (case_decide; try done); unfold fee_sum in *; cbn [foldr]; lia.
Qed.

Definition fmerge (l : list fee) : list fee := fold_left bt_add l [].

Lemma sat_sat_l x y : sat128 (sat128 x + y) = sat128 (x + y).
Proof. unfold sat128. lia. Qed.
Lemma sat_0 x : sat128 (0 + x) = sat128 x. Proof. done. Qed.

Lemma summary_fold_false l m d r :
  fold_left (summary_step false) l (m, d, r) = (fold_left bt_add l m, (if l then d else sat128 (d + fee_sum l)), r).
Proof.
  revert m d r. induction l as [|f l IH]; intros m d r; [done|].
  cbn [fold_left]. unfold summary_step at 2. cbn iota beta. rewrite IH. f_equal. f_equal.
  unfold fee_sum; cbn [foldr]. destruct l; cbn [foldr]; unfold sat128; lia.
Qed.

Lemma summary_fold_true l m d r : d <= u128_max -> r <= u128_max ->
  fold_left (summary_step true) l (m, d, r) =
  (fold_left bt_add l m, sat128 (d + fee_sum (mandatory_fees l)), sat128 (r + fee_sum (optional_fees l))).
Proof.
  unfold mandatory_fees, optional_fees.
  revert m d r. induction l as [|f l IH]; intros m d r Hd Hr.
  - cbn. unfold sat128. f_equal; [f_equal|]; lia.
  - cbn [fold_left]. unfold summary_step at 2. cbn iota beta. rewrite !filter_cons.
    destruct (fee_mandatory f) eqn:E.
    + rewrite IH by (unfold sat128; lia).
      destruct (decide (true = true)); [|done]. destruct (decide (true = false)); [done|].
      unfold fee_sum; cbn [foldr]. rewrite sat_sat_l. f_equal. f_equal. f_equal. lia.
    + rewrite IH by (unfold sat128; lia).
      destruct (decide (false = true)); [done|]. destruct (decide (false = false)); [|done].
      unfold fee_sum; cbn [foldr]. rewrite sat_sat_l. f_equal. f_equal. lia.
Qed.

Lemma get_summary_false l : get_summary l false = (fmerge l, sat128 (fee_sum l), 0).
Proof. unfold get_summary. rewrite summary_fold_false. f_equal. f_equal. destruct l; done. Qed.

Lemma get_summary_true l :
  get_summary l true = (fmerge l, sat128 (fee_sum (mandatory_fees l)), sat128 (fee_sum (optional_fees l))).
Proof. unfold get_summary. rewrite summary_fold_true; [done|unfold u128_max; lia|unfold u128_max; lia]. Qed.

(** The hold on the sender is the same sum whether or not there is a dispute. *)
Lemma total_hold_eq d b : total_hold d b = N.min u128_max (fee_sum (sender_pays (d_fees d)) + d_incentive d).
Proof.
  unfold total_hold, summary_for. destruct b.
  - rewrite get_summary_true. rewrite <-(fee_sum_split (sender_pays (d_fees d))). unfold sat128. lia.
  - rewrite get_summary_false. unfold sat128. lia.
Qed.

(* ------------------------------------------------------------------ *)
(** * The merged list *)

Notation accounts m := (map fee_to m).
Definition bt_sorted (m : list fee) : Prop := StronglySorted N.lt (accounts m).

Lemma bt_add_accounts m f x : x ∈ accounts (bt_add m f) <-> x = fee_to f \/ x ∈ accounts m.
Proof.
  induction m as [|g m IH]; cbn [bt_add map].
  - rewrite elem_of_list_singleton. cbn [fee_to]. split; [auto|]. intros [?|H]; [done|]. by apply elem_of_nil in H.
  - destruct (N.eqb_spec (fee_to f) (fee_to g)) as [E|E].
    + cbn [map fee_to]. rewrite !elem_of_cons, E. naive_solver.
    + destruct (N.ltb_spec (fee_to f) (fee_to g)).
      * cbn [map fee_to]. rewrite !elem_of_cons. naive_solver.
      * cbn [map fee_to]. rewrite !elem_of_cons, IH. naive_solver.
Qed.

Lemma bt_add_sorted m f : bt_sorted m -> bt_sorted (bt_add m f).
Proof.
  unfold bt_sorted. induction m as [|g m IH]; cbn [bt_add map]; intros H.
  - repeat constructor.
  - inversion H as [|? ? H1 H2]; subst.
    destruct (N.eqb_spec (fee_to f) (fee_to g)) as [E|E]; [by constructor|].
    destruct (N.ltb_spec (fee_to f) (fee_to g)) as [L|L]; cbn [map fee_to].
    + constructor; [done|]. constructor; [done|].
      eapply Forall_impl; [exact H2|]. intros; cbn in *; lia.
    + constructor; [by apply IH|]. apply Forall_forall. intros x Hx.
      apply bt_add_accounts in Hx as [->|Hx]; [lia|].
      rewrite Forall_forall in H2. by apply H2.
Qed.

Lemma fees_to_absent x m : x ∉ accounts m -> fees_to x m = 0.
Proof.
  induction m as [|g m IH]; [done|]. cbn [map]. rewrite not_elem_of_cons. intros [H1 H2].
  rewrite fees_to_cons. destruct (N.eqb_spec (fee_to g) x); [congruence|]. rewrite IH by done. done.
Qed.

Lemma bt_add_fees_to m f x : bt_sorted m ->
  fees_to x (bt_add m f) = if fee_to f =? x then sat128 (fees_to x m + fee_amount f) else fees_to x m.
Proof.
  unfold bt_sorted. induction m as [|g m IH]; cbn [bt_add map]; intros H.
  - rewrite fees_to_cons, fees_to_nil. cbn [fee_to fee_amount].
    destruct (N.eqb_spec (fee_to f) x); cbn [ind]; unfold sat128; lia.
  - inversion H as [|? ? H1 H2]; subst. rewrite Forall_forall in H2.
    destruct (N.eqb_spec (fee_to f) (fee_to g)) as [E|E].
    + rewrite !fees_to_cons; cbn [fee_to fee_amount]. rewrite E.
      destruct (N.eqb_spec (fee_to g) x) as [Hx|?]; cbn [ind]; [clear IH; subst x|done].
      assert (fees_to (fee_to g) m = 0). { apply fees_to_absent. intros Hin. apply H2 in Hin. lia. }
      unfold sat128. lia.
    + destruct (N.ltb_spec (fee_to f) (fee_to g)) as [L|L].
      * rewrite (fees_to_cons x (Fee _ _ _)); cbn [fee_to fee_amount].
        destruct (N.eqb_spec (fee_to f) x) as [Hx|?]; cbn [ind]; [clear IH; subst x|lia].
        assert (fees_to (fee_to f) (g :: m) = 0).
        { apply fees_to_absent. cbn [map]. rewrite not_elem_of_cons. split; [done|]. intros Hin. apply H2 in Hin. lia. }
        unfold sat128. lia.
      * rewrite !fees_to_cons, IH by done.
        destruct (N.eqb_spec (fee_to f) x) as [Hx|?]; [clear IH; subst x|done].
        destruct (N.eqb_spec (fee_to g) (fee_to f)); [congruence|]. cbn [ind]. f_equal; lia.
Qed.

Lemma bt_add_sum m f : fee_sum m + fee_amount f <= u128_max -> fee_sum (bt_add m f) = fee_sum m + fee_amount f.
Proof.
  induction m as [|g m IH]; cbn [bt_add]; rewrite ?fee_sum_cons; intros H.
  - unfold fee_sum, sat128 in *; cbn [foldr fee_amount] in *. lia.
  - destruct (_ =? _); [rewrite fee_sum_cons; cbn [fee_amount]; unfold sat128; lia|].
    destruct (_ <? _); rewrite !fee_sum_cons; cbn [fee_amount]; [unfold sat128; lia|].
    rewrite IH; lia.
Qed.

Lemma merge_app l f : fmerge (l ++ [f]) = bt_add (fmerge l) f.
Proof. unfold fmerge. by rewrite fold_left_app. Qed.

Lemma merge_sorted l : bt_sorted (fmerge l).
Proof.
  induction l as [|f l IH] using rev_ind; [constructor|]. rewrite merge_app. by apply bt_add_sorted.
Qed.

Lemma merge_accounts l x : x ∈ accounts (fmerge l) <-> x ∈ accounts l.
Proof.
  induction l as [|f l IH] using rev_ind; [done|].
  rewrite merge_app, bt_add_accounts, IH, map_app, elem_of_app. cbn [map]. rewrite elem_of_list_singleton. naive_solver.
Qed.

Lemma merge_fees_to l x : fees_to x (fmerge l) = sat128 (fees_to x l).
Proof.
  induction l as [|f l IH] using rev_ind; [done|].
  rewrite merge_app, bt_add_fees_to by apply merge_sorted. rewrite fees_to_app, fees_to_cons, fees_to_nil, IH.
  destruct (N.eqb_spec (fee_to f) x); cbn [ind]; unfold sat128; lia.
Qed.

Lemma merge_sum l : fee_sum l <= u128_max -> fee_sum (fmerge l) = fee_sum l.
Proof.
  induction l as [|f l IH] using rev_ind; [done|].
  rewrite merge_app, fee_sum_app. unfold fee_sum at 2; cbn [foldr]. intros H.
  rewrite bt_add_sum; rewrite IH; unfold fee_sum in *; cbn [foldr] in *; lia.
Qed.

(** No two entries for the same account disagree on whether the fee is due in a dispute. *)
Lemma bt_add_front m f : (forall x, x ∈ accounts m -> fee_to f < x) ->
  bt_add m f = Fee (fee_to f) (sat128 (0 + fee_amount f)) (fee_mandatory f) :: m.
Proof.
  destruct m as [|g m]; [done|]. intros H. cbn [bt_add].
  assert (fee_to f < fee_to g) by (apply H; cbn [map]; apply elem_of_list_here).
  destruct (N.eqb_spec (fee_to f) (fee_to g)); [lia|]. destruct (N.ltb_spec (fee_to f) (fee_to g)); [done|lia].
Qed.

Lemma mandatory_cons f l : mandatory_fees (f :: l) = if fee_mandatory f then f :: mandatory_fees l else mandatory_fees l.
Proof. unfold mandatory_fees. rewrite filter_cons. destruct (decide _) as [E|E]; [by rewrite E|by destruct (fee_mandatory f)]. Qed.

Lemma elem_of_accounts m x : x ∈ accounts m <-> exists g, g ∈ m /\ fee_to g = x.
Proof. rewrite elem_of_list_fmap. naive_solver. Qed.

Lemma mandatory_bt_add m f : bt_sorted m -> (forall g, g ∈ m -> fee_to g = fee_to f -> fee_mandatory g = fee_mandatory f) ->
  mandatory_fees (bt_add m f) = if fee_mandatory f then bt_add (mandatory_fees m) f else mandatory_fees m.
Proof.
  unfold bt_sorted. induction m as [|g m IH]; cbn [bt_add map]; intros H Hu.
  - rewrite mandatory_cons; cbn [fee_mandatory].
    destruct (fee_mandatory f) eqn:Ef; [|done]. change (mandatory_fees []) with (@nil fee). cbn [bt_add]. by rewrite Ef.
  - inversion H as [|? ? H1 H2]; subst. rewrite Forall_forall in H2.
    destruct (N.eqb_spec (fee_to f) (fee_to g)) as [E|E].
    + rewrite !mandatory_cons; cbn [fee_mandatory].
      assert (Hg : fee_mandatory g = fee_mandatory f) by (apply Hu; [apply elem_of_list_here|done]).
      destruct (fee_mandatory g) eqn:Eg; rewrite <-Hg; [|done]. cbn [bt_add].
      destruct (N.eqb_spec (fee_to f) (fee_to g)); [by rewrite Eg|congruence].
    + destruct (N.ltb_spec (fee_to f) (fee_to g)) as [L|L].
      * rewrite (mandatory_cons (Fee _ _ _)); cbn [fee_mandatory].
        destruct (fee_mandatory f) eqn:Ef; [|done]. rewrite bt_add_front; [by rewrite Ef, mandatory_cons|].
        intros x Hx. apply elem_of_accounts in Hx as (h & Hh & <-).
        apply elem_of_list_filter in Hh as [_ Hh]. apply elem_of_cons in Hh as [->|Hh]; [done|].
        assert (fee_to g < fee_to h) by (apply H2, elem_of_accounts; eauto). lia.
      * rewrite !mandatory_cons, IH; [|done|intros; apply Hu; [by apply elem_of_list_further|done]].
        destruct (fee_mandatory g), (fee_mandatory f); try done. cbn [bt_add].
        destruct (N.eqb_spec (fee_to f) (fee_to g)); [congruence|].
        destruct (N.ltb_spec (fee_to f) (fee_to g)); [lia|done].
Qed.

(** The flag kept for an account is that of its first entry. *)
Lemma bt_add_mem m f h : h ∈ bt_add m f ->
  (fee_to h = fee_to f /\ (fee_mandatory h = fee_mandatory f \/ exists g, g ∈ m /\ fee_to g = fee_to h /\ fee_mandatory g = fee_mandatory h))
  \/ h ∈ m.
Proof.
  induction m as [|g m IH]; cbn [bt_add].
  - rewrite elem_of_list_singleton. intros ->. cbn. naive_solver.
  - destruct (N.eqb_spec (fee_to f) (fee_to g)) as [E|E].
    + rewrite elem_of_cons. intros [->|H]; cbn.
      * left. split; [done|]. right. exists g. split; [apply elem_of_list_here|done].
      * right. by apply elem_of_list_further.
    + destruct (_ <? _).
      * rewrite elem_of_cons. intros [->|H]; cbn; naive_solver.
      * rewrite elem_of_cons. intros [->|H]; [right; apply elem_of_list_here|].
        destruct (IH H) as [[H1 [H2|(k & H3 & H4)]]|H2].
        -- left. auto.
        -- left. split; [done|]. right. exists k. split; [by apply elem_of_list_further|done].
        -- right. by apply elem_of_list_further.
Qed.

Lemma merge_mem l h : h ∈ fmerge l -> exists g, g ∈ l /\ fee_to g = fee_to h /\ fee_mandatory g = fee_mandatory h.
Proof.
  induction l as [|f l IH] using rev_ind; [intros H; by apply elem_of_nil in H|].
  rewrite merge_app. intros H. apply bt_add_mem in H as [[H1 [H2|(g & H2 & H3 & H4)]]|H].
  - exists f. split; [apply elem_of_app; right; apply elem_of_list_here|]. done.
  - apply (bt_add_mem (fmerge l) f) in H2 as H5 || idtac.
    (* [g] is in the merged prefix with the same account and flag *)
    assert (Hg : exists k, k ∈ l /\ fee_to k = fee_to g /\ fee_mandatory k = fee_mandatory g).
    { clear -H2. revert g H2. induction l as [|f l IH] using rev_ind; intros g H2; [by apply elem_of_nil in H2|].
      rewrite merge_app in H2. apply bt_add_mem in H2 as [[H1 [H3|(g' & H3 & H4 & H5)]]|H3].
      - exists f. split; [apply elem_of_app; right; apply elem_of_list_here|done].
      - destruct (IH g' H3) as (k & ? & ? & ?). exists k. split; [apply elem_of_app; by left|]. split; congruence.
      - destruct (IH g H3) as (k & ? & ?). exists k. split; [apply elem_of_app; by left|done]. }
    destruct Hg as (k & ? & ? & ?). exists k. split; [apply elem_of_app; by left|]. split; congruence.
  - destruct (IH H) as (g & ? & ?). exists g. split; [apply elem_of_app; by left|done].
Qed.

Lemma mandatory_app l1 l2 : mandatory_fees (l1 ++ l2) = mandatory_fees l1 ++ mandatory_fees l2.
Proof. apply filter_app. Qed.

Lemma mandatory_merge l : consistent_flags l -> mandatory_fees (fmerge l) = fmerge (mandatory_fees l).
Proof.
  induction l as [|f l IH] using rev_ind; [done|]. intros Hc.
  assert (Hc' : consistent_flags l).
  { intros g h Hg Hh. apply Hc; apply elem_of_app; by left. }
  rewrite merge_app, mandatory_bt_add, IH, mandatory_app; [|done|apply merge_sorted|].
  - rewrite mandatory_cons. destruct (fee_mandatory f).
    + by rewrite merge_app.
    + by rewrite app_nil_r.
  - intros g Hg Ht. apply merge_mem in Hg as (k & Hk & Hk1 & Hk2). rewrite <-Hk2.
    apply Hc; [apply elem_of_app; by left|apply elem_of_app; right; apply elem_of_list_here|]. congruence.
Qed.

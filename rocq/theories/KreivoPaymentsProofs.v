(** Proofs about payments on Kreivo. *)
From Verif Require Import BaseProofs XcmTypes OriginTypes PaymentIdModel PaymentIdProofs FeesModel LedgerModel PaymentsModel PaymentsSpec
  LedgerProofs FeesProofs PaymentsProofs PaymentsInvariants PaymentsHistories PaymentsTheorems PaymentsAmounts PaymentsMore
  AccountsModel AccountsProofs KreivoPaymentsModel KreivoPaymentsSpec.
From stdpp Require Import gmap.
Open Scope N_scope.

Lemma is_community_spec x : account_wf x -> (is_community x = true <-> exists c, c <= u16_max /\ x = community_account c).
Proof.
  intros Hx. unfold is_community. split.
  - destruct (try_from_sub_account x) as [[p c]|] eqn:E; [|discriminate]. intros H. apply bool_decide_eq_true in H as <-.
    apply try_from_sub_inv in E as (_ & Hc & ->); [|done]. eauto.
  - intros (c & Hc & ->). unfold community_account. rewrite (try_from_sub _ c community_pallet_wf Hc).
    by rewrite bool_decide_eq_true_2.
Qed.

Lemma treasury_bytes :
  account_bytes treasury_account = [109; 111; 100; 108] ++ [112; 121; 47; 116; 114; 115; 114; 121] ++ replicate 20 0.
Proof. vm_compute. done. Qed.

Lemma floor_spec p x q : percent_mul_floor p x = q <-> 100 * q <= p * x < 100 * (q + 1).
Proof.
  unfold percent_mul_floor. split.
  - intros <-. pose proof (N.div_mod (x * p) 100 ltac:(lia)). pose proof (N.mod_lt (x * p) 100 ltac:(lia)). lia.
  - intros H. symmetry. apply N.div_unique with (r := x * p - 100 * q); lia.
Qed.

Lemma floor_le p x : p <= 100 -> percent_mul_floor p x <= x.
Proof. intros H. unfold percent_mul_floor. apply N.div_le_upper_bound; [lia|]. nia. Qed.

Lemma kreivo_fees_spec min a s b amount remark :
  account_wf s -> account_wf b ->
  exists q1 q3, 100 * q1 <= amount < 100 * (q1 + 1) /\ 100 * q3 <= 3 * amount < 100 * (q3 + 1) /\
    let f := kreivo_fees min a s b amount remark in
    ((exists c, c <= u16_max /\ s = community_account c) -> sender_pays f = []) /\
    ((exists c, c <= u16_max /\ b = community_account c) -> beneficiary_pays f = []) /\
    (~ (exists c, c <= u16_max /\ s = community_account c) -> sender_pays f = [Fee treasury_account (N.max (min a) q1) true]) /\
    (~ (exists c, c <= u16_max /\ b = community_account c) -> beneficiary_pays f = [Fee treasury_account (N.max (min a) q3) true]) /\
    (forall x, x ∈ sender_pays f ++ beneficiary_pays f -> fee_amount x <= N.max (min a) amount).
Proof.
  intros Hs Hb. exists (percent_mul_floor 1 amount), (percent_mul_floor 3 amount).
  split; [pose proof (proj1 (floor_spec 1 amount _) eq_refl); lia|].
  split; [apply (floor_spec 3 amount _); done|]. cbv zeta. unfold kreivo_fees. cbn [sender_pays beneficiary_pays].
  rewrite <- (is_community_spec s Hs), <- (is_community_spec b Hb).
  split; [by intros ->|]. split; [by intros ->|].
  split; [intros H; by destruct (is_community s)|]. split; [intros H; by destruct (is_community b)|].
  intros x. rewrite elem_of_app.
  assert (percent_mul_floor 1 amount <= amount) by (apply floor_le; lia).
  assert (percent_mul_floor 3 amount <= amount) by (apply floor_le; lia).
  intros [Hx|Hx].
  - destruct (is_community s); [by apply elem_of_nil in Hx|]. apply elem_of_list_singleton in Hx as ->. cbn.
    unfold sender_fee_percent. lia.
  - destruct (is_community b); [by apply elem_of_nil in Hx|]. apply elem_of_list_singleton in Hx as ->. cbn.
    unfold beneficiary_fee_percent. lia.
Qed.

(* ------------------------------------------------------------------ *)
(** * Every record on Kreivo carries Kreivo's fees *)

Definition kreivo_record (k : N * N) (d : detail) : Prop :=
  d_amount d <= u128_max /\ exists min remark, (forall a, min a <= u128_max) /\
    d_fees d = kreivo_fees min (d_asset d) (fst k) (d_beneficiary d) (d_amount d) remark.

Lemma kreivo_record_insert (m : gmap (N * N) detail) k d :
  map_Forall kreivo_record m -> kreivo_record k d -> map_Forall kreivo_record (<[k := d]> m).
Proof. intros Hm Hd. by apply map_Forall_insert_2. Qed.

Lemma kreivo_record_set_state k d s : kreivo_record k d -> kreivo_record k (set_state d s).
Proof. done. Qed.

Lemma kreivo_exec e st o call :
  kreivo_fee_step (SCall o call e) -> map_Forall kreivo_record (st_pays st) ->
  map_Forall kreivo_record (st_pays (exec kreivo_payments e st o call)).
Proof.
  intros [[Hf Hm] Ha] H. unfold exec. destruct (dispatch _ _ _ _ _) as [st'|] eqn:E; [|done].
  apply dispatch_record in E. destruct E; cbn [st_pays];
    try (apply kreivo_record_insert; [done|]; apply kreivo_record_set_state; by eapply (H (_, _))).
  - apply kreivo_record_insert; [done|]. rewrite (cr_d _ _ _ _ _ _ _ _ _ _ _ H2). split; [done|].
    eexists _, _. cbn. rewrite Hf. by split.
  - apply kreivo_record_insert; [done|]. rewrite (cr_d _ _ _ _ _ _ _ _ _ _ _ H2). split; [done|].
    eexists _, _. cbn. rewrite Hf. by split.
  - by apply map_Forall_delete.
Qed.

Lemma kreivo_step st s :
  kreivo_fee_step s -> map_Forall kreivo_record (st_pays st) -> map_Forall kreivo_record (st_pays (run_step kreivo_payments st s)).
Proof.
  intros Hs H. destruct s; cbn [run_step]; try done.
  - by apply kreivo_exec.
  - destruct (st_agenda st !! id) as [[due who]|]; [|done]. destruct (due <=? st_now st); [|done].
    apply kreivo_exec; [|done]. by split.
Qed.

Lemma kreivo_reachable_record st k d : kreivo_reachable st -> st_pays st !! k = Some d -> kreivo_record k d.
Proof.
  intros (f & now & steps & HF & ->).
  assert (H : forall st, map_Forall kreivo_record (st_pays st) -> map_Forall kreivo_record (st_pays (run kreivo_payments st steps))).
  { induction HF as [|s steps Hs HF IH]; intros st0 H0; [done|]. cbn. apply IH. by apply kreivo_step. }
  intros Hk. eapply H; [|exact Hk]. cbn. apply map_Forall_empty.
Qed.

Lemma kreivo_reachable_reachable st : kreivo_reachable st -> reachable kreivo_payments st.
Proof. intros (f & now & steps & _ & ->). by exists f, now, steps. Qed.

Definition all_mandatory (l : list fee) : Prop := Forall (fun f => fee_mandatory f = true) l.

Lemma kreivo_fee_lists st s id d : kreivo_reachable st -> st_pays st !! (s, id) = Some d ->
  all_mandatory (sender_pays (d_fees d)) /\ all_mandatory (beneficiary_pays (d_fees d)) /\
  fee_sum (sender_pays (d_fees d)) <= u128_max /\ fee_sum (beneficiary_pays (d_fees d)) <= u128_max.
Proof.
  intros Hr Hd. destruct (kreivo_reachable_record st (s, id) d Hr Hd) as [Ha (min & remark & Hm & E)]. rewrite E. cbn [fst].
  assert (percent_mul_floor 1 (d_amount d) <= d_amount d) by (apply floor_le; lia).
  assert (percent_mul_floor 3 (d_amount d) <= d_amount d) by (apply floor_le; lia).
  specialize (Hm (d_asset d)). unfold kreivo_fees, all_mandatory, sender_fee_percent, beneficiary_fee_percent.
  cbn [sender_pays beneficiary_pays].
  destruct (is_community s), (is_community (d_beneficiary d)); cbn [fee_sum foldr fee_amount]; split_and!;
    try lia; repeat constructor.
Qed.

Lemma all_mandatory_consistent l : all_mandatory l -> consistent_flags l.
Proof. intros H f g Hf Hg _. unfold all_mandatory in H. rewrite Forall_forall in H. by rewrite (H f Hf), (H g Hg). Qed.

Lemma all_mandatory_filter l : all_mandatory l -> mandatory_fees l = l.
Proof. induction 1 as [|f l Hf Hl IH]; [done|]. unfold mandatory_fees in *. rewrite filter_cons_True by done. by rewrite IH. Qed.

Lemma kreivo_resolve e st o id r st' :
  kreivo_reachable st -> dispatch kreivo_payments e st o (CResolveDispute id r) = POk st' ->
  exists s d b1 b2, o = ORoot /\ st_pays st !! (s, id) = Some d /\ d_state d = NeedsReview /\
    st_pays st' = <[(s, id) := set_state d Finished]> (st_pays st) /\
    (b1 = 0 \/ b1 < ext_min_balance (env_ext e) (d_asset d)) /\ (b2 = 0 \/ b2 < ext_min_balance (env_ext e) (d_asset d)) /\
    let ben := d_beneficiary d in let fs := fee_sum (sender_pays (d_fees d)) in let fb := fee_sum (beneficiary_pays (d_fees d)) in
    let loser := match in_favor_of r with RSender => ben | RBeneficiary => s end in
    let to_sender := match in_favor_of r with
                     | RSender => share (percent_beneficiary r) (d_amount d)
                     | RBeneficiary => d_amount d - share (percent_beneficiary r) (d_amount d)
                     end in
    (forall x, held (st_ledger st') (d_asset d) x + ind (x =? s) (sender_escrow d) + ind (x =? ben) (d_amount d + d_incentive d) =
               held (st_ledger st) (d_asset d) x) /\
    (forall x, free (st_ledger st') (d_asset d) x + ind (x =? s) fs + ind (x =? ben) fb
               + ind (x =? loser) (d_incentive d + b1) + ind (x =? ben) (to_sender + b2) =
               free (st_ledger st) (d_asset d) x
               + ind (x =? s) (sender_escrow d) + ind (x =? ben) (d_amount d + d_incentive d)
               + ind (x =? treasury_account) (d_incentive d + fs + fb) + ind (x =? s) to_sender).
Proof.
  intros Hr H. pose proof (kreivo_reachable_reachable st Hr) as Hr'.
  destruct (resolve_exact kreivo_payments e st o id r st' Hr' H) as
    (rs & s & d & b1 & b2 & Ho & Hd & Hst & Hpa & Hp & Hb1 & Hb2 & Hh & Hf & _).
  destruct (kreivo_fee_lists st s id d Hr Hd) as (M1 & M2 & S1 & S2).
  exists s, d, b1, b2. split; [by destruct o|].
  assert (rs = treasury_account) as -> by (destruct o; try discriminate Ho; exact (eq_sym (f_equal (default 0) Ho))).
  cbv zeta in *. split_and!; [done..|]. intros x. specialize (Hf S1 S2 (all_mandatory_consistent _ M1) (all_mandatory_consistent _ M2) x).
  rewrite (all_mandatory_filter _ M1), (all_mandatory_filter _ M2) in Hf.
  assert (HT : forall l, (exists y, l = [Fee treasury_account y true]) \/ l = [] -> fees_to x l = ind (x =? treasury_account) (fee_sum l)).
  { intros l [(y & ->)| ->].
    - unfold fees_to. rewrite filter_cons. cbn [fee_to]. destruct (N.eqb_spec x treasury_account) as [E|E].
      + rewrite decide_True by done. done.
      + rewrite decide_False by congruence. done.
    - by destruct (x =? treasury_account). }
  assert (HK : forall b y, (exists z, (if b : bool then [] else [Fee treasury_account y true]) = [Fee treasury_account z true]) \/
                           (if b : bool then [] else [Fee treasury_account y true]) = []) by (intros [] y; [by right|left; by exists y]).
  destruct (kreivo_reachable_record st (s, id) d Hr Hd) as [Ha (min & remark & Hm & E)].
  rewrite (HT (sender_pays _)) in Hf by (rewrite E; apply HK). rewrite (HT (beneficiary_pays _)) in Hf by (rewrite E; apply HK).
  assert (forall b n m, ind b (n + m) = ind b n + ind b m) as HI by (by intros []).
  rewrite !HI in *. lia.
Qed.

(* ------------------------------------------------------------------ *)
(** * Ids *)

Lemma kreivo_id_number_inj b1 i1 ben1 b2 i2 ben2 id :
  b1 <= u32_max -> b2 <= u32_max -> (forall i, i1 = Some i -> i <= u16_max) -> (forall i, i2 = Some i -> i <= u16_max) ->
  kreivo_id_number b1 i1 ben1 = Some id -> kreivo_id_number b2 i2 ben2 = Some id -> (b1, i1) = (b2, i2).
Proof.
  intros Hb1 Hb2 Hi1 Hi2. unfold kreivo_id_number.
  destruct i1 as [i1|]; [|cbn; discriminate]. destruct i2 as [i2|]; [|cbn; discriminate].
  specialize (Hi1 _ eq_refl). specialize (Hi2 _ eq_refl).
  destruct kreivo_next_id_unique_full as [U1 U2].
  destruct (U2 b1 i1 (account_bytes ben1) Hb1 (account_bytes_is_bytes _) (account_bytes_length _)) as (p1 & E1 & W1).
  destruct (U2 b2 i2 (account_bytes ben2) Hb2 (account_bytes_is_bytes _) (account_bytes_length _)) as (p2 & E2 & W2).
  rewrite E1, E2. intros [= <-] [= E]. apply pid_u64_bijection in E; [|done..]. subst p2.
  destruct (U1 _ _ _ _ _ _ _ Hi1 Hi2 E1 E2) as (-> & -> & _). done.
Qed.

Lemma made_id st steps id :
  kreivo_id_history st steps -> id ∈ new_ids (map fst steps) ->
  exists b i ben, b <= u32_max /\ (forall j, i = Some j -> j <= u16_max) /\ (b, i) ∈ made_in st steps /\ kreivo_id_number b i ben = Some id.
Proof.
  revert st. induction steps as [|[s ix] steps IH]; intros st; [intros _ H; by apply elem_of_nil in H|].
  intros [(Hn & Hi & Hs) Hr]. cbn [map fst]. rewrite new_ids_cons, elem_of_app. intros [Hid|Hid].
  - destruct s as [o [] e|?|?| |? ?]; cbn [step_new_id fst] in Hid, Hs; try by apply elem_of_nil in Hid.
    + destruct Hs as (ben & _ & He). rewrite He in Hid. destruct (kreivo_id_number _ _ _) eqn:E; [|by apply elem_of_nil in Hid].
      apply elem_of_list_singleton in Hid as ->. exists (st_now st), ix, ben. split_and!; try done. cbn. left.
    + destruct Hs as (ben & _ & He). rewrite He in Hid. destruct (kreivo_id_number _ _ _) eqn:E; [|by apply elem_of_nil in Hid].
      apply elem_of_list_singleton in Hid as ->. exists (st_now st), ix, ben. split_and!; try done. cbn. left.
  - destruct (IH _ Hr Hid) as (b & i & ben & H1 & H2 & H3 & H4). exists b, i, ben. split_and!; try done.
    cbn [made_in]. apply elem_of_app. by right.
Qed.

Lemma kreivo_ids_distinct st steps :
  kreivo_id_history st steps -> NoDup (made_in st steps) -> NoDup (new_ids (map fst steps)).
Proof.
  revert st. induction steps as [|[s ix] steps IH]; intros st; [constructor|].
  intros [(Hn & Hi & Hs) Hr] Hd. cbn [made_in] in Hd. apply NoDup_app in Hd as (_ & Hx & Hd).
  cbn [map fst]. rewrite new_ids_cons. specialize (IH _ Hr Hd).
  assert (K : forall ben id, kreivo_id_number (st_now st) ix ben = Some id -> (st_now st, ix) ∉ made_in (run_step kreivo_payments st s) steps ->
              id ∉ new_ids (map fst steps)).
  { intros ben id E Hnot Hin. destruct (made_id _ _ _ Hr Hin) as (b & i & ben' & H1 & H2 & H3 & H4).
    apply Hnot. by rewrite (kreivo_id_number_inj (st_now st) ix ben b i ben' id). }
  destruct s as [o [] e|?|?| |? ?]; cbn [step_new_id fst app] in *; try exact IH.
  - destruct Hs as (ben & _ & He). rewrite He. destruct (kreivo_id_number _ _ _) eqn:E; [|exact IH].
    constructor; [|exact IH]. eapply K; [exact E|]. apply Hx. left.
  - destruct Hs as (ben & _ & He). rewrite He. destruct (kreivo_id_number _ _ _) eqn:E; [|exact IH].
    constructor; [|exact IH]. eapply K; [exact E|]. apply Hx. left.
Qed.

Lemma kreivo_beneficiary_signs : beneficiary_signs kreivo_payments.
Proof. intros w. by left. Qed.

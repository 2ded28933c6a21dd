(** How payments come to an end: decisions of the resolver, refunds nobody objects to, what stays in storage. *)
From Verif Require Import BaseProofs XcmTypes OriginTypes PaymentIdModel FeesModel LedgerModel PaymentsModel PaymentsSpec LedgerProofs FeesProofs
  PaymentsProofs PaymentsInvariants PaymentsHistories PaymentsTheorems PaymentsAmounts PaymentsMore
  PaymentsEndsSpec AccountsModel KreivoPaymentsModel KreivoPaymentsSpec KreivoPaymentsProofs.
From stdpp Require Import gmap.
Open Scope N_scope.

(* ------------------------------------------------------------------ *)
(** * Decisions of the resolver *)

Lemma charged_possible e a from m dis l :
  permissive e -> fee_sum (charged dis m) <= free l a from -> issuance l a <= u128_max ->
  exists l', try_transfer_fees e l from a m dis = POk l'.
Proof.
  intros Hok. revert l. induction m as [|f m IH]; intros l Hs Hi; cbn [try_transfer_fees]; [eauto|].
  destruct (negb dis || fee_mandatory f) eqn:E.
  - assert (Hc : charged dis (f :: m) = f :: charged dis m).
    { unfold charged. destruct dis; [|done]. rewrite mandatory_cons. cbn [negb orb] in E. by rewrite E. }
    rewrite Hc, fee_sum_cons in Hs.
    destruct (ledger_transfer_ok (env_ext e) l a from (fee_to f) (fee_amount f) Preserve Hok) as [l1 H1]; [lia|done|].
    rewrite H1. cbn [ok_or pbind].
    apply transfer_effect in H1 as (b & (Ef & _ & _ & Ei) & _ & _ & Hb & _). specialize (Hb eq_refl). subst b.
    apply IH.
    + specialize (Ef a from). unfold plus2 in Ef. rewrite !at2_asset, !N.eqb_refl in Ef. cbn [ind] in Ef. lia.
    + specialize (Ei a). unfold at1 in Ei. rewrite N.eqb_refl in Ei. cbn [ind] in Ei. lia.
  - apply IH; [|done]. destruct dis; [|done]. cbn [negb orb] in E. cbn [charged] in *. rewrite mandatory_cons, E in Hs. done.
Qed.

(** A transfer burns nothing if what stays is not below the minimum balance. *)
Lemma transfer_no_dust e l a s d n l' :
  ledger_transfer e l a s d n Expendable = Some l' -> (ext_min_balance e a <= free l a s - n \/ s = d) ->
  free l' a s + n = free l a s + ind (d =? s) n.
Proof.
  unfold ledger_transfer. destruct (_ && _) eqn:E; [|done]. apply andb_true_iff in E as [_ E]. apply N.leb_le in E.
  destruct (N.eqb_spec s d) as [->|Hne].
  - intros [= <-] _. rewrite N.eqb_refl. cbn [ind]. lia.
  - destruct (fits _); [|done]. intros H [Hm|Hm]; [|done].
    destruct (N.ltb_spec (free l a s - n) (ext_min_balance e a)); [lia|]. cbn [andb] in H. injection H as <-.
    rewrite !free_set_free, !N.eqb_refl. destruct (N.eqb_spec d s); [congruence|]. cbn [andb ind]. lia.
Qed.

Lemma review_escrow c st s id d :
  reachable c st -> st_pays st !! (s, id) = Some d -> d_state d = NeedsReview -> s <> d_beneficiary d ->
  sender_escrow d <= held (st_ledger st) (d_asset d) s /\
  d_amount d + d_incentive d <= held (st_ledger st) (d_asset d) (d_beneficiary d) /\ d_amount d + d_incentive d <= u128_max.
Proof.
  intros Hr Hp Hs Hne. destruct (reachable_inv c st Hr) as [_ Hbk].
  assert (He : total_hold d true = sender_escrow d) by (apply total_hold_escrow; by rewrite Hs).
  destruct (Hbk (d_asset d) s) as [B1 _]. destruct (Hbk (d_asset d) (d_beneficiary d)) as [B2 B3]. unfold escrow in B1, B2.
  pose proof (gsum_ge (escrow_of (d_asset d) s) (s, id) d (st_pays st) Hp) as G1.
  pose proof (gsum_ge (escrow_of (d_asset d) (d_beneficiary d)) (s, id) d (st_pays st) Hp) as G2.
  rewrite (escrow_of_review _ _ s id d true Hs), He, !at2_asset, ?N.eqb_refl in G1.
  rewrite (escrow_of_review _ _ s id d true Hs), He, !at2_asset, ?N.eqb_refl in G2.
  destruct (N.eqb_spec (d_beneficiary d) s); [congruence|]. destruct (N.eqb_spec s (d_beneficiary d)); [congruence|].
  cbn [ind] in *. lia.
Qed.

Lemma resolve_needs c e st o s id d r resolver st' :
  reachable c st -> dispatch c e st o (CResolveDispute id r) = POk st' ->
  cfg_resolver_origin c o = Some resolver -> st_parties st !! id = Some (s, d_beneficiary d) -> st_pays st !! (s, id) = Some d ->
  s <> d_beneficiary d -> resolver <> d_beneficiary d ->
  let S := sender_pays (d_fees d) in let B := beneficiary_pays (d_fees d) in
  fee_sum S <= u128_max -> fee_sum B <= u128_max -> consistent_flags S -> consistent_flags B ->
  fees_to (d_beneficiary d) (mandatory_fees S) = 0 -> fees_to (d_beneficiary d) (mandatory_fees B) = 0 ->
  fee_sum (mandatory_fees B) + decided_to_sender r d <=
    free (st_ledger st) (d_asset d) (d_beneficiary d) + d_amount d + match in_favor_of r with RSender => 0 | RBeneficiary => d_incentive d end.
Proof.
  intros Hr H Ho Hpa Hp Hne Hrn S B HS HB CS CB F1 F2.
  destruct (resolve_exact c e st o id r st' Hr H) as (rs & s' & d' & b1 & b2 & Ho' & Hp' & _ & Hpa' & _ & _ & _ & _ & Hf & _).
  rewrite Hpa in Hpa'. injection Hpa' as <- Hb. rewrite Hp in Hp'. injection Hp' as <-. rewrite Ho in Ho'. injection Ho' as <-.
  specialize (Hf HS HB CS CB (d_beneficiary d)). fold S B in Hf. rewrite F1, F2, !N.eqb_refl in Hf.
  destruct (N.eqb_spec (d_beneficiary d) s); [congruence|]. destruct (N.eqb_spec (d_beneficiary d) resolver); [congruence|].
  unfold decided_to_sender. destruct (in_favor_of r); cbn [ind] in Hf.
  - rewrite N.eqb_refl in Hf. cbn [ind] in Hf. lia.
  - destruct (N.eqb_spec (d_beneficiary d) s); [congruence|]. cbn [ind] in Hf. lia.
Qed.

Lemma resolve_possible c e st o s id d r resolver :
  reachable c st -> st_pays st !! (s, id) = Some d -> d_state d = NeedsReview ->
  st_parties st !! id = Some (s, d_beneficiary d) -> cfg_resolver_origin c o = Some resolver ->
  permissive e -> issuance (st_ledger st) (d_asset d) <= u128_max -> s <> d_beneficiary d -> resolver <> d_beneficiary d ->
  let S := sender_pays (d_fees d) in let B := beneficiary_pays (d_fees d) in
  fee_sum S + d_incentive d <= u128_max -> fee_sum B <= u128_max -> consistent_flags S -> consistent_flags B ->
  (decided_to_sender r d = 0 \/ ext_min_balance (env_ext e) (d_asset d) <= decided_to_sender r d) ->
  fee_sum (mandatory_fees B) + decided_to_sender r d <=
    free (st_ledger st) (d_asset d) (d_beneficiary d) + d_amount d + match in_favor_of r with RSender => 0 | RBeneficiary => d_incentive d end ->
  exists st', dispatch c e st o (CResolveDispute id r) = POk st'.
Proof.
  intros Hr Hp Hs Hpa Ho Hok Hi Hne Hrn S B HS HB CS CB Hdust Hcan.
  destruct (review_escrow c st s id d Hr Hp Hs Hne) as (V1 & V2 & V3).
  assert (He : total_hold d true = sender_escrow d) by (apply total_hold_escrow; by rewrite Hs).
  assert (Hse : sender_escrow d = fee_sum S + d_incentive d).
  { unfold sender_escrow. rewrite Hs. cbn [is_open]. unfold S in *. lia. }
  assert (Hsat : sat128 (d_amount d + d_incentive d) = d_amount d + d_incentive d) by (unfold sat128; lia).
  set (ben := d_beneficiary d) in *. set (a := d_asset d) in *.
  assert (Nsb : (s =? ben) = false) by (by apply N.eqb_neq). assert (Nbs : (ben =? s) = false) by (apply N.eqb_neq; congruence).
  destruct (ledger_release_ok (env_ext e) (st_ledger st) a s (total_hold d true)) as [l1 H1]; [done|lia|done|].
  pose proof (release_effect _ _ _ _ _ _ H1) as ((Ef1 & Eh1 & _ & Ei1) & _).
  destruct (ledger_release_ok (env_ext e) l1 a ben (sat128 (d_amount d + d_incentive d))) as [l2 H2]; [done| | |].
  { specialize (Eh1 a ben). unfold none2 in Eh1. rewrite at2_asset, Nsb in Eh1. cbn [ind] in Eh1. lia. }
  { specialize (Ei1 a). unfold none1 in Ei1. lia. }
  pose proof (release_effect _ _ _ _ _ _ H2) as ((Ef2 & Eh2 & _ & Ei2) & _). rewrite Hsat in *.
  pose proof (mandatory_sum_le S). pose proof (mandatory_sum_le B).
  assert (HmS : fee_sum (mandatory_fees (fmerge S)) = fee_sum (mandatory_fees S)) by (rewrite mandatory_merge by done; apply merge_sum; lia).
  assert (HmB : fee_sum (mandatory_fees (fmerge B)) = fee_sum (mandatory_fees B)) by (rewrite mandatory_merge by done; apply merge_sum; lia).
  assert (FS2 : free l2 a s = free (st_ledger st) a s + (fee_sum S + d_incentive d)).
  { specialize (Ef1 a s). specialize (Ef2 a s). unfold none2 in *. rewrite at2_asset, ?N.eqb_refl, ?Nbs in Ef1. rewrite at2_asset, ?N.eqb_refl, ?Nbs in Ef2. cbn [ind] in *. lia. }
  assert (FB2 : free l2 a ben = free (st_ledger st) a ben + (d_amount d + d_incentive d)).
  { specialize (Ef1 a ben). specialize (Ef2 a ben). unfold none2 in *. rewrite at2_asset, ?N.eqb_refl, ?Nsb in Ef1. rewrite at2_asset, ?N.eqb_refl, ?Nsb in Ef2. cbn [ind] in *. lia. }
  assert (I2 : issuance l2 a = issuance (st_ledger st) a).
  { specialize (Ei1 a). specialize (Ei2 a). unfold none1 in *. lia. }
  destruct (charged_possible e a s (fmerge S) true l2) as [l3 H3]; [done|cbn [charged]; lia|lia|].
  pose proof (try_transfer_fees_effect _ _ _ _ _ _ _ H3) as (Ef3 & _ & _ & Ei3). cbn [charged] in *.
  assert (FS3 : fee_sum S + d_incentive d <= free l3 a s + fee_sum (mandatory_fees S)).
  { specialize (Ef3 a s). rewrite at2_asset, N.eqb_refl, fees_in_asset in Ef3. cbn [ind] in Ef3. lia. }
  assert (FB3 : free l2 a ben <= free l3 a ben).
  { specialize (Ef3 a ben). rewrite at2_asset, Nsb, fees_in_asset in Ef3. cbn [ind] in Ef3. lia. }
  assert (I3 : issuance l3 a = issuance (st_ledger st) a) by (specialize (Ei3 a); unfold none1 in *; lia).
  destruct (charged_possible e a ben (fmerge B) true l3) as [l4 H4]; [done| |lia|].
  { cbn [charged]. destruct (in_favor_of r); lia. }
  pose proof (try_transfer_fees_effect _ _ _ _ _ _ _ H4) as (Ef4 & _ & _ & Ei4). cbn [charged] in *.
  assert (FS4 : free l3 a s <= free l4 a s).
  { specialize (Ef4 a s). rewrite at2_asset, Nbs, fees_in_asset in Ef4. cbn [ind] in Ef4. lia. }
  assert (FB4 : free l3 a ben <= free l4 a ben + fee_sum (mandatory_fees B)).
  { specialize (Ef4 a ben). rewrite at2_asset, N.eqb_refl, fees_in_asset in Ef4. cbn [ind] in Ef4. lia. }
  assert (I4 : issuance l4 a = issuance (st_ledger st) a) by (specialize (Ei4 a); unfold none1 in *; lia).
  assert (Hsp : exists l5, split_dispute e l4 s ben d r resolver = POk l5).
  { unfold split_dispute. fold a. unfold decided_to_sender in *.
    assert (Hsh : percent_mul_floor (percent_beneficiary r) (d_amount d) = share (percent_beneficiary r) (d_amount d))
      by (unfold percent_mul_floor, share; by rewrite N.mul_comm). rewrite Hsh.
    set (sh := share (percent_beneficiary r) (d_amount d)) in *. destruct (in_favor_of r).
    - destruct (ledger_transfer_ok (env_ext e) l4 a ben resolver (d_incentive d) Expendable Hok) as [l5 H5]; [lia|lia|].
      rewrite H5. cbn [ok_or pbind].
      pose proof (transfer_effect _ _ _ _ _ _ _ _ H5) as (b & (Ef5 & _ & _ & Ei5) & _ & Hb & _ & _ & Hbf).
      assert (I5 : issuance l5 a <= u128_max).
      { specialize (Ei5 a). unfold at1 in Ei5. rewrite N.eqb_refl in Ei5. cbn [ind] in Ei5. lia. }
      assert (FB5 : sh <= free l5 a ben).
      { destruct Hdust as [->|Hd]; [lia|].
        pose proof (transfer_no_dust _ _ _ _ _ _ _ H5 ltac:(left; fold a; lia)) as Hn.
        destruct (N.eqb_spec resolver ben); [congruence|]. cbn [ind] in Hn. lia. }
      destruct (ledger_transfer_ok (env_ext e) l5 a ben s sh Expendable Hok FB5 I5) as [l6 H6]. rewrite H6. cbn. eauto.
    - destruct (ledger_transfer_ok (env_ext e) l4 a s resolver (d_incentive d) Expendable Hok) as [l5 H5]; [lia|lia|].
      rewrite H5. cbn [ok_or pbind].
      pose proof (transfer_effect _ _ _ _ _ _ _ _ H5) as (b & (Ef5 & _ & _ & Ei5) & _ & Hb & _ & _ & Hbf).
      assert (I5 : issuance l5 a <= u128_max).
      { specialize (Ei5 a). unfold at1 in Ei5. rewrite N.eqb_refl in Ei5. cbn [ind] in Ei5. lia. }
      assert (FB5 : d_amount d - sh <= free l5 a ben).
      { specialize (Ef5 a ben). unfold plus2 in Ef5. rewrite !at2_asset, Nsb in Ef5. cbn [ind] in Ef5. lia. }
      destruct (ledger_transfer_ok (env_ext e) l5 a ben s (d_amount d - sh) Expendable Hok FB5 I5) as [l6 H6]. rewrite H6. cbn. eauto. }
  destruct Hsp as [l5 H5].
  eexists. cbn [dispatch]. unfold resolve_dispute. rewrite Ho. cbn [ok_or pbind]. rewrite Hpa. cbn [ok_or pbind]. rewrite Hp. cbn [ok_or pbind].
  rewrite bool_decide_eq_true_2 by done. cbn [ensure pbind].
  unfold settle_payment. rewrite Hp. cbn [ok_or pbind]. unfold summary_for. rewrite !get_summary_true. fold a. rewrite H1. cbn [ok_or pbind].
  fold ben. rewrite Hsat, H2. cbn [ok_or pbind]. fold S B. rewrite H3. cbn [pbind]. rewrite H4. cbn [pbind]. rewrite H5. cbn [pbind]. reflexivity.
Qed.

Lemma resolve_iff c e st o s id d r resolver :
  reachable c st -> st_pays st !! (s, id) = Some d -> d_state d = NeedsReview ->
  st_parties st !! id = Some (s, d_beneficiary d) -> cfg_resolver_origin c o = Some resolver ->
  permissive e -> issuance (st_ledger st) (d_asset d) <= u128_max -> s <> d_beneficiary d -> resolver <> d_beneficiary d ->
  let S := sender_pays (d_fees d) in let B := beneficiary_pays (d_fees d) in
  fee_sum S + d_incentive d <= u128_max -> fee_sum B <= u128_max -> consistent_flags S -> consistent_flags B ->
  fees_to (d_beneficiary d) (mandatory_fees S) = 0 -> fees_to (d_beneficiary d) (mandatory_fees B) = 0 ->
  let to_sender := decided_to_sender r d in
  (to_sender = 0 \/ ext_min_balance (env_ext e) (d_asset d) <= to_sender) ->
  ((exists st', dispatch c e st o (CResolveDispute id r) = POk st') <->
   fee_sum (mandatory_fees B) + to_sender <=
     free (st_ledger st) (d_asset d) (d_beneficiary d) + d_amount d + match in_favor_of r with RSender => 0 | RBeneficiary => d_incentive d end).
Proof.
  intros Hr Hp Hs Hpa Ho Hok Hi Hne Hrn S B HS HB CS CB F1 F2 to_sender Hd. split.
  - intros [st' H]. apply (resolve_needs c e st o s id d r resolver st'); try done. fold S. lia.
  - intros Hc. by apply (resolve_possible c e st o s id d r resolver).
Qed.

(* ------------------------------------------------------------------ *)
(** * The same on Kreivo *)

Lemma kreivo_no_fee_to st s id d x : kreivo_reachable st -> st_pays st !! (s, id) = Some d -> x <> treasury_account ->
  fees_to x (sender_pays (d_fees d)) = 0 /\ fees_to x (beneficiary_pays (d_fees d)) = 0.
Proof.
  intros Hr Hp Hx. destruct (kreivo_reachable_record st (s, id) d Hr Hp) as [_ (min & remark & _ & E)]. rewrite E.
  assert (K : forall n, fees_to x [Fee treasury_account n true] = 0).
  { intros n. unfold fees_to. rewrite filter_cons_False; [done|]. intros Hc. apply Hx. symmetry. exact Hc. }
  unfold kreivo_fees. cbn [sender_pays beneficiary_pays].
  split; [destruct (is_community _); [done|apply K]|destruct (is_community _); [done|apply K]].
Qed.

Lemma kreivo_resolve_iff e st s id d r :
  kreivo_reachable st -> st_pays st !! (s, id) = Some d -> d_state d = NeedsReview ->
  st_parties st !! id = Some (s, d_beneficiary d) -> s <> d_beneficiary d -> d_beneficiary d <> treasury_account ->
  permissive e -> issuance (st_ledger st) (d_asset d) <= u128_max -> fee_sum (sender_pays (d_fees d)) + d_incentive d <= u128_max ->
  let to_sender := decided_to_sender r d in
  (to_sender = 0 \/ ext_min_balance (env_ext e) (d_asset d) <= to_sender) ->
  ((exists st', dispatch kreivo_payments e st ORoot (CResolveDispute id r) = POk st') <->
   fee_sum (beneficiary_pays (d_fees d)) + to_sender <=
     free (st_ledger st) (d_asset d) (d_beneficiary d) + d_amount d + match in_favor_of r with RSender => 0 | RBeneficiary => d_incentive d end).
Proof.
  intros Hr Hp Hs Hpa Hne Ht Hok Hi Hinc to_sender Hd.
  destruct (kreivo_fee_lists st s id d Hr Hp) as (M1 & M2 & S1 & S2).
  destruct (kreivo_no_fee_to st s id d (d_beneficiary d) Hr Hp Ht) as [T1 T2].
  rewrite <- (all_mandatory_filter _ M2) at 1.
  apply (resolve_iff kreivo_payments e st ORoot s id d r treasury_account); try done.
  - by apply kreivo_reachable_reachable.
  - by apply all_mandatory_consistent.
  - by apply all_mandatory_consistent.
  - by rewrite all_mandatory_filter.
  - by rewrite all_mandatory_filter.
Qed.

(** Whatever the environment: without free funds the beneficiary's fee cannot be paid, and the whole decision fails. *)
Lemma kreivo_resolve_stuck e st s id d r :
  kreivo_reachable st -> st_pays st !! (s, id) = Some d -> st_parties st !! id = Some (s, d_beneficiary d) ->
  s <> d_beneficiary d -> d_beneficiary d <> treasury_account ->
  free (st_ledger st) (d_asset d) (d_beneficiary d) + d_amount d < fee_sum (beneficiary_pays (d_fees d)) + share (percent_beneficiary r) (d_amount d) ->
  in_favor_of r = RSender -> call_ok (dispatch kreivo_payments e st ORoot (CResolveDispute id r)) = false.
Proof.
  intros Hr Hp Hpa Hne Ht Hlt Hf. destruct (dispatch _ _ _ _ _) as [st'|] eqn:E; [|done]. exfalso.
  destruct (kreivo_fee_lists st s id d Hr Hp) as (M1 & M2 & S1 & S2).
  destruct (kreivo_no_fee_to st s id d (d_beneficiary d) Hr Hp Ht) as [T1 T2].
  pose proof (resolve_needs kreivo_payments e st ORoot s id d r treasury_account st' (kreivo_reachable_reachable _ Hr) E eq_refl Hpa Hp Hne
    (not_eq_sym Ht) S1 S2 (all_mandatory_consistent _ M1) (all_mandatory_consistent _ M2)) as K.
  rewrite !all_mandatory_filter in K by done. specialize (K T1 T2). unfold decided_to_sender in K. rewrite Hf in K. lia.
Qed.

(* ------------------------------------------------------------------ *)
(** * What ends a record *)

Lemma finished_exec c e st o call s id d :
  st_pays st !! (s, id) = Some d -> d_state d = Finished -> st_pays (exec c e st o call) !! (s, id) = Some d.
Proof.
  intros Hp Hs. unfold exec. destruct (dispatch _ _ _ _ _) as [st'|] eqn:E; [|done].
  assert (Hset : set_state d Finished = d) by (destruct d; cbn in *; by subst).
  apply dispatch_record in E.
  destruct E; cbn [st_pays];
    try (rewrite lookup_insert_Some);
    try match goal with |- context[(?a, ?b) = (s, id)] =>
      destruct (decide ((a, b) = (s, id))) as [[= -> ->]|Hn]; [|by right] end.
  - pose proof (cr_old _ _ _ _ _ _ _ _ _ _ _ H1 d Hp). congruence.
  - pose proof (cr_old _ _ _ _ _ _ _ _ _ _ _ H1 d Hp). congruence.
  - congruence.
  - congruence.
  - left. split; [done|]. rewrite Hp in H1. injection H1 as <-. done.
  - apply lookup_delete_Some. split; [|done]. intros [= -> ->]. rewrite Hp in H1. injection H1 as <-.
    destruct H2 as [?|[? ?]]; congruence.
  - congruence.
  - congruence.
Qed.

Lemma finished_stays c st steps s id d :
  st_pays st !! (s, id) = Some d -> d_state d = Finished -> st_pays (run c st steps) !! (s, id) = Some d.
Proof.
  intros Hp Hs. revert st Hp. induction steps as [|x steps IH]; intros st Hp; [done|]. cbn. apply IH.
  destruct x; cbn [run_step]; try done.
  - by apply finished_exec.
  - destruct (st_agenda st !! id0) as [[due who]|]; [|done]. destruct (due <=? st_now st); [|done]. by apply finished_exec.
Qed.

Lemma request_exec c e st o call s id d :
  st_pays st !! (s, id) = Some d -> d_state d = PaymentRequested -> id ∉ call_new_id e call ->
  st_pays (exec c e st o call) !! (s, id) = Some d \/
  (call = CAcceptAndPay id /\ cfg_sender_origin c o = Some s /\ st_pays (exec c e st o call) !! (s, id) = Some (set_state d Finished)).
Proof.
  intros Hp Hs Hid. unfold exec. destruct (dispatch _ _ _ _ _) as [st'|] eqn:E; [|by left].
  apply dispatch_record in E.
  destruct E; cbn [st_pays];
    try match goal with |- context[<[(?a, ?b) := _]> _ !! (s, id)] =>
      destruct (decide ((a, b) = (s, id))) as [[= -> ->]|Hn]; [|left; by rewrite lookup_insert_ne] end.
  - cbn [call_new_id] in Hid. rewrite (cr_id _ _ _ _ _ _ _ _ _ _ _ H1), elem_of_list_singleton in Hid. done.
  - cbn [call_new_id] in Hid. rewrite (cr_id _ _ _ _ _ _ _ _ _ _ _ H1), elem_of_list_singleton in Hid. done.
  - congruence.
  - congruence.
  - right. rewrite Hp in H1. injection H1 as <-. by rewrite lookup_insert.
  - left. apply lookup_delete_Some. split; [|done]. intros [= -> ->]. rewrite Hp in H1. injection H1 as <-.
    destruct H2 as [?|[? ?]]; congruence.
  - congruence.
  - congruence.
Qed.

Lemma request_step c st x s id d :
  st_pays st !! (s, id) = Some d -> d_state d = PaymentRequested -> id ∉ step_new_id x ->
  st_pays (run_step c st x) !! (s, id) = Some d \/
  (exists o e, x = SCall o (CAcceptAndPay id) e /\ cfg_sender_origin c o = Some s /\
     st_pays (run_step c st x) !! (s, id) = Some (set_state d Finished)).
Proof.
  intros Hp Hs Hid. destruct x; cbn [run_step]; try by left.
  - rewrite step_new_id_call in Hid. destruct (request_exec c e st o call s id d Hp Hs Hid) as [?|(-> & ? & ?)]; [by left|right; eauto].
  - destruct (st_agenda st !! id0) as [[due who]|]; [|by left]. destruct (due <=? st_now st); [|by left].
    edestruct (request_exec c e (with_agenda st (delete id0 (st_agenda st))) (OSigned who) (CCancel id0) s id d) as [?|(? & _)]; try done.
    by left.
Qed.

(* ------------------------------------------------------------------ *)
(** * Refunds nobody objects to *)

(** A refund request whose time is over and whose task is gone. *)
Record lost (st : pstate) (s id : N) (d : detail) (n : N) : Prop := {
  lost_pay : st_pays st !! (s, id) = Some d;
  lost_state : d_state d = RefundRequested n;
  lost_late : n <= st_now st;
  lost_task : st_agenda st !! id = None;
  lost_parties : st_parties st !! id = Some (s, d_beneficiary d);
  lost_one : forall s', s' <> s -> st_pays st !! (s', id) = None;
}.

Lemma lost_exec c e st o call s id d n :
  lost st s id d n -> id ∉ call_new_id e call ->
  (call = CCancel id -> cfg_beneficiary_origin c o <> Some (d_beneficiary d)) ->
  (call = CAcceptAndPay id -> cfg_sender_origin c o <> Some s) -> lost (exec c e st o call) s id d n.
Proof.
  intros L Hid Hc Ha. pose proof L as [L1 L2 L3 L4 L5 L6]. unfold exec. destruct (dispatch _ _ _ _ _) as [st'|] eqn:E; [|done].
  apply dispatch_record in E. destruct E.
  - cbn [call_new_id] in Hid. rewrite (cr_id _ _ _ _ _ _ _ _ _ _ _ H1), elem_of_list_singleton in Hid.
    split; cbn; [| | | | |intros ? ?]; rewrite ?lookup_insert_ne by congruence; eauto.
  - cbn [call_new_id] in Hid. rewrite (cr_id _ _ _ _ _ _ _ _ _ _ _ H1), elem_of_list_singleton in Hid.
    split; cbn; [| | | | |intros ? ?]; rewrite ?lookup_insert_ne by congruence; eauto.
  - destruct (decide (id0 = id)) as [->|Hne].
    { destruct (decide (s0 = s)) as [->|Hs]; [congruence|]. rewrite (L6 _ Hs) in H0. discriminate. }
    split; cbn; [| | | | |intros ? ?]; rewrite ?lookup_insert_ne by congruence; eauto.
  - destruct (decide (id0 = id)) as [->|Hne].
    { destruct (decide (s0 = s)) as [->|Hs]; [congruence|]. rewrite (L6 _ Hs) in H0. discriminate. }
    split; cbn; [| | | | |intros ? ?]; rewrite ?lookup_insert_ne by congruence; eauto.
  - destruct (decide (id0 = id)) as [->|Hne].
    { destruct (decide (s0 = s)) as [->|Hs]; [by apply Ha in H|]. rewrite (L6 _ Hs) in H1. discriminate. }
    split; cbn; [| | | | |intros ? ?]; rewrite ?lookup_insert_ne by congruence; eauto.
  - destruct (decide (id0 = id)) as [->|Hne].
    { rewrite L5 in H0. injection H0 as <- <-. by apply Hc in H. }
    split; cbn; [| | | | |intros ? ?]; rewrite ?lookup_delete_ne by congruence; eauto.
  - destruct (decide (id0 = id)) as [->|Hne]; [congruence|].
    split; cbn; [| | | | |intros ? ?]; rewrite ?lookup_insert_ne, ?lookup_delete_ne by congruence; eauto.
  - destruct (decide (id0 = id)) as [->|Hne].
    { rewrite L5 in H0. injection H0 as <- <-. congruence. }
    split; cbn; [| | | | |intros ? ?]; rewrite ?lookup_insert_ne by congruence; eauto.
Qed.

Lemma lost_step c st x s id d n :
  lost st s id d n -> id ∉ step_new_id x -> ~ gives_up c s (d_beneficiary d) id x -> lost (run_step c st x) s id d n.
Proof.
  intros L Hid Hg. pose proof L as [L1 L2 L3 L4 L5 L6]. destruct x; cbn [run_step].
  - apply lost_exec; [done|by rewrite <- (step_new_id_call o)| |].
    + intros -> Ho. apply Hg. exists o, e. by left.
    + intros -> Ho. apply Hg. exists o, e. by right.
  - destruct (decide (id0 = id)) as [->|Hne]; [by rewrite L4|].
    destruct (st_agenda st !! id0) as [[due who]|]; [|done]. destruct (due <=? st_now st); [|done].
    apply lost_exec; [| |congruence|done].
    + split; cbn; try done. by rewrite lookup_delete_None; right.
    + cbn. apply not_elem_of_nil.
  - split; cbn; try done. by rewrite lookup_delete_None; right.
  - split; cbn; try done. lia.
  - by split.
Qed.

Lemma lost_run c st steps s id d n :
  lost st s id d n -> id ∉ new_ids steps -> Forall (fun x => ~ gives_up c s (d_beneficiary d) id x) steps ->
  lost (run c st steps) s id d n.
Proof.
  intros L Hid Hg. revert st L. induction Hg as [|x steps Hx Hg IH]; intros st L; [done|]. cbn.
  rewrite new_ids_cons, not_elem_of_app in Hid. destruct Hid as [H1 H2]. apply (IH H2). by apply lost_step.
Qed.

Lemma blocks_run c st k :
  run c st (replicate k SBlock) = PState (st_ledger st) (st_pays st) (st_parties st) (st_agenda st) (st_now st + N.of_nat k).
Proof.
  revert st. induction k as [|k IH]; intros st; [destruct st; cbn; by rewrite N.add_0_r|].
  cbn [replicate]. change (run c st (SBlock :: replicate k SBlock)) with (run c (run_step c st SBlock) (replicate k SBlock)).
  rewrite IH. cbn [run_step st_ledger st_pays st_parties st_agenda st_now]. f_equal. lia.
Qed.

Lemma refund_fires c f now0 steps s id d n e :
  NoDup (new_ids steps) -> no_drop steps ->
  let st := run c (genesis f now0) steps in
  st_pays st !! (s, id) = Some d -> d_state d = RefundRequested n -> st_now st < n ->
  cfg_beneficiary_origin c (OSigned (d_beneficiary d)) = Some (d_beneficiary d) ->
  permissive e -> issuance (st_ledger st) (d_asset d) <= u128_max ->
  let st' := run c st (replicate (N.to_nat (n - st_now st)) SBlock ++ [SFire id e]) in
  st_pays st' = delete (s, id) (st_pays st) /\ st_parties st' = delete id (st_parties st) /\ st_now st' = n /\
  exists burnt, (burnt = 0 \/ burnt < ext_min_balance (env_ext e) (d_asset d)) /\
    (forall x, free (st_ledger st') (d_asset d) x + ind (x =? d_beneficiary d) burnt =
               free (st_ledger st) (d_asset d) x + ind (x =? s) (sender_escrow d + d_amount d)) /\
    (forall x, held (st_ledger st') (d_asset d) x + ind (x =? s) (sender_escrow d) + ind (x =? d_beneficiary d) (d_amount d) =
               held (st_ledger st) (d_asset d) x).
Proof.
  intros Hnd Hdr st Hp Hs Hn Ho Hok Hi st'.
  assert (F : finv st) by (apply (reachable_fresh_finv c); by exists f, now0, steps).
  assert (Hag : st_agenda st !! id = Some (n, d_beneficiary d)).
  { assert (K : scheduled_ok st).
    { apply scheduled_run; [apply finv_genesis|done| |done|].
      - intros id' _. split; cbn; apply lookup_empty.
      - intros ? ? ? ? H. cbn in H. by rewrite lookup_empty in H. }
    destruct (K _ _ _ _ Hp Hs) as [?|?]; [done|lia]. }
  pose proof (f_one _ F _ _ _ Hp) as Hpa.
  set (st1 := PState (st_ledger st) (st_pays st) (st_parties st) (delete id (st_agenda st)) n).
  assert (Est : st' = exec c e st1 (OSigned (d_beneficiary d)) (CCancel id)).
  { unfold st'. rewrite run_app, blocks_run. rewrite N2Nat.id. replace (st_now st + (n - st_now st)) with n by lia.
    cbn [run fold_left run_step st_agenda st_now]. rewrite Hag. rewrite N.leb_refl. reflexivity. }
  assert (Hr1 : reachable c st1).
  { exists f, now0, ((steps ++ replicate (N.to_nat (n - st_now st)) SBlock) ++ [SDrop id]). rewrite !run_app. fold st.
    rewrite blocks_run, N2Nat.id. replace (st_now st + (n - st_now st)) with n by lia. reflexivity. }
  destruct (cancel_possible c e st1 (OSigned (d_beneficiary d)) s id d) as [st2 E2]; try done; [by right; exists n|].
  unfold exec in Est. rewrite E2 in Est. subst st'. rewrite Est.
  destruct (cancel_exact c e st1 _ id st2 Hr1 E2) as (s' & ben & d' & b & Ho' & Hpa' & Hp' & Hb' & _ & E3 & E4 & Hbn & Ef & Eh & _).
  cbn [st1 st_parties st_pays] in Hpa', Hp'. rewrite Hpa in Hpa'. injection Hpa' as <- <-. rewrite Hp in Hp'. injection Hp' as <-.
  assert (Hnow : st_now st2 = n).
  { apply dispatch_record in E2. inversion E2; subst. reflexivity. }
  split_and!; try done. exists b. by split_and!.
Qed.

Lemma refund_lost c st s id d n later :
  reachable_fresh c st -> st_pays st !! (s, id) = Some d -> d_state d = RefundRequested n -> n <= st_now st -> st_agenda st !! id = None ->
  id ∉ new_ids later -> Forall (fun x => ~ gives_up c s (d_beneficiary d) id x) later ->
  st_pays (run c st later) !! (s, id) = Some d.
Proof.
  intros Hr Hp Hs Hn Ha Hid Hg. pose proof (reachable_fresh_finv c st Hr) as F.
  apply (lost_run c st later s id d n); [|done|done]. split; try done.
  - by apply (f_one _ F).
  - intros s' Hne. destruct (st_pays st !! (s', id)) as [d'|] eqn:E; [|done].
    pose proof (f_one _ F _ _ _ Hp). pose proof (f_one _ F _ _ _ E). congruence.
Qed.

Lemma cancelled_gone c e st o id st' s ben :
  dispatch c e st o (CCancel id) = POk st' -> st_parties st !! id = Some (s, ben) ->
  st_pays st' !! (s, id) = None /\ st_parties st' !! id = None.
Proof.
  intros H Hpa. apply dispatch_record in H. inversion H; subst. rewrite Hpa in *. simplify_eq. cbn.
  by rewrite !lookup_delete.
Qed.

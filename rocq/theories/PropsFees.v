(** Property theorems C102 to C108: what calls cost, what transactions pay, what accounts are told they have. *)
From stdpp Require Import gmap.
From Verif Require Import Base XcmTypes AssetLocationModel XcmCountable OriginTypes AccountsModel CommunitiesModel CommunitiesSpec PaymentsSpec XcmConfigModel XcmInstrModel
  XcmWeightsModel RuntimeModel XcmTraderModel XcmTraderSpec CostModel CostSpec CostProofs TxFeesModel TxFeesSpec TxFeesProofs QueryModel QueryProofs.
Open Scope N_scope.

(** C102, the full claim is false: whatever number, there is a history after which unlocking, voting again and taking a vote back each succeed and read more vote
    locks than that; ... *)
Theorem C102_covered_refuted : forall n : N, exists l, let s := crun kreivo_communities c_empty l in
  forall k, k = CUnlock 0 \/ k = CVote 101 (n + 1) (NativeBalance false 7) \/ k = CRemoveVote 101 (n + 1) ->
  (exists s' evs, ccall_run kreivo_communities easy_env s (OSigned 10) k = COk (s', evs)) /\ n < locks_read s (OSigned 10) k.
Proof. exact no_bound_on_locks_read. Qed.
Print Assumptions C102_covered_refuted.
(** ... reading them alone then takes longer than the call declares, and than a block may take. *)
Theorem C102_outweighs_refuted : exists l, let s := crun kreivo_communities c_empty l in
  exists s' evs, ccall_run kreivo_communities easy_env s (OSigned 10) (CUnlock 0) = COk (s', evs) /\
    fst (ccall_weight (CUnlock 0)) < 25000000 * locks_read s (OSigned 10) (CUnlock 0) /\
    block_time < 25000000 * locks_read s (OSigned 10) (CUnlock 0).
Proof. exact locks_outweigh. Qed.
Print Assumptions C102_outweighs_refuted.
(** C102, what holds: a call reads at most the vote locks of one account, whose vote it takes back; ... *)
Theorem C102_bound_partial : forall s o k, locks_read s o k <> 0 -> exists who, taken_back s o k who /\ locks_read s o k <= lock_count s who.
Proof. exact locks_read_bound. Qed.
Print Assumptions C102_bound_partial.
(** ... unlocking reads those that remain. *)
Theorem C102_unlock_partial : forall c e s who p s' evs, ccall_run c e s (OSigned who) (CUnlock p) = COk (s', evs) ->
  locks_read s (OSigned who) (CUnlock p) = lock_count s' who \/ locks_read s (OSigned who) (CUnlock p) = 0.
Proof. exact unlock_reads_rest. Qed.
Print Assumptions C102_unlock_partial.
Example C102_case : let s := crun kreivo_communities c_empty (voted 3 ++ open_and_vote 3) in
  lock_count s 10 = 4 /\ locks_read s (OSigned 10) (CUnlock 1) = 3 /\ locks_read s (OSigned 10) (CRemoveVote 101 3) = 3 /\ locks_read s (OSigned 10) (CUnlock 3) = 0.
Proof. split_and!; vm_compute; reflexivity. Qed.

(** C103: a call dispatched as a community's account is charged at most what it declares; ... *)
Theorem C103_at_most_partial : forall c s o i r, weight_le (charged_weight (as_account_info i) (as_account_ran c s o r)) (ci_weight (as_account_info i)).
Proof. exact as_account_at_most. Qed.
Print Assumptions C103_at_most_partial.
(** ... at least what the call alone would be charged; ... *)
Theorem C103_at_least_partial : forall c s o i r, dispatch_as_account c s o <> None ->
  fst (ci_weight i) <= u64_max -> snd (ci_weight i) <= u64_max ->
  weight_le (charged_weight i r) (charged_weight (as_account_info i) (as_account_ran c s o r)).
Proof. exact as_account_at_least. Qed.
Print Assumptions C103_at_least_partial.
(** ... in full, and never nothing, if it fails; ... *)
Theorem C103_failure_partial : forall c s o i r, (forall p, as_account_ran c s o r <> RanOk p) ->
  charged_weight (as_account_info i) (as_account_ran c s o r) = ci_weight (as_account_info i) /\
  charged_free (as_account_info i) (as_account_ran c s o r) = false.
Proof. exact as_account_failure. Qed.
Print Assumptions C103_failure_partial.
(** ... and is free only if the call says so when it is done; ... *)
Theorem C103_free_partial : forall c s o i r, charged_free (as_account_info i) (as_account_ran c s o r) = true ->
  exists p, r = RanOk p /\ po_free p = true.
Proof. exact as_account_free. Qed.
Print Assumptions C103_free_partial.
(** ... but if the call says what it used that is all that is charged: nothing for the dispatch itself. *)
Theorem C103_overhead_refuted : forall c s o i w f, dispatch_as_account c s o <> None -> weight_le w (ci_weight i) ->
  fst (ci_weight i) <= u64_max -> snd (ci_weight i) <= u64_max ->
  charged_weight (as_account_info i) (as_account_ran c s o (RanOk (PostInfo (Some w) f))) = w.
Proof. exact as_account_not_charged. Qed.
Print Assumptions C103_overhead_refuted.
Example C103_case : let i := CallInfo (1000000000, 9000) false in let o := OSigned (community_account 7) in
  ci_weight (as_account_info i) = (1187927000, 12484) /\
  charged_weight (as_account_info i) (as_account_ran kreivo_communities c_empty o (RanOk (PostInfo (Some (400000000, 3000)) false))) = (400000000, 3000) /\
  charged_weight (as_account_info i) (as_account_ran kreivo_communities c_empty o (RanErr (PostInfo (Some (400000000, 3000)) true))) = (1187927000, 12484) /\
  charged_weight i (RanErr (PostInfo (Some (400000000, 3000)) true)) = (400000000, 3000).
Proof. split_and!; vm_compute; reflexivity. Qed.

(** C104: the fee, in full; ... *)
Theorem C104_in_full : forall mult len w tip, whole_fee mult len w tip <= u128_max ->
  tx_fee mult len w false tip = whole_fee mult len w tip /\ tx_fee mult len w true tip = tip.
Proof. exact fee_in_full. Qed.
Print Assumptions C104_in_full.
(** ... it grows with length, weight and tip, and is least for calls that are free; ... *)
Theorem C104_grows : forall mult len len' w w' tip tip', len <= len' -> weight_le w w' -> tip <= tip' ->
  tx_fee mult len w false tip <= tx_fee mult len' w' false tip' /\ tx_fee mult len w true tip <= tx_fee mult len' w' false tip'.
Proof. exact fee_grows. Qed.
Print Assumptions C104_grows.
(** ... a call that is not free costs at least the fee for an empty transaction; ... *)
Theorem C104_least : forall mult len w tip, 3852424 <= tx_fee mult len w false tip.
Proof. exact fee_least. Qed.
Print Assumptions C104_least.
(** ... what is due in the end is never more than what was announced, nor less than the tip; ... *)
Theorem C104_due : forall e t r, due e t r <= announced e t /\ N.min u128_max (tx_tip t) <= due e t r.
Proof. exact due_at_most. Qed.
Print Assumptions C104_due.
(** ... and nothing is to be paid just if the call declares to be free and there is no tip. *)
Theorem C104_nothing : forall e t, announced e t = 0 <-> ci_free (tx_info t) = true /\ tx_tip t = 0.
Proof. exact nothing_to_pay. Qed.
Print Assumptions C104_nothing.
Example C104_case : whole_fee (10 ^ 18) 150 w_vote 0 = 708785257 /\ whole_fee (10 ^ 18) 150 w_vote 0 <= u128_max /\ whole_fee (2 * 10 ^ 18) 150 w_vote 5 = 913718595.
Proof. split_and!; vm_compute; done. Qed.

(** C105: a transaction that pays in the native token is included just if the payer keeps what must stay and the minimum balance; ... *)
Theorem C105_included : forall e l t call, has_to_pay e t -> tx_asset t = None ->
  (apply_tx e l t call <> None <-> announced e t + N.max (fe_stays e None (tx_payer t)) EXISTENTIAL_DEPOSIT <= l None (tx_payer t)).
Proof. exact native_included. Qed.
Print Assumptions C105_included.
(** ... it is charged before its call runs; afterwards the payer gets back what is not due, unless it no longer has a balance to add it to, and the treasury the
    rest, unless it has none; ... *)
Theorem C105_settled : forall e l t call l' r, has_to_pay e t -> tx_asset t = None -> apply_tx e l t call = Some (l', r) ->
  exists l1 l2, charged_first l None (tx_payer t) (announced e t) l1 /\ call_took call l1 l2 r /\
    (room l2 (announced e t) ->
     exists back rest, back + rest <= announced e t /\
       (forall k who, l' k who = l2 k who + at_ None (tx_payer t) k who back + at_ None treasury_account k who rest) /\
       (back = announced e t - due e t r \/
        back = 0 /\ (l2 None (tx_payer t) + fe_reserved e (tx_payer t) = 0 \/ l2 None (tx_payer t) + (announced e t - due e t r) < EXISTENTIAL_DEPOSIT)) /\
       (rest = announced e t - back \/ rest = 0 /\ l2 None treasury_account < EXISTENTIAL_DEPOSIT)).
Proof. exact native_settled. Qed.
Print Assumptions C105_settled.
(** ... so that it costs exactly what is due if the payer stays above the minimum balance; ... *)
Theorem C105_cost : forall e l t call l' r, has_to_pay e t -> tx_asset t = None -> apply_tx e l t call = Some (l', r) ->
  tx_payer t <> treasury_account ->
  exists l1 l2, charged_first l None (tx_payer t) (announced e t) l1 /\ call_took call l1 l2 r /\
    (room l2 (announced e t) -> EXISTENTIAL_DEPOSIT <= l2 None (tx_payer t) -> EXISTENTIAL_DEPOSIT <= l2 None treasury_account ->
     l' None (tx_payer t) + due e t r = l2 None (tx_payer t) + announced e t /\
     l' None treasury_account = l2 None treasury_account + due e t r /\
     (forall k who, k <> None \/ who <> tx_payer t /\ who <> treasury_account -> l' k who = l2 k who)).
Proof. exact native_cost. Qed.
Print Assumptions C105_cost.
(** ... and no balance is lower than the call left it. *)
Theorem C105_never_more : forall e l t call l' r, has_to_pay e t -> tx_asset t = None -> apply_tx e l t call = Some (l', r) ->
  exists l1 l2, charged_first l None (tx_payer t) (announced e t) l1 /\ call_took call l1 l2 r /\
    (room l2 (announced e t) -> forall k who, l2 k who <= l' k who).
Proof. exact native_never_more. Qed.
Print Assumptions C105_never_more.
(** A chain where account 5 has 10 units of the relay chain's token and account 6, author of the block, some of an asset with minimum balance 10000; the treasury has tokens. *)
Definition case_env : fenv := FEnv (10 ^ 18) (fun _ => Some (true, 10000)) (fun _ => Some (true, 10000)) (fun _ _ => 0) (fun _ => 0) (fun _ _ => true) (fun _ _ => true)
  (Some 6) false (fun _ _ => false).
Definition case_id : asset_id := Sibling (Para 1000 50 1984).
Definition case_ledger : fledger := fun k who =>
  match k with
  | None => if who =? 5 then 10000000000 else if who =? treasury_account then 7000000000 else 0
  | Some _ => if who =? 5 then 4000000 else if who =? 6 then 10000 else 0
  end.
Definition case_tx (k : option asset_id) : tx := Tx 5 k 0 150 (CallInfo w_vote false).
(** The call uses a weight of a third and sends 1000000000 of the relay chain's token to account 9. *)
Definition case_call (l : fledger) : fledger * call_result :=
  (upd (upd l None 5 (l None 5 - 1000000000)) None 9 (l None 9 + 1000000000), RanOk (PostInfo (Some (400000000, 2000)) false)).
Example C105_case : has_to_pay case_env (case_tx None) /\ announced case_env (case_tx None) = 708785257 /\
  match apply_tx case_env case_ledger (case_tx None) case_call with
  | Some (l', r) => due case_env (case_tx None) r = 570518591 /\ l' None 5 = 8429481409 /\ l' None treasury_account = 7570518591 /\ l' None 9 = 1000000000
  | None => False
  end.
Proof. split_and!; vm_compute; done. Qed.

(** C106: a transaction that pays in an asset is included just if the asset is sufficient and the payer keeps what must stay and the minimum balance; ... *)
Theorem C106_included : forall e l t call id, has_to_pay e t -> tx_asset t = Some id ->
  (apply_tx e l t call <> None <->
   exists min min', fe_info e id = Some (true, min) /\ fe_info_after e id = Some (true, min') /\ fe_usable e id (tx_payer t) = true /\
     in_asset min (announced e t) + N.max (fe_stays e (Some id) (tx_payer t)) min <= l (Some id) (tx_payer t)).
Proof. exact asset_included. Qed.
Print Assumptions C106_included.
(** ... it is charged in terms of the asset before its call runs; afterwards the payer gets back what is not due and the author of the block the rest, both unless they
    cannot take it, in which case it is burnt; ... *)
Theorem C106_settled : forall e l t call id l' r, has_to_pay e t -> tx_asset t = Some id -> apply_tx e l t call = Some (l', r) ->
  exists min min' l1 l2, fe_info e id = Some (true, min) /\ fe_info_after e id = Some (true, min') /\
    let paid := in_asset min (announced e t) in let final := N.min paid (in_asset min' (due e t r)) in
    charged_first l (Some id) (tx_payer t) paid l1 /\ call_took call l1 l2 r /\
    (room l2 paid ->
     exists back got, back <= paid - final /\ got <= final /\
       (forall k who, l' k who = l2 k who + at_ (Some id) (tx_payer t) k who back + to_author e (Some id) k who got) /\
       (back = paid - final \/ back = 0 /\ (fe_takes e id (tx_payer t) = false \/ l2 (Some id) (tx_payer t) + (paid - final) < min')) /\
       (forall a, fe_author e = Some a -> got = final \/ got = 0 /\ (fe_takes e id a = false \/ l2 (Some id) a + final < min'))).
Proof. exact asset_settled. Qed.
Print Assumptions C106_settled.
(** ... so that it costs exactly what is due in terms of the asset, all of which the author gets, if both have it and can take it. *)
Theorem C106_cost : forall e l t call id l' r min, has_to_pay e t -> tx_asset t = Some id -> apply_tx e l t call = Some (l', r) ->
  fe_info e id = Some (true, min) -> fe_info_after e id = Some (true, min) ->
  exists l1 l2, charged_first l (Some id) (tx_payer t) (in_asset min (announced e t)) l1 /\ call_took call l1 l2 r /\
    (room l2 (in_asset min (announced e t)) -> fe_takes e id (tx_payer t) = true -> min <= l2 (Some id) (tx_payer t) ->
     forall a, fe_author e = Some a -> a <> tx_payer t -> fe_takes e id a = true -> min <= l2 (Some id) a ->
     l' (Some id) (tx_payer t) + in_asset min (due e t r) = l2 (Some id) (tx_payer t) + in_asset min (announced e t) /\
     l' (Some id) a = l2 (Some id) a + in_asset min (due e t r) /\
     (forall k who, k <> Some id \/ who <> tx_payer t /\ who <> a -> l' k who = l2 k who)).
Proof. exact asset_cost. Qed.
Print Assumptions C106_cost.
Example C106_case : has_to_pay case_env (case_tx (Some case_id)) /\ in_asset 10000 708785257 = 212635 /\
  match apply_tx case_env case_ledger (case_tx (Some case_id)) case_call with
  | Some (l', r) => in_asset 10000 (due case_env (case_tx (Some case_id)) r) = 171155 /\ l' (Some case_id) 5 = 3828845 /\ l' (Some case_id) 6 = 181155 /\ l' None 5 = 9000000000
  | None => False
  end.
Proof. split_and!; vm_compute; done. Qed.

(** C107: a call runs only if the transaction is feeless, has gas, declares to be free without a tip, or has been charged first. *)
Theorem C107_nothing_unpaid : forall e l t call l' r, apply_tx e l t call = Some (l', r) ->
  (exists l1 l2, call_took call l1 l2 r /\
    (fe_feeless e = true \/ fe_gas e (tx_payer t) (ci_weight (tx_info t)) = true \/ ci_free (tx_info t) = true /\ tx_tip t = 0) /\ l1 = l /\ l' = l2) \/
  (exists l1 l2 paid, call_took call l1 l2 r /\ has_to_pay e t /\ 0 < paid /\ charged_first l (tx_asset t) (tx_payer t) paid l1 /\
    (forall id min, tx_asset t = Some id -> fe_info e id = Some (true, min) -> paid = in_asset min (announced e t)) /\
    (tx_asset t = None -> paid = announced e t)).
Proof. exact nothing_unpaid. Qed.
Print Assumptions C107_nothing_unpaid.
Example C107_case : apply_tx case_env (fun _ _ => 500000000) (case_tx None) case_call = None /\ apply_tx case_env (fun _ _ => 200000) (case_tx (Some case_id)) case_call = None.
Proof. split; vm_compute; reflexivity. Qed.

(** C108: the balances told are exactly those the account has. *)
Theorem C108_query : forall native assets, native <= u128_max ->
  (forall id n, assets !! id = Some n -> asset_id_wf id /\ n <= u128_max) ->
  exists m, query_account_balances native assets = Some m /\
    forall k n, m !! k = Some n <-> 0 < n /\ (k = Location 1 [] /\ n = native \/ exists id, assets !! id = Some n /\ convert_back id = Some k).
Proof. exact query_exact. Qed.
Print Assumptions C108_query.
Example C108_case : (fun m => (m !! Location 1 [], m !! Location 1 [Parachain 1000; PalletInstance 50; GeneralIndex 1984], m !! Location 0 [PalletInstance 13; GeneralIndex 3]))
  <$> query_account_balances 42 (<[Sibling (Para 1000 50 1984) := 9]> (<[Here 3 := 0]> ∅)) = Some (Some 42, Some 9, None).
Proof. vm_compute. reflexivity. Qed.

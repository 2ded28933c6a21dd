(** Property theorems C52, C53, C55, C56, C60, C74-C78: proxies, scheduler, fees, deposits, challenges, who may do what on Kreivo. *)
From Verif Require Import Base XcmTypes OriginTypes PaymentIdModel FeesModel LedgerModel PaymentsModel PaymentsSpec PaymentsTheorems
  AccountsModel AccountsSpec KreivoPaymentsModel KreivoPaymentsOrigins ProxyModel ProxySpec ProxyProofs ProxyRefuted RuntimeModel RuntimeProofs
  XcmConfigModel XcmConfigProofs.
From stdpp Require Import gmap.
Open Scope N_scope.

(** C52, the full claim is false: a NonTransfer proxy can pay out of the account through the payments pallet (it keeps 194 of 200 and
    releases it to itself), ... *)
Theorem C52_payments_refuted : exists px real delegate calls st st',
  ordinary ex_dv real /\ delegate <> real /\ px real = [(delegate, NonTransfer)] /\
  (forall c, c ∈ calls -> (real, RPayments c) ∈ signed_effects ex_dv px delegate (RProxy real (Some NonTransfer) (RPayments c))) /\
  (exists ids, length ids = length calls /\
     st' = run kreivo_payments st (zip_with (fun c i => SCall (OSigned real) c (px_env i)) calls ids)) /\
  free (st_ledger st) 1 real = 1000 /\ free (st_ledger st') 1 real = 798 /\ held (st_ledger st') 1 real = 0 /\
  free (st_ledger st) 1 delegate = 1000 /\ free (st_ledger st') 1 delegate = 1194.
Proof. exact non_transfer_pays. Qed.
Print Assumptions C52_payments_refuted.
(** ... and reach the account's transfers through other proxies. *)
Theorem C52_detour_refuted : exists px real delegate other call,
  ordinary ex_dv real /\ delegate <> real /\ px real = [(delegate, NonTransfer); (other, Any)] /\ px other = [(real, Any)] /\
  (real, RBalances TransferAllowDeath) ∈ signed_effects ex_dv px delegate (RProxy real (Some NonTransfer) call).
Proof. exact non_transfer_detour. Qed.
Print Assumptions C52_detour_refuted.
(** C52, what holds: the order of types is a partial order; every call a type allows, its supersets allow with at least the same effects;
    Any is no restriction. *)
Theorem C52_supersets_partial :
  (forall a, is_superset a a = true) /\
  (forall a b, is_superset a b = true -> is_superset b a = true -> a = b) /\
  (forall a b c, is_superset a b = true -> is_superset b c = true -> is_superset a c = true) /\
  (forall dv px a b who c x, is_superset a b = true ->
     exec dv px (proxied_filter b) who c = Some x -> exists x', exec dv px (proxied_filter a) who c = Some x' /\ x `sublist_of` x') /\
  (forall dv px who c, exec dv px (proxied_filter Any) who c = exec dv px (fun _ => true) who c).
Proof. split_and!; [exact superset_refl|exact superset_antisym|exact superset_trans|exact superset_allows_more|exact any_allows_everything]. Qed.
Print Assumptions C52_supersets_partial.
Example C52_supersets_case : is_superset AssetsProxy AssetOwner = true /\
  exec ex_dv px_mixed (proxied_filter AssetOwner) 10 (RAssets AsCreate) = Some [(10, RAssets AsCreate)] /\
  exec ex_dv px_mixed (proxied_filter AssetOwner) 10 (RAssets AsMint) = None.
Proof. by split_and!. Qed.
(** C52, what holds: whatever others sign, an account does only what one of its proxies is meant for (or batching and multisig), and with
    no other proxies than NonTransfer, Collator and CancelProxy nothing of the balances and assets pallets. *)
Theorem C52_keep_to_their_calls_partial :
  (forall dv px a who c k, ordinary dv a -> who <> a ->
     (a, k) ∈ signed_effects dv px who c -> exists d, d ∈ px a /\ (meant_for (snd d) k \/ utility_or_multisig k)) /\
  (forall dv px a who c k, ordinary dv a -> who <> a ->
     (forall d, d ∈ px a -> snd d = NonTransfer \/ snd d = Collator \/ snd d = CancelProxy) ->
     (a, k) ∈ signed_effects dv px who c -> (forall b, k <> RBalances b) /\ (forall b, k <> RAssets b)).
Proof. split; [exact proxies_keep_to_their_calls|exact no_balances_or_assets]. Qed.
Print Assumptions C52_keep_to_their_calls_partial.
Example C52_keep_case : (10, RAssets AsMint) ∈ signed_effects ex_dv px_mixed 20 (RProxy 10 None (RBatch [RAssets AsMint; RAssets AsBurn])) /\
  (10, RCollatorSelection 3) ∈ signed_effects ex_dv px_mixed 30 (RProxy 10 None (RCollatorSelection 3)) /\ ordinary ex_dv 10.
Proof. destruct assets_proxy_works as (? & _ & ? & ?). by split_and!. Qed.

(** C78: nobody acts for an account without proxies; a proxy is added or removed for the account only by a proxy of a type at least as
    powerful, and all are removed only by an Any proxy. *)
Theorem C78_no_escalation :
  (forall dv px a who c k, ordinary dv a -> who <> a -> px a = [] -> ~ (a, k) ∈ signed_effects dv px who c) /\
  (forall dv px a who c, ordinary dv a -> who <> a ->
     (forall t, (a, RAddProxy t) ∈ signed_effects dv px who c \/ (a, RRemoveProxy t) ∈ signed_effects dv px who c ->
        exists d, d ∈ px a /\ is_superset (snd d) t = true) /\
     ((a, RRemoveProxies) ∈ signed_effects dv px who c \/ (a, RKillPure) ∈ signed_effects dv px who c -> exists d, d ∈ px a /\ snd d = Any)).
Proof. split; [exact no_proxies_no_calls|exact no_escalation]. Qed.
Print Assumptions C78_no_escalation.
Example C78_case : (10, RAddProxy AssetOwner) ∈ signed_effects ex_dv (fun a => if a =? 10 then [(20, NonTransfer); (30, Any)] else []) 30
    (RProxy 10 None (RAddProxy AssetOwner)) /\
  (10, RAddProxy AssetOwner) ∉ signed_effects ex_dv (fun a => if a =? 10 then [(20, NonTransfer); (30, Any)] else []) 20 (RProxy 10 None (RAddProxy AssetOwner)) /\
  (10, RAddProxy Collator) ∈ signed_effects ex_dv (fun a => if a =? 10 then [(20, NonTransfer); (30, Any)] else []) 20 (RProxy 10 None (RAddProxy Collator)).
Proof. split_and!; [vm_compute; left|vm_compute; intros H; by apply elem_of_nil in H|vm_compute; left]. Qed.

(** C53: equal origins are equal, root is greater than all others, nothing else is ranked. *)
Theorem C53_privilege_order :
  (forall l r, cmp_privilege l r = Some Eq <-> l = r) /\
  (forall l r, cmp_privilege l r = Some Gt <-> l = ORoot /\ r <> ORoot) /\
  (forall l r, l <> ORoot -> l <> r -> cmp_privilege l r = None).
Proof. split_and!; [exact privilege_equal|exact privilege_greater|exact privilege_unrelated]. Qed.
Print Assumptions C53_privilege_order.
(** C53: so a scheduled task is cancelled or changed only by the origin it runs with, or root; a partial order. *)
Theorem C53_cancelling :
  (forall by_ owner, may_cancel by_ owner = true <-> by_ = owner \/ by_ = ORoot) /\
  ((forall a, may_cancel a a = true) /\
     (forall a b, may_cancel a b = true -> may_cancel b a = true -> a = b) /\
     (forall a b c, may_cancel a b = true -> may_cancel b c = true -> may_cancel a c = true)).
Proof. split; [exact cancelling|exact cancelling_order]. Qed.
Print Assumptions C53_cancelling.
Example C53_case : cmp_privilege ORoot (OSigned 5) = Some Gt /\ cmp_privilege (OSigned 5) ORoot = None /\ may_cancel (OSigned 5) (OSigned 6) = false.
Proof. by split_and!. Qed.

(** C55: the fee is the larger component and grows with both; ... *)
Theorem C55_fees_grow :
  (forall base t p, weight_to_fee base (t, p) = N.max (ref_time_fee base t) (proof_size_fee p)) /\
  (forall base t1 p1 t2 p2, t1 <= t2 -> p1 <= p2 -> weight_to_fee base (t1, p1) <= weight_to_fee base (t2, p2)).
Proof. split; [exact fee_larger|exact fee_monotone]. Qed.
Print Assumptions C55_fees_grow.
(** ... each component is its rate, up to half a unit and nine decimals of the rate: a base transaction's time for 1/100 cent, 10 kB of
    proof for a cent; ... *)
Theorem C55_rates :
  (forall base t, 0 < base -> t <= u64_max ->
     2 * 1000000000 * (100 * base) * ref_time_fee base t <= 2 * 1000000000 * (CENTS * t) + 1000000000 * (100 * base) /\
     2 * 1000000000 * (CENTS * t) <= 2 * 1000000000 * (100 * base) * ref_time_fee base t + 1000000000 * (100 * base) + 2 * (100 * base) * t) /\
  (forall p, p <= u64_max ->
     2 * 1000000000 * 10000 * proof_size_fee p <= 2 * 1000000000 * (CENTS * p) + 1000000000 * 10000 /\
     2 * 1000000000 * (CENTS * p) <= 2 * 1000000000 * 10000 * proof_size_fee p + 1000000000 * 10000 + 2 * 10000 * p).
Proof. split; [exact ref_time_rate|exact proof_size_rate]. Qed.
Print Assumptions C55_rates.
(** ... and only negligible weights are free: no proof, at most a nanosecond (1000 picoseconds). *)
Theorem C55_free_only_negligible : forall base t p, 0 < base <= 1000000000 -> t <= u64_max -> p <= u64_max ->
  weight_to_fee base (t, p) = 0 -> p = 0 /\ t <= 1000.
Proof. exact zero_fee. Qed.
Print Assumptions C55_free_only_negligible.
Example C55_case : weight_to_fee 108157000 (108157000, 0) = 3333333 /\ weight_to_fee 108157000 (0, 10000) = 333333333 /\
  weight_to_fee 108157000 (10000000000, 10000) = 333333333 /\ weight_to_fee 108157000 (16, 0) = 0 /\ weight_to_fee 108157000 (17, 0) = 1.
Proof. split_and!; vm_compute; reflexivity. Qed.

(** C56: deposits are linear, hence additive and monotone; nothing overflows for any arguments of the function's type; only nothing is free. *)
Theorem C56_deposits :
  (forall items b, deposit items b = items * (20 * CENTS) + b * MILLICENTS) /\
  (forall i1 b1 i2 b2, deposit (i1 + i2) (b1 + b2) = deposit i1 b1 + deposit i2 b2) /\
  (forall i1 b1 i2 b2, i1 <= i2 -> b1 <= b2 -> deposit i1 b1 <= deposit i2 b2) /\
  (forall i b, i <= u32_max -> b <= u32_max -> relay_deposit i b <= u128_max) /\
  (forall i b, 0 < i \/ 0 < b -> 0 < deposit i b).
Proof. split_and!; [exact deposit_exact|exact deposit_additive|exact deposit_monotone|exact deposit_fits|exact deposit_positive]. Qed.
Print Assumptions C56_deposits.
Example C56_case : deposit 1 16 = 20 * CENTS + 16 * MILLICENTS /\ deposit 1 16 = 6671999988.
Proof. split; vm_compute; reflexivity. Qed.

(** C60, the full claim is false: for a block that is not there yet the zero hash is accepted, known to everyone beforehand. *)
Theorem C60_challenge_refuted : exists hashes now cx ch, hashes_of_past hashes now /\ now < cx /\ ch = replicate 32 0 /\
  check_challenge hashes now cx ch = true.
Proof. exists (fun n => if n <? 100 then Some (replicate 32 (n mod 256)) else None), 100, 5000, (replicate 32 0).
  split; [|split; [lia|split; [done|by vm_compute]]]. intros n Hn. rewrite (proj2 (N.ltb_ge n 100)) by done. done.
Qed.
Print Assumptions C60_challenge_refuted.
(** C60, what holds: exactly when challenges are accepted; other than zero only hashes of the last three blocks, and those are. *)
Theorem C60_challenge_partial :
  (forall hashes now cx ch, check_challenge hashes now cx ch = true <->
     now <= cx + 3 /\ (hashes cx = Some ch \/ hashes cx = None /\ ch = replicate 32 0)) /\
  (forall hashes now cx ch, hashes_of_past hashes now -> ch <> replicate 32 0 ->
     check_challenge hashes now cx ch = true -> now <= cx + 3 /\ cx < now /\ hashes cx = Some ch) /\
  (forall hashes now cx h, hashes cx = Some h -> now <= cx + 3 -> check_challenge hashes now cx h = true).
Proof. split_and!; [exact challenge_exact|exact challenge_recent|exact challenge_own]. Qed.
Print Assumptions C60_challenge_partial.
Example C60_case : let hashes n := if n <? 100 then Some (replicate 32 (n mod 256)) else None in
  check_challenge hashes 100 98 (replicate 32 98) = true /\ check_challenge hashes 100 97 (replicate 32 97) = true /\
  check_challenge hashes 100 96 (replicate 32 96) = false /\ check_challenge hashes 100 98 (replicate 32 97) = false.
Proof. cbv zeta. split_and!; vm_compute; reflexivity. Qed.

(** C74: a community pays, releases, asks for refunds and accepts requests exactly as its account does; the calls of beneficiaries and
    resolvers are closed to it, and all calls to every origin that is neither an account nor a community (but dispute resolution to root). *)
Theorem C74_who_pays :
  (forall e st c sub call, payer_call call = true ->
     dispatch kreivo_payments e st (OCommunity c sub) call = dispatch kreivo_payments e st (OSigned (community_account c)) call) /\
  (forall e st c sub call, payer_call call = false -> exists er, dispatch kreivo_payments e st (OCommunity c sub) call = PErr er) /\
  (forall e st o call, (forall w, o <> OSigned w) -> (forall c sub, o <> OCommunity c sub) ->
     (o = ORoot -> forall id r, call <> CResolveDispute id r) -> exists er, dispatch kreivo_payments e st o call = PErr er).
Proof. split_and!; [exact community_pays|exact community_only_pays|exact others_never]. Qed.
Print Assumptions C74_who_pays.
Example C74_case : call_ok (dispatch kreivo_payments (px_env (Some 7)) (genesis {[ (1, community_account 3) := 1000 ]} 100) (OCommunity 3 None) px_pay) = true /\
  call_ok (dispatch kreivo_payments (px_env (Some 7)) (genesis {[ (1, community_account 3) := 1000 ]} 100) ORoot px_pay) = false.
Proof. split; vm_compute; reflexivity. Qed.

(** C75: only root uploads contracts, at the treasury's cost; only root and communities 1 and 2 instantiate them, from their own account. *)
Theorem C75_contracts :
  (forall o a, upload_origin o = Some a <-> o = ORoot /\ a = treasury_account) /\
  (forall o a, instantiate_origin o = Some a <->
     (o = ORoot /\ a = treasury_account) \/ (exists c s, (c = 1 \/ c = 2) /\ o = OCommunity c s /\ a = community_account c)).
Proof. split; [exact uploading|exact instantiating]. Qed.
Print Assumptions C75_contracts.
Example C75_case : instantiate_origin (OCommunity 2 None) = Some (community_account 2) /\ instantiate_origin (OCommunity 3 None) = None /\
  instantiate_origin (OSigned (community_account 2)) = None.
Proof. by split_and!. Qed.
(** C75: contracts call nothing of the runtime but transfers of the native token, whatever they wrap it in. *)
Theorem C75_contract_calls : forall dv px who c a k, (a, k) ∈ default [] (exec dv px contract_call_allowed who c) ->
  a = who /\ k = RBalances TransferAllowDeath.
Proof. exact contract_effects. Qed.
Print Assumptions C75_contract_calls.
Example C75_calls_case : exec ex_dv px_mixed contract_call_allowed 5 (RBalances TransferAllowDeath) = Some [(5, RBalances TransferAllowDeath)] /\
  exec ex_dv px_mixed contract_call_allowed 5 (RBatch [RBalances TransferAllowDeath]) = None.
Proof. by split. Qed.

(** C76: root and communities register passes without deposit, accounts for the existential deposit to the treasury, nobody else. *)
Theorem C76_pass_registration : forall o d, pass_register_origin o = Some d <->
  (o = ORoot \/ (exists c s, o = OCommunity c s)) /\ d = None \/
  (exists who, o = OSigned who /\ d = Some (CENTS / 10, who, treasury_account)).
Proof. exact pass_register. Qed.
Print Assumptions C76_pass_registration.
Example C76_case : pass_register_origin (OSigned 5) = Some (Some (33333333, 5, treasury_account)).
Proof. vm_compute. reflexivity. Qed.

(** C77: collators are administered by root and the relay chain's Defense body. *)
Theorem C77_collators : forall o, collator_update_origin o = true <-> o = ORoot \/ o = OXcm (Location 1 [Plurality BDefense Voice]).
Proof. exact collator_updates. Qed.
Print Assumptions C77_collators.
Example C77_case : collator_update_origin (OXcm (Location 1 [Plurality BDefense Voice])) = true /\
  collator_update_origin (OXcm (Location 1 [Plurality BDefense (PMembers 3)])) = false /\ collator_update_origin (OXcm (Location 1 [])) = false.
Proof. split_and!; vm_compute; reflexivity. Qed.

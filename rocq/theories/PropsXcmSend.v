(** Property theorems C137 to C141: what users send to other chains, and what they leave behind. Words: XcmSendSpec.v, XcmExecSpec.v. *)
From Verif Require Import Base XcmTypes AssetLocationModel OriginTypes AccountsModel AccountsSpec PaymentsSpec XcmConfigModel XcmConfigSpec XcmBarrierSpec XcmConfigTheorems XcmCountable XcmExecModel XcmExecSpec
  XcmExecProofs XcmTraderProofs XcmSendModel XcmSendSpec XcmSendProofs XcmTrapProofs.
From stdpp Require Import gmap.
Open Scope N_scope.

Definition user : location := Location 0 [AccountId32 None (account_bytes 9)].
Definition sends : net := Net (Chain {[(None, 77) := 1000; (Some usdt_id, 77) := 100]} [] [] 0) [].
Definition after (r : xres net) : net := match r with XOk w => w | _ => Net (Chain ∅ [] [] 0) [] end.

(* ------------------------------------------------------------------ *)
(** * C137: transfers to other chains are exact *)

Theorem C137_exact : forall e open para w o c w' dest assets, xcall_run e open para w o c = XOk w' -> transfers c = Some (dest, assets) -> caller_wf o -> dustless e ->
  exists x kept given target msg, acts_for o x /\ assets ≡ₚ kept ++ given /\ n_out w' = n_out w ++ [(target, msg)] /\
    moved (n_chain w) (n_chain w') x dest assets kept /\ (kept <> [] -> target = dest) /\
    (forall path, amount_at (meant (our_place para) target) (withdrawn msg) path = amount_at (our_place para) given path) /\
    (forall path, amount_at (meant (our_place para) target) (declared msg) path = amount_at (our_place para) kept path).
Proof. exact transfer_exact. Qed.
Print Assumptions C137_exact.
(** The message ends with the deposit of all of it for the beneficiary named, at the destination named. *)
Theorem C137_beneficiary : forall e open para w o c w' dest b, xcall_run e open para w o c = XOk w' -> beneficiary_of c = Some (dest, b) ->
  exists assets target msg, transfers c = Some (dest, assets) /\ n_out w' = n_out w ++ [(target, msg)] /\ delivers para target msg (length assets) dest b.
Proof. exact transfer_delivers. Qed.
Print Assumptions C137_beneficiary.
Example C137_case : let w := after (xcall_run (calm_env 1) (fun _ => true) 2281 sends (OSigned 77) (CTransfer (Location 1 [Parachain 1000]) user [(usdt, 70)] 0 None)) in
  bal (n_chain w) (Some usdt_id) 77 = 30 /\
  n_out w = [(Location 1 [Parachain 1000], [RWithdraw [(Location 0 [PalletInstance 50; GeneralIndex 1984], 70)]; RClearOrigin;
                                            RBuy (Location 0 [PalletInstance 50; GeneralIndex 1984], 70) None; RDeposit 1 user])].
Proof. split; vm_compute; reflexivity. Qed.
(** The relay chain's token goes to a sibling by way of the relay chain. *)
Example C137_remote : let w := after (xcall_run (calm_env 1) (fun _ => true) 2281 sends (OSigned 77) (CTransfer (Location 1 [Parachain 2000]) user [(relay_location, 600)] 0 None)) in
  bal (n_chain w) None 77 = 400 /\ map fst (n_out w) = [Location 1 []] /\
  withdrawn (snd (default (relay_location, []) (head (n_out w)))) = [(Location 0 [], 600)].
Proof. split_and!; vm_compute; reflexivity. Qed.

(* ------------------------------------------------------------------ *)
(** * C138: tokens go by way of the chain that holds them in reserve *)

(** Partial: unless assets of the asset hub are sent elsewhere than to the asset hub. *)
Theorem C138_reserve_partial : forall e open para w o c w' dest assets, xcall_run e open para w o c = XOk w' -> transfers_by_itself c = Some (dest, assets) -> caller_wf o -> dustless e ->
  (forall a, a ∈ assets -> extends (Location 1 [Parachain 1000]) (fst a) -> dest = Location 1 [Parachain 1000]) ->
  exists kept given target msg, assets ≡ₚ kept ++ given /\ n_out w' = n_out w ++ [(target, msg)] /\
    (forall path, amount_at (meant (our_place para) target) (withdrawn msg) path = amount_at (our_place para) given path) /\
    (forall path, amount_at (meant (our_place para) target) (declared msg) path = amount_at (our_place para) kept path) /\
    Forall (fun a => ours (fst a) /\ target = dest) kept /\ Forall (fun a => holds_reserve (fst a) target) given.
Proof. exact transfer_route. Qed.
Print Assumptions C138_reserve_partial.
(** Refuted: then they are burnt here and the message goes to a chain that does not have them. *)
Theorem C138_lost_refuted : exists e open para w c w' dest target msg, xcall_run e open para w (OSigned 77) c = XOk w' /\
  transfers_by_itself c = Some (dest, [(usdt, 70)]) /\ caller_wf (OSigned 77) /\ dustless e /\
  n_out w' = n_out w ++ [(target, msg)] /\ amount_at (meant (our_place para) target) (withdrawn msg) (meant (our_place para) usdt) = 70 /\ ~ holds_reserve usdt target /\
  bal (n_chain w') (Some usdt_id) 77 + 70 = bal (n_chain w) (Some usdt_id) 77 /\ in_existence (n_chain w') (Some usdt_id) usdt + 70 = in_existence (n_chain w) (Some usdt_id) usdt.
Proof. exact usdt_lost. Qed.
Print Assumptions C138_lost_refuted.
Example C138_case : holds_reserve relay_location (Location 1 []) /\ holds_reserve usdt (Location 1 [Parachain 1000]) /\ ~ holds_reserve usdt (Location 1 [Parachain 2000]).
Proof.
  split; [left; done|]. split; [left; done|]. intros [H|[(s & H) _]]; [by injection H|done].
Qed.

(* ------------------------------------------------------------------ *)
(** * C139: locations keep their meaning *)

Theorem C139_meaning : forall para target k, proper (our_place para) target -> proper (our_place para) k ->
  meant (meant (our_place para) target) (reanchor k target (universal_location para)) = meant (our_place para) k /\
  proper (meant (our_place para) target) (reanchor k target (universal_location para)).
Proof. exact reanchor_meant. Qed.
Print Assumptions C139_meaning.
Example C139_case : reanchor usdt (Location 1 [Parachain 1000]) (universal_location 2281) = Location 0 [PalletInstance 50; GeneralIndex 1984] /\
  reanchor usdt (Location 1 [Parachain 2000]) (universal_location 2281) = usdt /\ reanchor (Location 0 [PalletInstance 13]) (Location 1 []) (universal_location 2281) = Location 0 [Parachain 2281; PalletInstance 13] /\
  reanchor relay_location (Location 1 []) (universal_location 2281) = Location 0 [] /\ meant (our_place 2281) usdt = [GlobalConsensus Kusama; Parachain 1000; PalletInstance 50; GeneralIndex 1984].
Proof. split_and!; vm_compute; reflexivity. Qed.

(* ------------------------------------------------------------------ *)
(** * C140: in whose name messages go out *)

(** Messages of one's own choice go out for communities only, in the name of the community. *)
Theorem C140_send : forall e open para w o dest message w', (forall a, o = OSigned a -> account_wf a) -> xcall_run e open para w o (CSend dest message) = XOk w' ->
  n_chain w' = n_chain w /\ exists c part, n_out w' = n_out w ++ [(dest, [RDescendOrigin [Plurality (BIndex c) part]; RCustom message])] /\
    ((exists s, o = OCommunity c s) \/
     (part = Voice /\ exists a p, o = OSigned a /\ is_bytes p /\ length p = 8%nat /\ account_bytes a = derived_bytes str_modl p c)).
Proof. exact send_exact. Qed.
Print Assumptions C140_send.
Theorem C140_community : forall e open para w c dest message, c <= u16_max -> reachable open dest = true ->
  xcall_run e open para w (OCommunity c None) (CSend dest message) =
    XOk (Net (n_chain w) (n_out w ++ [(dest, [RDescendOrigin [Plurality (BIndex c) Voice]; RCustom message])])).
Proof. exact send_possible. Qed.
Print Assumptions C140_community.
(** Transfers do nothing in this chain's name but take or declare assets and pay with them. *)
Theorem C140_transfers : forall e open para w o c w' dest assets target msg, xcall_run e open para w o c = XOk w' -> transfers c = Some (dest, assets) ->
  n_out w' = n_out w ++ [(target, msg)] -> exists pre post, msg = pre ++ RClearOrigin :: post /\ Forall only_assets pre.
Proof. exact transfer_authority. Qed.
Print Assumptions C140_transfers.
(** Teleports and programs are refused, and so are messages from root. *)
Theorem C140_never : forall e open para w o dest b assets p, xcall_run e open para w o (CTeleport dest b assets) = XErr /\ xcall_run e open para w o (CExecute p) = XErr /\
  (forall message, o = ORoot -> xcall_run e open para w o (CSend dest message) = XErr).
Proof. exact never. Qed.
Print Assumptions C140_never.
Example C140_case : after (xcall_run (calm_env 1) (fun _ => true) 2281 sends (OCommunity 5 None) (CSend (Location 1 []) 42)) =
  Net (n_chain sends) [(Location 1 [], [RDescendOrigin [Plurality (BIndex 5) Voice]; RCustom 42])] /\
  xcall_run (calm_env 1) (fun _ => true) 2281 sends (OSigned 77) (CSend (Location 1 []) 42) = XErr.
Proof. split; [reflexivity|]. vm_compute. reflexivity. Qed.

(* ------------------------------------------------------------------ *)
(** * C141: trapped assets can be recovered *)

(** Partial: a place on another chain recovers what lies trapped for it, if it is of at most 20 kinds, with one message it pays for with what it has here. *)
Theorem C141_recovered_partial : forall e para ch origin y k t n price limit need h dest x, calm e -> costs e need k price -> token_of k = Val (Some t) ->
  location_to_account origin = Some y -> location_to_account dest = Some x -> (origin, h) ∈ ch_traps ch -> (size h <= 20)%nat ->
  (forall k' v, h !! k' = Some v -> 0 < v /\ v <= u128_max /\ exists t', token_of k' = Val (Some t')) ->
  0 < n -> n <= bal ch t y -> n <= u128_max -> 0 < price -> price <= n -> (forall t' a, bal ch t' a + token_amount (map_to_list h) t' + n <= u128_max) ->
  need <> (0, 0) -> limit_covers need limit -> encodable (claim_message k n limit (map_to_list h) dest) /\
  exists ch', receive e para ch origin (claim_message k n limit (map_to_list h) dest) need = XOk ch' /\
    times_trapped (origin, h) ch = S (times_trapped (origin, h) ch') /\
    forall t' a, bal ch' t' a + ind (bool_decide (t' = t /\ a = y)) n =
      bal ch t' a + ind (bool_decide (a = x)) (token_amount (map_to_list h) t' + ind (bool_decide (t' = t)) (n - price)) + ind (bool_decide (t' = t /\ a = treasury_account)) price.
Proof. intros. eapply claim_works; try eassumption. by apply covers_within. Qed.
Print Assumptions C141_recovered_partial.
(** Refuted: more than 20 kinds can be trapped together, and then nobody recovers any of them, ever. *)
Theorem C141_stuck_refuted : exists e para ch p need ch' tr, encodable p /\ receive e para ch (Location 1 [Parachain 2000]) p need = XOk ch' /\
  fst tr = Location 1 [Parachain 2000] /\ (forall i, 1 <= i <= 22 -> default 0 (snd tr !! hub_asset i) = 5) /\ times_trapped tr ch = 0%nat /\ times_trapped tr ch' = 1%nat /\
  forall w w', n_chain w = ch' -> xcm_later para w w' -> (1 <= times_trapped tr (n_chain w'))%nat.
Proof. exact stuck_happens. Qed.
Print Assumptions C141_stuck_refuted.
Theorem C141_stuck : forall para tr w w', (20 < size (snd tr))%nat -> xcm_later para w w' -> (times_trapped tr (n_chain w) <= times_trapped tr (n_chain w'))%nat.
Proof. exact stuck. Qed.
Print Assumptions C141_stuck.
(** Nothing is ever trapped for those on this chain, so that their calls to recover assets fail. *)
Theorem C141_never_here : forall para w w', none_here w -> outside_later para w w' -> none_here w' /\
  (forall e open o assets b w'', xcall_run e open para w' o (CClaim assets b) <> XOk w'').
Proof. exact never_here. Qed.
Print Assumptions C141_never_here.
Definition left_behind : gmap location N := {[usdt := 40; relay_location := 7]}.
Definition left_chain : chain := Chain {[(None, sibling_account 2000) := 1000000]} [(Location 1 [Parachain 2001], ∅); (Location 1 [Parachain 2000], left_behind)] [] 0.
Example C141_case : exists price ch', costs (calm_env 1) (1000, 10) relay_location price /\ price <= 400000 /\
  receive (calm_env 1) 2281 left_chain (Location 1 [Parachain 2000]) (claim_message relay_location 400000 None (map_to_list left_behind) (Location 1 [Parachain 2001])) (1000, 10) = XOk ch' /\
  bal ch' (Some usdt_id) (sibling_account 2001) = 40 /\ length (ch_traps ch') = 1%nat.
Proof.
  set (r := receive (calm_env 1) 2281 left_chain (Location 1 [Parachain 2000]) (claim_message relay_location 400000 None (map_to_list left_behind) (Location 1 [Parachain 2001])) (1000, 10)).
  assert (exists c, r = XOk c) as [c Hr]. { assert (H : match r with XOk _ => true | _ => false end = true) by (vm_compute; reflexivity). destruct r as [c| |]; [by exists c|discriminate..]. }
  exists 333333, c. split; [exact (price_native _ _ (1000, 10))|]. split; [lia|]. split; [exact Hr|].
  assert (H : match r with XOk c => (bal c (Some usdt_id) (sibling_account 2001) =? 40) && (length (ch_traps c) =? 1)%nat | _ => false end = true) by (vm_compute; reflexivity).
  rewrite Hr in H. apply andb_prop in H as [H1 H2]. apply N.eqb_eq in H1. apply Nat.eqb_eq in H2. split; [exact H1|exact H2].
Qed.
Example C141_none_here : none_here (Net left_chain []).
Proof. repeat constructor. Qed.

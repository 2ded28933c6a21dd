(** Property theorems C159 and C160: in whose name calls run, and who spends what the treasury holds. Words: NamesSpec.v. *)
From stdpp Require Import gmap.
From Verif Require Import Base XcmTypes AssetLocationModel OriginTypes AccountsModel AccountsSpec CommunitiesModel ManagerModel XcmConfigModel XcmExecModel XcmExecSpec
  XcmMessageProofs GovernanceModel GovernanceSpec GovernanceProofs GovernanceMore GovernanceLive PropsXcmExec PropsGovernance NamesSpec Names.
Open Scope N_scope.

(* ------------------------------------------------------------------ *)
(** * C159: nobody acts in another's name *)

(** A call runs in the name of account [a] only if [a] signed the transaction, or the message comes from a place whose account here [a] is, or
    [a] is the account of a community whose manager has it dispatched, or the collective decided it as root. *)
Theorem C159_in_name : forall ranks now l x s a k, let s0 := g_start ranks now in
  happens (grun s0 l) x s (OSigned a) k ->
  (exists e k0, x = GTx e a k0) \/
  (exists e from kind k0, x = GRemote e from kind k0 /\ location_to_account from = Some a) \/
  (exists g, a = community_account g /\ by_manager (grun s0 l) x g s (OSigned a) k) \/
  (exists p r, was_approved s0 l Collective p r /\ rf_origin r = ORoot /\ leads ORoot (rf_call r) (OSigned a) k).
Proof. exact in_name. Qed.
Print Assumptions C159_in_name.

(** Account 77 signs; sibling 2000 sends; the admin of community 1, whoever has that origin, has its account do something; root acts as 77. *)
Definition h_as (o : origin) (k : gcall) : list gstep :=
  [GTx g_env 5 (GSubmit Collective ORoot (GDispatchAs o k) (MAfter 0)); GTx g_env 5 (GPlaceDeposit Collective 0)] ++ replicate 150 GBlock ++
  [GService g_env Collective 0; GTx g_env 1 (GVote 0 true); GService g_env Collective 0] ++ replicate 150 GBlock ++ [GService g_env Collective 0; GBlock].
Lemma h_as_due o k : let s := grun (g_start two_members 0) (h_as o k) in gv_agenda s = [Task 301 ORoot (GDispatchAs o k) (Some (Collective, 0))] /\ gv_now s = 301.
Proof. cbv zeta. split; vm_compute; reflexivity. Qed.
Lemma h_as_happens o k : exists s', happens (grun (g_start two_members 0) (h_as o k)) (GFire g_env 0) s' o k.
Proof.
  destruct (h_as_due o k) as [E1 E2]. eexists. eapply hap_fire; [rewrite E1; reflexivity|rewrite E2; done|]. apply ex_dispatch_as, ex_here.
Qed.
Example C159_case :
  (exists s, happens (g_start two_members 0) (GTx g_env 77 (GOther 3)) s (OSigned 77) (GOther 3)) /\
  (exists s, happens (g_start two_members 0) (GRemote g_env (Location 1 [Parachain 2000]) KSovereign (GOther 3)) s (OSigned (sibling_account 2000)) (GOther 3)) /\
  (exists s, happens (g_start two_members 0) (GTx g_env (community_account 1) (GAsCommunity (GOther 3))) s (OSigned (community_account 1)) (GOther 3)) /\
  (exists s, happens (grun (g_start two_members 0) (h_as (OSigned 77) (GOther 3))) (GFire g_env 0) s (OSigned 77) (GOther 3)).
Proof.
  split_and!.
  - eexists. apply hap_tx, ex_here.
  - eexists. eapply hap_remote; [reflexivity|apply ex_here].
  - eexists. apply hap_tx. eapply (ex_community _ _ _ 1); [vm_compute; reflexivity|apply ex_here].
  - apply h_as_happens.
Qed.
(** Somebody else: the treasury's account looks like that of community 0, and has community 0's account do something. *)
Example C159_looks_like : manages (g_start two_members 0) (OSigned treasury_account) 0 /\
  exists s, happens (g_start two_members 0) (GTx g_env treasury_account (GAsCommunity (GOther 3))) s (OSigned (community_account 0)) (GOther 3).
Proof.
  split; [right; exists treasury_account; split; vm_compute; reflexivity|].
  eexists. apply hap_tx. eapply (ex_community _ _ _ 0); [vm_compute; reflexivity|apply ex_here].
Qed.

(* ------------------------------------------------------------------ *)
(** * C160: the collective alone spends what the treasury holds *)

Theorem C160_account : has_bytes treasury_account treasury_bytes.
Proof. exact treasury_has_bytes. Qed.
Print Assumptions C160_account.
(** Refuted: the relay chain, speaking for the account there with the same bytes (its own treasury's), takes what it wants, ... *)
Definition takes : list xinstr :=
  [XDescend [AccountId32 (Some Kusama) treasury_bytes]; XWithdraw [(relay_location, 1000000000000)]; XBuy (relay_location, 1000000000) None;
   XDeposit (FDefinite [(relay_location, 999000000000)]) (Location 1 [Parachain 2000])].
Definition full_treasury : chain := Chain {[(None, treasury_account) := 1000000000000]} [] [] 0.
Lemma takes_runs : match receive_message (calm_env 1) 2281 full_treasury (Location 1 []) takes with
  | XOk ch' => match ch_calls ch' with [] => true | _ => false end && (bal full_treasury None treasury_account =? 1000000000000) &&
      (bal ch' None treasury_account <=? 1000000000) && (bal ch' None (sibling_account 2000) =? 999000000000)
  | _ => false
  end = true.
Proof. vm_compute. reflexivity. Qed.
Theorem C160_relay_refuted : exists e para ch p ch', receive_message e para ch (Location 1 []) p = XOk ch' /\ ch_calls ch' = [] /\
  bal ch None treasury_account = 1000000000000 /\ bal ch' None treasury_account <= 1000000000 /\ bal ch' None (sibling_account 2000) = 999000000000.
Proof.
  exists (calm_env 1), 2281, full_treasury, takes. pose proof takes_runs as H. revert H.
  generalize (receive_message (calm_env 1) 2281 full_treasury (Location 1 []) takes). generalize treasury_account (sibling_account 2000) full_treasury.
  intros a b ch0 r H. destruct r as [ch'| |]; [|discriminate H..]. exists ch'. apply andb_prop in H as [[[H1 H2]%andb_prop H3]%andb_prop H4].
  destruct (ch_calls ch') eqn:E; [|discriminate H1]. split_and!; [reflexivity|reflexivity|by apply N.eqb_eq|by apply N.leb_le|by apply N.eqb_eq].
Qed.
Print Assumptions C160_relay_refuted.
(** ... and has calls dispatched in its name, on a chain that decided nothing. *)
Theorem C160_calls_refuted : forall ranks now e k, exists s,
  happens (grun (g_start ranks now) []) (GRemote e (Location 1 [AccountId32 (Some Kusama) treasury_bytes]) KSovereign k) s (OSigned treasury_account) k.
Proof. intros ranks now e k. eexists. eapply hap_remote; [vm_compute; reflexivity|apply ex_here]. Qed.
Print Assumptions C160_calls_refuted.
(** Refuted: with the genesis the repository writes, nobody but the relay chain and a holder of the treasury's key ever spends anything of it. *)
Theorem C160_stuck_refuted : forall now l x s k,
  happens (grun (g_start ∅ now) l) x s (OSigned treasury_account) k ->
  (exists e k0, x = GTx e treasury_account k0) \/
  (exists e kind k0 p net id, x = GRemote e (Location p [AccountId32 net id]) kind k0 /\ (p = 0 \/ p = 1) /\ (net = None \/ net = Some Kusama) /\
    account_of_bytes id = treasury_account).
Proof. exact treasury_stuck. Qed.
Print Assumptions C160_stuck_refuted.
(** What holds: a call in the treasury's name is part of a decision of the collective as root, unless signed with a key of the treasury's
    account or sent by an account with the same bytes on the relay chain or here; ... *)
Theorem C160_decided_partial : forall ranks now l x s k, let s0 := g_start ranks now in
  happens (grun s0 l) x s (OSigned treasury_account) k ->
  (exists e k0, x = GTx e treasury_account k0) \/
  (exists e kind k0 p net id, x = GRemote e (Location p [AccountId32 net id]) kind k0 /\ (p = 0 \/ p = 1) /\ (net = None \/ net = Some Kusama) /\
    account_of_bytes id = treasury_account) \/
  (exists p r, was_approved s0 l Collective p r /\ rf_origin r = ORoot /\ leads ORoot (rf_call r) (OSigned treasury_account) k).
Proof. exact treasury_named. Qed.
Print Assumptions C160_decided_partial.
(** ... a message lowers what it holds only if it comes from the relay chain, from such an account or from this chain itself; ... *)
Theorem C160_messages_partial : forall e para ch origin p need ch' t, receive e para ch origin p need = XOk ch' ->
  bal ch' t treasury_account < bal ch t treasury_account ->
  exists q, (q = 0 \/ q = 1) /\ (origin = Location q [] \/
    exists net id, origin = Location q [AccountId32 net id] /\ (net = None \/ net = Some Kusama) /\ account_of_bytes id = treasury_account).
Proof. exact treasury_messages. Qed.
Print Assumptions C160_messages_partial.
(** ... and as long as somebody has a rank to vote with, it can be spent. *)
Theorem C160_spendable_partial : forall ranks now l who e k,
  (forall who r, ranks !! who = Some r -> r <= 65535) ->
  let s := grun (g_start ranks now) l in
  votes_in_collective s who -> ge_deposit_ok e = true -> ge_slot e = true -> ge_sched_ok e = true ->
  exists l' n s', happens (grun s l') (GFire e n) s' (OSigned treasury_account) k.
Proof. exact treasury_spendable. Qed.
Print Assumptions C160_spendable_partial.
Example C160_case : exists s, happens (grun (g_start two_members 0) (h_as (OSigned treasury_account) (GOther 3))) (GFire g_env 0) s (OSigned treasury_account) (GOther 3).
Proof. apply h_as_happens. Qed.

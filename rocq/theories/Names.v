(** In whose name calls run. *)
From stdpp Require Import gmap.
From Verif Require Import Base XcmTypes OriginTypes AccountsModel AccountsSpec AccountsProofs CommunitiesModel TracksModel ManagerModel XcmConfigModel XcmExecModel XcmExecSpec XcmMessageProofs
  GovernanceModel GovernanceSpec GovernanceProofs GovernanceMore GovernanceRanks GovernanceVotes GovernanceTiming GovernanceLive NamesSpec.
Open Scope N_scope.

Local Opaque community_account treasury_account community_deposit kreivo_tracks.

Lemma mgmt_manages s o g : cc_mgmt_origin kreivo_communities (mg_c (gv_m s)) o = Some g -> manages s o g.
Proof.
  cbn. unfold kreivo_admin_origin, either_of, ensure_community, manages.
  destruct o; cbn; intros H; repeat case_match; simplify_eq; eauto 10.
Qed.

(** A signed origin that is not the one at the top comes from root, or from the manager of a community. *)
Lemma executes_signed e s o k s' o' k' : executes e s o k s' o' k' -> o <> ORoot -> o' = o \/
  exists s1 o1 k1 g, executes e s o k s1 o1 (GAsCommunity k1) /\ cc_mgmt_origin kreivo_communities (mg_c (gv_m s1)) o1 = Some g /\
    executes e s1 (OSigned (community_account g)) k1 s' o' k' /\ o' = OSigned (community_account g).
Proof.
  induction 1 as [s o k|s o g k s' o' k' Hg H IH|s o1 k s' o' k' H IH|s o k1 k2 s' o' k' H IH|s o k1 k2 s1 s' o' k' Hc H IH]; intros Ho; [by left| |done| |].
  - right. destruct IH as [->|(s1 & o1 & k1 & g1 & H1 & H2 & H3 & H4)]; [done| |].
    + exists s, o, k, g. split_and!; [constructor|done..].
    + exists s1, o1, k1, g1. split_and!; [|done..]. by eapply ex_community.
  - destruct IH as [->|(s1 & o1 & k3 & g1 & H1 & H2 & H3 & H4)]; [done|by left|right].
    exists s1, o1, k3, g1. split_and!; [|done..]. by apply ex_batch_first.
  - destruct IH as [->|(s2 & o1 & k3 & g1 & H1 & H2 & H3 & H4)]; [done|by left|right].
    exists s2, o1, k3, g1. split_and!; [|done..]. by eapply ex_batch_second.
Qed.

Lemma transact_stands l kind a : transact_origin l kind = Some (RoSigned a) -> location_to_account l = Some a.
Proof.
  destruct kind; cbn; [|by destruct (location_to_account l); cbn; congruence|done|done].
  destruct l as [p js]. unfold location_to_account, or_else, parent_is_preset, sibling_converts, plurality_converts, account_from_relay, account_aliases. cbn.
  intros H. repeat case_match; simplify_eq; try done; exfalso; repeat match goal with Hb : bool_decide _ = _ |- _ => revert Hb end; repeat case_bool_decide; done.
Qed.

Lemma in_name : forall ranks now l x s a k, let s0 := g_start ranks now in
  happens (grun s0 l) x s (OSigned a) k ->
  (exists e k0, x = GTx e a k0) \/
  (exists e from kind k0, x = GRemote e from kind k0 /\ location_to_account from = Some a) \/
  (exists g, a = community_account g /\ by_manager (grun s0 l) x g s (OSigned a) k) \/
  (exists p r, was_approved s0 l Collective p r /\ rf_origin r = ORoot /\ leads ORoot (rf_call r) (OSigned a) k).
Proof.
  intros ranks now l x s a k s0 Hh. pose proof (ginv_run _ l (ginv_start ranks now)) as I. fold s0 in I.
  inversion Hh as [e who k0 s' o' k' H|e from kind r k0 s' o' k' Hk H|e n t s' o' k' Hn Hd H]; subst.
  - destruct (executes_signed _ _ _ _ _ _ _ H) as [[= ->]|(s1 & o1 & k1 & g & H1 & H2 & H3 & [= ->])]; [done|by eauto|].
    right. right. left. exists g. split; [done|]. exists e, s1, o1, k1. split_and!; [done|by constructor|by apply mgmt_manages|done].
  - destruct (executes_signed _ _ _ _ _ _ _ H) as [E|(s1 & o1 & k1 & g & H1 & H2 & H3 & [= ->])]; [by destruct r| |].
    + right. left. exists e, from, kind, k0. split; [done|]. destruct r; cbn in E; try discriminate E. injection E as ->. by eapply transact_stands.
    + right. right. left. exists g. split; [done|]. exists e, s1, o1, k1. split_and!; [done|by econstructor|by apply mgmt_manages|done].
  - right. right. pose proof Hn as Hin. apply elem_of_list_lookup_2, elem_of_list_In in Hin.
    pose proof (tasks_decided s0 l (ginv_start _ _) (start_agenda _ _) t Hin) as Ht. pose proof (gi_tasks _ I t Hin) as Hi. unfold task_decided in Ht.
    destruct (decide (tk_origin t = ORoot)) as [Er|Er].
    + right. apply executes_leads in H. rewrite Er in *. destruct (tk_source t) as [[[] p]|].
      * destruct Ht as (r & Ha & E1 & E2). exists p, r. rewrite <- E1, <- E2. done.
      * destruct Hi as [_ [g Hg]]. by rewrite Hg in Er.
      * destruct Ht as (p & r & Ha & _ & E & Hl). exists p, r. split_and!; [done..|]. by eapply leads_trans.
    + left. destruct (executes_signed _ _ _ _ _ _ _ H Er) as [E|(s1 & o1 & k1 & g & H1 & H2 & H3 & [= ->])].
      * exfalso. rewrite <- E in *. destruct (tk_source t) as [[[] p]|]; [|by destruct Hi as [_ [g Hg]]|done]. destruct Hi as [_ Hi]. by apply Hi.
      * exists g. split; [done|]. exists e, s1, o1, k1. split_and!; [done|by econstructor|by apply mgmt_manages|done].
Qed.

(* ------------------------------------------------------------------ *)
(** * The treasury *)

Lemma treasury_has_bytes : has_bytes treasury_account treasury_bytes.
Proof. split; vm_compute; try reflexivity; discriminate. Qed.

Lemma treasury_not_community g : treasury_account <> community_account g.
Proof.
  intros E. assert (H : take 8 (drop 4 (account_bytes treasury_account)) = take 8 (drop 4 (account_bytes (community_account g)))) by (by rewrite E).
  Local Transparent community_account treasury_account.
  unfold community_account, treasury_account in H. rewrite !sub_account_bytes in H by (apply treasury_pallet_wf || apply community_pallet_wf). discriminate H.
Qed.
Local Opaque community_account treasury_account.

Lemma treasury_place l : location_to_account l = Some treasury_account ->
  exists p net id, (p = 0 \/ p = 1) /\ l = Location p [AccountId32 net id] /\ (net = None \/ net = Some Kusama) /\ account_of_bytes id = treasury_account.
Proof.
  intros H%location_accounts. destruct treasury_has_bytes as [_ Ht]. destruct H as [(_ & _ & H)|[(i & _ & _ & H)|[(i & part & _ & _ & H)|(p & net & id & H1 & H2 & H3 & H4)]]].
  - rewrite Ht in H. discriminate H.
  - rewrite Ht in H. discriminate H.
  - rewrite Ht in H. discriminate H.
  - eauto 10.
Qed.

Lemma treasury_named : forall ranks now l x s k, let s0 := g_start ranks now in
  happens (grun s0 l) x s (OSigned treasury_account) k ->
  (exists e k0, x = GTx e treasury_account k0) \/
  (exists e kind k0 p net id, x = GRemote e (Location p [AccountId32 net id]) kind k0 /\ (p = 0 \/ p = 1) /\ (net = None \/ net = Some Kusama) /\
    account_of_bytes id = treasury_account) \/
  (exists p r, was_approved s0 l Collective p r /\ rf_origin r = ORoot /\ leads ORoot (rf_call r) (OSigned treasury_account) k).
Proof.
  intros ranks now l x s k s0 H. destruct (in_name _ _ _ _ _ _ _ H) as [H1|[(e & from & kind & k0 & -> & H1)|[(g & H1 & _)|H1]]]; [by left| | |by right; right].
  - right. left. destruct (treasury_place _ H1) as (p & net & id & Hp & -> & Hn & Hi). exists e, kind, k0, p, net, id. done.
  - by apply treasury_not_community in H1.
Qed.

Lemma treasury_messages : forall e para ch origin p need ch' t, receive e para ch origin p need = XOk ch' ->
  bal ch' t treasury_account < bal ch t treasury_account ->
  exists q, (q = 0 \/ q = 1) /\ (origin = Location q [] \/
    exists net id, origin = Location q [AccountId32 net id] /\ (net = None \/ net = Some Kusama) /\ account_of_bytes id = treasury_account).
Proof.
  intros e para ch origin p need ch' t Hr Hb. destruct (receive_balances _ _ _ _ _ _ _ _ _ Hr Hb) as (o & [js Hx] & Ho).
  destruct (treasury_place _ Ho) as (q & net & id & Hq & -> & Hn & Hi). exists q. split; [done|].
  destruct origin as [q' js']. cbn in Hx. injection Hx as -> Hx. destruct js' as [|j js']; [by left|right].
  injection Hx as <- Hx. destruct js'; [|discriminate Hx]. exists net, id. done.
Qed.

(** Nobody with a vote, nobody to decide. *)
Lemma treasury_stuck : forall now l x s k,
  happens (grun (g_start ∅ now) l) x s (OSigned treasury_account) k ->
  (exists e k0, x = GTx e treasury_account k0) \/
  (exists e kind k0 p net id, x = GRemote e (Location p [AccountId32 net id]) kind k0 /\ (p = 0 \/ p = 1) /\ (net = None \/ net = Some Kusama) /\
    account_of_bytes id = treasury_account).
Proof.
  intros now l x s k H. destruct (treasury_named _ _ _ _ _ _ H) as [?|[?|_]]; [by left|by right|].
  pose proof (ginv_run _ l (ginv_start ∅ now)) as I.
  inversion H as [e who k0 s' o' k' H0|e from kind r k0 s' o' k' Hk H0|e n t s' o' k' Hn Hd H0]; subst.
  - destruct (executes_signed _ _ _ _ _ _ _ H0) as [[= ->]|(s1 & o1 & k1 & g & _ & _ & _ & [= E])]; [done|by left; eauto|]. by apply treasury_not_community in E.
  - destruct (executes_signed _ _ _ _ _ _ _ H0) as [E|(s1 & o1 & k1 & g & _ & _ & _ & [= E])]; [by destruct r| |by apply treasury_not_community in E].
    right. destruct r; cbn in E; try discriminate E. injection E as <-. apply transact_stands, treasury_place in Hk as (p & net & id & Hp & -> & Hnet & Hi).
    exists e, kind, k0, p, net, id. done.
  - exfalso. pose proof Hn as Hin. apply elem_of_list_lookup_2, elem_of_list_In in Hin. pose proof (gi_tasks _ I t Hin) as Hi.
    destruct (decide (tk_origin t = ORoot)) as [Er|Er].
    + assert (Hr : happens (grun (g_start ∅ now) l) (GFire e n) (gset_agenda (delete n (gv_agenda (grun (g_start ∅ now) l))) (grun (g_start ∅ now) l)) ORoot (tk_call t)).
      { eapply hap_fire; [done..|]. rewrite Er. apply ex_here. }
      assert (U : ungoverned (grun (g_start ∅ now) [])) by (apply unranked_start; intros ? ? E; by rewrite lookup_empty in E).
      refine (proj1 (never_governed_again ∅ now [] l _ _ _ _ U) Hr _). by left.
    + destruct (executes_signed _ _ _ _ _ _ _ H0 Er) as [E|(s1 & o1 & k1 & g & _ & _ & _ & [= E])]; [|by apply treasury_not_community in E].
      rewrite <- E in Hi. destruct (tk_source t) as [[[] p]|]; [|by destruct Hi as [_ [g Hg]]|done]. destruct Hi as [_ Hi]. by apply Hi.
Qed.

Lemma executes_trans e s o k s1 o1 k1 s2 o2 k2 : executes e s o k s1 o1 k1 -> executes e s1 o1 k1 s2 o2 k2 -> executes e s o k s2 o2 k2.
Proof. induction 1; intros H2; [done|eapply ex_community|eapply ex_dispatch_as|eapply ex_batch_first|eapply ex_batch_second]; eauto. Qed.
Lemma happens_trans s x s1 o k e s2 o2 k2 : happens s x s1 o k -> gstep_env x = Some e -> executes e s1 o k s2 o2 k2 -> happens s x s2 o2 k2.
Proof.
  intros H He H2. destruct H; cbn in He; injection He as ->; econstructor; eauto using executes_trans.
Qed.
Lemma treasury_spendable : forall ranks now l who e k,
  (forall who r, ranks !! who = Some r -> r <= 65535) ->
  let s := grun (g_start ranks now) l in
  votes_in_collective s who -> ge_deposit_ok e = true -> ge_slot e = true -> ge_sched_ok e = true ->
  exists l' n s', happens (grun s l') (GFire e n) s' (OSigned treasury_account) k.
Proof.
  intros ranks now l who e k Hr s Hv H1 H2 H3.
  destruct (one_member_governs ranks now l who e (GDispatchAs (OSigned treasury_account) k) Hr Hv H1 H2 H3) as (n & s' & Hh & _).
  eexists _, n, s'. eapply happens_trans; [exact Hh|done|]. apply ex_dispatch_as, ex_here.
Qed.

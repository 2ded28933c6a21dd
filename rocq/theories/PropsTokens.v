(** C183 to C186: tokens of assets on Kreivo. *)
From stdpp Require Import gmap.
From Coq Require Import Lia.
From Verif Require Import Base RuntimeModel TokensModel TokensSpec Tokens TokensApproved TokensSupply.
Open Scope N_scope.

(* ------------------------------------------------------------------ *)
(** C183. Who can take tokens. What an account has of an asset gets less only as it transfers it, a delegate does within what is approved, the
    asset's admin does, a pallet takes it, or the asset is being destroyed; by what was asked for, or all if less than the minimum would be left;
    and what is frozen stays, as does all of closed accounts and of a frozen asset, unless the asset is being destroyed. What is transferred arrives, and nothing else moves. *)
Theorem C183_only_so : forall s x id a, has (tstep_run s x) id a < has s id a ->
  may_take s x id a (has s id a - has (tstep_run s x) id a) /\
  ((exists o ok l, x = TCall ok o (KDestroyAccounts id l)) \/ frozen_of s id a <= has (tstep_run s x) id a).
Proof. exact only_frozen. Qed.
Print Assumptions C183_only_so.

Theorem C183_closed : forall s x id a, has (tstep_run s x) id a < has s id a ->
  (exists o ok l, x = TCall ok o (KDestroyAccounts id l)) \/ (in_state s id TLive /\ account_state s id a = Some TOpen).
Proof. exact closed_pays. Qed.
Print Assumptions C183_closed.

Theorem C183_arrives : forall s x id from to, moves x = Some (id, from, to) -> let s' := tstep_run s x in
  (from <> to -> has s id to <= has s' id to /\ has s' id from + has s' id to = has s id from + has s id to) /\
  (forall id' b, (id', b) <> (id, from) -> (id', b) <> (id, to) -> has s' id' b = has s id' b) /\ (from = to -> has s' id to = has s id to).
Proof. exact arrives. Qed.
Print Assumptions C183_arrives.

(** Asset 7 of account 1, with a minimum of 10; 2 has 100 of it, 60 of them frozen for a vote, 3 has 100 and 4 has 50. *)
Definition tok_l : list tstep := [
  TMoney 2 (10 * UNITS); TMoney 3 (10 * UNITS);
  TCall true None (KForceCreate 7 1 10); TCall true (Some 1) (KSetTeam 7 11 12 13);
  TCall true (Some 11) (KMint 7 2 100); TCall true (Some 11) (KMint 7 3 100); TGive 7 4 50; TLock 7 2 60].
Definition tok_pay (ok : bool) (a to n : N) : tstep := TCall ok (Some a) (KTransfer 7 to n false).
Example C183_case :
  (* all but the minimum and what is frozen; not more *)
  (let s := tstep_run (t_end tok_l) (tok_pay true 2 4 30) in has s 7 2 = 70 /\ has s 7 4 = 80 /\ has s 7 3 = 100) /\
  ~ goes_through (t_end tok_l) (tok_pay true 2 4 31) /\
  (* what is below the minimum goes along *)
  (let s := tstep_run (t_end tok_l) (tok_pay true 3 4 91) in has s 7 3 = 0 /\ has s 7 4 = 150) /\
  (* by the admin; not by others *)
  (let s := tstep_run (t_end tok_l) (TCall true (Some 12) (KForceTransfer 7 3 9 40)) in has s 7 3 = 60 /\ has s 7 9 = 40) /\
  ~ goes_through (t_end tok_l) (TCall true (Some 1) (KForceTransfer 7 3 9 40)) /\ in_state (t_end tok_l) 7 TLive /\ account_state (t_end tok_l) 7 2 = Some TOpen.
Proof.
  split; [vm_compute; split_and!; reflexivity|]. split; [intros (s' & E); vm_compute in E; discriminate E|].
  split; [vm_compute; split; reflexivity|]. split; [vm_compute; split; reflexivity|]. split; [intros (s' & E); vm_compute in E; discriminate E|].
  split; [eexists; split; vm_compute; reflexivity|vm_compute; reflexivity].
Qed.

(* ------------------------------------------------------------------ *)
(** C184. Delegates keep to what was approved: what [d] asks to move for [a], and may still, is never more than [a] approved in all, and nothing
    once [a] has withdrawn it until [a] approves again; while it stands [d] can use it. *)
Theorem C184_budget_partial : forall l id a d,
  in_all (spends id a d) t_start l + approved (t_end l) id a d <= in_all (allows id a d) t_start l.
Proof. exact budget_start. Qed.
Print Assumptions C184_budget_partial.

Theorem C184_withdrawn_partial : forall s id a d ok l,
  goes_through s (TCall ok (Some a) (KCancelApproval id d)) -> Forall (fun x => ~ names_delegate id a d x) l ->
  forall ok' to n, ~ goes_through (trun s (TCall ok (Some a) (KCancelApproval id d) :: l)) (TCall ok' (Some d) (KTransferApproved id a to n)).
Proof. exact withdrawn. Qed.
Print Assumptions C184_withdrawn_partial.

Theorem C184_usable_partial : forall l ok id a d to n, let s := t_end l in
  in_state s id TLive -> account_state s id a = Some TOpen -> frozen_of s id a = 0 -> n <= has s id a ->
  is_delegate s id a d -> n <= approved s id a d ->
  (account_state s id to = Some TOpen \/ account_state s id to = Some TNoOut) -> has s id to + has s id a <= u128_max ->
  goes_through s (TCall ok (Some d) (KTransferApproved id a to n)).
Proof. exact usable. Qed.
Print Assumptions C184_usable_partial.

Theorem C184_stands_partial : forall l x id a d, approved (tstep_run (t_end l) x) id a d < approved (t_end l) id a d -> exists ok,
  x = TCall ok (Some a) (KCancelApproval id d) \/
  (exists o, x = TCall ok o (KForceCancelApproval id a d) /\ (o = None \/ exists b, o = Some b /\ is_admin (t_end l) id b)) \/
  (exists to n, x = TCall ok (Some d) (KTransferApproved id a to n) /\ approved (tstep_run (t_end l) x) id a d + n = approved (t_end l) id a d) \/
  (exists b l', x = TCall ok (Some b) (KDestroyApprovals id l') /\ (a, d) ∈ l' /\ in_state (t_end l) id TDestroying).
Proof. exact ended. Qed.
Print Assumptions C184_stands_partial.

Definition tok_appr (a d n : N) : tstep := TCall true (Some a) (KApprove 7 d n).
Definition tok_use (d a to n : N) : tstep := TCall true (Some d) (KTransferApproved 7 a to n).
Definition tok_l2 : list tstep := tok_l ++ [tok_appr 3 5 50; tok_use 5 3 4 20; tok_appr 3 5 10; tok_use 5 3 4 41; tok_use 5 3 9 15].
Example C184_budget_case : in_all (spends 7 3 5) t_start tok_l2 = 35 /\ approved (t_end tok_l2) 7 3 5 = 25 /\ in_all (allows 7 3 5) t_start tok_l2 = 60.
Proof. vm_compute. split_and!; reflexivity. Qed.
Example C184_withdrawn_case : goes_through (t_end tok_l2) (tok_use 5 3 4 25) /\ goes_through (t_end tok_l2) (TCall true (Some 3) (KCancelApproval 7 5)).
Proof. split; eexists; vm_compute; reflexivity. Qed.
Example C184_usable_case : let s := t_end tok_l2 in in_state s 7 TLive /\ account_state s 7 3 = Some TOpen /\ frozen_of s 7 3 = 0 /\ 25 <= has s 7 3 /\ is_delegate s 7 3 5 /\
  25 <= approved s 7 3 5 /\ account_state s 7 4 = Some TOpen /\ has s 7 4 + has s 7 3 <= u128_max.
Proof.
  split; [eexists; split; vm_compute; reflexivity|]. split; [vm_compute; reflexivity|]. split; [vm_compute; reflexivity|]. split; [vm_compute; discriminate|].
  split; [vm_compute; discriminate|]. split; [vm_compute; discriminate|]. split; [vm_compute; reflexivity|vm_compute; discriminate].
Qed.

Example C184_stands_case : approved (t_end tok_l2) 7 3 5 = 25 /\ approved (tstep_run (t_end tok_l2) (tok_use 5 3 4 20)) 7 3 5 = 5 /\
  approved (tstep_run (t_end tok_l2) (TCall true (Some 12) (KForceCancelApproval 7 3 5))) 7 3 5 = 0 /\ approved (tstep_run (t_end tok_l2) (TCall true (Some 11) (KForceCancelApproval 7 3 5))) 7 3 5 = 25.
Proof. vm_compute. split_and!; reflexivity. Qed.

(** Approved 91 of 100, the delegate takes 100: the dust goes along. *)
Theorem C184_more_refuted : exists l id a d to n, in_all (allows id a d) t_start l = n /\ in_all (spends id a d) t_start l = 0 /\
  has (t_end l) id a = n + 9 /\ has (t_end (l ++ [TCall true (Some d) (KTransferApproved id a to n)])) id a = 0 /\
  has (t_end (l ++ [TCall true (Some d) (KTransferApproved id a to n)])) id to = has (t_end l) id to + n + 9.
Proof. exists (tok_l ++ [tok_appr 3 5 91]), 7, 3, 5, 4, 91. vm_compute. split_and!; reflexivity. Qed.
Print Assumptions C184_more_refuted.
(** Approving 5 after 10 lets the delegate move 15. *)
Theorem C184_adds_refuted : exists l id a d to, approved (t_end l) id a d = 10 /\ goes_through (t_end l) (TCall true (Some a) (KApprove id d 5)) /\
  goes_through (t_end (l ++ [TCall true (Some a) (KApprove id d 5)])) (TCall true (Some d) (KTransferApproved id a to 15)).
Proof. exists (tok_l ++ [tok_appr 3 5 10]), 7, 3, 5, 4. split; [vm_compute; reflexivity|]. split; eexists; vm_compute; reflexivity. Qed.
Print Assumptions C184_adds_refuted.

(* ------------------------------------------------------------------ *)
(** C185. Deposits for approvals: an account has the deposit reserved once for each delegate it has named, and gets it back as it withdraws the
    approval, as it is used up, or as the asset is destroyed. *)
Theorem C185_exact : forall l a ks, NoDup ks -> (forall id d, (id, d) ∈ ks <-> is_delegate (t_end l) id a d) ->
  put_down (t_end l) a = N.of_nat (length ks) * approval_deposit.
Proof. exact deposits_exact. Qed.
Print Assumptions C185_exact.

Theorem C185_withdrawn_partial : forall l id a d ok, is_delegate (t_end l) id a d -> in_state (t_end l) id TLive ->
  exists s', tstep_try (t_end l) (TCall ok (Some a) (KCancelApproval id d)) = Some s' /\ put_down s' a + approval_deposit = put_down (t_end l) a /\
    spare s' a = spare (t_end l) a + approval_deposit /\ ~ is_delegate s' id a d.
Proof. exact back_cancel. Qed.
Print Assumptions C185_withdrawn_partial.

Theorem C185_used_up : forall l ok id a d to, let x := TCall ok (Some d) (KTransferApproved id a to (approved (t_end l) id a d)) in
  goes_through (t_end l) x -> let s' := tstep_run (t_end l) x in
  put_down s' a + approval_deposit = put_down (t_end l) a /\ spare s' a = spare (t_end l) a + approval_deposit /\ ~ is_delegate s' id a d.
Proof. exact back_used. Qed.
Print Assumptions C185_used_up.

Theorem C185_destroyed : forall l id a d b ok, is_delegate (t_end l) id a d -> in_state (t_end l) id TDestroying ->
  exists s', tstep_try (t_end l) (TCall ok (Some b) (KDestroyApprovals id [(a, d)])) = Some s' /\ put_down s' a + approval_deposit = put_down (t_end l) a /\
    spare s' a = spare (t_end l) a + approval_deposit /\ ~ is_delegate s' id a d.
Proof. exact back_destroyed. Qed.
Print Assumptions C185_destroyed.

(** No asset is gone while deposits are reserved for approvals of it. *)
Theorem C185_rooted : forall l id a d, is_delegate (t_end l) id a d -> exists_asset (t_end l) id.
Proof. exact rooted_end. Qed.
Print Assumptions C185_rooted.

Definition tok_l3 : list tstep := tok_l ++ [tok_appr 3 5 50; tok_appr 3 6 7; tok_appr 3 5 1; tok_appr 2 5 9].
Example C185_exact_case : put_down (t_end tok_l3) 3 = 2 * approval_deposit /\ put_down (t_end tok_l3) 2 = approval_deposit /\ is_delegate (t_end tok_l3) 7 3 5 /\ is_delegate (t_end tok_l3) 7 3 6 /\ 0 < approval_deposit.
Proof. split; [vm_compute; reflexivity|]. split; [vm_compute; reflexivity|]. split; [vm_compute; discriminate|]. split; [vm_compute; discriminate|vm_compute; reflexivity]. Qed.
Example C185_back_case : is_delegate (t_end tok_l3) 7 3 5 /\ in_state (t_end tok_l3) 7 TLive /\ goes_through (t_end tok_l3) (tok_use 5 3 4 (approved (t_end tok_l3) 7 3 5)) /\
  let l := tok_l3 ++ [TCall true (Some 1) (KStartDestroy 7)] in is_delegate (t_end l) 7 3 5 /\ in_state (t_end l) 7 TDestroying.
Proof.
  split; [vm_compute; discriminate|]. split; [eexists; split; vm_compute; reflexivity|]. split; [eexists; vm_compute; reflexivity|]. split; [vm_compute; discriminate|eexists; split; vm_compute; reflexivity].
Qed.

(** While the asset is frozen the deposit stays reserved, whatever anyone but its owner, its admin and root do. *)
Theorem C185_while_frozen : forall l l' id a d, in_state (t_end l) id TFrozen -> is_delegate (t_end l) id a d -> Forall (of_others (t_end l) id) l' ->
  is_delegate (t_end (l ++ l')) id a d /\ approval_deposit <= put_down (t_end (l ++ l')) a.
Proof. exact stuck. Qed.
Print Assumptions C185_while_frozen.
Theorem C185_back_refuted : exists l id a d, is_delegate (t_end l) id a d /\ 0 < put_down (t_end l) a /\ ~ is_owner (t_end l) id a /\ ~ is_admin (t_end l) id a /\
  forall l', Forall (of_others (t_end l) id) l' -> 0 < put_down (t_end (l ++ l')) a.
Proof.
  exists (tok_l3 ++ [TCall true (Some 13) (KFreezeAsset 7)]), 7, 3, 5. split; [vm_compute; discriminate|]. split; [vm_compute; reflexivity|].
  split; [intros (e & E & H); vm_compute in E; injection E as <-; vm_compute in H; discriminate H|]. split; [intros (e & E & H); vm_compute in E; injection E as <-; vm_compute in H; discriminate H|].
  intros l' F. eapply N.lt_le_trans; [|eapply stuck; [| |exact F]].
  - vm_compute. reflexivity.
  - eexists. split; vm_compute; reflexivity.
  - instantiate (1 := 5). vm_compute. discriminate.
Qed.
Print Assumptions C185_back_refuted.

(* ------------------------------------------------------------------ *)
(** C186. Who decides about an asset. Its accounts are closed by its freezer and opened by its admin. Its owner, issuer, admin, freezer and minimum change only as root decides or, but for the minimum, as the
    owner does, and end as it is done away with with no account and approval left; it is frozen by its freezer or root, thawed by its admin or root,
    destroyed by its owner or root. How much there is of it changes only as its issuer mints, its admin burns, or pallets give and take; and it is
    what accounts have together. *)
Theorem C186_terms : forall s x id, terms (tstep_run s x) id <> terms s id ->
  exists ok,
    (~ exists_asset s id /\ exists b min, 0 < min /\ x = TCall ok None (KForceCreate id b min) /\ terms (tstep_run s x) id = Some (b, b, b, b, min)) \/
    (exists_asset s id /\ exists b i m f min fr, x = TCall ok None (KForceStatus id b i m f min fr) /\ terms (tstep_run s x) id = Some (b, i, m, f, min)) \/
    (exists a o i m f min, is_owner s id a /\ in_state s id TLive /\ terms s id = Some (o, i, m, f, min) /\
      ((exists b, x = TCall ok (Some a) (KTransferOwnership id b) /\ terms (tstep_run s x) id = Some (b, i, m, f, min)) \/
       (exists i' m' f', x = TCall ok (Some a) (KSetTeam id i' m' f') /\ terms (tstep_run s x) id = Some (o, i', m', f', min)))) \/
    (exists a, x = TCall ok (Some a) (KFinishDestroy id) /\ in_state s id TDestroying /\ ~ exists_asset (tstep_run s x) id /\
      (forall b, ~ holds_account s id b) /\ (forall b d, ~ is_delegate s id b d)).
Proof. exact terms_by. Qed.
Print Assumptions C186_terms.

Theorem C186_frozen : forall s x id, in_state s id TLive -> in_state (tstep_run s x) id TFrozen ->
  exists ok, (exists a, x = TCall ok (Some a) (KFreezeAsset id) /\ is_freezer s id a) \/ (exists b i m f min, x = TCall ok None (KForceStatus id b i m f min true)).
Proof. exact frozen_by. Qed.
Print Assumptions C186_frozen.

Theorem C186_thawed : forall s x id, in_state s id TFrozen -> in_state (tstep_run s x) id TLive ->
  exists ok, (exists a, x = TCall ok (Some a) (KThawAsset id) /\ is_admin s id a) \/ (exists b i m f min, x = TCall ok None (KForceStatus id b i m f min false)).
Proof. exact thawed_by. Qed.
Print Assumptions C186_thawed.

Theorem C186_destroyed : forall s x id, in_state (tstep_run s x) id TDestroying -> ~ in_state s id TDestroying ->
  exists ok o, x = TCall ok o (KStartDestroy id) /\ (o = None \/ exists a, o = Some a /\ is_owner s id a).
Proof. exact destroyed_by. Qed.
Print Assumptions C186_destroyed.

Theorem C186_closed : forall s x id a c c', account_state s id a = Some c -> account_state (tstep_run s x) id a = Some c' -> c <> c' -> exists ok b,
  (x = TCall ok (Some b) (KFreeze id a) /\ is_freezer s id b /\ c' = TNoOut) \/ (x = TCall ok (Some b) (KBlock id a) /\ is_freezer s id b /\ c' = TNoInOut) \/
  (x = TCall ok (Some b) (KThaw id a) /\ is_admin s id b /\ c' = TOpen).
Proof. exact closed_by. Qed.
Print Assumptions C186_closed.

Theorem C186_supply : forall s x id, supply (tstep_run s x) id <> supply s id ->
  (exists ok a to n, x = TCall ok (Some a) (KMint id to n) /\ is_issuer s id a /\ supply (tstep_run s x) id = supply s id + n) \/
  (exists ok a from n, x = TCall ok (Some a) (KBurn id from n) /\ is_admin s id a /\ supply (tstep_run s x) id < supply s id) \/
  (exists a n, x = TGive id a n \/ x = TTake id a n) \/
  (exists ok a, x = TCall ok (Some a) (KFinishDestroy id) /\ in_state s id TDestroying).
Proof. exact supply_by. Qed.
Print Assumptions C186_supply.

Theorem C186_backed : forall l id hs, exists_asset (t_end l) id -> ~ in_state (t_end l) id TDestroying -> NoDup hs -> (forall a, a ∈ hs <-> holds_account (t_end l) id a) ->
  supply (t_end l) id = foldr (fun a z => has (t_end l) id a + z) 0 hs.
Proof. exact supply_exact. Qed.
Print Assumptions C186_backed.

Definition tok_frozen : list tstep := tok_l ++ [TCall true (Some 13) (KFreezeAsset 7)].
Example C186_case :
  terms (t_end tok_l) 7 = Some (1, 11, 12, 13, 10) /\ terms (tstep_run (t_end tok_l) (TCall true (Some 1) (KTransferOwnership 7 2))) 7 = Some (2, 11, 12, 13, 10) /\
  terms (tstep_run (t_end tok_l) (TCall true None (KForceStatus 7 4 4 4 4 1 false))) 7 = Some (4, 4, 4, 4, 1) /\
  in_state (t_end tok_l) 7 TLive /\ in_state (t_end tok_frozen) 7 TFrozen /\ in_state (t_end (tok_frozen ++ [TCall true (Some 12) (KThawAsset 7)])) 7 TLive /\
  in_state (t_end (tok_frozen ++ [TCall true (Some 1) (KStartDestroy 7)])) 7 TDestroying /\
  supply (t_end tok_l) 7 = 250 /\ supply (t_end (tok_l ++ [TCall true (Some 11) (KMint 7 2 9)])) 7 = 259 /\ supply (t_end (tok_l ++ [TCall true (Some 12) (KBurn 7 2 90)])) 7 = 220 /\
  (* done away with *)
  (let l := tok_frozen ++ [TCall true (Some 1) (KStartDestroy 7); TCall true (Some 9) (KDestroyAccounts 7 [2; 3; 4])] in
   in_state (t_end l) 7 TDestroying /\ terms (t_end (l ++ [TCall true (Some 9) (KFinishDestroy 7)])) 7 = None).
Proof.
  split; [vm_compute; reflexivity|]. split; [vm_compute; reflexivity|]. split; [vm_compute; reflexivity|]. do 4 (split; [eexists; split; vm_compute; reflexivity|]).
  do 3 (split; [vm_compute; reflexivity|]). split; [eexists; split; vm_compute; reflexivity|vm_compute; reflexivity].
Qed.
Example C186_closed_case : account_state (t_end tok_l) 7 3 = Some TOpen /\ account_state (tstep_run (t_end tok_l) (TCall true (Some 13) (KFreeze 7 3))) 7 3 = Some TNoOut /\
  account_state (tstep_run (t_end tok_l) (TCall true (Some 12) (KFreeze 7 3))) 7 3 = Some TOpen /\
  ~ goes_through (tstep_run (t_end tok_l) (TCall true (Some 13) (KFreeze 7 3))) (tok_pay true 3 4 5).
Proof. split; [vm_compute; reflexivity|]. split; [vm_compute; reflexivity|]. split; [vm_compute; reflexivity|]. intros (s' & E). vm_compute in E. discriminate E. Qed.
Lemma in_map_list {V} (m : gmap (N * N) V) k : m !! k <> None <-> k ∈ map fst (map_to_list m).
Proof.
  split.
  - intros H. destruct (m !! k) as [v|] eqn:E; [|congruence]. apply elem_of_list_fmap. exists (k, v). split; [reflexivity|]. apply elem_of_map_to_list. exact E.
  - intros H. apply elem_of_list_fmap in H as ([k' v] & -> & H). apply elem_of_map_to_list in H. cbn. rewrite H. discriminate.
Qed.
Example C186_backed_case : exists_asset (t_end tok_l) 7 /\ ~ in_state (t_end tok_l) 7 TDestroying /\ NoDup [2; 3; 4] /\ (forall a, a ∈ [2; 3; 4] <-> holds_account (t_end tok_l) 7 a).
Proof.
  split; [vm_compute; discriminate|]. split; [intros (e & E & H); vm_compute in E; injection E as <-; vm_compute in H; discriminate H|].
  split; [repeat constructor; set_solver|]. intros a. unfold holds_account. rewrite in_map_list.
  let r := eval vm_compute in (map fst (map_to_list (t_accounts (t_end tok_l)))) in replace (map fst (map_to_list (t_accounts (t_end tok_l)))) with r by (vm_compute; reflexivity).
  set_solver.
Qed.

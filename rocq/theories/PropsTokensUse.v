(** C190: tokens of assets can be used. *)
From stdpp Require Import gmap.
From Coq Require Import Lia.
From Verif Require Import Base RuntimeModel TokensModel TokensSpec TokensUsable.
Open Scope N_scope.

(** C190. Tokens can be used. While the asset is live and its account open, a holder can transfer all but the minimum and what is frozen, and all
    there is if nothing is frozen, to any account that may receive them or that comes into being with them. *)
Theorem C190_usable : forall l ok id a to n keep, let s := t_end l in
  in_state s id TLive -> account_state s id a = Some TOpen ->
  n + frozen_of s id a + least s id <= has s id a \/ (frozen_of s id a = 0 /\ keep = false /\ n <= has s id a) ->
  ((account_state s id to = Some TOpen \/ account_state s id to = Some TNoOut) /\ has s id to + has s id a <= u128_max) \/
  (~ holds_account s id to /\ least s id <= n /\ ok = true) ->
  goes_through s (TCall ok (Some a) (KTransfer id to n keep)).
Proof. exact holders_use. Qed.
Print Assumptions C190_usable.

(** Asset 7 with a minimum of 10; 2 has 100, 60 of them frozen; 3 has 100; 4 has 50 and may only receive. *)
Definition use_l : list tstep := [
  TCall true None (KForceCreate 7 1 10); TCall true (Some 1) (KSetTeam 7 11 12 13); TGive 7 2 100; TGive 7 3 100; TGive 7 4 50; TLock 7 2 60;
  TCall true (Some 13) (KFreeze 7 4)].
Example C190_case : let s := t_end use_l in
  in_state s 7 TLive /\ account_state s 7 2 = Some TOpen /\ account_state s 7 3 = Some TOpen /\ account_state s 7 4 = Some TNoOut /\ ~ holds_account s 7 5 /\ least s 7 = 10 /\
  30 + frozen_of s 7 2 + least s 7 <= has s 7 2 /\ (frozen_of s 7 3 = 0 /\ 100 <= has s 7 3) /\ has s 7 4 + has s 7 3 <= u128_max /\
  ~ goes_through s (TCall true (Some 2) (KTransfer 7 4 31 false)) /\ ~ goes_through s (TCall true (Some 3) (KTransfer 7 5 9 false)) /\ ~ goes_through s (TCall true (Some 4) (KTransfer 7 3 20 false)).
Proof.
  cbv zeta. split; [eexists; split; vm_compute; reflexivity|]. do 3 (split; [vm_compute; reflexivity|]). split; [intros H; apply H; vm_compute; reflexivity|]. split; [vm_compute; reflexivity|].
  split; [vm_compute; discriminate|]. split; [split; [vm_compute; reflexivity|vm_compute; discriminate]|]. split; [vm_compute; discriminate|].
  split_and!; intros (s' & E); vm_compute in E; discriminate E.
Qed.

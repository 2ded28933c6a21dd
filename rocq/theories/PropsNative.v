(** C187 to C189: the native token on Kreivo. *)
From stdpp Require Import gmap.
From Coq Require Import Lia.
From Verif Require Import Base RuntimeModel NativeModel NativeSpec Native.
Open Scope N_scope.

(* ------------------------------------------------------------------ *)
(** C187. Who can take native tokens. What an account has gets less only as it transfers or burns it itself, root moves it or sets it, or another
    pallet takes it or slashes what is set aside; by what was asked for, or by all there is if less than the minimum would be left (never, if it is
    to be kept alive). What is frozen stays; what is transferred arrives, and nothing else moves. An account gets more only by what is sent to
    it, root sets, or another pallet gives. *)
Theorem C187_only_so : forall l x a, let s := b_end l in let s' := bstep_run s x in
  total_of s' a < total_of s a -> may_cost s x a (total_of s a - total_of s' a).
Proof. exact native_only_so. Qed.
Print Assumptions C187_only_so.

Theorem C187_frozen : forall l x a, let s := b_end l in let s' := bstep_run s x in uses_free x -> total_of s' a < total_of s a ->
  frozen_of s a <= total_of s' a \/ (frozen_of s a < EXISTENTIAL_DEPOSIT /\ ~ alone x a /\ total_of s' a = 0).
Proof. exact native_frozen. Qed.
Print Assumptions C187_frozen.

Theorem C187_arrives : forall l x from to n, let s := b_end l in let s' := bstep_run s x in
  sends s x = Some (from, to, n) -> succeeds s x -> from <> to ->
  free_of s' to = free_of s to + n /\ aside_of s' to = aside_of s to /\ (forall b, b <> from -> b <> to -> total_of s' b = total_of s b).
Proof. exact native_arrives. Qed.
Print Assumptions C187_arrives.

Theorem C187_gains : forall l x a, let s := b_end l in let s' := bstep_run s x in
  total_of s a < total_of s' a -> may_gain x a (total_of s' a - total_of s a).
Proof. exact native_gains. Qed.
Print Assumptions C187_gains.

(** 1 has ten units, four set aside, seven frozen; 2 has five; 3 has one unit; nobody else counts. *)
Definition nat_o : borac := BOrac (fun _ => false) (fun _ => false).
Definition nat_l : list (borac * bstep) := [
  (nat_o, BGive 1 (10 * UNITS)); (nat_o, BHold 1 (4 * UNITS)); (nat_o, BFreeze 1 (7 * UNITS)); (nat_o, BGive 2 (5 * UNITS)); (nat_o, BGive 3 UNITS)].
Definition nat_pay (a to n : N) (keep : bool) : borac * bstep := (nat_o, BCall (Some a) (BTransfer to n keep)).
Example C187_case :
  (let s := b_end nat_l in free_of s 1 = 6 * UNITS /\ aside_of s 1 = 4 * UNITS /\ frozen_of s 1 = 7 * UNITS) /\
  (* up to what is frozen, not more *)
  (let s := bstep_run (b_end nat_l) (nat_pay 1 2 (3 * UNITS) true) in total_of s 1 = 7 * UNITS /\ free_of s 2 = 8 * UNITS /\ total_of s 3 = UNITS) /\
  ~ succeeds (b_end nat_l) (nat_pay 1 2 (3 * UNITS + 1) true) /\
  (* what is below the minimum goes, but not if the account is to be kept *)
  (let s := bstep_run (b_end nat_l) (nat_pay 3 2 (UNITS - 1) false) in total_of s 3 = 0 /\ free_of s 2 = 6 * UNITS - 1) /\
  ~ succeeds (b_end nat_l) (nat_pay 3 2 (UNITS - 1) true) /\
  (* root can, others cannot *)
  (let s := bstep_run (b_end nat_l) (nat_o, BCall None (BForceTransfer 2 4 UNITS)) in total_of s 2 = 4 * UNITS /\ total_of s 4 = UNITS) /\
  ~ succeeds (b_end nat_l) (nat_o, BCall (Some 4) (BForceTransfer 2 4 UNITS)).
Proof.
  split; [vm_compute; split_and!; reflexivity|]. split; [vm_compute; split_and!; reflexivity|]. split; [intros (s' & E); vm_compute in E; discriminate E|].
  split; [vm_compute; split; reflexivity|]. split; [intros (s' & E); vm_compute in E; discriminate E|]. split; [vm_compute; split; reflexivity|].
  intros (s' & E); vm_compute in E; discriminate E.
Qed.

(* ------------------------------------------------------------------ *)
(** C188. What is free can be used. An account can transfer what it has free, as long as the minimum and what is frozen stay and the receiver has
    the minimum then; all of it if nothing is set aside or frozen and nobody depends on the account. Sending all sends just that. Who asks to be
    kept alive is. *)
Theorem C188_usable : forall l x a to n keep, let s := b_end l in
  Forall (fun y => ~ sets_issuance y) l -> snd x = BCall (Some a) (BTransfer to n keep) ->
  n + EXISTENTIAL_DEPOSIT <= free_of s a \/ (n <= free_of s a /\ keep = false /\ aside_of s a = 0 /\ frozen_of s a = 0 /\ unused x a) ->
  n + frozen_of s a <= total_of s a ->
  EXISTENTIAL_DEPOSIT <= free_of s to + n -> free_of s to + n <= u128_max -> succeeds s x.
Proof. exact native_usable. Qed.
Print Assumptions C188_usable.

Theorem C188_all : forall l x a to keep, let s := b_end l in let s' := bstep_run s x in
  snd x = BCall (Some a) (BTransferAll to keep) -> succeeds s x -> a <> to -> frozen_of s a <= aside_of s a -> EXISTENTIAL_DEPOSIT <= free_of s a ->
  (keep = true -> total_of s' a = aside_of s a + EXISTENTIAL_DEPOSIT /\ free_of s' to = free_of s to + free_of s a - EXISTENTIAL_DEPOSIT) /\
  (keep = false -> aside_of s a = 0 -> unused x a -> total_of s' a = 0 /\ free_of s' to = free_of s to + free_of s a).
Proof. exact native_all. Qed.
Print Assumptions C188_all.

Theorem C188_kept : forall l x a, let s := b_end l in EXISTENTIAL_DEPOSIT <= free_of s a ->
  (exists to n, snd x = BCall (Some a) (BTransfer to n true)) \/ (exists to, snd x = BCall (Some a) (BTransferAll to true)) \/
  (exists n, snd x = BCall (Some a) (BBurn n true)) ->
  EXISTENTIAL_DEPOSIT <= free_of (bstep_run s x) a.
Proof. exact keeps_alive. Qed.
Print Assumptions C188_kept.

Example C188_case :
  Forall (fun y => ~ sets_issuance y) nat_l /\
  (let s := b_end nat_l in 3 * UNITS + EXISTENTIAL_DEPOSIT <= free_of s 1 /\ 3 * UNITS + frozen_of s 1 <= total_of s 1 /\
     EXISTENTIAL_DEPOSIT <= free_of s 4 + 3 * UNITS /\ free_of s 4 + 3 * UNITS <= u128_max) /\
  (let s := b_end nat_l in aside_of s 2 = 0 /\ frozen_of s 2 = 0 /\ unused (nat_pay 2 4 (5 * UNITS) false) 2) /\
  (let s := bstep_run (b_end nat_l) (nat_pay 2 4 (5 * UNITS) false) in total_of s 2 = 0 /\ free_of s 4 = 5 * UNITS) /\
  (let s := bstep_run (b_end nat_l) (nat_o, BCall (Some 2) (BTransferAll 4 true)) in total_of s 2 = EXISTENTIAL_DEPOSIT /\ free_of s 4 = 5 * UNITS - EXISTENTIAL_DEPOSIT) /\
  (let s := bstep_run (b_end nat_l) (nat_o, BCall (Some 2) (BTransferAll 4 false)) in total_of s 2 = 0 /\ free_of s 4 = 5 * UNITS) /\
  (* the receiver would not have the minimum *)
  ~ succeeds (b_end nat_l) (nat_pay 2 4 (EXISTENTIAL_DEPOSIT - 1) false) /\
  (* while others depend on the account *)
  ~ succeeds (b_end nat_l) (BOrac (fun _ => false) (fun _ => true), BCall (Some 2) (BTransfer 4 (5 * UNITS) false)).
Proof.
  split; [repeat constructor; intros (n & E); discriminate E|]. split; [vm_compute; split_and!; discriminate|]. split; [vm_compute; split_and!; reflexivity|].
  split; [vm_compute; split_and!; reflexivity|]. split; [vm_compute; split_and!; reflexivity|]. split; [vm_compute; split_and!; reflexivity|].
  split; intros (s' & E); vm_compute in E; discriminate E.
Qed.

(* ------------------------------------------------------------------ *)
(** C189. How much there is. Unless root says otherwise, as much is issued as accounts have together; transfers leave it but for less than the
    minimum, lost as the sender's account goes. There is no account with less than the minimum free and nothing set aside. *)
Theorem C189_sum : forall l hs, Forall (fun x => ~ sets_issuance x) l -> NoDup hs -> (forall a, a ∈ hs <-> is_account (b_end l) a) ->
  issued (b_end l) = foldr (fun a z => total_of (b_end l) a + z) 0 hs.
Proof. exact issued_exact. Qed.
Print Assumptions C189_sum.

Theorem C189_transfers : forall l x from to n, let s := b_end l in let s' := bstep_run s x in
  Forall (fun y => ~ sets_issuance y) l -> sends s x = Some (from, to, n) ->
  issued s' <= issued s /\ issued s < issued s' + EXISTENTIAL_DEPOSIT /\ (issued s' = issued s \/ total_of s' from = 0).
Proof. exact native_issued. Qed.
Print Assumptions C189_transfers.

Theorem C189_minimum : forall l a, is_account (b_end l) a -> EXISTENTIAL_DEPOSIT <= free_of (b_end l) a \/ 0 < aside_of (b_end l) a.
Proof. exact tidy_account. Qed.
Print Assumptions C189_minimum.

Example C189_case :
  issued (b_end nat_l) = 16 * UNITS /\ (is_account (b_end nat_l) 1 /\ is_account (b_end nat_l) 3 /\ ~ is_account (b_end nat_l) 4) /\
  issued (bstep_run (b_end nat_l) (nat_pay 3 2 (UNITS - 1) false)) = 16 * UNITS - 1 /\
  ~ is_account (bstep_run (b_end nat_l) (nat_pay 3 2 (UNITS - 1) false)) 3.
Proof.
  split; [vm_compute; reflexivity|]. split; [split_and!|split; [vm_compute; reflexivity|]].
  1,2: intros E; vm_compute in E; discriminate E.
  all: intros E; apply E; vm_compute; reflexivity.
Qed.

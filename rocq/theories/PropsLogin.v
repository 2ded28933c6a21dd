(** Property theorems C162: logging in with a pass. The program is [login] and [pass_run] of LoginModel.v. *)
From stdpp Require Import gmap.
From Verif Require Import Base RuntimeModel LoginModel LoginProofs.
Open Scope N_scope.

(* ------------------------------------------------------------------ *)
(** * C162: a credential logs in once, whom it was made for *)

(** Refuted: nothing in a credential says whom it lets act for the user. Whoever sees one that works can log in with it as well, ... *)
Theorem C162_onlooker_refuted : forall valid s who who' c s', login valid s who c = Some s' -> exists s'', login valid s' who' c = Some s'' /\
  pl_logins s'' = (who', cr_user c, pl_now s) :: (who, cr_user c, pl_now s) :: pl_logins s.
Proof. exact onlooker. Qed.
Print Assumptions C162_onlooker_refuted.
(** ... and still three blocks after the block it refers to, whatever happened since; ... *)
Theorem C162_again_refuted : forall valid l1 l2 who who' c s', let s := pass_run valid pass_start l1 in
  login valid s who c = Some s' -> cr_context c < pl_now s -> pl_now (pass_run valid s l2) <= cr_context c + 3 ->
  is_Some (login valid (pass_run valid s l2) who' c).
Proof. exact again. Qed.
Print Assumptions C162_again_refuted.
(** ... and one whose device signed the zero hash works in every block until the one it names, as late as that may be. *)
Theorem C162_ahead_refuted : forall valid l key user device until sig who, let s := pass_run valid pass_start l in
  pl_devices s !! (user, device) = Some key -> valid key (replicate 32 0) sig = true -> pl_now s <= until ->
  is_Some (login valid s who (Credential user device until (replicate 32 0) sig)).
Proof. exact ahead. Qed.
Print Assumptions C162_ahead_refuted.
(** What holds: whoever was logged in for a user showed, in that block, something one of the user's devices signed, of a block not more than
    three blocks ago; ... *)
Theorem C162_logins_partial : forall valid l who user n, (who, user, n) ∈ pl_logins (pass_run valid pass_start l) ->
  exists l1 c l2 key, let s := pass_run valid pass_start l1 in l = l1 ++ PLogin who c :: l2 /\ cr_user c = user /\ pl_now s = n /\
    pl_devices s !! (user, cr_device c) = Some key /\ valid key (cr_challenge c) (cr_signature c) = true /\ n <= cr_context c + 3.
Proof.
  intros valid l who user n H. apply logins_made in H as (l1 & c & l2 & -> & <- & <- & [s' Hs]). apply proves_device in Hs as ([key [H1 H2]] & H3 & _).
  exists l1, c, l2, key. by split_and!.
Qed.
Print Assumptions C162_logins_partial.
(** ... and what was signed, other than zero, is the hash of one of the last three blocks. *)
Theorem C162_recent_partial : forall valid l who c s', let s := pass_run valid pass_start l in
  login valid s who c = Some s' -> cr_challenge c <> replicate 32 0 ->
  cr_context c < pl_now s /\ pl_now s <= cr_context c + 3 /\ pl_hashes s !! cr_context c = Some (cr_challenge c).
Proof. exact recent. Qed.
Print Assumptions C162_recent_partial.

(** User 1 with device 2, key 40; the device's signature over a hash is the hash's first byte plus the key. *)
Definition sums (key : N) (h : bytes) (sig : N) : bool := match h with b :: _ => sig =? b + key | [] => false end.
Definition l_start : list pstep := [PDevice 1 2 40; PBlock (replicate 32 5); PBlock (replicate 32 6)].
Example C162_case : let s := pass_run sums pass_start l_start in
  is_Some (login sums s 77 (Credential 1 2 1 (replicate 32 6) 46)) /\ login sums s 77 (Credential 1 2 1 (replicate 32 6) 45) = None /\
  login sums s 77 (Credential 1 2 1 (replicate 32 5) 45) = None /\ login sums s 77 (Credential 1 3 1 (replicate 32 6) 46) = None /\
  is_Some (login sums (pass_run sums s [PBlock (replicate 32 7); PBlock (replicate 32 8)]) 78 (Credential 1 2 1 (replicate 32 6) 46)) /\
  login sums (pass_run sums s [PBlock (replicate 32 7); PBlock (replicate 32 8); PBlock (replicate 32 9)]) 77 (Credential 1 2 1 (replicate 32 6) 46) = None /\
  is_Some (login sums s 66 (Credential 1 2 1000000 (replicate 32 0) 40)) /\
  pl_logins (pass_run sums s [PLogin 77 (Credential 1 2 1 (replicate 32 6) 46)]) = [(77, 1, 2)].
Proof. cbv zeta. split_and!; try (vm_compute; reflexivity); eexists; vm_compute; reflexivity. Qed.

(** Histories of collators that show which claims fail, and that the others are about something. *)
From stdpp Require Import gmap.
From Verif Require Import Base XcmTypes OriginTypes XcmConfigModel TimeModel CollatorsModel CollatorsSpec CollatorsProofs CollatorsSessions CollatorsTheorems.
Open Scope N_scope.

Lemma off_list x l : existsb (N.eqb x) l = false -> x ∉ l.
Proof.
  intros H Hin. assert (Ht : existsb (N.eqb x) l = true); [|congruence]. apply existsb_exists. exists x. split; [by apply elem_of_list_In|apply N.eqb_refl].
Qed.

(** Checking that a key is on turn in no state of a history. *)
Fixpoint off_turn (s : collators) (l : list kstep) (key : N) : bool :=
  negb (existsb (N.eqb key) (k_authorities s)) && match l with [] => true | x :: l' => off_turn (kstep_run s x) l' key end.
Lemma off_turn_never l s key : off_turn s l key = true -> never_on_turn s l key.
Proof.
  assert (H1 : forall s', negb (existsb (N.eqb key) (k_authorities s')) = true -> key ∉ k_authorities s').
  { intros s' Hn Hin. apply negb_true_iff in Hn. assert (Ht : existsb (N.eqb key) (k_authorities s') = true); [|congruence].
    apply existsb_exists. exists key. split; [by apply elem_of_list_In|apply N.eqb_refl]. }
  revert s. induction l as [|x l IH]; intros s H; cbn [off_turn] in H; apply andb_true_iff in H as [Ha Hb]; cbn [never_on_turn]; (split; [by apply H1|]); [done|by apply IH].
Qed.
Definition stands_b (s : collators) (who : N) : bool := existsb (fun c => cd_who c =? who) (k_candidates s).
Lemma stands_b_iff s who : stands_b s who = true <-> stands s who.
Proof.
  unfold stands_b, stands. rewrite existsb_exists. split; intros (c & Hin & He); exists c; (split; [by apply elem_of_list_In|by apply N.eqb_eq]).
Qed.
Lemma stands_b_not s who : stands_b s who = false -> ~ stands s who.
Proof. intros H Hs. apply stands_b_iff in Hs. congruence. Qed.

Definition ok_env : kenv := KEnv (fun _ _ => true) (fun _ _ => true).
Definition blocks_of (n : N) : list kstep := replicate (N.to_nat n) (KBlock 0).

(** A chain begun with one invulnerable collator, account 1 with key 101; account 2 owns a token. *)
Definition money : gmap N N := {[ 2 := 1000000000000; 3 := 1000000000000 ]}.
Definition start : collators := default (Collators [] [] ∅ 0 0 ∅ [] [] [] ∅ ∅ 0) (kgenesis [(1, 101)] money).
Lemma start_is : kgenesis [(1, 101)] money = Some start.
Proof. unfold start. destruct (kgenesis [(1, 101)] money) eqn:E; [reflexivity|]. exfalso. vm_compute in E. discriminate. Qed.
Lemma start_reach l : kreachable (krun start l).
Proof. exists [(1, 101)], money, start, l. split_and!; [done|apply start_is|done]. Qed.

(** Account 2 registers right after a session has begun: it is removed two sessions later, before its key is ever on turn. *)
Definition late_joiner : list kstep := KCall ok_env ORoot (KSetDesired 1) :: blocks_of 3600 ++ [KCall ok_env (OSigned 2) (KSetKeys 102)].
Lemma late_joiner_removed :
  let s := krun start late_joiner in
  let x := KCall ok_env (OSigned 2) KRegister in
  let s1 := kstep_run s x in
  k_keys s !! 2 = Some 102 /\ sign_of_life s x 2 /\ k_candidates s1 = [Candidate 2 (k_bond s1)] /\ k_desired s1 = 1 /\
  never_on_turn s1 (blocks_of 7199) 102 /\ stands (krun s1 (blocks_of 7199)) 2 /\ ~ stands (krun s1 (blocks_of 7200)) 2 /\ 2 ∉ k_invulnerables (krun s1 (blocks_of 7199)).
Proof.
  intros s x s1. split; [vm_compute; reflexivity|]. split.
  { right. exists ok_env, KRegister. split_and!; [done|apply stands_b_not; vm_compute; reflexivity|apply stands_b_iff; vm_compute; reflexivity]. }
  split; [vm_compute; reflexivity|]. split; [vm_compute; reflexivity|]. split; [apply off_turn_never; vm_compute; reflexivity|].
  split; [apply stands_b_iff; vm_compute; reflexivity|]. split; [apply stands_b_not; vm_compute; reflexivity|].
  apply off_list. vm_compute. reflexivity.
Qed.

(** Account 2 waits for a place: nobody may author but the invulnerables, and it is removed for not having authored. *)
Definition waiting : list kstep := [KCall ok_env (OSigned 2) (KSetKeys 102)].
Lemma waiting_removed :
  let s := krun start waiting in
  let s1 := kstep_run s (KCall ok_env (OSigned 2) KRegister) in
  k_desired s1 = 0 /\ stands (krun s1 (blocks_of 7199)) 2 /\ ~ stands (krun s1 (blocks_of 7200)) 2.
Proof.
  intros s s1. split; [vm_compute; reflexivity|]. split; [apply stands_b_iff|apply stands_b_not]; vm_compute; reflexivity.
Qed.

(** An account named twice authors twice. *)
Definition named_twice : list kstep := KCall ok_env ORoot (KSetInvulnerables [1; 1]) :: blocks_of 7200.
Lemma named_twice_two_turns : k_authorities (krun start named_twice) = [101; 101].
Proof. vm_compute. reflexivity. Qed.

(** Root sets the invulnerables to an account with no keys: nobody is left. *)
Lemma no_keys_nobody : eligible (krun start [KCall ok_env ORoot (KSetInvulnerables [3])]) = 0.
Proof. vm_compute. reflexivity. Qed.
(** Root raises the bond over what the only candidate has. *)
Definition bond_raised : list kstep :=
  [KCall ok_env (OSigned 2) (KSetKeys 102); KCall ok_env (OSigned 2) KRegister; KCall ok_env ORoot (KSetInvulnerables [])].
Lemma bond_raised_nobody : eligible (krun start bond_raised) = 1 /\ eligible (kstep_run (krun start bond_raised) (KCall ok_env ORoot (KSetBond 1000000000000))) = 0.
Proof. split; vm_compute; reflexivity. Qed.

(** Two candidates, one place: the one that bonds more becomes the author, a session after it was chosen. *)
Definition contest : list kstep :=
  [KCall ok_env ORoot (KSetDesired 1); KCall ok_env (OSigned 2) (KSetKeys 102); KCall ok_env (OSigned 3) (KSetKeys 103);
   KCall ok_env (OSigned 2) KRegister; KCall ok_env (OSigned 3) KRegister; KCall ok_env (OSigned 3) (KUpdateBond 600000000000)].
Lemma contest_states :
  k_candidates (krun start contest) = [Candidate 2 (k_bond start); Candidate 3 600000000000] /\
  k_authorities (krun start (contest ++ blocks_of 3600)) = [101] /\
  k_validators (krun start (contest ++ blocks_of 7200)) = [1; 3] /\
  k_authorities (krun start (contest ++ blocks_of 7199)) = [101] /\
  k_authorities (krun start (contest ++ blocks_of 7200)) = [101; 103].
Proof. repeat split; vm_compute; reflexivity. Qed.
Lemma contest_bonds :
  let s := krun start contest in
  amount_in (k_reserved s) 3 = 600000000000 /\ amount_in (k_free s) 3 = 400000000000 /\
  let s' := kstep_run s (KCall ok_env (OSigned 3) KLeave) in
  amount_in (k_reserved s') 3 = 0 /\ amount_in (k_free s') 3 = 1000000000000.
Proof. repeat split; vm_compute; reflexivity. Qed.

(* ------------------------------------------------------------------ *)
(** * The claims that fail *)

Lemma two_turns : exists s key, kreachable s /\ k_authorities s = [key; key].
Proof. exists (krun start named_twice), 101. split; [apply start_reach|exact named_twice_two_turns]. Qed.

Lemma nobody_left_set : exists s e l, kreachable s /\ 1 <= eligible s /\ eligible (kstep_run s (KCall e ORoot (KSetInvulnerables l))) = 0.
Proof.
  exists (krun start []), ok_env, [3]. split; [apply start_reach|]. split; [|exact no_keys_nobody].
  assert (H : eligible (krun start []) = 1) by (vm_compute; reflexivity). rewrite H. lia.
Qed.
Lemma nobody_left_bond : exists s e n, kreachable s /\ 1 <= eligible s /\ eligible (kstep_run s (KCall e ORoot (KSetBond n))) = 0.
Proof.
  exists (krun start bond_raised), ok_env, 1000000000000. destruct bond_raised_nobody as [H1 H2]. split; [apply start_reach|]. split; [rewrite H1; lia|exact H2].
Qed.

Lemma blocks_of_only n : only_blocks (blocks_of n).
Proof. intros x H. apply elem_of_replicate in H as [-> _]. by exists 0. Qed.
Lemma blocks_of_snoc n : blocks_of (n + 1) = blocks_of n ++ [KBlock 0].
Proof. unfold blocks_of. replace (N.to_nat (n + 1)) with (N.to_nat n + 1)%nat by lia. by rewrite replicate_add. Qed.
Lemma krun_snoc s l x : krun s (l ++ [x]) = kstep_run (krun s l) x.
Proof. unfold krun. by rewrite fold_left_app. Qed.

(** A candidate who is the only one, where one is wanted, is removed for not having authored although its turn never came. *)
Lemma removed_unheard : exists s e who key steps slot,
  kreachable s /\ k_keys s !! who = Some key /\
  let s1 := kstep_run s (KCall e (OSigned who) KRegister) in
  ~ stands s who /\ map cd_who (k_candidates s1) = [who] /\ k_desired s1 = 1 /\
  only_blocks steps /\ never_on_turn s1 steps key /\ who ∉ k_invulnerables (krun s1 steps) /\
  stands (krun s1 steps) who /\ ~ stands (kstep_run (krun s1 steps) (KBlock slot)) who.
Proof.
  exists (krun start late_joiner), ok_env, 2, 102, (blocks_of 7199), 0. destruct late_joiner_removed as (H1 & H2 & H3 & H4 & H5 & H6 & H7 & H8).
  split; [apply start_reach|]. split; [exact H1|]. cbv zeta. split.
  { apply stands_b_not. vm_compute. reflexivity. }
  split; [rewrite H3; reflexivity|]. split; [exact H4|]. split; [apply blocks_of_only|]. split; [exact H5|]. split; [exact H8|]. split; [exact H6|].
  intros Hs. apply H7. change 7200 with (7199 + 1). rewrite blocks_of_snoc, krun_snoc. exact Hs.
Qed.
(** So is one who waits, where none is wanted. *)
Lemma removed_waiting : exists s e who steps slot,
  kreachable s /\
  let s1 := kstep_run s (KCall e (OSigned who) KRegister) in
  k_desired s1 = 0 /\ only_blocks steps /\ stands (krun s1 steps) who /\ ~ stands (kstep_run (krun s1 steps) (KBlock slot)) who.
Proof.
  exists (krun start waiting), ok_env, 2, (blocks_of 7199), 0. destruct waiting_removed as (H1 & H2 & H3).
  split; [apply start_reach|]. split; [exact H1|]. split; [apply blocks_of_only|]. split; [exact H2|].
  intros Hs. apply H3. change 7200 with (7199 + 1). rewrite blocks_of_snoc, krun_snoc. exact Hs.
Qed.

(** Property theorems C142 to C149: who authors blocks, and what those who want to can rely on. Words: CollatorsSpec.v. *)
From stdpp Require Import gmap.
From Verif Require Import Base XcmTypes OriginTypes XcmConfigModel TimeModel CollatorsModel CollatorsSpec CollatorsProofs CollatorsSessions CollatorsTheorems CollatorsExamples CollatorsRights.
Open Scope N_scope.

(* ------------------------------------------------------------------ *)
(** * C142: somebody can always author *)

Theorem C142_always_authors : forall s,
  kreachable s -> k_authorities s <> [] /\ N.of_nat (length (k_authorities s)) <= 1100.
Proof. exact always_authors. Qed.
Print Assumptions C142_always_authors.
Example C142_case : kreachable (krun start named_twice) /\ k_authorities (krun start named_twice) <> [] /\
  eligible (krun start [KCall ok_env ORoot (KSetInvulnerables [3])]) = 0 /\
  k_authorities (krun (krun start [KCall ok_env ORoot (KSetInvulnerables [3])]) (blocks_of 10800)) = [101].
Proof.
  split; [apply start_reach|]. split; [rewrite named_twice_two_turns; discriminate|]. split; [exact no_keys_nobody|vm_compute; reflexivity].
Qed.

(* ------------------------------------------------------------------ *)
(** * C143: who authors is decided by bonds, a session ahead *)

(** What is chosen at the beginning of a session authors from the beginning of the next one. *)
Theorem C143_chosen : forall s slot1 steps slot2,
  kreachable s -> session_due s -> blocks steps = 3599 ->
  let s1 := kstep_run s (KBlock slot1) in
  let s2 := krun s1 (steps ++ [KBlock slot2]) in
  exists l, right_choice s1 l /\
    (keys_of s1 l <> [] -> k_authorities s2 = keys_of s1 l) /\
    (keys_of s1 l = [] -> k_authorities s2 = k_authorities s1).
Proof. exact chosen_authors. Qed.
Print Assumptions C143_chosen.
(** It stays so for six hours of blocks. *)
Theorem C143_fixed : forall s steps,
  k_number s mod 3600 + blocks steps < 3600 -> k_authorities (krun s steps) = k_authorities s.
Proof. exact turns_fixed. Qed.
Print Assumptions C143_fixed.
Example C143_case :
  k_candidates (krun start contest) = [Candidate 2 (k_bond start); Candidate 3 600000000000] /\
  k_authorities (krun start (contest ++ blocks_of 3600)) = [101] /\
  k_validators (krun start (contest ++ blocks_of 7200)) = [1; 3] /\
  k_authorities (krun start (contest ++ blocks_of 7199)) = [101] /\
  k_authorities (krun start (contest ++ blocks_of 7200)) = [101; 103].
Proof. exact contest_states. Qed.
Example C143_due : session_due (krun start (contest ++ blocks_of 3599)).
Proof. unfold session_due. vm_compute. reflexivity. Qed.

(* ------------------------------------------------------------------ *)
(** * C144: one turn each *)

(** Partial: as long as no account is named twice when the invulnerables are set. *)
Theorem C144_one_turn_partial : forall l free s0 steps,
  l <> [] -> kgenesis l free = Some s0 -> names_once steps -> NoDup (k_authorities (krun s0 steps)).
Proof. exact one_turn_each. Qed.
Print Assumptions C144_one_turn_partial.
(** Refuted otherwise. *)
Theorem C144_two_turns_refuted : exists s key, kreachable s /\ k_authorities s = [key; key].
Proof. exact two_turns. Qed.
Print Assumptions C144_two_turns_refuted.
Example C144_case : names_once contest /\ NoDup (k_authorities (krun start (contest ++ blocks_of 7200))).
Proof.
  split.
  - intros e o l H. unfold contest in H. repeat (apply elem_of_cons in H as [H|H]; [discriminate|]). by apply elem_of_nil in H.
  - destruct contest_states as (_ & _ & _ & _ & ->). repeat constructor; intros H; repeat (apply elem_of_cons in H as [H|H]; [discriminate|]); by apply elem_of_nil in H.
Qed.

(* ------------------------------------------------------------------ *)
(** * C145: bonds are safe *)

(** What is set aside from an account is the bond it stands with, at least the bond asked for, and nothing for those who do not stand. *)
Theorem C145_bonds : forall s,
  kreachable s ->
  (forall who, amount_in (k_reserved s) who = bonded s who) /\
  (forall c, c ∈ k_candidates s -> k_bond s <= cd_bond c /\ bonded s (cd_who c) = cd_bond c).
Proof. exact bonds_safe. Qed.
Print Assumptions C145_bonds.
(** Whatever happens to collators, nobody gains or loses. *)
Theorem C145_kept : forall s x who,
  kreachable s -> (forall n, x <> KFree who n) -> holdings (kstep_run s x) who = holdings s who.
Proof. exact holdings_kept. Qed.
Print Assumptions C145_kept.
Example C145_case :
  let s := krun start contest in
  amount_in (k_reserved s) 3 = 600000000000 /\ amount_in (k_free s) 3 = 400000000000 /\
  let s' := kstep_run s (KCall ok_env (OSigned 3) KLeave) in
  amount_in (k_reserved s') 3 = 0 /\ amount_in (k_free s') 3 = 1000000000000.
Proof. exact contest_bonds. Qed.

(* ------------------------------------------------------------------ *)
(** * C146: why candidates stop *)

(** They get their bond back. *)
Theorem C146_stopping : forall s x c,
  kreachable s -> c ∈ k_candidates s -> ~ stands (kstep_run s x) (cd_who c) ->
  stops_because s (cd_who c) (cd_bond c) x /\
  amount_in (k_free (kstep_run s x)) (cd_who c) = amount_in (k_free s) (cd_who c) + cd_bond c /\
  amount_in (k_reserved (kstep_run s x)) (cd_who c) = 0.
Proof. exact stopping. Qed.
Print Assumptions C146_stopping.
Theorem C146_leaving : forall e s who,
  kreachable s -> stands s who -> (exists s', kcall_run e s (OSigned who) KLeave = Some s' /\ ~ stands s' who) <-> 1 < eligible s.
Proof. exact leaving. Qed.
Print Assumptions C146_leaving.
Example C146_case : let s := krun start contest in stands s 3 /\ 1 < eligible s /\ ~ stands (kstep_run s (KCall ok_env (OSigned 3) KLeave)) 3.
Proof.
  intros s. split; [apply stands_b_iff; vm_compute; reflexivity|]. split; [vm_compute; reflexivity|apply stands_b_not; vm_compute; reflexivity].
Qed.

(* ------------------------------------------------------------------ *)
(** * C147: there are enough to choose from *)

(** Partial: but for two calls of the origin that governs collators. *)
Theorem C147_enough_partial : forall s x,
  1 <= eligible s -> eligible (kstep_run s x) = 0 ->
  exists e o, collator_update_origin o = true /\
    ((exists l, x = KCall e o (KSetInvulnerables l) /\ l <> [] /\ (forall w, w ∈ l -> k_keys s !! w = None) /\ k_candidates s = []) \/
     (exists n, x = KCall e o (KSetBond n) /\ k_invulnerables s = [] /\ (forall c, c ∈ k_candidates s -> cd_bond c < n))).
Proof. exact step_eligible. Qed.
Print Assumptions C147_enough_partial.
(** Refuted: these two leave nobody. *)
Theorem C147_set_refuted : exists s e l, kreachable s /\ 1 <= eligible s /\ eligible (kstep_run s (KCall e ORoot (KSetInvulnerables l))) = 0.
Proof. exact nobody_left_set. Qed.
Print Assumptions C147_set_refuted.
Theorem C147_bond_refuted : exists s e n, kreachable s /\ 1 <= eligible s /\ eligible (kstep_run s (KCall e ORoot (KSetBond n))) = 0.
Proof. exact nobody_left_bond. Qed.
Print Assumptions C147_bond_refuted.
Example C147_case : eligible (krun start contest) = 3.
Proof. vm_compute. reflexivity. Qed.

(* ------------------------------------------------------------------ *)
(** * C148: nobody is removed for idling before their turn *)

(** Partial: nobody is removed for it within a session's length of their joining or of a block of theirs. *)
Theorem C148_alive_partial : forall s x who steps slot,
  kreachable s -> sign_of_life s x who -> blocks steps + 1 < 3600 ->
  let s2 := krun (kstep_run s x) steps in
  stands s2 who -> stands (kstep_run s2 (KBlock slot)) who \/ who ∈ k_invulnerables s2.
Proof. exact alive_stays. Qed.
Print Assumptions C148_alive_partial.
(** Refuted: a candidate who joins as a session begins is removed before its turn. *)
Theorem C148_unheard_refuted : exists s e who key steps slot,
  kreachable s /\ k_keys s !! who = Some key /\
  let s1 := kstep_run s (KCall e (OSigned who) KRegister) in
  ~ stands s who /\ map cd_who (k_candidates s1) = [who] /\ k_desired s1 = 1 /\
  only_blocks steps /\ never_on_turn s1 steps key /\ who ∉ k_invulnerables (krun s1 steps) /\
  stands (krun s1 steps) who /\ ~ stands (kstep_run (krun s1 steps) (KBlock slot)) who.
Proof. exact removed_unheard. Qed.
Print Assumptions C148_unheard_refuted.
(** So are those who wait because others have bonded more, or because none is wanted. *)
Theorem C148_waiting_refuted : exists s e who steps slot,
  kreachable s /\
  let s1 := kstep_run s (KCall e (OSigned who) KRegister) in
  k_desired s1 = 0 /\ only_blocks steps /\ stands (krun s1 steps) who /\ ~ stands (kstep_run (krun s1 steps) (KBlock slot)) who.
Proof. exact removed_waiting. Qed.
Print Assumptions C148_waiting_refuted.
Example C148_case : let s := krun start late_joiner in sign_of_life s (KCall ok_env (OSigned 2) KRegister) 2.
Proof. exact (proj1 (proj2 late_joiner_removed)). Qed.

(* ------------------------------------------------------------------ *)
(** * C149: who changes what about collators *)

(** The invulnerables, how many candidates are wanted and the bond asked for, are changed by governance only (C77 says who that is). *)
Theorem C149_governed : forall s x,
  k_invulnerables (kstep_run s x) <> k_invulnerables s \/ k_desired (kstep_run s x) <> k_desired s \/ k_bond (kstep_run s x) <> k_bond s ->
  exists e o k, x = KCall e o k /\ collator_update_origin o = true.
Proof. exact governed. Qed.
Print Assumptions C149_governed.
(** Keys are registered and taken back by their account only. *)
Theorem C149_keys : forall s x who,
  k_keys (kstep_run s x) !! who <> k_keys s !! who -> exists e, x = KCall e (OSigned who) KPurgeKeys \/ exists key, x = KCall e (OSigned who) (KSetKeys key).
Proof. exact own_keys. Qed.
Print Assumptions C149_keys.
(** Nobody stands, or stands with another bond, but by a call of their own. *)
Theorem C149_own : forall s x c,
  c ∈ k_candidates (kstep_run s x) -> c ∉ k_candidates s -> exists e,
  (x = KCall e (OSigned (cd_who c)) KRegister /\ cd_bond c = k_bond s) \/
  x = KCall e (OSigned (cd_who c)) (KUpdateBond (cd_bond c)) \/
  exists other, x = KCall e (OSigned (cd_who c)) (KTakeSlot (cd_bond c) other).
Proof. exact own_bond. Qed.
Print Assumptions C149_own.
(** Whoever has keys and tokens enough can stand, and takes the place of any candidate who bonded less. *)
Theorem C149_joining : forall e s who,
  (forall n, ke_reserve_ok e who n = true) -> who ∉ k_invulnerables s -> ~ stands s who -> k_keys s !! who <> None ->
  (N.of_nat (length (k_candidates s)) < 1000 -> k_bond s <= amount_in (k_free s) who -> stands (kstep_run s (KCall e (OSigned who) KRegister)) who) /\
  (forall c n, c ∈ k_candidates s -> kreachable s -> cd_bond c < n -> n <= amount_in (k_free s) who ->
    let s' := kstep_run s (KCall e (OSigned who) (KTakeSlot n (cd_who c))) in Candidate who n ∈ k_candidates s' /\ ~ stands s' (cd_who c)).
Proof. exact joining. Qed.
Print Assumptions C149_joining.
Example C149_case : k_invulnerables (krun start bond_raised) = [] /\ Candidate 3 600000000000 ∈ k_candidates (krun start contest) /\
  Candidate 3 600000000000 ∉ k_candidates start /\ k_keys (krun start contest) !! 3 = Some 103.
Proof.
  split; [vm_compute; reflexivity|]. destruct contest_states as (-> & _). split; [right; left|]. split; [|vm_compute; reflexivity].
  intros H. assert (He : k_candidates start = []) by (vm_compute; reflexivity). rewrite He in H. by apply elem_of_nil in H.
Qed.

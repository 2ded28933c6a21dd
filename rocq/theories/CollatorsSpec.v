(** Vocabulary for what collators and users rely on about the authoring of blocks. Nothing here is used by the model. *)
From stdpp Require Import gmap.
From Verif Require Import Base XcmTypes OriginTypes XcmConfigModel TimeModel CollatorsModel.
Open Scope N_scope.

(** A state that a chain started with at least one collator can get into. *)
Definition kreachable (s : collators) : Prop :=
  exists l free s0 steps, l <> [] /\ kgenesis l free = Some s0 /\ s = krun s0 steps.

(** What an account owns in all, and what it has bonded as a candidate. *)
Definition holdings (s : collators) (who : N) : N := amount_in (k_free s) who + amount_in (k_reserved s) who.
Definition bonded (s : collators) (who : N) : N :=
  foldr (fun c n => (if cd_who c =? who then cd_bond c else 0) + n) 0 (k_candidates s).

(** [who] stands as a candidate. *)
Definition stands (s : collators) (who : N) : Prop := exists c, c ∈ k_candidates s /\ cd_who c = who.

(** The number of blocks in a part of a history. *)
Fixpoint blocks (l : list kstep) : N :=
  match l with [] => 0 | KBlock _ :: l' => 1 + blocks l' | _ :: l' => blocks l' end.

(** [l] is a right choice of collators: the invulnerables, and of the candidates as many as desired (or all), none of whom has bonded less than one left out. *)
Definition right_choice (s : collators) (l : list N) : Prop :=
  exists chosen left_out,
    k_candidates s ≡ₚ chosen ++ left_out /\
    N.of_nat (length chosen) = N.min (k_desired s) (N.of_nat (length (k_candidates s))) /\
    (forall c d, c ∈ chosen -> d ∈ left_out -> cd_bond d <= cd_bond c) /\
    l ≡ₚ k_invulnerables s ++ map cd_who chosen.

(** The registered keys of some accounts. *)
Definition keys_of (s : collators) (l : list N) : list N := omap (fun who => k_keys s !! who) l.

(** A session begins with the next block. *)
Definition session_due (s : collators) : Prop := (k_number s + 1) mod 3600 = 0.

(** Why candidate [who], with [bond] bonded, stops being one by step [x]. *)
Inductive stops_because (s : collators) (who bond : N) : kstep -> Prop :=
| sb_leaves e : stops_because s who bond (KCall e (OSigned who) KLeave)
| sb_outbid e w n : bond < n -> w <> who -> stops_because s who bond (KCall e (OSigned w) (KTakeSlot n who))
| sb_too_little e o n : collator_update_origin o = true -> bond < n -> stops_because s who bond (KCall e o (KSetBond n))
| sb_invulnerable e o : collator_update_origin o = true -> stops_because s who bond (KCall e o (KAddInvulnerable who))
| sb_was_invulnerable slot : session_due s -> who ∈ k_invulnerables s -> stops_because s who bond (KBlock slot)
| sb_lazy slot : session_due s -> default 0 (k_last s !! who) + 3600 <= k_number s + 1 -> block_author s slot <> Some who -> 1 < eligible s -> stops_because s who bond (KBlock slot).

(** Signs of life of [who] at the end of step [x] from [s]: it authored the block, or became a candidate. *)
Definition sign_of_life (s : collators) (x : kstep) (who : N) : Prop :=
  (exists slot, x = KBlock slot /\ block_author s slot = Some who) \/
  (exists e k, x = KCall e (OSigned who) k /\ ~ stands s who /\ stands (kstep_run s x) who).

(** The key is on turn in no state of a history. *)
Fixpoint never_on_turn (s : collators) (l : list kstep) (key : N) : Prop :=
  key ∉ k_authorities s /\ match l with [] => True | x :: l' => never_on_turn (kstep_run s x) l' key end.

(** A history in which no account is named twice when the invulnerables are set. *)
Definition names_once (l : list kstep) : Prop :=
  forall e o who, KCall e o (KSetInvulnerables who) ∈ l -> NoDup who.

(** Only blocks are made. *)
Definition only_blocks (l : list kstep) : Prop := forall x, x ∈ l -> exists slot, x = KBlock slot.

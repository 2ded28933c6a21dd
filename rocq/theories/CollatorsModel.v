(** Collators: who may author blocks. The runtime configures pallet_collator_selection, pallet_session, pallet_aura and pallet_authorship (dependencies); their
    calls and hooks are modelled here as that configuration makes them behave. *)
From stdpp Require Import gmap.
From Verif Require Import Base XcmTypes OriginTypes XcmConfigModel TimeModel.
Open Scope N_scope.

(** runtime/kreivo/src/lib.rs:380-383 [Period], [Offset]; 401-404 [MaxCandidates], [MinEligibleCollators], [MaxInvulnerables]; 425-426 [KickThreshold] *)
Definition period : N := 6 * hours.
Definition offset : N := 0.
Definition max_candidates : N := 1000.
Definition min_eligible : N := 1.
Definition max_invulnerables : N := 100.
Definition kick_threshold : N := period.

(** A candidate and what it bonded ([CandidateInfo], dependency). *)
Record candidate := Candidate { cd_who : N; cd_bond : N }.

(** Storage: of pallet_collator_selection ([k_invulnerables] is kept sorted; [k_candidates] lowest bond first; [k_last] is [LastAuthoredBlock]), of pallet_session
    ([k_keys]: the aura key registered by an account, [SessionKeys] of runtime/kreivo/src/lib.rs:154-158 has no other; [k_validators]; [k_queued]), of pallet_aura
    ([k_authorities]), the free and reserved native tokens (other reserves than candidates' bonds are left out), and the number of the current block. *)
Record collators := Collators {
  k_invulnerables : list N;
  k_candidates : list candidate;
  k_last : gmap N N;
  k_desired : N;
  k_bond : N;
  k_keys : gmap N N;
  k_validators : list N;
  k_queued : list (N * N);
  k_authorities : list N;
  k_free : gmap N N;
  k_reserved : gmap N N;
  k_number : N
}.

Definition with_invulnerables (l : list N) (s : collators) : collators :=
  Collators l (k_candidates s) (k_last s) (k_desired s) (k_bond s) (k_keys s) (k_validators s) (k_queued s) (k_authorities s) (k_free s) (k_reserved s) (k_number s).
Definition with_candidates (l : list candidate) (s : collators) : collators :=
  Collators (k_invulnerables s) l (k_last s) (k_desired s) (k_bond s) (k_keys s) (k_validators s) (k_queued s) (k_authorities s) (k_free s) (k_reserved s) (k_number s).
Definition with_last (m : gmap N N) (s : collators) : collators :=
  Collators (k_invulnerables s) (k_candidates s) m (k_desired s) (k_bond s) (k_keys s) (k_validators s) (k_queued s) (k_authorities s) (k_free s) (k_reserved s) (k_number s).
Definition with_desired (n : N) (s : collators) : collators :=
  Collators (k_invulnerables s) (k_candidates s) (k_last s) n (k_bond s) (k_keys s) (k_validators s) (k_queued s) (k_authorities s) (k_free s) (k_reserved s) (k_number s).
Definition with_bond (n : N) (s : collators) : collators :=
  Collators (k_invulnerables s) (k_candidates s) (k_last s) (k_desired s) n (k_keys s) (k_validators s) (k_queued s) (k_authorities s) (k_free s) (k_reserved s) (k_number s).
Definition with_keys (m : gmap N N) (s : collators) : collators :=
  Collators (k_invulnerables s) (k_candidates s) (k_last s) (k_desired s) (k_bond s) m (k_validators s) (k_queued s) (k_authorities s) (k_free s) (k_reserved s) (k_number s).
Definition with_session (v : list N) (q : list (N * N)) (a : list N) (s : collators) : collators :=
  Collators (k_invulnerables s) (k_candidates s) (k_last s) (k_desired s) (k_bond s) (k_keys s) v q a (k_free s) (k_reserved s) (k_number s).
Definition with_funds (f r : gmap N N) (s : collators) : collators :=
  Collators (k_invulnerables s) (k_candidates s) (k_last s) (k_desired s) (k_bond s) (k_keys s) (k_validators s) (k_queued s) (k_authorities s) f r (k_number s).
Definition with_number (n : N) (s : collators) : collators :=
  Collators (k_invulnerables s) (k_candidates s) (k_last s) (k_desired s) (k_bond s) (k_keys s) (k_validators s) (k_queued s) (k_authorities s) (k_free s) (k_reserved s) n.

Definition amount_in (m : gmap N N) (who : N) : N := default 0 (m !! who).

(** What the outside world decides: whether locks and the minimum balance let an account reserve, and whether it may register keys (proof of ownership,
    references to the account). *)
Record kenv := KEnv { ke_reserve_ok : N -> N -> bool; ke_keys_ok : N -> N -> bool }.

(** pallet_balances' [reserve] and [unreserve] (dependency) *)
Definition reserve (e : kenv) (who n : N) (s : collators) : option collators :=
  if n =? 0 then Some s
  else if (n <=? amount_in (k_free s) who) && ke_reserve_ok e who n then
    Some (with_funds (<[who := amount_in (k_free s) who - n]> (k_free s)) (<[who := amount_in (k_reserved s) who + n]> (k_reserved s)) s)
  else None.
Definition unreserve (who n : N) (s : collators) : collators :=
  let m := N.min n (amount_in (k_reserved s) who) in
  with_funds (<[who := amount_in (k_free s) who + m]> (k_free s)) (<[who := amount_in (k_reserved s) who - m]> (k_reserved s)) s.

(** pallet_session's [is_registered] (dependency; [IdentityCollator], runtime/kreivo/src/lib.rs:389-390, makes the account its own validator id) *)
Definition is_registered (s : collators) (who : N) : bool := match k_keys s !! who with Some _ => true | None => false end.
Definition is_invulnerable (s : collators) (who : N) : bool := existsb (N.eqb who) (k_invulnerables s).
Definition is_candidate (s : collators) (who : N) : bool := existsb (fun c => cd_who c =? who) (k_candidates s).

(** [eligible_collators] (dependency) *)
Definition eligible (s : collators) : N := N.of_nat (length (k_candidates s)) + N.of_nat (length (k_invulnerables s)).

Fixpoint insert_sorted (x : N) (l : list N) : list N :=
  match l with [] => [x] | y :: l' => if x <=? y then x :: l else y :: insert_sorted x l' end.
Definition sort_accounts (l : list N) : list N := foldr insert_sorted [] l.
Fixpoint remove_account (x : N) (l : list N) : list N :=
  match l with [] => [] | y :: l' => if x =? y then l' else y :: remove_account x l' end.

(** A candidate is put before the first one with at least its bond. *)
Fixpoint insert_candidate (c : candidate) (l : list candidate) : list candidate :=
  match l with [] => [c] | d :: l' => if cd_bond c <=? cd_bond d then c :: l else d :: insert_candidate c l' end.
Fixpoint find_candidate (who : N) (l : list candidate) : option candidate :=
  match l with [] => None | d :: l' => if cd_who d =? who then Some d else find_candidate who l' end.
Fixpoint remove_candidate (who : N) (l : list candidate) : list candidate :=
  match l with [] => [] | d :: l' => if cd_who d =? who then l' else d :: remove_candidate who l' end.
(** The position of a candidate in the list, counted from the lowest bond. *)
Fixpoint position (who : N) (l : list candidate) : N :=
  match l with [] => 0 | d :: l' => if cd_who d =? who then 0 else position who l' + 1 end.

(** [try_remove_candidate] (dependency): the bond is returned. [None] if [who] is no candidate. *)
Definition drop_candidate (forget : bool) (who : N) (s : collators) : option collators :=
  match find_candidate who (k_candidates s) with
  | None => None
  | Some c =>
      let s := with_candidates (remove_candidate who (k_candidates s)) (unreserve who (cd_bond c) s) in
      Some (if forget then with_last (delete who (k_last s)) s else s)
  end.

(** The calls of pallet_collator_selection and of pallet_session. *)
Inductive kcall :=
| KSetInvulnerables (l : list N)
| KSetDesired (n : N)
| KSetBond (n : N)
| KRegister
| KLeave
| KAddInvulnerable (who : N)
| KRemoveInvulnerable (who : N)
| KUpdateBond (n : N)
| KTakeSlot (n target : N)
| KSetKeys (key : N)
| KPurgeKeys.

(** The candidates [set_candidacy_bond] throws out: those before the first with enough bonded. *)
Fixpoint below_bond (n : N) (l : list candidate) : list candidate * list candidate :=
  match l with
  | [] => ([], [])
  | c :: l' => if n <=? cd_bond c then ([], l) else let '(out, rest) := below_bond n l' in (c :: out, rest)
  end.
Definition throw_out (s : collators) (c : candidate) : collators :=
  let s := unreserve (cd_who c) (cd_bond c) s in with_last (delete (cd_who c) (k_last s)) s.

(** Account [w] owns key [key] ([KeyOwner], dependency, kept along with the keys). *)
Definition key_taken (s : collators) (who key : N) : bool :=
  existsb (fun kv => (kv.2 =? key) && negb (kv.1 =? who)) (map_to_list (k_keys s)).

(** The calls of the dependencies as configured in runtime/kreivo/src/lib.rs:385-431 (privileged ones by [CollatorSelectionUpdateOrigin]); [None] where they fail.
    Events and weights are left out. *)
Definition kcall_run (e : kenv) (s : collators) (o : origin) (k : kcall) : option collators :=
  let admin := collator_update_origin o in
  match k with
  | KSetInvulnerables l =>
      if negb admin then None
      else if match l with [] => N.of_nat (length (k_candidates s)) <? min_eligible | _ => false end then None
      else if max_invulnerables <? N.of_nat (length l) then None
      else Some (with_invulnerables (sort_accounts (List.filter (is_registered s) l)) s)
  | KSetDesired n => if negb admin then None else Some (with_desired n s)
  | KSetBond n =>
      if negb admin then None
      else if k_bond s <? n then
        let '(out, rest) := below_bond n (k_candidates s) in
        Some (with_candidates rest (fold_left throw_out out (with_bond n s)))
      else Some (with_bond n s)
  | KRegister =>
      match o with
      | OSigned who =>
          if max_candidates <=? N.of_nat (length (k_candidates s)) then None
          else if is_invulnerable s who then None
          else if negb (is_registered s who) then None
          else if is_candidate s who then None
          else match reserve e who (k_bond s) s with
               | None => None
               | Some s' =>
                   Some (with_candidates (Candidate who (k_bond s) :: k_candidates s)
                          (with_last (<[who := k_number s + kick_threshold]> (k_last s)) s'))
               end
      | _ => None
      end
  | KLeave =>
      match o with
      | OSigned who => if eligible s <=? min_eligible then None else drop_candidate true who s
      | _ => None
      end
  | KAddInvulnerable who =>
      if negb admin then None
      else if negb (is_registered s who) then None
      else if is_invulnerable s who then None
      else if max_invulnerables <=? N.of_nat (length (k_invulnerables s)) then None
      else
        let s := with_invulnerables (insert_sorted who (k_invulnerables s)) s in
        Some (match drop_candidate false who s with Some s' => s' | None => s end)
  | KRemoveInvulnerable who =>
      if negb admin then None
      else if eligible s <=? min_eligible then None
      else if negb (is_invulnerable s who) then None
      else Some (with_invulnerables (remove_account who (k_invulnerables s)) s)
  | KUpdateBond n =>
      match o with
      | OSigned who =>
          if n <? k_bond s then None
          else match find_candidate who (k_candidates s) with
               | None => None
               | Some c =>
                   let l := insert_candidate (Candidate who n) (remove_candidate who (k_candidates s)) in
                   if cd_bond c <? n then
                     match reserve e who (n - cd_bond c) s with None => None | Some s' => Some (with_candidates l s') end
                   else if n <? cd_bond c then
                     if position who (k_candidates s) + k_desired s <? N.of_nat (length (k_candidates s)) then
                       Some (with_candidates l (unreserve who (cd_bond c - n) s))
                     else None
                   else None
               end
      | _ => None
      end
  | KTakeSlot n target =>
      match o with
      | OSigned who =>
          if is_invulnerable s who then None
          else if n <? k_bond s then None
          else if negb (is_registered s who) then None
          else if is_candidate s who then None
          else match find_candidate target (k_candidates s) with
               | None => None
               | Some c =>
                   if n <=? cd_bond c then None
                   else match reserve e who n s with
                        | None => None
                        | Some s' =>
                            let s' := unreserve target (cd_bond c) s' in
                            Some (with_candidates (insert_candidate (Candidate who n) (remove_candidate target (k_candidates s)))
                                   (with_last (<[who := k_number s + kick_threshold]> (delete target (k_last s))) s'))
                        end
               end
      | _ => None
      end
  | KSetKeys key =>
      match o with
      | OSigned who => if key_taken s who key || negb (ke_keys_ok e who key) then None else Some (with_keys (<[who := key]> (k_keys s)) s)
      | _ => None
      end
  | KPurgeKeys =>
      match o with
      | OSigned who => if is_registered s who then Some (with_keys (delete who (k_keys s)) s) else None
      | _ => None
      end
  end.

(** [kick_stale_candidates] (dependency), one candidate at a time: those who are invulnerable, and those who authored nothing for [KickThreshold] blocks while
    enough others remain. *)
Definition kick (s : collators) (who : N) : collators :=
  let lazy := kick_threshold <=? k_number s - default 0 (k_last s !! who) in
  if is_invulnerable s who then match drop_candidate false who s with Some s' => s' | None => s end
  else if (eligible s <=? min_eligible) || negb lazy then s
  else match drop_candidate true who s with Some s' => s' | None => s end.
Definition kick_stale (s : collators) : collators := fold_left kick (map cd_who (k_candidates s)) s.

(** [assemble_collators] (dependency): the invulnerables, and as many candidates as desired, highest bonds first. *)
Definition assemble (s : collators) : list N :=
  k_invulnerables s ++ map cd_who (take (N.to_nat (k_desired s)) (rev (k_candidates s))).

(** pallet_session's lookup of the next validators' keys (dependency): those without are left out. *)
Definition amalgamate (s : collators) (l : list N) : list (N * N) :=
  omap (fun who => match k_keys s !! who with Some key => Some (who, key) | None => None end) l.

(** pallet_aura's [change_authorities] (dependency): an empty set is ignored. *)
Definition change_authorities (old new : list N) : list N := match new with [] => old | _ => new end.

(** pallet_session's [rotate_session] (dependency), with [SessionManager = CollatorSelection] and Aura as the only handler
    (runtime/kreivo/src/lib.rs:391-397): the queued keys become active, and the next ones are queued. *)
Definition rotate (s : collators) : collators :=
  let s' := kick_stale s in
  with_session (map fst (k_queued s)) (amalgamate s' (assemble s')) (change_authorities (k_authorities s) (map snd (k_queued s))) s'.

(** Initialisation of a block whose header names slot [slot]. pallet_authorship comes first (runtime/kreivo/src/lib.rs:230-240, 293-296): the author is the
    validator whose turn the slot is, and is noted; then pallet_session ends the session where one is due ([PeriodicSessions]). What the pot pays to authors
    ([note_author]) is left out. *)
Definition block_author (s : collators) (slot : N) : option N :=
  match k_authorities s with
  | [] => None
  | _ => k_validators s !! N.to_nat (slot mod N.of_nat (length (k_authorities s)))
  end.
Definition begin_block (s : collators) (slot : N) : collators :=
  let s := with_number (k_number s + 1) s in
  let s := match block_author s slot with Some who => with_last (<[who := k_number s]> (k_last s)) s | None => s end in
  if (offset <=? k_number s) && ((k_number s - offset) mod period =? 0) then rotate s else s.

(** Histories: calls (a failed one changes nothing), blocks, and free tokens changing by other means. *)
Inductive kstep :=
| KCall (e : kenv) (o : origin) (k : kcall)
| KBlock (slot : N)
| KFree (who n : N).

Definition kstep_run (s : collators) (x : kstep) : collators :=
  match x with
  | KCall e o k => match kcall_run e s o k with Some s' => s' | None => s end
  | KBlock slot => begin_block s slot
  | KFree who n => with_funds (<[who := n]> (k_free s)) (k_reserved s) s
  end.
Definition krun (s : collators) (l : list kstep) : collators := fold_left kstep_run l s.

(** runtime/kreivo/src/constants.rs:21 [EXISTENTIAL_DEPOSIT]: a tenth of runtime/runtime-constants/src/lib.rs:26, a cent (runtime/runtime-constants/src/lib.rs:28-37)
    of 10^12 / 30 / 100 planck; without feature "paseo". *)
Definition existential_deposit : N := 10 ^ 12 / 30 / 100 / 10.

(** Genesis as chain-spec-generator/src/spec/local.rs:108-160 [local_genesis] writes it for a list of collators with their keys: they are the invulnerables, their
    keys are registered, nobody else is wanted (the default of [desiredCandidates]), [free] are the endowments; then the genesis of the pallets (dependencies).
    [None] where it panics: an account or a key named twice, or too many. *)
Definition kgenesis (l : list (N * N)) (free : gmap N N) : option collators :=
  if bool_decide (NoDup (map fst l)) && bool_decide (NoDup (map snd l)) && (N.of_nat (length l) <=? max_invulnerables) then
    let s := Collators (sort_accounts (map fst l)) [] ∅ 0 (existential_deposit * 16) (list_to_map l) [] [] [] free ∅ 0 in
    let queued := amalgamate s (assemble s) in
    Some (with_session (assemble s) queued (map snd queued) s)
  else None.

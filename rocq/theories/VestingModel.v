(** Vesting on Kreivo (runtime/kreivo/src/configuration/monetary_stuff.rs:112-129; pallet_vesting and pallet_balances' locks, dependencies,
    from memory). *)
From stdpp Require Import gmap.
From Verif Require Import Base RuntimeModel.
Open Scope N_scope.

(** pallet_vesting [VestingInfo]: so much, so much of it free in every block from then on ([ConvertInto]: blocks are counted one to one;
    [BlockNumberProvider = System]: blocks of this chain). *)
Record vest := Vest { v_locked : N; v_per_block : N; v_start : N }.

(** monetary_stuff.rs:115, 128: [MinVestedTransfer], [MAX_VESTING_SCHEDULES] *)
Definition min_vested_transfer : N := 100 * CENTS.
Definition max_schedules : nat := 28.

(** [VestingInfo::per_block], [locked_at], [ending_block_as_balance]. Numbers do not overflow here (u128; a product that would is more than
    what is locked, and taken as that). *)
Definition per_block (v : vest) : N := N.max 1 (v_per_block v).
Definition locked_at (v : vest) (n : N) : N := v_locked v - (n - v_start v) * per_block v.
Definition duration (v : vest) : N :=
  if v_locked v <=? per_block v then 1
  else v_locked v / per_block v + (if v_locked v mod per_block v =? 0 then 0 else 1).
Definition ending (v : vest) : N := v_start v + duration v.

(** Of the chain: the block, what accounts have free and what is reserved or on hold, how much is locked for vesting ([WithdrawReasons] make no
    difference in pallet_balances any more), and the schedules. *)
Record vst := Vst {
  vs_now : N;
  vs_free : gmap N N;
  vs_held : gmap N N;
  vs_lock : gmap N N;
  vs_sched : gmap N (list vest)
}.
Definition vamt (m : gmap N N) (a : N) : N := default 0 (m !! a).
Definition scheds (s : vst) (a : N) : list vest := default [] (vs_sched s !! a).
Definition set_vfree (m : gmap N N) (s : vst) : vst := Vst (vs_now s) m (vs_held s) (vs_lock s) (vs_sched s).
Definition set_vheld (m : gmap N N) (s : vst) : vst := Vst (vs_now s) (vs_free s) m (vs_lock s) (vs_sched s).
(** [write_vesting], [write_lock] *)
Definition write (a : N) (l : list vest) (locked : N) (s : vst) : vst :=
  Vst (vs_now s) (vs_free s) (vs_held s) (<[a := locked]> (vs_lock s)) (<[a := l]> (vs_sched s)).

(** What is locked of [l] at [n]. *)
Definition total_at (l : list vest) (n : N) : N := foldr (fun v t => locked_at v n + t) 0 l.

(** [report_schedule_updates]: schedules that are over go, and those the action takes away. *)
Fixpoint report (keep : nat -> bool) (now : N) (i : nat) (l : list vest) : list vest :=
  match l with
  | [] => []
  | v :: r => if negb (locked_at v now =? 0) && keep i then v :: report keep now (S i) r else report keep now (S i) r
  end.
(** [VestingAction::Passive], [Remove] *)
Definition passive (a : N) (s : vst) : vst :=
  let l := report (fun _ => true) (vs_now s) 0 (scheds s a) in write a l (total_at l (vs_now s)) s.
Definition remove_at (a : N) (i : nat) (s : vst) : vst :=
  let l := report (fun j => negb (j =? i)%nat) (vs_now s) 0 (scheds s a) in write a l (total_at l (vs_now s)) s.

(** [merge_vesting_info] *)
Definition merge_info (now : N) (a b : vest) : option vest :=
  if ending a <=? now then (if ending b <=? now then None else Some b)
  else if ending b <=? now then Some a
  else
    let locked := locked_at a now + locked_at b now in
    let start := N.max now (N.max (v_start a) (v_start b)) in
    let d := N.max 1 (N.max (ending a) (ending b) - start) in
    Some (Vest locked (N.max 1 (locked / d)) start).
(** [merge_schedules] *)
Definition merge (a : N) (i j : nat) (s : vst) : option vst :=
  match vs_sched s !! a with
  | None => None
  | Some l =>
      if (i =? j)%nat then Some s
      else
        match l !! i, l !! j with
        | Some v, Some w =>
            let kept := report (fun k => negb (k =? i)%nat && negb (k =? j)%nat) (vs_now s) 0 l in
            let l' := kept ++ match merge_info (vs_now s) v w with Some m => [m] | None => [] end in
            Some (write a l' (total_at l' (vs_now s)) s)
        | _, _ => None
        end
  end.

(** pallet_balances: a transfer leaves what is locked, on hold or not; to oneself it does nothing, and is not looked at. [ok]: what else may
    keep it from happening (existential deposit). *)
Definition usable (s : vst) (a : N) : N := vamt (vs_free s) a - (vamt (vs_lock s) a - vamt (vs_held s) a).
Definition transfer (ok : bool) (from to n : N) (s : vst) : option vst :=
  if from =? to then Some s
  else if (n <=? usable s from) && ok then
    let f := <[from := vamt (vs_free s) from - n]> (vs_free s) in Some (set_vfree (<[to := vamt f to + n]> f) s)
  else None.

(** [do_vested_transfer] *)
Definition vested_transfer (ok : bool) (from to : N) (v : vest) (s : vst) : option vst :=
  if (min_vested_transfer <=? v_locked v) && negb (v_locked v =? 0) && negb (v_per_block v =? 0) && (length (scheds s to) <? max_schedules)%nat then
    match transfer ok from to (v_locked v) s with
    | Some s1 => Some (passive to (Vst (vs_now s1) (vs_free s1) (vs_held s1) (vs_lock s1) (<[to := scheds s1 to ++ [v]]> (vs_sched s1))))
    | None => None
    end
  else None.

(** What happens: the calls of pallet_vesting (those of root with those of users: [force_vested_transfer] says whose funds), transfers and fees,
    which leave what is locked; reserves and holds, of whatever is free, and their release; tokens that come in; blocks. Reserved tokens that are
    slashed are left out. *)
Inductive vstep :=
| VVest (who : N)
| VGrant (ok : bool) (from to : N) (v : vest)
| VMerge (who : N) (i j : nat)
| VForceRemove (who : N) (i : nat)
| VTransfer (ok : bool) (from to n : N)
| VHold (who n : N)
| VFree (who n : N)
| VMint (who n : N)
| VBlock.
(** The second part is for the record: schedules given (not part of the program). *)
Definition vstep_run (s : vst) (x : vstep) : vst * list (N * vest) :=
  match x with
  | VVest who => match vs_sched s !! who with Some _ => (passive who s, []) | None => (s, []) end
  | VGrant ok from to v => match vested_transfer ok from to v s with Some s' => (s', [(to, v)]) | None => (s, []) end
  | VMerge who i j => (default s (merge who i j s), [])
  | VForceRemove who i => if (i <? length (scheds s who))%nat then (remove_at who i s, []) else (s, [])
  | VTransfer ok from to n => (default s (transfer ok from to n s), [])
  | VHold who n =>
      if n <=? vamt (vs_free s) who then
        (set_vheld (<[who := vamt (vs_held s) who + n]> (vs_held s)) (set_vfree (<[who := vamt (vs_free s) who - n]> (vs_free s)) s), [])
      else (s, [])
  | VFree who n =>
      if n <=? vamt (vs_held s) who then
        (set_vheld (<[who := vamt (vs_held s) who - n]> (vs_held s)) (set_vfree (<[who := vamt (vs_free s) who + n]> (vs_free s)) s), [])
      else (s, [])
  | VMint who n => (set_vfree (<[who := vamt (vs_free s) who + n]> (vs_free s)) s, [])
  | VBlock => (Vst (vs_now s + 1) (vs_free s) (vs_held s) (vs_lock s) (vs_sched s), [])
  end.
Fixpoint vrun (s : vst) (l : list vstep) : vst * list (N * vest) :=
  match l with
  | [] => (s, [])
  | x :: r => let '(s1, g1) := vstep_run s x in let '(s2, g2) := vrun s1 r in (s2, g1 ++ g2)
  end.
(** At the start nothing is locked. *)
Definition v_genesis (now : N) : vst := Vst now ∅ ∅ ∅ ∅.

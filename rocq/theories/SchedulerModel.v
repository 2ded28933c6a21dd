(** The scheduler as Kreivo sets it up, runtime/kreivo/src/lib.rs:528-554: at most 50 tasks are due in a block, and they may use 80% of it. It carries out
    refunds of payments (pallets/payments/src/lib.rs:337-344) and decisions of referenda (runtime/kreivo/src/communities/governance.rs:96,
    runtime/kreivo/src/collective/governance.rs:14). The code of pallet_scheduler is a dependency; retries and periodic tasks, which only root can ask for, are left out. *)
From Verif Require Import Base BlocksModel.
From stdpp Require Import gmap.
Open Scope N_scope.

(** A task of pallet_scheduler (dependency): its name, if any, as a kind (payments are kind 0, pallets/payments/src/lib.rs:338) and a number;
    its priority (lower goes first; 63 at lib.rs:341); [sk_what] stands for the origin and the call. *)
Record stask := STask { sk_name : option (N * N); sk_prio : N; sk_what : N }.

(** What an observer sees of the scheduler (events [Scheduled], [Canceled], [Dispatched] of the dependency): the block a task is scheduled for; a task
    withdrawn, and when; a task carried out, and when. All of them name the block the task is scheduled for. *)
Inductive sevent := EPlaced (when_ : N) (t : stask) | ECancelled (at_ when_ : N) (t : stask) | ERan (at_ when_ : N) (t : stask).

(** Storage of pallet_scheduler (dependency): [Agenda], [Lookup], [IncompleteSince]; with the block number and what has been seen, the newest first. *)
Record sched := Sched {
  sd_agenda : gmap N (list (option stask));
  sd_lookup : gmap (N * N) (N * nat);
  sd_since : option N;
  sd_now : N;
  sd_log : list sevent
}.
Definition sset_agenda x s := Sched x (sd_lookup s) (sd_since s) (sd_now s) (sd_log s).
Definition sset_lookup x s := Sched (sd_agenda s) x (sd_since s) (sd_now s) (sd_log s).
Definition sset_since x s := Sched (sd_agenda s) (sd_lookup s) x (sd_now s) (sd_log s).
Definition sset_now x s := Sched (sd_agenda s) (sd_lookup s) (sd_since s) x (sd_log s).
Definition slog ev s := Sched (sd_agenda s) (sd_lookup s) (sd_since s) (sd_now s) (ev :: sd_log s).
Definition agenda_of (s : sched) (w : N) : list (option stask) := default [] (sd_agenda s !! w).

(** runtime/kreivo/src/lib.rs:532-535 [MaxScheduledPerBlock] *)
Definition max_scheduled : nat := 50.

(** The first free place. *)
Fixpoint hole (a : list (option stask)) : option nat :=
  match a with [] => None | None :: _ => Some 0%nat | Some _ :: a' => S <$> hole a' end.

(** [push_to_agenda] (dependency) *)
Definition push (a : list (option stask)) (t : stask) : option (list (option stask) * nat) :=
  if (length a <? max_scheduled)%nat then Some (a ++ [Some t], length a)
  else match hole a with Some i => Some (<[i := Some t]> a, i) | None => None end.

Definition forget (n : option (N * N)) (s : sched) : sched := match n with Some k => sset_lookup (delete k (sd_lookup s)) s | None => s end.

(** [do_schedule], [do_schedule_named], [resolve_time], [place_task] (dependency), as called at pallets/payments/src/lib.rs:337-344 *)
Definition schedule (s : sched) (when_ : N) (t : stask) : option sched :=
  if match sk_name t with Some k => match sd_lookup s !! k with Some _ => true | None => false end | None => false end then None
  else if when_ <=? sd_now s then None
  else match push (agenda_of s when_) t with
       | None => None
       | Some (a, i) =>
           let s1 := sset_agenda (<[when_ := a]> (sd_agenda s)) s in
           let s2 := match sk_name t with Some k => sset_lookup (<[k := (when_, i)]> (sd_lookup s1)) s1 | None => s1 end in
           Some (slog (EPlaced when_ t) s2)
       end.

(** [cleanup_agenda] (dependency): without the free places at the end. *)
Fixpoint trim (a : list (option stask)) : list (option stask) :=
  match a with
  | [] => []
  | x :: a' => match x, trim a' with None, [] => [] | _, a'' => x :: a'' end
  end.
Definition put_agenda (w : N) (a : list (option stask)) (s : sched) : sched :=
  sset_agenda (match a with [] => delete w (sd_agenda s) | _ => <[w := a]> (sd_agenda s) end) s.

(** [do_cancel] (dependency): the task in a place. Whether the caller may is left to ProxyModel.v ([OriginPrivilegeCmp]). *)
Definition cancel_at (s : sched) (w : N) (i : nat) : option sched :=
  match agenda_of s w !! i with
  | Some (Some t) => Some (slog (ECancelled (sd_now s) w t) (put_agenda w (trim (<[i := None]> (agenda_of s w))) (forget (sk_name t) s)))
  | _ => None
  end.
(** [do_cancel_named] (dependency), as called at pallets/payments/src/lib.rs:452 *)
Definition cancel_named (s : sched) (k : N * N) : option sched :=
  match sd_lookup s !! k with
  | Some (w, i) =>
      let s1 := put_agenda w (trim (<[i := None]> (agenda_of s w))) (forget (Some k) s) in
      Some (match agenda_of s w !! i with Some (Some t) => slog (ECancelled (sd_now s) w t) s1 | _ => s1 end)
  | None => None
  end.

(** What calls do to the scheduler; what is refused changes nothing. *)
Inductive sact := SPlace (when_ : N) (t : stask) | SCancel (w : N) (i : nat) | SCancelNamed (k : N * N).
Definition do_act (s : sched) (a : sact) : sched :=
  default s (match a with SPlace w t => schedule s w t | SCancel w i => cancel_at s w i | SCancelNamed k => cancel_named s k end).

(** What a block finds: which calls are known (inline, or their preimage is there), the weight they declare, what they use, what they do to the scheduler
    when carried out, and what the scheduler's own work costs ([WeightInfo], dependency): for the walk, for an agenda with so many tasks, for fetching
    a task and for dispatching it. *)
Record senv := SEnv {
  se_known : N -> bool;
  se_weight : N -> weight;
  se_used : N -> weight;
  se_acts : N -> list sact;
  se_walk : weight;
  se_agenda : nat -> weight;
  se_task : stask -> weight;
  se_exec : weight
}.

(** [WeightMeter::can_consume], [try_consume] (dependency) up to runtime/kreivo/src/lib.rs:528-530 [MaximumSchedulerWeight] *)
Definition fits (m w : weight) : bool := negb (any_gt (wadd m w) scheduler_limit).
Definition meter (m w : weight) : weight := if fits m w then wadd m w else m.

Inductive sresult := Ran | Unavailable | Overweight.

(** [service_task], [execute_dispatch] (dependency). [first]: nothing has been carried out in this block yet. *)
Definition service_task (e : senv) (s : sched) (m : weight) (first : bool) (w : N) (t : stask) : sresult * sched * weight :=
  let s1 := forget (sk_name t) s in
  let m1 := meter m (se_task e t) in
  if negb (se_known e (sk_what t)) then (Unavailable, s1, m1)
  else if negb (fits m1 (wadd (se_exec e) (se_weight e (sk_what t)))) then (if first then Unavailable else Overweight, s1, m1)
  else (Ran, fold_left do_act (se_acts e (sk_what t)) (slog (ERan (sd_now s) w t) s1), meter (meter m1 (se_exec e)) (se_used e (sk_what t))).

(** The places of tasks, those with lower priority numbers first, otherwise as they come ([sort_by_key], dependency). *)
Fixpoint insert_by (p : nat * N) (l : list (nat * N)) : list (nat * N) :=
  match l with [] => [p] | q :: l' => if snd p <? snd q then p :: l else q :: insert_by p l' end.
Fixpoint places (i : nat) (a : list (option stask)) : list (nat * N) :=
  match a with [] => [] | None :: a' => places (S i) a' | Some t :: a' => (i, sk_prio t) :: places (S i) a' end.
Definition ordered (a : list (option stask)) : list nat := fst <$> fold_left (fun l p => insert_by p l) (places 0 a) [].

(** [service_agenda] (dependency), the loop over the tasks of an agenda: the agenda, what it did, the weight used, how many were carried out in this block,
    and whether some have to wait and some are left for good. *)
Record sloop := SLoop { lp_agenda : list (option stask); lp_s : sched; lp_m : weight; lp_ran : nat; lp_wait : bool; lp_left : bool }.
Fixpoint service_tasks (e : senv) (w : N) (order : list nat) (x : sloop) : sloop :=
  match order with
  | [] => x
  | i :: order' =>
      match lp_agenda x !! i with
      | Some (Some t) =>
          if negb (fits (lp_m x) (se_task e t)) then SLoop (lp_agenda x) (lp_s x) (lp_m x) (lp_ran x) true (lp_left x)
          else
            match service_task e (lp_s x) (lp_m x) (lp_ran x =? 0)%nat w t with
            | (Ran, s, m) => service_tasks e w order' (SLoop (<[i := None]> (lp_agenda x)) s m (S (lp_ran x)) (lp_wait x) (lp_left x))
            | (Unavailable, s, m) => service_tasks e w order' (SLoop (lp_agenda x) s m (lp_ran x) (lp_wait x) true)
            | (Overweight, s, m) => service_tasks e w order' (SLoop (lp_agenda x) s m (lp_ran x) true (lp_left x))
            end
      | _ => service_tasks e w order' x
      end
  end.

(** [service_agenda] (dependency): the agenda is read once and written back at the end. *)
Definition service_agenda (e : senv) (s : sched) (m : weight) (ran : nat) (w : N) : sched * weight * nat * bool :=
  let a := agenda_of s w in
  let x := service_tasks e w (ordered a) (SLoop a s (meter m (se_agenda e (length (ordered a)))) ran false false) in
  (sset_agenda (if lp_wait x || lp_left x then <[w := lp_agenda x]> (sd_agenda (lp_s x)) else delete w (sd_agenda (lp_s x))) (lp_s x),
   lp_m x, lp_ran x, negb (lp_wait x)).

(** [service_agendas] (dependency), the walk over the agendas from [w], [n] of them; [inc] is the first with tasks that wait. *)
Fixpoint walk (e : senv) (s : sched) (m : weight) (ran : nat) (inc w : N) (n : nat) : sched :=
  match n with
  | O => let inc := N.min inc w in if inc <=? sd_now s then sset_since (Some inc) s else s
  | S n' =>
      if fits m (se_agenda e max_scheduled) then
        let '(s', m', ran', complete) := service_agenda e s m ran w in
        walk e s' m' ran' (if complete then inc else N.min inc w) (w + 1) n'
      else let inc := N.min inc w in if inc <=? sd_now s then sset_since (Some inc) s else s
  end.

(** [on_initialize] (dependency) of the next block. *)
Definition next_block (e : senv) (s0 : sched) : sched :=
  let now := sd_now s0 + 1 in
  let s := sset_now now s0 in
  if negb (fits (W 0 0) (se_walk e)) then s
  else
    let w := default now (sd_since s) in
    walk e (sset_since None s) (meter (W 0 0) (se_walk e)) 0 (now + 1) w (N.to_nat (now + 1 - w)).

(** A history: calls in a block, and the next block. *)
Inductive sstep := SAct (a : sact) | SNext (e : senv).
Definition do_sstep (s : sched) (x : sstep) : sched := match x with SAct a => do_act s a | SNext e => next_block e s end.
Definition srun (s : sched) (l : list sstep) : sched := fold_left do_sstep l s.
Definition s_start (now : N) : sched := Sched ∅ ∅ None now [].

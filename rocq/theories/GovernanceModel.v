(** Model of Kreivo's governance as a whole: the ranked collective and its referenda, the communities' referenda, the scheduler that carries
    decisions out, and the origins with which calls are dispatched. Builds on ManagerModel.v and XcmConfigModel.v. *)
From stdpp Require Import gmap.
From Verif Require Import Base XcmTypes OriginTypes AccountsModel CommunitiesModel TracksModel ManagerModel XcmConfigModel.
Open Scope N_scope.

(* ------------------------------------------------------------------ *)
(** * Calls, referenda and tasks *)

(** The two instances of pallet_referenda: runtime/kreivo/src/collective/governance.rs:8,10-28 and communities/governance.rs:10,92-111. *)
Inductive inst := Collective | Community.
Global Instance inst_eq_dec : EqDecision inst. Proof. solve_decision. Defined.
Global Instance inst_countable : Countable inst.
Proof.
  refine {| encode i := match i with Collective => 1 | Community => 2 end%positive;
            decode n := match n with 1 => Some Collective | 2 => Some Community | _ => None end%positive |}.
  by intros [].
Defined.

(** frame_support [DispatchTime] (dependency) *)
Inductive moment := MAt (n : N) | MAfter (n : N).

(** The calls that take part in governance; [GOther] stands for calls that leave the state below alone. [GBatch] is [utility.batch_all] of two
    calls, longer ones nest. Not modelled: calls with which root rewrites storage, code, or the tracks of communities otherwise than by
    registration ([insert] and [remove] of pallet_referenda_tracks, communities/governance.rs:43 root only). *)
Inductive gcall :=
| GSubmit (i : inst) (proposal_origin : origin) (proposal : gcall) (enact : moment)
| GPlaceDeposit (i : inst) (p : N)
| GCancel (i : inst) (p : N)
| GKill (i : inst) (p : N)
| GVote (p : N) (aye : bool)
| GPromote (who : N)
| GDemote (who : N)
| GRemove (who min_rank : N)
| GExchange (who new_who : N)
| GUpdateTrack (id : N) (ti : track_info)
| GRegister (id : N) (name : list N) (first_admin : address) (dm : option decision_method) (ti : option track_info)
| GCreateMemberships (amount starting_at price : N)
| GCommunityCall (k : ccall)
| GAsCommunity (k : gcall)
| GDispatchAs (o : origin) (k : gcall)
| GSchedule (when : N) (k : gcall)
| GBatch (k1 k2 : gcall)
| GOther (n : N).

(** pallet_referenda [ReferendumStatus] (dependency): track, origin and call of the proposal, when to enact it, block of submission, whether the
    decision deposit is placed, since when it is decided and the block its confirmation ends, whether it waits in the queue of its track.
    The tally is kept apart: in [c_polls] for communities, in [gv_tally] for the collective. *)
Record referendum := Referendum {
  rf_track : N;
  rf_origin : origin;
  rf_call : gcall;
  rf_enact : moment;
  rf_submitted : N;
  rf_deposit : bool;
  rf_deciding : option (N * option N);
  rf_queued : bool
}.
(** pallet_referenda [ReferendumInfo] (dependency), with the block a referendum ended in *)
Inductive rstatus := ROngoing (r : referendum) | RApproved (n : N) | RRejected (n : N) | RCancelled (n : N) | RTimedOut (n : N) | RKilled (n : N).

(** A task of pallet_scheduler (dependency): due block, origin, call, and the referendum it enacts, if any (part of the task's name). *)
Record task := Task { tk_due : N; tk_origin : origin; tk_call : gcall; tk_source : option (inst * N) }.

(** Communities, tracks and collective ([gv_m]); referenda of both instances with the number submitted so far; of the collective's referenda the
    tallies and the votes, by referendum and voter (pallet_ranked_collective [Voting], dependency: aye or nay, and the votes it counts for);
    the agenda; the block number. *)
Record gstate := GState {
  gv_m : mstate;
  gv_refs : gmap (inst * N) rstatus;
  gv_count : inst -> N;
  gv_tally : gmap N tally;
  gv_votes : gmap (N * N) (bool * N);
  gv_agenda : list task;
  gv_now : N
}.
Definition gset_m x s := GState x (gv_refs s) (gv_count s) (gv_tally s) (gv_votes s) (gv_agenda s) (gv_now s).
Definition gset_refs x s := GState (gv_m s) x (gv_count s) (gv_tally s) (gv_votes s) (gv_agenda s) (gv_now s).
Definition gset_count x s := GState (gv_m s) (gv_refs s) x (gv_tally s) (gv_votes s) (gv_agenda s) (gv_now s).
Definition gset_tally x s := GState (gv_m s) (gv_refs s) (gv_count s) x (gv_votes s) (gv_agenda s) (gv_now s).
Definition gset_votes x s := GState (gv_m s) (gv_refs s) (gv_count s) (gv_tally s) x (gv_agenda s) (gv_now s).
Definition gset_agenda x s := GState (gv_m s) (gv_refs s) (gv_count s) (gv_tally s) (gv_votes s) x (gv_now s).
Definition gset_now x s := GState (gv_m s) (gv_refs s) (gv_count s) (gv_tally s) (gv_votes s) (gv_agenda s) x.
Definition gset_c x s := gset_m (mset_c x (gv_m s)) s.
Definition gset_collective x s := gset_m (mset_collective x (gv_m s)) s.

(** What is decided outside: see [menv]; the total issuance of tokens; whether deposits can be paid; whether a free place to be decided is
    found (the number decided at once is limited per track); whether the scheduler takes a task. *)
Record genv := GEnv {
  ge_m : menv;
  ge_issuance : option N -> N;
  ge_deposit_ok : bool;
  ge_slot : bool;
  ge_sched_ok : bool
}.

(* ------------------------------------------------------------------ *)
(** * What the two instances are configured with *)

Definition ensure_root (o : origin) : option unit := match o with ORoot => Some tt | _ => None end.
(** collective/governance.rs:23 (collective/tracks.rs:108-124); communities/governance.rs:109 *)
Definition track_for (s : gstate) (i : inst) (o : origin) : option N :=
  match i with Collective => kreivo_track_for o | Community => mg_track_of (gv_m s) o end.
Definition track_info_of (s : gstate) (i : inst) (t : N) : option track_info :=
  match i with
  | Collective => snd <$> find (fun x => fst x =? t) kreivo_tracks
  | Community => mg_tracks (gv_m s) !! t
  end.
(** collective/governance.rs:16 [EnsureSigned]; communities/governance.rs:98-101 *)
Definition submit_origin (s : gstate) (i : inst) (o proposal_origin : origin) : option N :=
  match i with Collective => ensure_signed o | Community => kreivo_submit_origin (gv_m s) o proposal_origin end.
(** collective/governance.rs:17-18; communities/governance.rs:102-103 *)
Definition cancel_origin (i : inst) (o : origin) : bool :=
  match i, o with Collective, OCustom ReferendumCanceller => true | Community, ORoot => true | _, _ => false end.
Definition kill_origin (i : inst) (o : origin) : bool :=
  match i, o with Collective, OCustom ReferendumKiller => true | Community, ORoot => true | _, _ => false end.
(** collective/governance.rs:23 (2 days); communities/governance.rs:16 (14 days) *)
Definition undeciding_timeout (i : inst) : N := match i with Collective => 2 * days | Community => 14 * days end.

(** pallet_ranked_collective (dependency) with collective/mod.rs:43-45: a poll counts members of rank 1 and more. [get_max_voters] *)
Definition ranked_members (m : mstate) : N :=
  map_fold (fun _ r acc => if 1 <=? r then acc + 1 else acc) 0 (mg_collective m).
(** [Tally::approval], [Tally::support] of pallet_ranked_collective (dependency; its approval is computed like that of communities), and
    pallets/communities/src/impls.rs:18-24. None if there is no poll. *)
Definition gtally (s : gstate) (i : inst) (p : N) : option tally :=
  match i with
  | Collective => gv_tally s !! p
  | Community => match c_polls (mg_c (gv_m s)) !! p with Some (Ongoing t _) => Some t | _ => None end
  end.
Definition gsupport (e : genv) (s : gstate) (i : inst) (track : N) (t : tally) : N :=
  match i with
  | Collective => perbill_from_rational (bare_ayes t) (ranked_members (gv_m s))
  | Community => support (mg_c (gv_m s)) (ge_issuance e) track t
  end.

(* ------------------------------------------------------------------ *)
(** * pallet_referenda (dependency) *)

(** [is_passing] *)
Definition is_passing (ti : track_info) (elapsed app sup : N) : bool :=
  let x := perbill_from_rational (N.min elapsed (ti_decision ti)) (ti_decision ti) in
  curve_passing (ti_min_support ti) x sup && curve_passing (ti_min_approval ti) x app.

Definition rset_deciding d q r := Referendum (rf_track r) (rf_origin r) (rf_call r) (rf_enact r) (rf_submitted r) (rf_deposit r) d q.
Definition rset_deposit r := Referendum (rf_track r) (rf_origin r) (rf_call r) (rf_enact r) (rf_submitted r) true (rf_deciding r) (rf_queued r).
Definition rset_queued r := rset_deciding (rf_deciding r) true r.

(** [begin_deciding] *)
Definition begin_deciding (now : N) (ti : track_info) (app sup : N) (r : referendum) : referendum :=
  rset_deciding (Some (now, if is_passing ti 0 app sup then Some (now + ti_confirm ti) else None)) false r.

(** [service_referendum]: what becomes of an ongoing referendum when it is looked at. Alarms are not modelled (it may be looked at at any time,
    see [gstep]); of the queue only who is in it. *)
Definition service (e : genv) (now timeout : N) (ti : track_info) (app sup : N) (r : referendum) : rstatus :=
  match rf_deciding r with
  | Some (since, confirming) =>
      if is_passing ti (now - since) app sup then
        match confirming with
        | Some t => if t <=? now then RApproved now else ROngoing r
        | None => ROngoing (rset_deciding (Some (since, Some (now + ti_confirm ti))) (rf_queued r) r)
        end
      else if since + ti_decision ti <=? now then RRejected now
      else ROngoing (rset_deciding (Some (since, None)) (rf_queued r) r)
  | None =>
      if rf_queued r then ROngoing r
      else if rf_deposit r && (rf_submitted r + ti_prepare ti <=? now) then
        if ge_slot e then ROngoing (begin_deciding now ti app sup r) else ROngoing (rset_queued r)
      else if rf_submitted r + timeout <=? now then RTimedOut now else ROngoing r
  end.

(** [schedule_enactment]: the block a decision is due in. Block numbers are taken not to reach 2^32. *)
Definition enact_at (now : N) (ti : track_info) (m : moment) : N :=
  N.max (match m with MAt n => n | MAfter n => now + n end) (now + N.max (ti_enactment ti) 1).

(** Storing what became of a referendum. A community's poll that is over is [Completed] for pallet_communities. *)
Definition put_status (s : gstate) (i : inst) (p : N) (x : rstatus) : gstate :=
  let s1 := gset_refs (<[(i, p) := x]> (gv_refs s)) s in
  match i, x with
  | _, ROngoing _ => s1
  | Collective, _ => s1
  | Community, _ => gset_c (set_polls (<[p := Completed]> (c_polls (mg_c (gv_m s1)))) (mg_c (gv_m s1))) s1
  end.

(** [nudge_referendum]: called by the scheduler. Nothing happens if the referendum is over or its track gone. *)
Definition g_service (e : genv) (s : gstate) (i : inst) (p : N) : gstate :=
  match gv_refs s !! (i, p), gtally s i p with
  | Some (ROngoing r), Some t =>
      match track_info_of s i (rf_track r) with
      | Some ti =>
          let x := service e (gv_now s) (undeciding_timeout i) ti (approval t) (gsupport e s i (rf_track r) t) r in
          let s1 := put_status s i p x in
          match x with
          | RApproved _ =>
              if ge_sched_ok e
              then gset_agenda (gv_agenda s1 ++ [Task (enact_at (gv_now s) ti (rf_enact r)) (rf_origin r) (rf_call r) (Some (i, p))]) s1
              else s1
          | _ => s1
          end
      | None => s
      end
  | _, _ => s
  end.

(** [one_fewer_deciding]: called by the scheduler; one of the referenda waiting in the queue begins to be decided. Which one is left open. *)
Definition g_next (e : genv) (s : gstate) (i : inst) (p : N) : gstate :=
  match gv_refs s !! (i, p), gtally s i p with
  | Some (ROngoing r), Some t =>
      match track_info_of s i (rf_track r) with
      | Some ti =>
          if rf_queued r && match rf_deciding r with None => true | _ => false end
          then put_status s i p (ROngoing (begin_deciding (gv_now s) ti (approval t) (gsupport e s i (rf_track r) t) r)) else s
      | None => s
      end
  | _, _ => s
  end.

(** [submit]: the next index, an empty tally. *)
Definition g_submit (e : genv) (s : gstate) (o : origin) (i : inst) (po : origin) (k : gcall) (w : moment) : option gstate :=
  _ ← submit_origin s i o po;
  t ← track_for s i po;
  if negb (ge_deposit_ok e) then None else
  let p := gv_count s i in
  let s1 := gset_count (fun j => if decide (j = i) then p + 1 else gv_count s j) s in
  let s2 := gset_refs (<[(i, p) := ROngoing (Referendum t po k w (gv_now s) false None false)]> (gv_refs s1)) s1 in
  Some (match i with
        | Collective => gset_tally (<[p := empty_tally]> (gv_tally s2)) s2
        | Community => gset_c (set_polls (<[p := Ongoing empty_tally t]> (c_polls (mg_c (gv_m s2)))) (mg_c (gv_m s2))) s2
        end).

(** [place_decision_deposit]: anyone pays; the referendum is looked at at once. It is not decided yet, so this cannot end in approval. *)
Definition g_place_deposit (e : genv) (s : gstate) (o : origin) (i : inst) (p : N) : option gstate :=
  _ ← ensure_signed o;
  match gv_refs s !! (i, p), gtally s i p with
  | Some (ROngoing r), Some t =>
      if rf_deposit r || negb (ge_deposit_ok e) then None else
      ti ← track_info_of s i (rf_track r);
      let r1 := rset_deposit r in
      Some (put_status s i p (service e (gv_now s) (undeciding_timeout i) ti (approval t) (gsupport e s i (rf_track r) t) r1))
  | _, _ => None
  end.

(** [cancel] and [kill] *)
Definition g_cancel (s : gstate) (o : origin) (i : inst) (p : N) : option gstate :=
  if cancel_origin i o then match gv_refs s !! (i, p) with Some (ROngoing _) => Some (put_status s i p (RCancelled (gv_now s))) | _ => None end
  else None.
Definition g_kill (s : gstate) (o : origin) (i : inst) (p : N) : option gstate :=
  if kill_origin i o then match gv_refs s !! (i, p) with Some (ROngoing _) => Some (put_status s i p (RKilled (gv_now s))) | _ => None end
  else None.

(* ------------------------------------------------------------------ *)
(** * pallet_ranked_collective (dependency), configured in runtime/kreivo/src/collective/mod.rs:20-50 *)

(** [vote]: members of rank 1 and more ([MinRankOfClass], line 44); a member's votes are one plus the ranks above that ([Linear], line 46). A
    former vote of the same member is taken out with the votes it was counted for. Counters are u32 and saturate. *)
Definition collective_votes (rank : N) : N := rank - 1 + 1.
Definition tally_out (t : tally) (v : option (bool * N)) : tally :=
  match v with Some (true, n) => Tally (ayes t - n) (nays t) (bare_ayes t - 1) | Some (false, n) => Tally (ayes t) (nays t - n) (bare_ayes t) | None => t end.
Definition tally_in (t : tally) (aye : bool) (n : N) : tally :=
  if aye then Tally (sat32 (ayes t + n)) (nays t) (sat32 (bare_ayes t + 1)) else Tally (ayes t) (sat32 (nays t + n)) (bare_ayes t).
Definition g_vote (s : gstate) (o : origin) (p : N) (aye : bool) : option gstate :=
  who ← ensure_signed o;
  rank ← mg_collective (gv_m s) !! who;
  match gv_refs s !! (Collective, p), gv_tally s !! p with
  | Some (ROngoing _), Some t =>
      if rank <? 1 then None else
      let n := collective_votes rank in
      let t1 := tally_in (tally_out t (gv_votes s !! (p, who))) aye n in
      Some (gset_votes (<[(p, who) := (aye, n)]> (gv_votes s)) (gset_tally (<[p := t1]> (gv_tally s)) s))
  | _, _ => None
  end.

(** [promote_member], [demote_member], [remove_member], [exchange_member]: all need root (lines 29, 31, 36, 38), ranks are u16. There is no way
    to call [add_member] (line 24, [EnsureNever]); members join at rank 0 when a community is registered (ManagerModel.v, [induct]). *)
Definition g_promote (s : gstate) (o : origin) (who : N) : option gstate :=
  _ ← ensure_root o;
  r ← mg_collective (gv_m s) !! who;
  if r + 1 <=? 65535 then Some (gset_collective (<[who := r + 1]> (mg_collective (gv_m s))) s) else None.
Definition g_demote (s : gstate) (o : origin) (who : N) : option gstate :=
  _ ← ensure_root o;
  r ← mg_collective (gv_m s) !! who;
  Some (gset_collective (if r =? 0 then delete who (mg_collective (gv_m s)) else <[who := r - 1]> (mg_collective (gv_m s))) s).
Definition g_remove (s : gstate) (o : origin) (who min_rank : N) : option gstate :=
  _ ← ensure_root o;
  r ← mg_collective (gv_m s) !! who;
  if r <=? min_rank then Some (gset_collective (delete who (mg_collective (gv_m s))) s) else None.
Definition g_exchange (s : gstate) (o : origin) (who new_who : N) : option gstate :=
  _ ← ensure_root o;
  r ← mg_collective (gv_m s) !! who;
  match mg_collective (gv_m s) !! new_who with
  | None => Some (gset_collective (<[new_who := r]> (delete who (mg_collective (gv_m s)))) s)
  | Some _ => None
  end.

(* ------------------------------------------------------------------ *)
(** * Dispatch *)

(** pallet_referenda_tracks [update] (dependency), for whom communities/governance.rs:18-44 allows *)
Definition g_update_track (s : gstate) (o : origin) (id : N) (ti : track_info) : option gstate :=
  if ensure_origin_to_track (gv_m s) o id then
    match mg_tracks (gv_m s) !! id with
    | Some _ => Some (gset_m (mset_tracks (<[id := ti]> (mg_tracks (gv_m s))) (mg_track_of (gv_m s)) (gv_m s)) s)
    | None => None
    end
  else None.

Definition from_m (s : gstate) (r : mresult (mstate * list mevent)) : option gstate :=
  match r with MOk (m, _) => Some (gset_m m s) | MErr _ => None end.

(** A call dispatched with an origin; [None] if it fails. [GAsCommunity]: pallets/communities/src/lib.rs:569-572. [GDispatchAs]:
    [utility.dispatch_as] (dependency), root only, succeeds whatever the inner call does. [GSchedule]: [scheduler.schedule] (dependency),
    runtime/kreivo/src/lib.rs:548 root only; the task keeps the origin. *)
Fixpoint g_call (e : genv) (s : gstate) (o : origin) (k : gcall) : option gstate :=
  match k with
  | GSubmit i po k' w => g_submit e s o i po k' w
  | GPlaceDeposit i p => g_place_deposit e s o i p
  | GCancel i p => g_cancel s o i p
  | GKill i p => g_kill s o i p
  | GVote p aye => g_vote s o p aye
  | GPromote who => g_promote s o who
  | GDemote who => g_demote s o who
  | GRemove who r => g_remove s o who r
  | GExchange who w => g_exchange s o who w
  | GUpdateTrack id ti => g_update_track s o id ti
  | GRegister id name a dm ti => from_m s (mg_register kreivo_manager (ge_m e) (gv_m s) o id name a dm ti)
  | GCreateMemberships n i pr => from_m s (mg_create_memberships kreivo_manager (ge_m e) (gv_m s) o n i pr)
  | GCommunityCall c =>
      match ccall_run kreivo_communities (me_c (ge_m e)) (mg_c (gv_m s)) o c with COk (c', _) => Some (gset_c c' s) | CErr _ => None end
  | GAsCommunity k' => match dispatch_as_account kreivo_communities (mg_c (gv_m s)) o with Some o' => g_call e s o' k' | None => None end
  | GDispatchAs o' k' => _ ← ensure_root o; Some (default s (g_call e s o' k'))
  | GSchedule n k' =>
      _ ← ensure_root o;
      if gv_now s <? n then Some (gset_agenda (gv_agenda s ++ [Task n o k' None]) s) else None
  | GBatch k1 k2 => match g_call e s o k1 with Some s1 => g_call e s1 o k2 | None => None end
  | GOther _ => Some s
  end.
Definition g_dispatch (e : genv) (s : gstate) (o : origin) (k : gcall) : gstate := default s (g_call e s o k).

(** The origin of a call sent by another chain (XcmConfigModel.v): signed, an XCM origin, or an origin of a queue pallet. *)
Definition runtime_origin (r : remote_origin) : origin :=
  match r with RoSigned a => OSigned a | RoXcm l => OXcm l | RoRelay => OOther 0 | RoSibling n => OOther (n + 1) end.

(** Changes of memberships, balances and assets by others that leave referenda and communities alone. *)
Definition outside_step (x : cstep) : bool :=
  match x with StMember _ _ | StBalance _ _ | StAsset _ _ => true | _ => false end.

(** What can happen: a signed transaction; a call in a message from location [l]; the scheduler looks at a referendum, lets the next in the queue
    be decided, runs a task that is due (by its place on the agenda) or gives one up; a new block; changes from outside. Calls of contracts
    and through proxies are signed (C75, C78) and stand under transactions. *)
Inductive gstep :=
| GTx (e : genv) (who : N) (k : gcall)
| GRemote (e : genv) (l : location) (kind : origin_kind) (k : gcall)
| GService (e : genv) (i : inst) (p : N)
| GNext (e : genv) (i : inst) (p : N)
| GFire (e : genv) (n : nat)
| GGiveUp (n : nat)
| GBlock
| GOutside (x : cstep).

Definition gstep_run (s : gstate) (x : gstep) : gstate :=
  match x with
  | GTx e who k => g_dispatch e s (OSigned who) k
  | GRemote e l kind k => match transact_origin l kind with Some r => g_dispatch e s (runtime_origin r) k | None => s end
  | GService e i p => g_service e s i p
  | GNext e i p => g_next e s i p
  | GFire e n =>
      match gv_agenda s !! n with
      | Some t =>
          if tk_due t <=? gv_now s then g_dispatch e (gset_agenda (delete n (gv_agenda s)) s) (tk_origin t) (tk_call t) else s
      | None => s
      end
  | GGiveUp n => gset_agenda (delete n (gv_agenda s)) s
  | GBlock => gset_now (gv_now s + 1) s
  | GOutside x => if outside_step x then gset_c (cstep_run kreivo_communities (mg_c (gv_m s)) x) s else s
  end.
Definition grun (s : gstate) (l : list gstep) : gstate := fold_left gstep_run l s.

(** The beginning: no communities, no referenda, nothing scheduled; the collective has the members and ranks of [ranks]. The genesis the
    repository writes (chain-spec-generator/src/spec/local.rs:111-158) has none. *)
Definition g_start (ranks : gmap N N) (now : N) : gstate :=
  GState (mset_collective ranks m_empty) ∅ (fun _ => 0) ∅ ∅ [] now.

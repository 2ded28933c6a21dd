(** Model of what is deposited for referenda: the deposits of pallet_referenda (dependency, from memory), in Kreivo's two instances. *)
From stdpp Require Import gmap.
From Verif Require Import Base XcmTypes OriginTypes TracksModel GovernanceModel.
Open Scope N_scope.

(** [ReferendumInfo] without what GovernanceModel.v has: ongoing, or how it ended. *)
Inductive dstatus := DOngoing | DApproved | DRejected | DCancelled | DTimedOut | DKilled.

(** A deposit ([Deposit]): whose and how much. *)
Record deposit := Deposit { dp_who : N; dp_amount : N }.

(** A referendum: its status, its track and the two deposits still held for it. *)
Record dref := DRef { dr_status : dstatus; dr_track : N; dr_submission : option deposit; dr_decision : option deposit }.

(** Balances of the native token that are free and that are reserved, by account; what of the latter other pallets reserved; the referenda by
    instance and number and how many there are; the decision deposit of the tracks of communities
    (pallets/referenda-tracks: the track of a community says what [update] stored). *)
Record dstate := DState {
  d_free : gmap N N;
  d_reserved : gmap N N;
  d_others : gmap N N;
  d_refs : gmap (inst * N) dref;
  d_count : inst -> N;
  d_tracks : gmap N N
}.
Definition bal (m : gmap N N) (a : N) : N := default 0 (m !! a).

(** [SubmissionDeposit]: one unit for the collective (runtime/kreivo/src/collective/governance.rs:22), nothing for communities
    (runtime/kreivo/src/communities/governance.rs:14,107). *)
Definition submission_deposit (i : inst) : N := match i with Collective => units | Community => 0 end.

(** The decision deposit of a track: the table of the collective (runtime/kreivo/src/collective/tracks.rs:25,47,69,91) or what the track of the
    community says. [None]: there is no such track. *)
Definition decision_deposit (s : dstate) (i : inst) (t : N) : option N :=
  match i with
  | Collective => (fun x => ti_decision_deposit (snd x)) <$> find (fun x => fst x =? t) kreivo_tracks
  | Community => d_tracks s !! t
  end.

Definition dset_refs (m : gmap (inst * N) dref) (s : dstate) : dstate :=
  DState (d_free s) (d_reserved s) (d_others s) m (d_count s) (d_tracks s).
Definition dset_free (m : gmap N N) (s : dstate) : dstate :=
  DState m (d_reserved s) (d_others s) (d_refs s) (d_count s) (d_tracks s).
Definition dset_reserved (m : gmap N N) (s : dstate) : dstate :=
  DState (d_free s) m (d_others s) (d_refs s) (d_count s) (d_tracks s).
Definition dset_others (m : gmap N N) (s : dstate) : dstate :=
  DState (d_free s) (d_reserved s) m (d_refs s) (d_count s) (d_tracks s).
Definition dset_count (f : inst -> N) (s : dstate) : dstate :=
  DState (d_free s) (d_reserved s) (d_others s) (d_refs s) f (d_tracks s).
Definition dset_tracks (m : gmap N N) (s : dstate) : dstate :=
  DState (d_free s) (d_reserved s) (d_others s) (d_refs s) (d_count s) m.

(** [ReservableCurrency::reserve] (pallet_balances, dependency): [ok] is whether what remains free suffices for locks and the existential
    deposit. *)
Definition reserve (ok : bool) (s : dstate) (who n : N) : option dstate :=
  if ok && (n <=? bal (d_free s) who) then
    Some (dset_reserved (<[who := bal (d_reserved s) who + n]> (d_reserved s)) (dset_free (<[who := bal (d_free s) who - n]> (d_free s)) s))
  else None.
(** [ReservableCurrency::unreserve]: as much of [n] as is reserved, by whomever. *)
Definition unreserve (s : dstate) (who n : N) : dstate :=
  let x := N.min n (bal (d_reserved s) who) in
  dset_free (<[who := bal (d_free s) who + x]> (d_free s)) (dset_reserved (<[who := bal (d_reserved s) who - x]> (d_reserved s)) s).
(** [ReservableCurrency::slash_reserved], and what [Slash = Treasury] does with it: the treasury account gets it
    (runtime/kreivo/src/collective/governance.rs:19, runtime/kreivo/src/communities/governance.rs:104). *)
Definition slash (treasury : N) (s : dstate) (d : option deposit) : dstate :=
  match d with
  | None => s
  | Some (Deposit who n) =>
      let x := N.min n (bal (d_reserved s) who) in
      let s1 := dset_reserved (<[who := bal (d_reserved s) who - x]> (d_reserved s)) s in
      dset_free (<[treasury := bal (d_free s1) treasury + x]> (d_free s1)) s1
  end.

(** [submit] of who pays, on a track: the deposit is reserved and the next number is the referendum's. *)
Definition d_submit (ok : bool) (s : dstate) (i : inst) (who t : N) : option dstate :=
  let n := submission_deposit i in
  s1 ← reserve ok s who n;
  Some (dset_count (fun j => if decide (j = i) then d_count s i + 1 else d_count s j)
         (dset_refs (<[(i, d_count s i) := DRef DOngoing t (Some (Deposit who n)) None]> (d_refs s)) s1)).

(** [place_decision_deposit]: ongoing and none placed yet. *)
Definition d_place (ok : bool) (s : dstate) (i : inst) (who p : N) : option dstate :=
  match d_refs s !! (i, p) with
  | Some (DRef DOngoing t sub None) =>
      n ← decision_deposit s i t;
      s1 ← reserve ok s who n;
      Some (dset_refs (<[(i, p) := DRef DOngoing t sub (Some (Deposit who n))]> (d_refs s)) s1)
  | _ => None
  end.

(** How a referendum ends that is not killed: approved, rejected, timed out (by the scheduler) or cancelled (by [cancel]); when each of these
    happens is in GovernanceModel.v and left open here. The deposits are kept with it. Only a referendum that is being decided is approved or
    rejected, and only one with a decision deposit is being decided ([service_referendum], [ready_for_deciding]). *)
Definition d_end (s : dstate) (i : inst) (p : N) (st : dstatus) : option dstate :=
  match d_refs s !! (i, p) with
  | Some (DRef DOngoing t sub dec) =>
      match st, dec with
      | DApproved, Some _ | DRejected, Some _ | DTimedOut, _ | DCancelled, _ =>
          Some (dset_refs (<[(i, p) := DRef st t sub dec]> (d_refs s)) s)
      | _, _ => None
      end
  | _ => None
  end.

(** [kill]: both deposits are slashed. *)
Definition d_kill (treasury : N) (s : dstate) (i : inst) (p : N) : option dstate :=
  match d_refs s !! (i, p) with
  | Some (DRef DOngoing t sub dec) =>
      let s1 := slash treasury (slash treasury s sub) dec in
      Some (dset_refs (<[(i, p) := DRef DKilled t None None]> (d_refs s1)) s1)
  | _ => None
  end.

(** [refund_decision_deposit] ([take_decision_deposit]), by anyone: not while ongoing. *)
Definition d_refund_decision (s : dstate) (i : inst) (p : N) : option dstate :=
  match d_refs s !! (i, p) with
  | Some (DRef st t sub (Some (Deposit who n))) =>
      match st with
      | DOngoing | DKilled => None
      | _ => let s1 := unreserve s who n in Some (dset_refs (<[(i, p) := DRef st t sub None]> (d_refs s1)) s1)
      end
  | _ => None
  end.
(** [refund_submission_deposit] ([take_submission_deposit]), by anyone: only of approved and cancelled referenda. *)
Definition d_refund_submission (s : dstate) (i : inst) (p : N) : option dstate :=
  match d_refs s !! (i, p) with
  | Some (DRef st t (Some (Deposit who n)) dec) =>
      match st with
      | DApproved | DCancelled => let s1 := unreserve s who n in Some (dset_refs (<[(i, p) := DRef st t None dec]> (d_refs s1)) s1)
      | _ => None
      end
  | _ => None
  end.

(** What can happen, whatever dispatches it: the calls above, a new decision deposit of a community's track, other pallets reserving or
    giving back what they reserved, and any other change of a free balance. *)
Inductive dstep :=
| DSubmit (ok : bool) (i : inst) (who t : N)
| DPlace (ok : bool) (i : inst) (who p : N)
| DEnd (i : inst) (p : N) (st : dstatus)
| DKill (i : inst) (p : N)
| DRefundDecision (i : inst) (p : N)
| DRefundSubmission (i : inst) (p : N)
| DTrack (t n : N)
| DReserve (who n : N)
| DUnreserve (who n : N)
| DBalance (who n : N).

(** The calls are transactional: one that fails changes nothing. *)
Definition dstep_run (treasury : N) (s : dstate) (x : dstep) : dstate :=
  match x with
  | DSubmit ok i who t => default s (d_submit ok s i who t)
  | DPlace ok i who p => default s (d_place ok s i who p)
  | DEnd i p st => default s (d_end s i p st)
  | DKill i p => default s (d_kill treasury s i p)
  | DRefundDecision i p => default s (d_refund_decision s i p)
  | DRefundSubmission i p => default s (d_refund_submission s i p)
  | DTrack t n => dset_tracks (<[t := n]> (d_tracks s)) s
  | DReserve who n =>
      match reserve true s who n with
      | Some s1 => dset_others (<[who := bal (d_others s) who + n]> (d_others s)) s1
      | None => s
      end
  | DUnreserve who n =>
      if n <=? bal (d_others s) who then dset_others (<[who := bal (d_others s) who - n]> (d_others s)) (unreserve s who n) else s
  | DBalance who n => dset_free (<[who := n]> (d_free s)) s
  end.
Definition drun (treasury : N) (s : dstate) (l : list dstep) : dstate := fold_left (dstep_run treasury) l s.

(** The beginning: balances, nothing reserved and no referenda. *)
Definition d_start (free : gmap N N) : dstate := DState free ∅ ∅ ∅ (fun _ => 0) ∅.

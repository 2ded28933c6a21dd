(** Preimages on Kreivo (runtime/kreivo/src/lib.rs:555-572; pallet_preimage and [HoldConsideration], dependencies, from memory). *)
From stdpp Require Import gmap.
From Verif Require Import Base RuntimeModel.
Open Scope N_scope.

(** runtime/kreivo/src/lib.rs:556-557, 566-571: [LinearStoragePrice<PreimageBaseDeposit, PreimageByteDeposit>] *)
Definition preimage_base_deposit : N := deposit 2 64.
Definition preimage_byte_deposit : N := deposit 0 1.
Definition preimage_price (len : N) : N := preimage_base_deposit + preimage_byte_deposit * len.

(** pallet_preimage [MAX_SIZE] *)
Definition preimage_max : N := 4 * 1024 * 1024.

(** A ticket: who paid, and how much ([HoldConsideration]). *)
Definition ticket : Type := N * N.
(** pallet_preimage [RequestStatus] *)
Inductive pstatus :=
| Unrequested (t : ticket) (len : N)
| Requested (t : option ticket) (count : N) (len : option N).

(** Storage: status and bytes by hash; what accounts have free and on hold for preimages. *)
Record pst := Pst {
  p_status : gmap N pstatus;
  p_bytes : gmap N (list N);
  p_free : gmap N N;
  p_held : gmap N N
}.
Definition pamt (m : gmap N N) (a : N) : N := default 0 (m !! a).
Definition set_pst (st : gmap N pstatus) (b : gmap N (list N)) (s : pst) : pst := Pst st b (p_free s) (p_held s).
(** [HoldConsideration::new] and [drop]; a hold takes of what is free, [ok] says whether it may (existential deposit, other pallets). *)
Definition hold (ok : bool) (a n : N) (s : pst) : option pst :=
  if (n <=? pamt (p_free s) a) && ok then
    Some (Pst (p_status s) (p_bytes s) (<[a := pamt (p_free s) a - n]> (p_free s)) (<[a := pamt (p_held s) a + n]> (p_held s)))
  else None.
Definition unhold (t : ticket) (s : pst) : pst :=
  let n := N.min (snd t) (pamt (p_held s) (fst t)) in
  Pst (p_status s) (p_bytes s) (<[fst t := pamt (p_free s) (fst t) + n]> (p_free s)) (<[fst t := pamt (p_held s) (fst t) - n]> (p_held s)).

Section Preimages.
(** [T::Hashing] *)
Variable hash : list N -> N.

(** [note_bytes]; [who = None] is root or the chain itself. *)
Definition note (who : option N) (ok : bool) (text : list N) (s : pst) : option pst :=
  let h := hash text in let len := N.of_nat (length text) in
  if preimage_max <? len then None
  else
    let put (st : pstatus) (s' : pst) := set_pst (<[h := st]> (p_status s')) (<[h := text]> (p_bytes s')) s' in
    match p_status s !! h, who with
    | Some (Requested t c _), _ => Some (put (Requested t c (Some len)) s)
    | Some (Unrequested _ _), Some _ => None
    | Some (Unrequested t l), None => Some (put (Requested (Some t) 1 (Some l)) s)
    | None, None => Some (put (Requested None 1 (Some len)) s)
    | None, Some a =>
        match hold ok a (preimage_price len) s with
        | Some s' => Some (put (Unrequested (a, preimage_price len) len) s')
        | None => None
        end
    end.

(** [do_request_preimage] *)
Definition request (h : N) (s : pst) : pst :=
  let st := match p_status s !! h with
            | Some (Requested t c l) => Requested t (c + 1) l
            | Some (Unrequested t l) => Requested (Some t) 1 (Some l)
            | None => Requested None 1 None
            end in
  set_pst (<[h := st]> (p_status s)) (p_bytes s) s.

(** [do_unrequest_preimage] *)
Definition unrequest (h : N) (s : pst) : option pst :=
  match p_status s !! h with
  | Some (Requested t c l) =>
      if 1 <? c then Some (set_pst (<[h := Requested t (c - 1) l]> (p_status s)) (p_bytes s) s)
      else
        match l, t with
        | None, _ => Some (set_pst (delete h (p_status s)) (p_bytes s) s)
        | Some _, None => Some (set_pst (delete h (p_status s)) (delete h (p_bytes s)) s)
        | Some n, Some t' => Some (set_pst (<[h := Unrequested t' n]> (p_status s)) (p_bytes s) s)
        end
  | _ => None
  end.

(** [do_unnote_preimage] *)
Definition unnote (who : option N) (h : N) (s : pst) : option pst :=
  let mine (t : ticket) := match who with Some a => a =? fst t | None => true end in
  match p_status s !! h with
  | Some (Requested (Some t) c l) =>
      if mine t then let s' := unhold t s in Some (set_pst (<[h := Requested None c l]> (p_status s')) (p_bytes s') s') else None
  | Some (Requested None _ _) => match who with Some _ => None | None => unrequest h s end
  | Some (Unrequested t _) =>
      if mine t then let s' := unhold t s in Some (set_pst (delete h (p_status s')) (delete h (p_bytes s')) s') else None
  | None => None
  end.

(** What happens: somebody ([Some a]) or root or the chain ([None]) notes a text or takes it back; root, referenda and the scheduler request texts
    and withdraw that; accounts get and spend tokens. *)
Inductive pstep :=
| PNote (who : option N) (ok : bool) (text : list N)
| PUnnote (who : option N) (h : N)
| PRequest (h : N)
| PUnrequest (h : N)
| PMoney (a n : N)
| PSpend (a n : N).
Definition pstep_try (s : pst) (x : pstep) : option pst :=
  match x with
  | PNote who ok text => note who ok text s
  | PUnnote who h => unnote who h s
  | PRequest h => Some (request h s)
  | PUnrequest h => unrequest h s
  | PMoney a n => Some (Pst (p_status s) (p_bytes s) (<[a := pamt (p_free s) a + n]> (p_free s)) (p_held s))
  | PSpend a n => if n <=? pamt (p_free s) a then Some (Pst (p_status s) (p_bytes s) (<[a := pamt (p_free s) a - n]> (p_free s)) (p_held s)) else None
  end.
Definition pstep_run (s : pst) (x : pstep) : pst := default s (pstep_try s x).
Definition prun (s : pst) (l : list pstep) : pst := fold_left pstep_run l s.
End Preimages.
Definition p_start : pst := Pst ∅ ∅ ∅ ∅.

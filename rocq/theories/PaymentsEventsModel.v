(** The events of pallets/payments/src/lib.rs:185-217, on top of PaymentsModel.v. *)
From Verif Require Import Base XcmTypes OriginTypes PaymentIdModel FeesModel LedgerModel PaymentsModel.
From stdpp Require Import gmap.
Open Scope N_scope.

(** lib.rs:185-217 [Event]. [PaymentResolved] is declared but never deposited. *)
Inductive pevent :=
| EvCreated (id a amount : N) (remark : option (list N))
| EvReleased (id : N)
| EvCancelled (id : N)
| EvRefundRequested (id expiry : N)
| EvRefunded (id : N)
| EvRefundDisputed (id : N)
| EvRequestCreated (id : N)
| EvRequestCompleted (id : N)
| EvDisputeResolved (id : N).

(** The event a call deposits just before it returns Ok: lib.rs:290-295 (pay), 312 (release), 351 (request_refund, with the block the
    closure returned), 387 (accept_and_pay), 404-411 (cancel, by the state it found), 455 (dispute_refund), 485 (request_payment), 506
    (resolve_dispute). A call that fails deposits nothing that stays. *)
Definition call_event (c : pconfig) (e : penv) (st : pstate) (o : origin) (call : pcall) : option pevent :=
  match dispatch c e st o call with
  | PErr _ => None
  | POk _ =>
      match call with
      | CPay _ a amount remark => id ← env_next_id e; Some (EvCreated id a amount remark)
      | CRelease id => Some (EvReleased id)
      | CRequestRefund id => Some (EvRefundRequested id (st_now st + cfg_cancel_buffer c))
      | CAcceptAndPay id => Some (EvRequestCompleted id)
      | CCancel id =>
          p ← st_parties st !! id; d ← st_pays st !! (fst p, id);
          match d_state d with Created => Some (EvCancelled id) | RefundRequested _ => Some (EvRefunded id) | _ => None end
      | CDisputeRefund id => Some (EvRefundDisputed id)
      | CRequestPayment _ _ _ => id ← env_next_id e; Some (EvRequestCreated id)
      | CResolveDispute id _ => Some (EvDisputeResolved id)
      end
  end.

(** The pallet's event in a step of the chain; a due task is the call [cancel], see [run_step]. *)
Definition step_event (c : pconfig) (st : pstate) (x : pstep) : option pevent :=
  match x with
  | SCall o call e => call_event c e st o call
  | SFire id e =>
      match st_agenda st !! id with
      | Some (due, who) =>
          if due <=? st_now st then call_event c e (with_agenda st (delete id (st_agenda st))) (OSigned who) (CCancel id) else None
      | None => None
      end
  | _ => None
  end.

(** The pallet's events in a history, oldest first. *)
Fixpoint event_log (c : pconfig) (st : pstate) (steps : list pstep) : list pevent :=
  match steps with
  | [] => []
  | x :: rest => match step_event c st x with Some ev => [ev] | None => [] end ++ event_log c (run_step c st x) rest
  end.

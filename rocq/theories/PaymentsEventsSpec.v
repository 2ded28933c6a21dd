(** What somebody who follows the events of the payments pallet takes them to mean. *)
From Verif Require Import Base XcmTypes OriginTypes PaymentIdModel FeesModel LedgerModel PaymentsModel PaymentsSpec PaymentsEventsModel.
From stdpp Require Import gmap.
Open Scope N_scope.

(** The state of the payments after one more event. *)
Definition learn (m : gmap N pay_state) (ev : pevent) : gmap N pay_state :=
  match ev with
  | EvCreated id _ _ _ => <[id := Created]> m
  | EvRequestCreated id => <[id := PaymentRequested]> m
  | EvReleased id | EvRequestCompleted id | EvDisputeResolved id => <[id := Finished]> m
  | EvRefundRequested id n => <[id := RefundRequested n]> m
  | EvRefundDisputed id => <[id := NeedsReview]> m
  | EvCancelled id | EvRefunded id => delete id m
  end.
(** What a log tells. *)
Definition told (log : list pevent) : gmap N pay_state := fold_left learn log ∅.

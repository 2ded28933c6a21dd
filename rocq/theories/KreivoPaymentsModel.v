(** Kreivo's configuration of the payments pallet (runtime/kreivo/src/payments.rs). *)
From Verif Require Import Base XcmTypes OriginTypes PaymentIdModel FeesModel LedgerModel PaymentsModel AccountsModel.
From stdpp Require Import gmap.
Open Scope N_scope.

(** runtime/kreivo/src/payments.rs:48-49 [is_community] *)
Definition is_community (who : N) : bool :=
  match try_from_sub_account who with
  | Some (pid, _) => bool_decide (community_pallet_id = pid)
  | None => false
  end.

(** runtime/kreivo/src/payments.rs:33-34 [SENDER_FEE], [BENEFICIARY_FEE] in percent *)
Definition sender_fee_percent : N := 1.
Definition beneficiary_fee_percent : N := 3.

(** runtime/kreivo/src/payments.rs:38-65 [KreivoFeeHandler::apply_fees]; [min] is the asset's minimum balance. *)
Definition kreivo_fees (min : N -> N) (a sender beneficiary amount : N) (remark : option (list N)) : fees :=
  let default_fee pct := Fee treasury_account (N.max (min a) (percent_mul_floor pct amount)) true in
  Fees (if is_community sender then [] else [default_fee sender_fee_percent])
       (if is_community beneficiary then [] else [default_fee beneficiary_fee_percent]).

(** runtime/kreivo/src/payments.rs:75-100 [impl pallet_payments::Config for Runtime] *)
Definition kreivo_payments : pconfig := PConfig
  (either_of as_signed_by_community ensure_signed)
  ensure_signed
  (fun o => match o with ORoot => Some treasury_account | _ => None end)
  lookup_address
  10
  14400.

(** runtime/kreivo/src/payments.rs:67-73 as a number: the id made in block [b] by extrinsic [idx] for beneficiary [ben]. *)
Definition kreivo_id_number (b : N) (idx : option N) (ben : N) : option N :=
  match kreivo_next_id b idx (account_bytes ben) with Val (Some p) => Some (pid_to_u64 p) | _ => None end.

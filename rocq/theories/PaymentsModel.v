(** Model of pallets/payments/src/lib.rs. Events are in PaymentsEventsModel.v; weights and storage hashers are not modelled. *)
From Verif Require Import Base XcmTypes OriginTypes FeesModel LedgerModel.
From stdpp Require Import gmap.
Open Scope N_scope.

(** pallets/payments/src/types.rs:54-66 [enum PaymentState] *)
Inductive pay_state :=
| Created
| NeedsReview
| RefundRequested (cancel_block : N)
| PaymentRequested
| Finished.
Global Instance pay_state_eq_dec : EqDecision pay_state. Proof. solve_decision. Defined.

(** pallets/payments/src/types.rs:34-48 [struct PaymentDetail] *)
Record detail := Detail {
  d_asset : N;
  d_amount : N;
  d_beneficiary : N;
  d_incentive : N;
  d_state : pay_state;
  d_fees : fees;
}.
Global Instance detail_eq_dec : EqDecision detail. Proof. solve_decision. Defined.

Definition set_state (d : detail) (s : pay_state) : detail :=
  Detail (d_asset d) (d_amount d) (d_beneficiary d) (d_incentive d) s (d_fees d).

(** pallets/payments/src/types.rs:167-170 [struct DisputeResult] *)
Record dispute_result := DisputeResult { percent_beneficiary : N; in_favor_of : role }.

(** Chain state seen by the pallet: the ledger; [Payment] (lib.rs:154-171), keyed by (sender, payment id);
    [PaymentParties] (lib.rs:173-181), payment id to (sender, beneficiary); the scheduler's agenda
    restricted to the names this pallet uses, ("payment", id) (lib.rs:338), each with its due block and the account
    the scheduled [cancel] is signed by (the blake2 name is taken to be injective in the id); the block number. A payment id is
    its u64 number (see C01). *)
Record pstate := PState {
  st_ledger : ledger;
  st_pays : gmap (N * N) detail;
  st_parties : gmap N (N * N);
  st_agenda : gmap N (N * N);
  st_now : N;
}.

Definition with_ledger (st : pstate) (l : ledger) : pstate :=
  PState l (st_pays st) (st_parties st) (st_agenda st) (st_now st).
Definition with_pay (st : pstate) (k : N * N) (d : detail) : pstate :=
  PState (st_ledger st) (<[k := d]> (st_pays st)) (st_parties st) (st_agenda st) (st_now st).
Definition with_parties (st : pstate) (id : N) (p : N * N) : pstate :=
  PState (st_ledger st) (st_pays st) (<[id := p]> (st_parties st)) (st_agenda st) (st_now st).
Definition with_agenda (st : pstate) (ag : gmap N (N * N)) : pstate :=
  PState (st_ledger st) (st_pays st) (st_parties st) ag (st_now st).

(** pallets/payments/src/lib.rs:219-249 [enum Error], plus errors of called pallets. *)
Inductive perror :=
| BadOrigin | LookupFailed
| InvalidPayment | PaymentAlreadyInProcess | InvalidAction | MathError
| ReleaseFailed | TransferFailed | NonExistentStorageValue | NoPaymentIdAvailable | InvalidBeneficiary
| LedgerError | SchedulerError.

Inductive presult (A : Type) := POk (a : A) | PErr (e : perror).
Arguments POk {A} _.
Arguments PErr {A} _.

Definition pbind {A B} (r : presult A) (f : A -> presult B) : presult B :=
  match r with POk a => f a | PErr e => PErr e end.
Notation "'let*' x := r 'in' k" := (pbind r (fun x => k)) (at level 200, x binder, r at level 100, k at level 200).

(** [.ok_or(e)] / [.map_err(|_| e)] *)
Definition ok_or {A} (o : option A) (e : perror) : presult A :=
  match o with Some a => POk a | None => PErr e end.
Definition ensure (b : bool) (e : perror) : presult unit := if b then POk () else PErr e.

(** pallets/payments/src/lib.rs:60-150 [trait Config]: the associated types that matter here. *)
Record pconfig := PConfig {
  cfg_sender_origin : origin -> option N;       (* SenderOrigin *)
  cfg_beneficiary_origin : origin -> option N;  (* BeneficiaryOrigin *)
  cfg_resolver_origin : origin -> option N;     (* DisputeResolver *)
  cfg_lookup : address -> option N;             (* frame_system Lookup *)
  cfg_incentive_pct : N;                        (* IncentivePercentage *)
  cfg_cancel_buffer : N;                        (* CancelBufferBlockLength *)
}.

(** Decisions taken outside the pallet during one call: ledger conditions, the fee handler's answer
    (lib.rs:537), the next payment id (lib.rs:526) and whether the scheduler accepts a task (lib.rs:337-344). *)
Record penv := PEnv {
  env_ext : ext;
  env_fees : N -> N -> N -> N -> option (list N) -> fees;  (* asset, sender, beneficiary, amount, remark *)
  env_next_id : option N;
  env_sched_ok : bool;
}.

(** pallets/payments/src/lib.rs:517-553 [create_payment] *)
Definition create_payment (c : pconfig) (e : penv) (st : pstate) (sender beneficiary a amount : N)
    (s : pay_state) (remark : option (list N)) : presult (pstate * N * detail) :=
  let* id := ok_or (env_next_id e) NoPaymentIdAvailable in
  let* _ := ensure (match st_pays st !! (sender, id) with
                    | Some d => bool_decide (d_state d = PaymentRequested)
                    | None => true
                    end) PaymentAlreadyInProcess in
  let incentive := percent_mul_floor (cfg_incentive_pct c) amount in
  let d := Detail a amount beneficiary incentive s (env_fees e a sender beneficiary amount remark) in
  POk (with_parties (with_pay st (sender, id) d) id (sender, beneficiary), id, d).

(** The hold on the sender: lib.rs:559-561, 583-585, 617-619. *)
Definition total_hold (d : detail) (is_dispute : bool) : N :=
  let '(_, mandatory, optional) := summary_for (d_fees d) RSender is_dispute in
  sat128 (sat128 (mandatory + d_incentive d) + optional).

(** pallets/payments/src/lib.rs:555-577 [reserve_payment_amount] *)
Definition reserve_payment_amount (e : penv) (l : ledger) (sender : N) (d : detail) : presult ledger :=
  let* l1 := ok_or (ledger_hold (env_ext e) l (d_asset d) sender (total_hold d false)) LedgerError in
  ok_or (ledger_transfer_hold (env_ext e) l1 (d_asset d) sender (d_beneficiary d) (d_amount d)) LedgerError.

(** pallets/payments/src/lib.rs:579-599 [cancel_payment] *)
Definition cancel_payment (e : penv) (l : ledger) (sender : N) (d : detail) : presult ledger :=
  let* l1 := ok_or (ledger_release (env_ext e) l (d_asset d) sender (total_hold d false)) ReleaseFailed in
  let* l2 := ok_or (ledger_release (env_ext e) l1 (d_asset d) (d_beneficiary d) (d_amount d)) ReleaseFailed in
  ok_or (ledger_transfer (env_ext e) l2 (d_asset d) (d_beneficiary d) sender (d_amount d) Expendable) TransferFailed.

(** pallets/payments/src/lib.rs:692-705 [try_transfer_fees] *)
Fixpoint try_transfer_fees (e : penv) (l : ledger) (from a : N) (recipients : list fee) (is_dispute : bool) : presult ledger :=
  match recipients with
  | [] => POk l
  | f :: rest =>
      if negb is_dispute || fee_mandatory f then
        let* l1 := ok_or (ledger_transfer (env_ext e) l a from (fee_to f) (fee_amount f) Preserve) TransferFailed in
        try_transfer_fees e l1 from a rest is_dispute
      else try_transfer_fees e l from a rest is_dispute
  end.

(** pallets/payments/src/lib.rs:649-685: the division of a disputed amount. *)
Definition split_dispute (e : penv) (l : ledger) (sender beneficiary : N) (d : detail) (r : dispute_result) (resolver : N)
    : presult ledger :=
  let share := percent_mul_floor (percent_beneficiary r) (d_amount d) in
  match in_favor_of r with
  | RSender =>
      let amount_to_sender := share in
      let* l1 := ok_or (ledger_transfer (env_ext e) l (d_asset d) beneficiary resolver (d_incentive d) Expendable) TransferFailed in
      ok_or (ledger_transfer (env_ext e) l1 (d_asset d) beneficiary sender amount_to_sender Expendable) TransferFailed
  | RBeneficiary =>
      let amount_to_sender := d_amount d - share in
      let* l1 := ok_or (ledger_transfer (env_ext e) l (d_asset d) sender resolver (d_incentive d) Expendable) TransferFailed in
      ok_or (ledger_transfer (env_ext e) l1 (d_asset d) beneficiary sender amount_to_sender Expendable) TransferFailed
  end.

(** pallets/payments/src/lib.rs:601-690 [settle_payment] *)
Definition settle_payment (e : penv) (st : pstate) (sender beneficiary id : N)
    (maybe_dispute : option (dispute_result * N)) : presult pstate :=
  let* d := ok_or (st_pays st !! (sender, id)) InvalidPayment in
  let is_dispute := match maybe_dispute with Some _ => true | None => false end in
  let '(fee_sender, _, _) := summary_for (d_fees d) RSender is_dispute in
  let* l1 := ok_or (ledger_release (env_ext e) (st_ledger st) (d_asset d) sender (total_hold d is_dispute)) ReleaseFailed in
  let '(fee_beneficiary, _, _) := summary_for (d_fees d) RBeneficiary is_dispute in
  let beneficiary_release := if is_dispute then sat128 (d_amount d + d_incentive d) else d_amount d in
  let* l2 := ok_or (ledger_release (env_ext e) l1 (d_asset d) beneficiary beneficiary_release) ReleaseFailed in
  let* l3 := try_transfer_fees e l2 sender (d_asset d) fee_sender is_dispute in
  let* l4 := try_transfer_fees e l3 beneficiary (d_asset d) fee_beneficiary is_dispute in
  let* l5 := match maybe_dispute with
             | None => POk l4
             | Some (r, resolver) => split_dispute e l4 sender beneficiary d r resolver
             end in
  POk (with_pay (with_ledger st l5) (sender, id) (set_state d Finished)).

(** pallets/payments/src/lib.rs:267-298 [pay] *)
Definition pay (c : pconfig) (e : penv) (st : pstate) (o : origin) (beneficiary : address) (a amount : N)
    (remark : option (list N)) : presult pstate :=
  let* sender := ok_or (cfg_sender_origin c o) BadOrigin in
  let* beneficiary := ok_or (cfg_lookup c beneficiary) LookupFailed in
  let* r := create_payment c e st sender beneficiary a amount Created remark in
  let '(st1, id, d) := r in
  let* l := reserve_payment_amount e (st_ledger st1) sender d in
  POk (with_ledger st1 l).

(** pallets/payments/src/lib.rs:304-314 [release] *)
Definition release (c : pconfig) (e : penv) (st : pstate) (o : origin) (id : N) : presult pstate :=
  let* sender := ok_or (cfg_sender_origin c o) BadOrigin in
  let* d := ok_or (st_pays st !! (sender, id)) InvalidPayment in
  let* _ := ensure (bool_decide (d_state d = Created)) InvalidAction in
  settle_payment e st sender (d_beneficiary d) id None.

(** pallets/payments/src/lib.rs:321-354 [request_refund]. Block numbers are u32 ([checked_add]). [schedule_named] fails if the name
    is taken or the block is not in the future, or for outside reasons ([env_sched_ok]). *)
Definition request_refund (c : pconfig) (e : penv) (st : pstate) (o : origin) (id : N) : presult pstate :=
  let* sender := ok_or (cfg_sender_origin c o) BadOrigin in
  let* d := ok_or (st_pays st !! (sender, id)) InvalidPayment in
  let* _ := ensure (bool_decide (d_state d = Created)) InvalidAction in
  let cancel_block := st_now st + cfg_cancel_buffer c in
  let* _ := ensure (cancel_block <=? u32_max) MathError in
  let* _ := ensure (env_sched_ok e && (st_now st <? cancel_block)
                    && match st_agenda st !! id with None => true | Some _ => false end) SchedulerError in
  let st1 := with_agenda st (<[id := (cancel_block, d_beneficiary d)]> (st_agenda st)) in
  POk (with_pay st1 (sender, id) (set_state d (RefundRequested cancel_block))).

(** pallets/payments/src/lib.rs:358-389 [accept_and_pay] *)
Definition accept_and_pay (c : pconfig) (e : penv) (st : pstate) (o : origin) (id : N) : presult pstate :=
  let* sender := ok_or (cfg_sender_origin c o) BadOrigin in
  let* parties := ok_or (st_parties st !! id) NonExistentStorageValue in
  let beneficiary := snd parties in
  let* d := ok_or (st_pays st !! (sender, id)) InvalidPayment in
  let '(fee_sender, _, _) := summary_for (d_fees d) RSender false in
  let '(fee_beneficiary, _, _) := summary_for (d_fees d) RBeneficiary false in
  let* l1 := try_transfer_fees e (st_ledger st) sender (d_asset d) fee_sender false in
  let* l2 := ok_or (ledger_transfer (env_ext e) l1 (d_asset d) sender beneficiary (d_amount d) Expendable) TransferFailed in
  let* l3 := try_transfer_fees e l2 beneficiary (d_asset d) fee_beneficiary false in
  POk (with_pay (with_ledger st l3) (sender, id) (set_state d Finished)).

(** pallets/payments/src/lib.rs:396-419 [cancel] *)
Definition cancel_call (c : pconfig) (e : penv) (st : pstate) (o : origin) (id : N) : presult pstate :=
  let* who := ok_or (cfg_beneficiary_origin c o) BadOrigin in
  let* parties := ok_or (st_parties st !! id) NonExistentStorageValue in
  let '(sender, b) := parties in
  let* _ := ensure (who =? b) InvalidBeneficiary in
  let* d := ok_or (st_pays st !! (sender, id)) InvalidPayment in
  let* l := match d_state d with
            | Created => cancel_payment e (st_ledger st) sender d
            | RefundRequested _ => cancel_payment e (st_ledger st) sender d
            | _ => PErr InvalidAction
            end in
  POk (PState l (delete (sender, id) (st_pays st)) (delete id (st_parties st)) (st_agenda st) (st_now st)).

(** pallets/payments/src/lib.rs:427-457 [dispute_refund]. [cancel_named] fails if the name is not on the agenda. *)
Definition dispute_refund (c : pconfig) (e : penv) (st : pstate) (o : origin) (id : N) : presult pstate :=
  let* who := ok_or (cfg_beneficiary_origin c o) BadOrigin in
  let* parties := ok_or (st_parties st !! id) NonExistentStorageValue in
  let '(sender, b) := parties in
  let* _ := ensure (who =? b) InvalidBeneficiary in
  let* d := ok_or (st_pays st !! (sender, id)) InvalidPayment in
  let* cancel_block := match d_state d with RefundRequested cb => POk cb | _ => PErr InvalidAction end in
  let* _ := ensure (st_now st <? cancel_block) InvalidAction in
  let* l := ok_or (ledger_hold (env_ext e) (st_ledger st) (d_asset d) who (d_incentive d)) LedgerError in
  let* _ := ensure (match st_agenda st !! id with Some _ => true | None => false end) SchedulerError in
  let st1 := with_agenda (with_ledger st l) (delete id (st_agenda st)) in
  POk (with_pay st1 (sender, id) (set_state d NeedsReview)).

(** pallets/payments/src/lib.rs:466-488 [request_payment] *)
Definition request_payment (c : pconfig) (e : penv) (st : pstate) (o : origin) (sender : address) (a amount : N)
    : presult pstate :=
  let* beneficiary := ok_or (cfg_beneficiary_origin c o) BadOrigin in
  let* sender := ok_or (cfg_lookup c sender) LookupFailed in
  let* r := create_payment c e st sender beneficiary a amount PaymentRequested None in
  let '(st1, id, d) := r in
  POk st1.

(** pallets/payments/src/lib.rs:492-508 [resolve_dispute] *)
Definition resolve_dispute (c : pconfig) (e : penv) (st : pstate) (o : origin) (id : N) (r : dispute_result)
    : presult pstate :=
  let* resolver := ok_or (cfg_resolver_origin c o) BadOrigin in
  let* parties := ok_or (st_parties st !! id) NonExistentStorageValue in
  let '(sender, beneficiary) := parties in
  let* d := ok_or (st_pays st !! (sender, id)) InvalidPayment in
  let* _ := ensure (bool_decide (d_state d = NeedsReview)) InvalidAction in
  settle_payment e st sender beneficiary id (Some (r, resolver)).

(* ------------------------------------------------------------------ *)
(** * Dispatch and histories *)

(** pallets/payments/src/lib.rs:257-509: the pallet's calls. *)
Inductive pcall :=
| CPay (beneficiary : address) (a amount : N) (remark : option (list N))
| CRelease (id : N)
| CRequestRefund (id : N)
| CAcceptAndPay (id : N)
| CCancel (id : N)
| CDisputeRefund (id : N)
| CRequestPayment (sender : address) (a amount : N)
| CResolveDispute (id : N) (r : dispute_result).

Definition dispatch (c : pconfig) (e : penv) (st : pstate) (o : origin) (call : pcall) : presult pstate :=
  match call with
  | CPay b a amount remark => pay c e st o b a amount remark
  | CRelease id => release c e st o id
  | CRequestRefund id => request_refund c e st o id
  | CAcceptAndPay id => accept_and_pay c e st o id
  | CCancel id => cancel_call c e st o id
  | CDisputeRefund id => dispute_refund c e st o id
  | CRequestPayment s a amount => request_payment c e st o s a amount
  | CResolveDispute id r => resolve_dispute c e st o id r
  end.

(** FRAME runs every call in a storage transaction: on error nothing is kept. *)
Definition exec (c : pconfig) (e : penv) (st : pstate) (o : origin) (call : pcall) : pstate :=
  match dispatch c e st o call with POk st' => st' | PErr _ => st end.

(** What can happen on the chain, as far as this pallet is concerned. *)
Inductive pstep :=
| SCall (o : origin) (call : pcall) (e : penv)   (* someone dispatches a call *)
| SFire (id : N) (e : penv)                      (* the scheduler runs the task named ("payment", id), if due *)
| SDrop (id : N)                                 (* the scheduler gives up on that task *)
| SBlock                                         (* the next block begins *)
| SOutside (f : gmap (N * N) N) (du : gmap N N). (* other pallets change free balances at will *)

Definition run_step (c : pconfig) (st : pstate) (s : pstep) : pstate :=
  match s with
  | SCall o call e => exec c e st o call
  | SFire id e =>
      match st_agenda st !! id with
      | Some (due, who) =>
          if due <=? st_now st then
            exec c e (with_agenda st (delete id (st_agenda st))) (OSigned who) (CCancel id)
          else st
      | None => st
      end
  | SDrop id => with_agenda st (delete id (st_agenda st))
  | SBlock => PState (st_ledger st) (st_pays st) (st_parties st) (st_agenda st) (st_now st + 1)
  | SOutside f du => with_ledger st (Ledger f (l_held (st_ledger st)) du)
  end.

Definition run (c : pconfig) (st : pstate) (steps : list pstep) : pstate := fold_left (run_step c) steps st.

(** Before the pallet was used: no payments, nothing held for payments. *)
Definition genesis (f : gmap (N * N) N) (now : N) : pstate := PState (Ledger f ∅ ∅) ∅ ∅ ∅ now.

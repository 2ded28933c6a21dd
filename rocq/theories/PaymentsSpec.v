(** Vocabulary for stating the payment properties. Nothing here is used by the model. *)
From Verif Require Import Base XcmTypes OriginTypes PaymentIdModel FeesModel LedgerModel PaymentsModel.
From stdpp Require Import gmap.
Open Scope N_scope.

(** Sum of a function over the entries of a finite map. *)
Definition gsum {K A} `{Countable K} (f : K -> A -> N) (m : gmap K A) : N :=
  map_fold (fun k v acc => f k v + acc) 0 m.

(** [n] if [b], else nothing. *)
Definition ind (b : bool) (n : N) : N := if b then n else 0.

(** All units of asset [a] that exist: free and held, over all accounts. *)
Definition issuance (l : ledger) (a : N) : N :=
  gsum (fun k v => ind (fst k =? a) v) (l_free l) + gsum (fun k v => ind (fst k =? a) v) (l_held l).

(** Sum of the fees of a list, and of those due to account [x]. *)
Definition fee_sum (l : list fee) : N := foldr (fun f acc => fee_amount f + acc) 0 l.
Definition fees_to (x : N) (l : list fee) : N := fee_sum (filter (fun f => fee_to f = x) l).
Definition mandatory_fees (l : list fee) : list fee := filter (fun f => fee_mandatory f = true) l.
Definition optional_fees (l : list fee) : list fee := filter (fun f => fee_mandatory f = false) l.

(** An open payment has funds in escrow. *)
Definition is_open (s : pay_state) : bool :=
  match s with Created | RefundRequested _ | NeedsReview => true | PaymentRequested | Finished => false end.

(** What a payment keeps on hold from its sender: the sender's fees and the incentive (a u128, so capped). *)
Definition sender_escrow (d : detail) : N :=
  if is_open (d_state d) then N.min u128_max (fee_sum (sender_pays (d_fees d)) + d_incentive d) else 0.

(** What a payment keeps on hold from its beneficiary: the amount, and the beneficiary's incentive while under review. *)
Definition beneficiary_escrow (d : detail) : N :=
  match d_state d with
  | Created | RefundRequested _ => d_amount d
  | NeedsReview => d_amount d + d_incentive d
  | PaymentRequested | Finished => 0
  end.

(** The part of a payment's escrow in asset [a] that lies with account [x]; [k] is (sender, id). *)
Definition escrow_of (a x : N) (k : N * N) (d : detail) : N :=
  ind (d_asset d =? a) (ind (fst k =? x) (sender_escrow d) + ind (d_beneficiary d =? x) (beneficiary_escrow d)).

(** All escrow of asset [a] lying with account [x]. *)
Definition escrow (st : pstate) (a x : N) : N := gsum (escrow_of a x) (st_pays st).

(** A state that some history leads to. *)
Definition reachable (c : pconfig) (st : pstate) : Prop :=
  exists f now steps, st = run c (genesis f now) steps.

(** The payment ids handed out by the id generator in a history. *)
Definition step_new_id (s : pstep) : list N :=
  match s with
  | SCall _ (CPay _ _ _ _) e | SCall _ (CRequestPayment _ _ _) e =>
      match env_next_id e with Some id => [id] | None => [] end
  | _ => []
  end.
Definition new_ids (steps : list pstep) : list N := concat (map step_new_id steps).

(** A state that a history reaches in which the generator never repeated an id. *)
Definition reachable_fresh (c : pconfig) (st : pstate) : Prop :=
  exists f now steps, NoDup (new_ids steps) /\ st = run c (genesis f now) steps.

(** The state of payment (s, id), if there is one. *)
Definition state_of (st : pstate) (k : N * N) : option pay_state := d_state <$> st_pays st !! k.

(** The life cycle as users are told it. *)
Inductive life_cycle : option pay_state -> option pay_state -> Prop :=
| lc_same s : life_cycle s s
| lc_request : life_cycle None (Some PaymentRequested)
| lc_pay : life_cycle None (Some Created)
| lc_pay_request : life_cycle (Some PaymentRequested) (Some Created)
| lc_accept : life_cycle (Some PaymentRequested) (Some Finished)
| lc_release : life_cycle (Some Created) (Some Finished)
| lc_refund n : life_cycle (Some Created) (Some (RefundRequested n))
| lc_cancel : life_cycle (Some Created) None
| lc_refunded n : life_cycle (Some (RefundRequested n)) None
| lc_dispute n : life_cycle (Some (RefundRequested n)) (Some NeedsReview)
| lc_resolved : life_cycle (Some NeedsReview) (Some Finished).

(** A history in which accept_and_pay is never used on a payment with funds in escrow. *)
Fixpoint no_accept_on_open (c : pconfig) (st : pstate) (steps : list pstep) : Prop :=
  match steps with
  | [] => True
  | s :: rest =>
      (forall o id e who d, s = SCall o (CAcceptAndPay id) e -> cfg_sender_origin c o = Some who ->
         st_pays st !! (who, id) = Some d -> is_open (d_state d) = false) /\
      no_accept_on_open c (run_step c st s) rest
  end.

(** A history in which the scheduler never gives up on a task. *)
Definition no_drop (steps : list pstep) : Prop := forall id, SDrop id ∉ steps.

(** The part of [amount] that [p] percent are (rounded down). *)
Definition share (p amount : N) : N := p * amount / 100.

(** The outside world refuses nothing beyond the ledger's own checks. *)
Definition permissive (e : penv) : Prop := forall l op, ext_ok (env_ext e) l op = true.

(** Calls that use expendable transfers, so that sub-minimum dust may be burnt. *)
Definition may_burn (call : pcall) : bool :=
  match call with CAcceptAndPay _ | CCancel _ | CResolveDispute _ _ => true | _ => false end.

(** The step is an accept_and_pay of payment [k] by its sender although [k] is not a payment request, and it finishes [k]. *)
Definition accept_finishes_open (c : pconfig) (st : pstate) (s : pstep) (k : N * N) : Prop :=
  exists o e d, s = SCall o (CAcceptAndPay (snd k)) e /\ cfg_sender_origin c o = Some (fst k) /\
    st_pays st !! k = Some d /\ d_state d <> PaymentRequested /\ state_of (run_step c st s) k = Some Finished.

(** The id a call takes from the generator. *)
Definition call_new_id (e : penv) (call : pcall) : list N :=
  match call with
  | CPay _ _ _ _ | CRequestPayment _ _ _ => match env_next_id e with Some id => [id] | None => [] end
  | _ => []
  end.

(** Who may change an existing record. *)
Inductive may_change (c : pconfig) (st : pstate) (s id : N) (d : detail) : pstep -> Prop :=
| mc_sender o call e : cfg_sender_origin c o = Some s ->
    call = CRelease id \/ call = CRequestRefund id \/ call = CAcceptAndPay id -> may_change c st s id d (SCall o call e)
| mc_beneficiary o call e : cfg_beneficiary_origin c o = Some (d_beneficiary d) ->
    call = CCancel id \/ call = CDisputeRefund id -> may_change c st s id d (SCall o call e)
| mc_scheduled e due : st_agenda st !! id = Some (due, d_beneficiary d) -> due <= st_now st -> may_change c st s id d (SFire id e)
| mc_resolver o r e w : cfg_resolver_origin c o = Some w -> may_change c st s id d (SCall o (CResolveDispute id r) e)
| mc_same_id o call e : d_state d = PaymentRequested -> id ∈ call_new_id e call -> may_change c st s id d (SCall o call e).

(** The payment id a call names, or is given by the generator. *)
Definition call_id (e : penv) (call : pcall) : option N :=
  match call with
  | CPay _ _ _ _ | CRequestPayment _ _ _ => env_next_id e
  | CRelease id | CRequestRefund id | CAcceptAndPay id | CCancel id | CDisputeRefund id | CResolveDispute id _ => Some id
  end.

(** No fee account appears both with a mandatory and with an optional fee. *)
Definition consistent_flags (l : list fee) : Prop :=
  forall f g, f ∈ l -> g ∈ l -> fee_to f = fee_to g -> fee_mandatory f = fee_mandatory g.

(** The parties who may act on payment [d] of sender [s], and how; in the scheduled case only after a refund request. *)
Inductive may_act (c : pconfig) (st : pstate) (s id : N) (d : detail) : pstep -> Prop :=
| ma_sender o call e : cfg_sender_origin c o = Some s ->
    call = CRelease id \/ call = CRequestRefund id \/ call = CAcceptAndPay id -> may_act c st s id d (SCall o call e)
| ma_beneficiary o call e : cfg_beneficiary_origin c o = Some (d_beneficiary d) ->
    call = CCancel id \/ call = CDisputeRefund id -> may_act c st s id d (SCall o call e)
| ma_scheduled e due : d_state d = RefundRequested due -> due <= st_now st -> may_act c st s id d (SFire id e)
| ma_resolver o r e w : cfg_resolver_origin c o = Some w -> may_act c st s id d (SCall o (CResolveDispute id r) e).

(** Signed origins act for themselves, if at all, on the beneficiary side. *)
Definition beneficiary_signs (c : pconfig) : Prop :=
  forall w, cfg_beneficiary_origin c (OSigned w) = Some w \/ cfg_beneficiary_origin c (OSigned w) = None.

(** The id Kreivo gives a payment to [ben] made in block [b] by extrinsic [i] is [id]. *)
Definition kreivo_id (b i ben id : N) : Prop :=
  exists p, kreivo_next_id b (Some i) (account_bytes ben) = Val (Some p) /\ pid_to_u64 p = id.

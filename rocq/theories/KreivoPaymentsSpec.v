(** Vocabulary for statements about payments on Kreivo. *)
From Verif Require Import Base XcmTypes OriginTypes PaymentIdModel FeesModel LedgerModel PaymentsModel PaymentsSpec AccountsModel
  KreivoPaymentsModel.
From stdpp Require Import gmap.
Open Scope N_scope.

(** A chain step tagged with the index of the extrinsic it happens in. *)
Notation tagged_step := (pstep * option N)%type (only parsing).

(** Fees come from Kreivo's fee handler, amounts and minimum balances are 128-bit. *)
Definition kreivo_env (e : penv) : Prop :=
  env_fees e = kreivo_fees (ext_min_balance (env_ext e)) /\ forall a, ext_min_balance (env_ext e) a <= u128_max.
Definition kreivo_fee_step (s : pstep) : Prop :=
  match s with
  | SCall _ call e => kreivo_env e /\
      match call with CPay _ _ amount _ | CRequestPayment _ _ amount => amount <= u128_max | _ => True end
  | SFire _ e => kreivo_env e
  | _ => True
  end.

(** A state that Kreivo reaches, whatever ids are handed out. *)
Definition kreivo_reachable (st : pstate) : Prop :=
  exists f now steps, Forall kreivo_fee_step steps /\ st = run kreivo_payments (genesis f now) steps.

(** Ids come from Kreivo's generator: (block, extrinsic index, beneficiary). *)
Definition kreivo_id_step (st : pstate) (t : tagged_step) : Prop :=
  st_now st <= u32_max /\ (forall i, t.2 = Some i -> i <= u16_max) /\
  match t.1 with
  | SCall o (CPay b _ _ _) e =>
      exists ben, (forall x, lookup_address b = Some x -> x = ben) /\ env_next_id e = kreivo_id_number (st_now st) t.2 ben
  | SCall o (CRequestPayment _ _ _) e =>
      exists ben, (forall x, ensure_signed o = Some x -> x = ben) /\ env_next_id e = kreivo_id_number (st_now st) t.2 ben
  | _ => True
  end.
Fixpoint kreivo_id_history (st : pstate) (steps : list tagged_step) : Prop :=
  match steps with
  | [] => True
  | t :: rest => kreivo_id_step st t /\ kreivo_id_history (run_step kreivo_payments st t.1) rest
  end.

(** The blocks and extrinsics in which payments or payment requests are made. *)
Fixpoint made_in (st : pstate) (steps : list tagged_step) : list (N * option N) :=
  match steps with
  | [] => []
  | t :: rest =>
      match t.1 with
      | SCall _ (CPay _ _ _ _) _ | SCall _ (CRequestPayment _ _ _) _ => [(st_now st, t.2)]
      | _ => []
      end ++ made_in (run_step kreivo_payments st t.1) rest
  end.

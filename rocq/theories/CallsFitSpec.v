(** The calls of Kreivo's own pallets with the limits on their arguments, and the weight they declare. *)
From Verif Require Import BlocksModel BlocksSpec.
From Verif Require Import Base XcmTypes OriginTypes FeesModel LedgerModel AccountsModel PaymentsModel CommunitiesModel XcmConfigModel XcmInstrModel XcmWeightsModel CostModel WritesModel.
Open Scope N_scope.

(** A call of payments, of communities, of their manager; or any of those dispatched as the account of a community. *)
Inductive own_call := OwnPayment (k : pcall) | OwnCommunity (k : ccall) | OwnRegister | OwnMemberships (n : N) | OwnAsAccount (k : own_call).

(** A remark has at most 50 bytes, no more than 1024 memberships are created at once; calls as an account are not nested. *)
Fixpoint within_limits (k : own_call) : Prop :=
  match k with
  | OwnPayment (CPay _ _ _ (Some remark)) => (length remark <= 50)%nat
  | OwnMemberships n => n <= 1024
  | OwnAsAccount (OwnAsAccount _) => False
  | OwnAsAccount k => within_limits k
  | _ => True
  end.

(** The weight they declare. *)
Fixpoint declares (k : own_call) : N * N :=
  match k with
  | OwnPayment k => benched_weight (pcall_benched k)
  | OwnCommunity k => ccall_weight k
  | OwnRegister => benched_weight register_benched
  | OwnMemberships n => benched_weight (create_memberships_benched n)
  | OwnAsAccount k => ci_weight (as_account_info (CallInfo (declares k) false))
  end.
Definition declared (k : own_call) : BlocksModel.weight := BlocksModel.W (fst (declares k)) (snd (declares k)).

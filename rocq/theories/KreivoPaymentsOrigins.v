(** Who acts in payments on Kreivo. *)
From Verif Require Import Base XcmTypes OriginTypes PaymentIdModel FeesModel LedgerModel PaymentsModel PaymentsSpec
  AccountsModel AccountsSpec KreivoPaymentsModel PaymentsMore.
From stdpp Require Import gmap.
Open Scope N_scope.

(** Calls made by the one who pays. *)
Definition payer_call (call : pcall) : bool :=
  match call with CPay _ _ _ _ | CRelease _ | CRequestRefund _ | CAcceptAndPay _ => true | _ => false end.

Lemma community_pays : forall e st c sub call, payer_call call = true ->
  dispatch kreivo_payments e st (OCommunity c sub) call = dispatch kreivo_payments e st (OSigned (community_account c)) call.
Proof. intros e st c sub call H. destruct call; try discriminate; reflexivity. Qed.

Lemma community_only_pays : forall e st c sub call, payer_call call = false -> exists er, dispatch kreivo_payments e st (OCommunity c sub) call = PErr er.
Proof. intros e st c sub call H. destruct call; try discriminate; eexists; reflexivity. Qed.

Lemma others_never : forall e st o call, (forall w, o <> OSigned w) -> (forall c sub, o <> OCommunity c sub) ->
  (o = ORoot -> forall id r, call <> CResolveDispute id r) -> exists er, dispatch kreivo_payments e st o call = PErr er.
Proof.
  intros e st o call H1 H2 H3. destruct o as [| |w|i sub|cu|l|n]; [|..]; try (by destruct (H1 w)); try (by destruct (H2 i sub));
  destruct call; try (by eexists; reflexivity). by destruct (H3 eq_refl id r).
Qed.

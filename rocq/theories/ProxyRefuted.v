(** What proxies meant not to move funds can do. *)
From Verif Require Import Base XcmTypes OriginTypes PaymentIdModel FeesModel LedgerModel PaymentsModel PaymentsSpec PaymentsTheorems
  AccountsModel KreivoPaymentsModel ProxyModel ProxySpec.
From stdpp Require Import gmap.
Open Scope N_scope.

(** Derived accounts of the examples; those of the real chain are hashes. *)
Definition ex_dv : derivation := Derivation (fun w i => 10 ^ 30 + w * 1000 + i) (fun w l => 10 ^ 40 + w).
Lemma ex_ordinary a : a < 10 ^ 30 -> ordinary ex_dv a.
Proof. intros H. split; cbn [ex_dv derivative_of multi_of]; intros; lia. Qed.

Definition px_env (id : option N) : penv := PEnv (Ext (fun _ _ => true) (fun _ _ => true) (fun _ => 2)) (kreivo_fees (fun _ => 2)) id true.
Definition px_pay : pcall := CPay (AddrId 20) 1 200 None.
Definition px_id : N := default 0 (kreivo_id_number 100 (Some 1) 20).
(** Account 10 has the single proxy 20, of type NonTransfer; 20 signs two calls. *)
Definition px_non_transfer (a : N) : list (N * proxy_type) := if a =? 10 then [(20, NonTransfer)] else [].
Definition px_before : pstate := genesis ex_free 100.
Definition px_after : pstate :=
  run kreivo_payments px_before [SCall (OSigned 10) px_pay (px_env (Some px_id)); SCall (OSigned 10) (CRelease px_id) (px_env None)].

(** NonTransfer proxies can pay out of the account: payments are not in the filter. *)
Lemma non_transfer_pays : exists px real delegate calls st st',
  ordinary ex_dv real /\ delegate <> real /\ px real = [(delegate, NonTransfer)] /\
  (forall c, c ∈ calls -> (real, RPayments c) ∈ signed_effects ex_dv px delegate (RProxy real (Some NonTransfer) (RPayments c))) /\
  (exists ids, length ids = length calls /\
     st' = run kreivo_payments st (zip_with (fun c i => SCall (OSigned real) c (px_env i)) calls ids)) /\
  free (st_ledger st) 1 real = 1000 /\ free (st_ledger st') 1 real = 798 /\ held (st_ledger st') 1 real = 0 /\
  free (st_ledger st) 1 delegate = 1000 /\ free (st_ledger st') 1 delegate = 1194.
Proof.
  exists px_non_transfer, 10, 20, [px_pay; CRelease px_id], px_before, px_after. split; [apply ex_ordinary; lia|]. split; [done|]. split; [done|]. split.
  - intros c Hc. apply elem_of_cons in Hc as [->|Hc]; [|apply elem_of_list_singleton in Hc as ->]; by left.
  - split; [exists [Some px_id; None]; split; done|]. split_and!; vm_compute; reflexivity.
Qed.

(** A NonTransfer proxy reaches the transfers of the account if a proxy of its own (of any type) is a proxy of another account that is
    an Any proxy of the first. *)
Definition px_detour (a : N) : list (N * proxy_type) := if a =? 10 then [(20, NonTransfer); (30, Any)] else if a =? 30 then [(10, Any)] else [].
Lemma non_transfer_detour : exists px real delegate other call,
  ordinary ex_dv real /\ delegate <> real /\ px real = [(delegate, NonTransfer); (other, Any)] /\ px other = [(real, Any)] /\
  (real, RBalances TransferAllowDeath) ∈ signed_effects ex_dv px delegate (RProxy real (Some NonTransfer) call).
Proof.
  exists px_detour, 10, 20, 30, (RProxy 30 None (RProxy 10 None (RBalances TransferAllowDeath))).
  split; [apply ex_ordinary; lia|]. split_and!; try done. vm_compute. left.
Qed.

(** Examples for the theorems. *)
Definition px_mixed (a : N) : list (N * proxy_type) := if a =? 10 then [(20, AssetsProxy); (30, Collator)] else [].
Example assets_proxy_works : (10, RAssets AsMint) ∈ signed_effects ex_dv px_mixed 20 (RProxy 10 None (RBatch [RAssets AsMint; RAssets AsBurn])) /\
  (10, RAssets AsMint) ∉ signed_effects ex_dv px_mixed 30 (RProxy 10 None (RBatch [RAssets AsMint; RAssets AsBurn])) /\
  (10, RCollatorSelection 3) ∈ signed_effects ex_dv px_mixed 30 (RProxy 10 None (RCollatorSelection 3)) /\ ordinary ex_dv 10.
Proof.
  split_and!; [vm_compute; left|vm_compute; intros H; by apply elem_of_nil in H|vm_compute; left|apply ex_ordinary; lia].
Qed.

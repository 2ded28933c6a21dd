(** Proxies and calls made on another account's behalf on Kreivo; the scheduler's privilege order; calls contracts may make. *)
From Verif Require Import Base XcmTypes OriginTypes PaymentsModel.
Open Scope N_scope.

(** Calls of pallet_balances, pallet_assets (dependencies), as far as told apart here. *)
Inductive balances_call := TransferAllowDeath | OtherBalancesCall (index : N).
Inductive assets_call :=
| AsCreate | AsStartDestroy | AsDestroyAccounts | AsDestroyApprovals | AsFinishDestroy | AsTransferOwnership | AsSetTeam | AsSetMetadata
| AsClearMetadata
| AsMint | AsBurn | AsFreeze | AsThaw | AsFreezeAsset | AsThawAsset
| OtherAssetsCall (index : N).

(** runtime/kreivo/src/impls.rs:51-67 [ProxyType] *)
Inductive proxy_type := Any | NonTransfer | CancelProxy | AssetsProxy | AssetOwner | AssetManager | Collator.
Global Instance proxy_type_eq_dec : EqDecision proxy_type. Proof. solve_decision. Defined.

(** The runtime's calls (runtime/kreivo/src/lib.rs:184-298), as far as told apart by the code modelled here. Calls that dispatch other
    calls carry them. [as_multi] and the other multisig calls are [OtherMultisig]; multisig with threshold 1 dispatches at once. *)
Inductive rcall :=
| RBalances (c : balances_call)
| RAssets (c : assets_call)
| RTreasury (index : N)
| RCollatorSelection (index : N)
| RPayments (c : pcall)
| ROther (pallet index : N)
| ROtherUtility (index : N)
| RBatch (l : list rcall)
| RBatchAll (l : list rcall)
| RForceBatch (l : list rcall)
| RAsDerivative (index : N) (c : rcall)
| ROtherMultisig (index : N)
| RAsMultiThreshold1 (others : list N) (c : rcall)
| RRejectAnnouncement
| RAddProxy (ty : proxy_type)
| RRemoveProxy (ty : proxy_type)
| RRemoveProxies
| RKillPure
| ROtherProxy (index : N)
| RProxy (real : N) (force : option proxy_type) (c : rcall).

Definition is_utility (c : rcall) : bool :=
  match c with ROtherUtility _ | RBatch _ | RBatchAll _ | RForceBatch _ | RAsDerivative _ _ => true | _ => false end.
Definition is_multisig (c : rcall) : bool := match c with ROtherMultisig _ | RAsMultiThreshold1 _ _ => true | _ => false end.
Definition is_proxy_pallet (c : rcall) : bool :=
  match c with RRejectAnnouncement | RAddProxy _ | RRemoveProxy _ | RRemoveProxies | RKillPure | ROtherProxy _ | RProxy _ _ _ => true | _ => false end.

(** runtime/kreivo/src/impls.rs:34-46 [RuntimeBlackListedCalls::contains] *)
Definition blacklisted_contains (c : rcall) : bool :=
  negb (match c with RBalances _ | RTreasury _ | RAssets _ => true | _ => is_utility c || is_proxy_pallet c end).

(** runtime/kreivo/src/impls.rs:76-122 [ProxyType::filter] *)
Definition proxy_filter (t : proxy_type) (c : rcall) : bool :=
  match t with
  | Any => true
  | NonTransfer => negb (match c with RBalances _ | RAssets _ => true | _ => false end)
  | CancelProxy => match c with RRejectAnnouncement => true | _ => is_utility c || is_multisig c end
  | AssetsProxy => match c with RAssets _ => true | _ => is_utility c || is_multisig c end
  | AssetOwner =>
      match c with
      | RAssets (AsCreate | AsStartDestroy | AsDestroyAccounts | AsDestroyApprovals | AsFinishDestroy | AsTransferOwnership | AsSetTeam
                 | AsSetMetadata | AsClearMetadata) => true
      | _ => is_utility c || is_multisig c
      end
  | AssetManager =>
      match c with
      | RAssets (AsMint | AsBurn | AsFreeze | AsThaw | AsFreezeAsset | AsThawAsset) => true
      | _ => is_utility c || is_multisig c
      end
  | Collator => match c with RCollatorSelection _ => true | _ => is_utility c || is_multisig c end
  end.

(** runtime/kreivo/src/impls.rs:124-135 [ProxyType::is_superset] *)
Definition is_superset (a b : proxy_type) : bool :=
  if decide (a = b) then true
  else match a, b with
       | Any, _ => true
       | _, Any => false
       | AssetsProxy, AssetOwner => true
       | AssetsProxy, AssetManager => true
       | NonTransfer, Collator => true
       | _, _ => false
       end.

(** pallet_proxy [do_proxy] (dependency): the filter put on calls made through a proxy of type [t]. *)
Definition proxied_filter (t : proxy_type) (c : rcall) : bool :=
  match c with
  | RAddProxy ty | RRemoveProxy ty => if is_superset t ty then proxy_filter t c else false
  | RRemoveProxies | RKillPure => if decide (t = Any) then proxy_filter t c else false
  | _ => proxy_filter t c
  end.

(** pallet_proxy storage (dependency): for each account its proxies with their types. (Delays and announcements are not modelled:
    entries here are those without delay or whose announcement has matured.) *)
Notation proxies := (N -> list (N * proxy_type)) (only parsing).
(** pallet_proxy [find_proxy] (dependency) *)
Definition find_proxy (px : proxies) (real delegate : N) (force : option proxy_type) : option proxy_type :=
  snd <$> find (fun d => (fst d =? delegate) && match force with Some t => bool_decide (snd d = t) | None => true end) (px real).

(** Accounts derived by pallet_utility and pallet_multisig (dependencies; hashes of their arguments). *)
Record derivation := Derivation { derivative_of : N -> N -> N; multi_of : N -> list N -> N }.

(** Dispatching a call with a signed origin of [who] that carries filter [f] (pallet_utility, pallet_multisig, pallet_proxy,
    frame_system dispatch: dependencies). The result lists the calls that reach another pallet, with the account they act as; [None] is
    an error. A call of another pallet is taken to succeed. *)
Section exec.
  Context (dv : derivation) (px : proxies).
  (** batch: up to the first error; batch_all: all or an error; force_batch: all that succeed. *)
  Definition batch_prefix (run : rcall -> option (list (N * rcall))) : list rcall -> list (N * rcall) :=
    fix go l := match l with [] => [] | c :: r => match run c with None => [] | Some x => x ++ go r end end.
  Definition batch_all (run : rcall -> option (list (N * rcall))) : list rcall -> option (list (N * rcall)) :=
    fix go l := match l with
                | [] => Some []
                | c :: r => match run c with None => None | Some x => match go r with None => None | Some y => Some (x ++ y) end end
                end.
  Definition batch_force (run : rcall -> option (list (N * rcall))) : list rcall -> list (N * rcall) :=
    fix go l := match l with [] => [] | c :: r => match run c with None => go r | Some x => x ++ go r end end.

  Fixpoint exec (f : rcall -> bool) (who : N) (c : rcall) : option (list (N * rcall)) :=
    if f c then
      match c with
      | RBatch l => Some (batch_prefix (exec f who) l)
      | RBatchAll l => batch_all (exec f who) l
      | RForceBatch l => Some (batch_force (exec f who) l)
      | RAsDerivative i c' => exec f (derivative_of dv who i) c'
      | RAsMultiThreshold1 others c' => exec (fun _ => true) (multi_of dv who others) c'
      | RProxy real force c' =>
          match find_proxy px real who force with
          | None => None
          | Some t => Some (default [] (exec (proxied_filter t) real c'))
          end
      | _ => Some [(who, c)]
      end
    else None.
End exec.

(** What account [who] brings about by the call [c] it signs (no filter: [BaseCallFilter] is [Everything]). *)
Definition signed_effects (dv : derivation) (px : proxies) (who : N) (c : rcall) : list (N * rcall) :=
  default [] (exec dv px (fun _ => true) who c).

(* ------------------------------------------------------------------ *)
(** * Scheduler *)

(** runtime/kreivo/src/impls.rs:140-151 [EqualOrGreatestRootCmp::cmp_privilege] *)
Definition cmp_privilege (l r : origin) : option comparison :=
  if decide (l = r) then Some Eq else match l with ORoot => Some Gt | _ => None end.
(** pallet_scheduler [do_cancel], [do_cancel_named] (dependency): [by_] may cancel or change a task scheduled with [owner]. *)
Definition may_cancel (by_ owner : origin) : bool :=
  match cmp_privilege by_ owner with Some Eq | Some Gt => true | _ => false end.

(* ------------------------------------------------------------------ *)
(** * Contracts *)

(** runtime/kreivo/src/contracts.rs:15-21 [AllowBalancesCall::contains] *)
Definition contract_call_allowed (c : rcall) : bool := match c with RBalances TransferAllowDeath => true | _ => false end.

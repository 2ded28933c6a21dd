(** Assets on Kreivo (runtime/kreivo/src/configuration/monetary_stuff.rs:48-100; pallet_assets and pallet_assets_freezer, dependencies, from memory). *)
From stdpp Require Import gmap.
From Verif Require Import Base RuntimeModel.
Open Scope N_scope.

(** monetary_stuff.rs:62 [ApprovalDeposit] *)
Definition approval_deposit : N := EXISTENTIAL_DEPOSIT.

(** pallet_assets [AssetStatus], [AccountStatus], [AssetDetails] (without deposit of the owner and counters), [AssetAccount] (without the reason it
    exists for: accounts opened with a deposit, [touch], are left out), [Approval]. *)
Inductive tstatus := TLive | TFrozen | TDestroying.
Inductive tclosed := TOpen | TNoOut | TNoInOut.
Record tasset := TAsset { ta_owner : N; ta_issuer : N; ta_admin : N; ta_freezer : N; ta_status : tstatus; ta_min : N; ta_supply : N }.
Record taccount := TAccount { tc_balance : N; tc_closed : tclosed }.
Record approval := Approval { ap_amount : N; ap_deposit : N }.

(** Assets; accounts by asset and holder; approvals by asset, owner and delegate; what pallet_assets_freezer keeps frozen by asset and holder; what
    accounts have free of the native token and reserved for approvals. *)
Record tst := Tst {
  t_assets : gmap N tasset;
  t_accounts : gmap (N * N) taccount;
  t_approvals : gmap (N * N * N) approval;
  t_locked : gmap (N * N) N;
  t_free : gmap N N;
  t_reserved : gmap N N
}.
Definition t_start : tst := Tst ∅ ∅ ∅ ∅ ∅ ∅.
Definition put_asset (id : N) (d : tasset) (s : tst) : tst := Tst (<[id := d]> (t_assets s)) (t_accounts s) (t_approvals s) (t_locked s) (t_free s) (t_reserved s).
Definition put_account (id a : N) (o : option taccount) (s : tst) : tst :=
  Tst (t_assets s) (partial_alter (fun _ => o) (id, a) (t_accounts s)) (t_approvals s) (t_locked s) (t_free s) (t_reserved s).
Definition put_approval (id a d : N) (o : option approval) (s : tst) : tst :=
  Tst (t_assets s) (t_accounts s) (partial_alter (fun _ => o) (id, a, d) (t_approvals s)) (t_locked s) (t_free s) (t_reserved s).
Definition put_native (free reserved : gmap N N) (s : tst) : tst := Tst (t_assets s) (t_accounts s) (t_approvals s) (t_locked s) free reserved.
Definition tamt (m : gmap N N) (a : N) : N := default 0 (m !! a).

(** [Currency::reserve] ([ok]: the existential deposit and locks permit it) and [unreserve]. *)
Definition treserve (ok : bool) (a n : N) (s : tst) : option tst :=
  if (n <=? tamt (t_free s) a) && ok then
    Some (put_native (<[a := tamt (t_free s) a - n]> (t_free s)) (<[a := tamt (t_reserved s) a + n]> (t_reserved s)) s)
  else None.
Definition tunreserve (a n : N) (s : tst) : tst :=
  let m := N.min n (tamt (t_reserved s) a) in
  put_native (<[a := tamt (t_free s) a + m]> (t_free s)) (<[a := tamt (t_reserved s) a - m]> (t_reserved s)) s.

(** functions.rs of pallet_assets: [reducible_balance], with [keep_alive] *)
Definition reducible (d : tasset) (id a : N) (keep : bool) (s : tst) : option N :=
  match ta_status d, t_accounts s !! (id, a) with
  | TLive, Some c =>
      match tc_closed c with
      | TOpen =>
          Some (N.min (match t_locked s !! (id, a) with
                       | Some f => tc_balance c - (f + ta_min d)
                       | None => if keep then tc_balance c - ta_min d else tc_balance c
                       end) (ta_supply d))
      | _ => None
      end
  | _, _ => None
  end.
(** [prep_debit]: what is taken, with the dust that would be left ([can_decrease]) *)
Definition prep_debit (d : tasset) (id a n : N) (keep best : bool) (s : tst) : option N :=
  match reducible d id a keep s, t_accounts s !! (id, a) with
  | Some r, Some c =>
      let actual := N.min r n in
      if negb best && (actual <? n) then None
      else if actual =? 0 then Some 0
      else let rest := tc_balance c - actual in if rest <? ta_min d then (if keep then None else Some (actual + rest)) else Some actual
  | _, _ => None
  end.
(** [can_increase]; [ok]: the account can come into being (an asset of its own account or references to it) *)
Definition can_increase (d : tasset) (id a n : N) (ok : bool) (s : tst) : bool :=
  match ta_status d with TDestroying => false | _ =>
    match t_accounts s !! (id, a) with
    | Some c => match tc_closed c with TNoInOut => false | _ => tc_balance c + n <=? u128_max end
    | None => (ta_min d <=? n) && ok
    end
  end.
(** [increase_balance] and [decrease_balance] on one account *)
Definition credit (id a n : N) (s : tst) : tst :=
  put_account id a (Some (match t_accounts s !! (id, a) with Some c => TAccount (tc_balance c + n) (tc_closed c) | None => TAccount n TOpen end)) s.
Definition debit (d : tasset) (id a n : N) (s : tst) : tst :=
  if n =? 0 then s else
  match t_accounts s !! (id, a) with
  | Some c => let r := tc_balance c - n in put_account id a (if r <? ta_min d then None else Some (TAccount r (tc_closed c))) s
  | None => s
  end.
Definition set_supply (d : tasset) (n : N) : tasset := TAsset (ta_owner d) (ta_issuer d) (ta_admin d) (ta_freezer d) (ta_status d) (ta_min d) n.
Definition set_status (d : tasset) (x : tstatus) : tasset := TAsset (ta_owner d) (ta_issuer d) (ta_admin d) (ta_freezer d) x (ta_min d) (ta_supply d).

(** [transfer_and_die] without [burn_dust] and [best_effort]; [need]: who must be the admin *)
Definition transfer (id from to n : N) (need : option N) (keep ok : bool) (s : tst) : option tst :=
  if n =? 0 then Some s
  else
    match t_assets s !! id with
    | Some d =>
        match prep_debit d id from n keep false s with
        | Some m =>
            if can_increase d id to m ok s && match need with Some x => x =? ta_admin d | None => true end then
              if from =? to then Some s else Some (debit d id from m (credit id to m s))
            else None
        | None => None
        end
    | None => None
    end.

(** The calls of pallet_assets, without metadata, [create] (nobody's on Kreivo), [touch] and [refund], and without [transfer_all]. The lists of the
    calls that destroy are what they get to, at most [RemoveItemsLimit]. *)
Inductive tcall :=
| KTransfer (id to n : N) (keep : bool)
| KForceTransfer (id from to n : N)
| KMint (id to n : N)
| KBurn (id from n : N)
| KApprove (id delegate n : N)
| KTransferApproved (id owner to n : N)
| KCancelApproval (id delegate : N)
| KForceCancelApproval (id owner delegate : N)
| KTransferOwnership (id new_owner : N)
| KSetTeam (id issuer admin freezer : N)
| KFreeze (id who : N)
| KThaw (id who : N)
| KBlock (id who : N)
| KFreezeAsset (id : N)
| KThawAsset (id : N)
| KForceCreate (id owner min : N)
| KForceStatus (id owner issuer admin freezer min : N) (frozen : bool)
| KStartDestroy (id : N)
| KDestroyAccounts (id : N) (l : list N)
| KDestroyApprovals (id : N) (l : list (N * N))
| KFinishDestroy (id : N).

(** [do_cancel_approval] *)
Definition cancel (id owner delegate : N) (s : tst) : option tst :=
  match t_approvals s !! (id, owner, delegate) with
  | Some p => Some (put_approval id owner delegate None (tunreserve owner (ap_deposit p) s))
  | None => None
  end.
(** [do_approve_transfer] *)
Definition approve (id owner delegate n : N) (ok : bool) (s : tst) : option tst :=
  let p := default (Approval 0 0) (t_approvals s !! (id, owner, delegate)) in
  let put s' := put_approval id owner delegate (Some (Approval (N.min (ap_amount p + n) u128_max) (N.max (ap_deposit p) approval_deposit))) s' in
  if ap_deposit p <? approval_deposit then
    match treserve ok owner (approval_deposit - ap_deposit p) s with Some s' => Some (put s') | None => None end
  else Some (put s).
(** [do_transfer_approved] *)
Definition transfer_approved (id owner delegate to n : N) (ok : bool) (s : tst) : option tst :=
  match t_approvals s !! (id, owner, delegate) with
  | Some p =>
      if n <=? ap_amount p then
        match transfer id owner to n None false ok s with
        | Some s' =>
            if ap_amount p - n =? 0 then Some (put_approval id owner delegate None (tunreserve owner (ap_deposit p) s'))
            else Some (put_approval id owner delegate (Some (Approval (ap_amount p - n) (ap_deposit p))) s')
        | None => None
        end
      else None
  | None => None
  end.
(** The status of one account of an asset *)
Definition close (id a : N) (x : tclosed) (s : tst) : option tst :=
  match t_accounts s !! (id, a) with Some c => Some (put_account id a (Some (TAccount (tc_balance c) x)) s) | None => None end.
Definition is_live (d : tasset) : bool := match ta_status d with TLive => true | _ => false end.
Definition is_destroying (d : tasset) : bool := match ta_status d with TDestroying => true | _ => false end.
(** Signed by [b]. *)
Definition by_ (o : option N) (b : N) : bool := match o with Some a => a =? b | None => false end.
Definition if_ (b : bool) (r : option tst) : option tst := if b then r else None.
(** [do_destroy_approvals] *)
Definition destroy_approval (id : N) (s : tst) (k : N * N) : tst := default s (cancel id (fst k) (snd k) s).

(** A call, signed by [Some a] or of root ([None]); [ok] is the oracle above. *)
Definition tcall_run (ok : bool) (o : option N) (k : tcall) (s : tst) : option tst :=
  let on id (f : tasset -> option tst) := match t_assets s !! id with Some d => f d | None => None end in
  match k, o with
  | KTransfer id to n keep, Some a => transfer id a to n None keep ok s
  | KForceTransfer id from to n, Some a => transfer id from to n (Some a) false ok s
  | KMint id to n, Some a => on id (fun d =>
      if_ (is_live d) (if n =? 0 then Some s
      else if_ ((a =? ta_issuer d) && can_increase d id to n ok s && (ta_supply d + n <=? u128_max))
             (Some (credit id to n (put_asset id (set_supply d (ta_supply d + n)) s)))))
  | KBurn id from n, Some a => on id (fun d =>
      if_ (is_live d) (if n =? 0 then Some s
      else match prep_debit d id from n false true s with
           | Some m => if_ (a =? ta_admin d) (Some (debit d id from m (put_asset id (set_supply d (ta_supply d - m)) s)))
           | None => None
           end))
  | KApprove id delegate n, Some a => on id (fun d => if_ (is_live d) (approve id a delegate n ok s))
  | KTransferApproved id owner to n, Some a => on id (fun d => if_ (is_live d) (transfer_approved id owner a to n ok s))
  | KCancelApproval id delegate, Some a => on id (fun d => if_ (is_live d) (cancel id a delegate s))
  | KForceCancelApproval id owner delegate, _ => on id (fun d =>
      if_ (is_live d && match o with Some a => a =? ta_admin d | None => true end) (cancel id owner delegate s))
  | KTransferOwnership id b, Some a => on id (fun d =>
      if_ (is_live d && (a =? ta_owner d)) (Some (put_asset id (TAsset b (ta_issuer d) (ta_admin d) (ta_freezer d) (ta_status d) (ta_min d) (ta_supply d)) s)))
  | KSetTeam id i m f, Some a => on id (fun d =>
      if_ (is_live d && (a =? ta_owner d)) (Some (put_asset id (TAsset (ta_owner d) i m f (ta_status d) (ta_min d) (ta_supply d)) s)))
  | KFreeze id b, Some a => on id (fun d => if_ (negb (is_destroying d) && (a =? ta_freezer d)) (close id b TNoOut s))
  | KThaw id b, Some a => on id (fun d => if_ (negb (is_destroying d) && (a =? ta_admin d)) (close id b TOpen s))
  | KBlock id b, Some a => on id (fun d => if_ (negb (is_destroying d) && (a =? ta_freezer d)) (close id b TNoInOut s))
  | KFreezeAsset id, Some a => on id (fun d => if_ (is_live d && (a =? ta_freezer d)) (Some (put_asset id (set_status d TFrozen) s)))
  | KThawAsset id, Some a => on id (fun d =>
      if_ (negb (is_live d) && negb (is_destroying d) && (a =? ta_admin d)) (Some (put_asset id (set_status d TLive) s)))
  | KForceCreate id b min, None =>
      match t_assets s !! id with None => if_ (0 <? min) (Some (put_asset id (TAsset b b b b TLive min 0) s)) | Some _ => None end
  | KForceStatus id b i m f min frozen, None => on id (fun d =>
      if_ (negb (is_destroying d)) (Some (put_asset id (TAsset b i m f (if frozen then TFrozen else TLive) min (ta_supply d)) s)))
  | KStartDestroy id, _ => on id (fun d => if_ (match o with Some a => a =? ta_owner d | None => true end) (Some (put_asset id (set_status d TDestroying) s)))
  | KDestroyAccounts id l, Some _ => on id (fun d => if_ (is_destroying d) (Some (fold_left (fun s' a => put_account id a None s') l s)))
  | KDestroyApprovals id l, Some _ => on id (fun d => if_ (is_destroying d) (Some (fold_left (destroy_approval id) l s)))
  | KFinishDestroy id, Some _ => on id (fun d =>
      if_ (is_destroying d && bool_decide (map_Forall (fun (k : N * N) _ => k.1 <> id) (t_accounts s)) && bool_decide (map_Forall (fun (k : N * N * N) _ => k.1.1 <> id) (t_approvals s)))
        (Some (Tst (delete id (t_assets s)) (t_accounts s) (t_approvals s) (t_locked s) (t_free s) (t_reserved s))))
  | _, _ => None
  end.

(** What happens: calls; other pallets give tokens of an asset, take them, and keep them frozen; accounts get and spend the native token. *)
Inductive tstep :=
| TCall (ok : bool) (o : option N) (k : tcall)
| TGive (id a n : N)
| TTake (id a n : N)
| TLock (id a n : N)
| TMoney (a n : N)
| TSpend (a n : N).
Definition tstep_try (s : tst) (x : tstep) : option tst :=
  match x with
  | TCall ok o k => tcall_run ok o k s
  | TGive id a n =>
      match t_assets s !! id with
      | Some d => if_ ((0 <? n) && can_increase d id a n true s) (Some (credit id a n (put_asset id (set_supply d (ta_supply d + n)) s)))
      | None => None
      end
  | TTake id a n =>
      match t_assets s !! id with
      | Some d => match prep_debit d id a n false false s with
                  | Some m => Some (debit d id a m (put_asset id (set_supply d (ta_supply d - m)) s))
                  | None => None
                  end
      | None => None
      end
  | TLock id a n => Some (Tst (t_assets s) (t_accounts s) (t_approvals s) (if n =? 0 then delete (id, a) (t_locked s) else <[(id, a) := n]> (t_locked s)) (t_free s) (t_reserved s))
  | TMoney a n => Some (put_native (<[a := tamt (t_free s) a + n]> (t_free s)) (t_reserved s) s)
  | TSpend a n => if_ (n <=? tamt (t_free s) a) (Some (put_native (<[a := tamt (t_free s) a - n]> (t_free s)) (t_reserved s) s))
  end.
Definition tstep_run (s : tst) (x : tstep) : tst := default s (tstep_try s x).
Definition trun (s : tst) (l : list tstep) : tst := fold_left tstep_run l s.

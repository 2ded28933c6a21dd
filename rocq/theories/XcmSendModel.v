(** Messages sent to other chains: pallet_xcm (dependency, stable2409) as configured by runtime/kreivo/src/xcm_config.rs:275-320, on top of the
    executor of XcmExecModel.v. Only fungible assets are modelled. *)
From Verif Require Import Base XcmTypes AssetLocationModel OriginTypes AccountsModel XcmConfigModel XcmCountable XcmExecModel.
From stdpp Require Import gmap.
Open Scope N_scope.

(* ------------------------------------------------------------------ *)
(** * Locations as other chains see them *)

(** xcm v4 [Junctions::invert_target] (dependency): how [target] addresses a chain at [context]. *)
Definition last_junctions (context : list junction) (n : nat) : list junction :=
  replicate (n - length context) OnlyChild ++ drop (length context - n) context.
Definition invert_target (context : list junction) (target : location) : location :=
  Location (N.of_nat (length (loc_interior target))) (last_junctions context (N.to_nat (loc_parents target))).
(** xcm v4 [Location::prepend_with] (dependency; the limits of 8 junctions and 255 parents are not modelled) *)
Definition prepend_with (l prefix : location) : location :=
  let p := N.to_nat (loc_parents l) in
  let inside := loc_interior prefix in
  Location (loc_parents prefix + N.of_nat (p - length inside)) (take (length inside - p) inside ++ loc_interior l).
(** xcm v4 [Location::simplify] (dependency) *)
Fixpoint simplify_in (fuel : nat) (context : list junction) (parents : nat) (inside : list junction) : nat * list junction :=
  match fuel, parents, inside with
  | S f, S p, i :: r =>
      if bool_decide (context !! (length context - parents)%nat = Some i) then simplify_in f context p r else (parents, inside)
  | _, _, _ => (parents, inside)
  end.
Definition simplify (l : location) (context : list junction) : location :=
  let p := N.to_nat (loc_parents l) in
  if (length context <? p)%nat then l
  else let '(p', inside) := simplify_in p context p (loc_interior l) in Location (N.of_nat p') inside.
(** xcm v4 [Location::reanchor] (dependency) *)
Definition reanchor (l target : location) (context : list junction) : location :=
  simplify (prepend_with l (invert_target context target)) (loc_interior target).

(** xcm v4 [Location::chain_location] (dependency) *)
Definition is_chain_junction (j : junction) : bool := match j with Parachain _ | GlobalConsensus _ => true | _ => false end.
Fixpoint drop_inner (rev_inside : list junction) : list junction :=
  match rev_inside with [] => [] | j :: r => if is_chain_junction j then j :: r else drop_inner r end.
Definition chain_location (l : location) : location := Location (loc_parents l) (rev (drop_inner (rev (loc_interior l)))).

(* ------------------------------------------------------------------ *)
(** * Messages and where they go *)

(** Instructions of messages sent; [RCustom] stands for a program of the sender's choice. *)
Inductive rinstr :=
| RWithdraw (l : list xasset)
| RReserveDeposited (l : list xasset)
| RClearOrigin
| RDescendOrigin (js : list junction)
| RBuy (fee : xasset) (limit : option weight)
| RDeposit (most : nat) (beneficiary : location)
| RDepositReserve (most : nat) (dest : location) (p : list rinstr)
| RCustom (program : N).

(** This chain and the messages it has sent. *)
Record net := Net { n_chain : chain; n_out : list (location * list rinstr) }.

(** runtime/kreivo/src/xcm_config.rs:277-282 [XcmRouter]: the relay chain, and siblings to which there is a channel ([open]). Neither router has
    a price (the second parameter (); runtime/kreivo/src/lib.rs:593-604 is used by benchmarks only). *)
Definition reachable (open : N -> bool) (dest : location) : bool :=
  match dest with
  | Location 1 [] => true
  | Location 1 [Parachain n] => open n
  | _ => false
  end.
(** The executor's outside world when messages go to [target]: no delivery fees. *)
Definition sending (e : xenv) (open : N -> bool) (target : location) : xenv :=
  XEnv (xe_withdraw_ok e) (xe_dust e) (xe_deposit_ok e) (xe_base e) (xe_asset e) (fun _ => []) (fun _ => reachable open target)
    (xe_check_account e) (xe_checked e) (xe_call_ok e) (xe_call_weight e) (xe_call_used e) (xe_other_ok e).

(* ------------------------------------------------------------------ *)
(** * Ways to transfer *)

(** xcm_executor [TransferType] (dependency) *)
Inductive transfer_type := Teleport | LocalReserve | DestinationReserve | RemoteReserve (r : location).
Global Instance transfer_type_eq_dec : EqDecision transfer_type. Proof. solve_decision. Defined.

(** xcm_executor [XcmAssetTransfers::determine_for] (dependency) with [IsTeleporter] () and [IsReserve] [Reserves]
    (runtime/kreivo/src/xcm_config.rs:222-226,236-238) *)
Definition determine_for (k dest : location) : option transfer_type :=
  if is_reserve k dest then Some DestinationReserve
  else if bool_decide (chain_location k = Location 0 []) then Some LocalReserve
  else if is_reserve k (chain_location k) then Some (RemoteReserve (chain_location k))
  else None.

(** pallet_xcm [find_fee_and_assets_transfer_types] (dependency): (type for fees, type for the others); the others must agree. *)
Fixpoint types_agree (t : transfer_type) (l : list xasset) (dest : location) : bool :=
  match l with
  | [] => true
  | a :: r => bool_decide (determine_for (fst a) dest = Some t) && types_agree t r dest
  end.
Definition find_types (assets : list xasset) (item : nat) (dest : location) : option (transfer_type * transfer_type) :=
  if forallb (fun a => negb (snd a =? 0)) assets && forallb (fun a => bool_decide (is_Some (determine_for (fst a) dest))) assets then
    match assets !! item with
    | Some fee =>
        match determine_for (fst fee) dest, delete item assets with
        | Some f, [] => Some (f, f)
        | Some f, a :: r =>
            match determine_for (fst a) dest with
            | Some t => if types_agree t r dest then Some (f, t) else None
            | None => None
            end
        | None, _ => None
        end
    | None => None
    end
  else None.

(** Seen from [target], by a chain that calls itself parachain [para] (runtime/kreivo/src/xcm_config.rs:44-48) *)
Definition seen (para : N) (target : location) (a : xasset) : xasset := (reanchor (fst a) target (universal_location para), snd a).
Definition seen_all (para : N) (target : location) (l : list xasset) : list xasset := map (seen para target) l.

(** pallet_xcm [FeesHandling] (dependency): fees are part of the assets, or have programs of their own. *)
Inductive fees_handling := Batched (fee : xasset) | Separate (local : list xinstr) (remote : list rinstr).
(** pallet_xcm: the last step on the destination, a plain deposit or a program given by the caller *)
Inductive receiver := Beneficiary (l : location) | Program (p : N).
Definition final_step (r : receiver) (most : nat) : list rinstr := match r with Beneficiary l => [RDeposit most l] | Program p => [RCustom p] end.
Definition most_assets (assets : list xasset) (f : fees_handling) : nat := (length assets + match f with Batched _ => 0 | Separate _ _ => 1 end)%nat.

(** pallet_xcm [add_fees_to_xcm] (dependency) *)
Definition add_fees (para : N) (dest : location) (limit : option weight) (f : fees_handling) (local : list xinstr) (remote : list rinstr)
    : list xinstr * list rinstr :=
  match f with
  | Batched fee => (local, remote ++ [RBuy (seen para dest fee) limit])
  | Separate lf rf => (lf ++ local, rf ++ remote)
  end.

(** pallet_xcm [local_reserve_transfer_programs], [destination_reserve_transfer_programs] (dependency); [XcmReserveTransferFilter] is Everything
    (runtime/kreivo/src/xcm_config.rs:292) *)
Definition local_reserve_programs (para : N) (dest : location) (r : receiver) (assets : list xasset) (f : fees_handling) (limit : option weight)
    : list xinstr * list rinstr :=
  let '(local, remote) := add_fees para dest limit f [XTransfer assets dest] [RReserveDeposited (seen_all para dest assets); RClearOrigin] in
  (local, remote ++ final_step r (most_assets assets f)).
Definition destination_reserve_programs (para : N) (dest : location) (r : receiver) (assets : list xasset) (f : fees_handling) (limit : option weight)
    : option (list xinstr * list rinstr) :=
  if forallb (fun a => is_reserve (fst a) dest) assets then
    let '(local, remote) := add_fees para dest limit f [XWithdraw assets; XBurn assets] [RWithdraw (seen_all para dest assets); RClearOrigin] in
    Some (local, remote ++ final_step r (most_assets assets f))
  else None.
(** pallet_xcm [halve_fees] (dependency) *)
Definition halve (fee : xasset) : option (xasset * xasset) :=
  let half := snd fee / 2 in
  if half =? 0 then None else Some ((fst fee, half), (fst fee, snd fee - half)).
(** pallet_xcm [remote_reserve_transfer_program] (dependency): the local program and what it sends to the reserve. The executor puts
    [WithdrawAsset] (what was taken from holding, which is all of it) and [ClearOrigin] in front ([InitiateReserveWithdraw]). *)
Definition remote_reserve_program (para : N) (reserve dest : location) (r : receiver) (assets : list xasset) (fee : xasset) (limit : option weight)
    : option (list xinstr * list rinstr) :=
  match halve fee with
  | Some (f1, f2) =>
      let most := length assets in
      let on_dest := RBuy (seen para dest f2) limit :: final_step r most in
      let on_reserve := [RBuy (seen para reserve f1) limit; RDepositReserve most (reanchor dest reserve (universal_location para)) on_dest] in
      Some ([XWithdraw assets; XSetFeesMode true; XInitiateReserveWithdraw (FAllCounted most)],
            RWithdraw (seen_all para reserve assets) :: RClearOrigin :: on_reserve)
  | None => None
  end.

(** pallet_xcm [build_xcm_transfer_type] (dependency): local program, target of the message, message. Teleports are filtered
    ([XcmTeleportFilter] is Nothing: runtime/kreivo/src/xcm_config.rs:291). *)
Definition build (para : N) (dest : location) (r : receiver) (assets : list xasset) (t : transfer_type) (f : fees_handling) (limit : option weight)
    : option (list xinstr * (location * list rinstr)) :=
  match t, f with
  | Teleport, _ => None
  | LocalReserve, _ => let '(local, remote) := local_reserve_programs para dest r assets f limit in Some (local, (dest, remote))
  | DestinationReserve, _ => (fun q => (fst q, (dest, snd q))) <$> destination_reserve_programs para dest r assets f limit
  | RemoteReserve reserve, Batched fee => (fun q => (fst q, (reserve, snd q))) <$> remote_reserve_program para reserve dest r assets fee limit
  | RemoteReserve _, Separate _ _ => None
  end.
(** pallet_xcm [local_reserve_fees_instructions], [destination_reserve_fees_instructions], [teleport_fees_instructions] (dependency) *)
Definition fees_programs (para : N) (dest : location) (fee : xasset) (t : transfer_type) (limit : option weight) : option fees_handling :=
  match t with
  | LocalReserve => Some (Separate [XTransfer [fee] dest] [RReserveDeposited [seen para dest fee]; RBuy (seen para dest fee) limit])
  | DestinationReserve =>
      if is_reserve (fst fee) dest
      then Some (Separate [XWithdraw [fee]; XBurn [fee]] [RWithdraw [seen para dest fee]; RBuy (seen para dest fee) limit])
      else None
  | Teleport | RemoteReserve _ => None
  end.
(** pallet_xcm [do_transfer_assets] (dependency) *)
Definition transfer_programs (para : N) (dest : location) (r : receiver) (assets : list xasset) (item : nat) (ft t : transfer_type) (limit : option weight)
    : option (list xinstr * (location * list rinstr)) :=
  match assets !! item with
  | None => None
  | Some fee =>
      if bool_decide (ft = t) then build para dest r assets t (Batched fee) limit
      else if match t with RemoteReserve _ => true | _ => false end then None
      else match fees_programs para dest fee ft limit with
           | Some f => build para dest r (delete item assets) t f limit
           | None => None
           end
  end.

(* ------------------------------------------------------------------ *)
(** * Calls *)

(** xcm_executor [execute] (dependency) of a program that must run to its end without error, pallet_xcm [execute_xcm_transfer]
    ([ensure_complete]). Weight is paid for as for any call, so that the barrier lets it through. *)
Fixpoint exec_all (e : xenv) (p : list xinstr) (m : machine) : xres machine :=
  match p with [] => XOk m | i :: r => run m' <- exec_instr e m i; exec_all e r m' end.
Definition run_local (e : xenv) (o : location) (p : list xinstr) (ch : chain) : xres chain :=
  run _ <- xsome (weigh p);
  run m <- exec_all e p (start ch o []);
  XOk (post_process e o m).

(** pallet_xcm [execute_xcm_transfer] (dependency): the local program, then the message (sent by the program itself if it goes to a reserve
    that is neither here nor the destination). *)
Definition execute_transfer (e : xenv) (open : N -> bool) (w : net) (o : location) (q : list xinstr * (location * list rinstr)) : xres net :=
  run ch <- run_local (sending e open (fst (snd q))) o (fst q) (n_chain w);
  run _ <- xensure (reachable open (fst (snd q)));
  XOk (Net ch (n_out w ++ [snd q])).

(** The calls of pallet_xcm (dependency) anyone can make. *)
Inductive xcall :=
| CSend (dest : location) (message : N)
| CTeleport (dest beneficiary : location) (assets : list xasset)
| CReserveTransfer (dest beneficiary : location) (assets : list xasset) (item : nat) (limit : option weight)
| CTransfer (dest beneficiary : location) (assets : list xasset) (item : nat) (limit : option weight)
| CTransferUsing (dest : location) (assets : list xasset) (t : transfer_type) (fees : location) (ft : transfer_type) (program : N) (limit : option weight)
| CExecute (p : list xinstr)
| CClaim (assets : list xasset) (beneficiary : location).

(** xcm v4 [Assets] (dependency) decode only if sorted and without duplicates, at most 20 of them; amounts are u128. *)
Definition assets_decode (l : list xasset) : bool :=
  bool_decide (NoDup (map fst l)) && (length l <=? 20)%nat && forallb (fun a => snd a <=? u128_max) l.
(** pallet_xcm [MAX_ASSETS_FOR_TRANSFER] (dependency) *)
Definition transferable (l : list xasset) : bool := assets_decode l && (length l <=? 2)%nat.
Fixpoint position (k : location) (l : list xasset) : option nat :=
  match l with [] => None | a :: r => if bool_decide (fst a = k) then Some O else S <$> position k r end.

(** pallet_xcm [send], [limited_teleport_assets], [limited_reserve_transfer_assets], [transfer_assets], [transfer_assets_using_type_and_then],
    [execute], [claim_assets] (dependency) with the origins of runtime/kreivo/src/xcm_config.rs:285-286 and the filters of :288,291-292
    (the calls without "limited" are the same with no limit). A failed call changes nothing. *)
Definition xcall_run (e : xenv) (open : N -> bool) (para : N) (w : net) (o : origin) (c : xcall) : xres net :=
  match c with
  | CSend dest message =>
      run l <- xsome (can_send_xcm o);
      run _ <- xensure (bool_decide (loc_parents l = 0));
      run _ <- xensure (reachable open dest);
      XOk (Net (n_chain w) (n_out w ++ [(dest, (if bool_decide (loc_interior l = []) then [] else [RDescendOrigin (loc_interior l)]) ++ [RCustom message])]))
  | CTeleport _ _ _ => XErr
  | CReserveTransfer dest beneficiary assets item limit =>
      run l <- xsome (can_execute_xcm o);
      run _ <- xensure (transferable assets);
      run ts <- xsome (find_types assets item dest);
      run _ <- xensure (bool_decide (fst ts = snd ts));
      run q <- xsome (transfer_programs para dest (Beneficiary beneficiary) assets item (fst ts) (snd ts) limit);
      execute_transfer e open w l q
  | CTransfer dest beneficiary assets item limit =>
      run l <- xsome (can_execute_xcm o);
      run _ <- xensure (transferable assets);
      run ts <- xsome (find_types assets item dest);
      run q <- xsome (transfer_programs para dest (Beneficiary beneficiary) assets item (fst ts) (snd ts) limit);
      execute_transfer e open w l q
  | CTransferUsing dest assets t fees ft program limit =>
      run l <- xsome (can_execute_xcm o);
      run _ <- xensure (transferable assets);
      run item <- xsome (position fees assets);
      run q <- xsome (transfer_programs para dest (Program program) assets item ft t limit);
      execute_transfer e open w l q
  | CExecute _ => XErr
  | CClaim assets beneficiary =>
      run l <- xsome (can_execute_xcm o);
      run _ <- xensure (assets_decode assets);
      run ch <- run_local e l [XClaim assets; XDeposit (FAllCounted (length assets)) beneficiary] (n_chain w);
      XOk (Net ch (n_out w))
  end.

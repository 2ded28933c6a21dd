(** Messages from other chains at work: xcm_executor (dependency, stable2409) as configured by runtime/kreivo/src/xcm_config.rs:228-260.
    Only fungible assets are modelled; no transactor handles others. *)
From Verif Require Import Base XcmTypes AssetLocationModel OriginTypes AccountsModel XcmConfigModel XcmCountable.
From Verif Require Export XcmInstrModel XcmWeightsModel XcmTraderModel.
From stdpp Require Import gmap.
Open Scope N_scope.

(* ------------------------------------------------------------------ *)
(** * Tokens and balances *)

(** A token of this chain: the native one (kept by pallet_balances) or an asset (kept by pallet_assets). *)
Notation token := (option asset_id) (only parsing).

(** runtime/kreivo/src/xcm_config.rs:78-110,169 [FungiblesTransactor], [FungibleTransactor], [AssetTransactors]: the token an asset
    location stands for; the native one is matched first ([IsConcrete<RelayLocation>]), then [AsFungibleAssetLocation]. *)
Definition token_of (l : location) : outcome (option token) :=
  if bool_decide (l = relay_location) then Val (Some None)
  else match convert l with
       | Val (Some id) => Val (Some (Some id))
       | Val None => Val None
       | Fail => Fail
       | Panic => Panic
       end.

(** The parts of the chain's state messages change: what accounts can spend, assets left behind by messages (pallet_xcm's [AssetTraps],
    a dependency, which keeps a hash of each entry), the calls dispatched so far with their origins, and the number of messages sent so far. *)
Record chain := Chain {
  ch_bal : gmap (token * N) N;
  ch_traps : list (location * holding);
  ch_calls : list (remote_origin * N);
  ch_sent : N
}.
Definition bal (ch : chain) (t : token) (a : N) : N := default 0 (ch_bal ch !! (t, a)).
Definition set_bal (ch : chain) (t : token) (a v : N) : chain := Chain (<[(t, a) := v]> (ch_bal ch)) (ch_traps ch) (ch_calls ch) (ch_sent ch).

(** A message being executed: origin, holding, fees paid so far, programs, what the two programs in waiting weigh, the weight that turned out
    not to be needed so far and the part of it already refunded. *)
Record machine := Machine {
  m_chain : chain;
  m_origin : option location;
  m_hold : holding;
  m_trader : trader;
  m_jit : bool;
  m_prog : list xinstr;
  m_handler : list xinstr;
  m_appendix : list xinstr;
  m_hweight : weight;
  m_aweight : weight;
  m_surplus : weight;
  m_refunded : weight
}.
Definition xset_chain x m := Machine x (m_origin m) (m_hold m) (m_trader m) (m_jit m) (m_prog m) (m_handler m) (m_appendix m) (m_hweight m) (m_aweight m) (m_surplus m) (m_refunded m).
Definition xset_origin x m := Machine (m_chain m) x (m_hold m) (m_trader m) (m_jit m) (m_prog m) (m_handler m) (m_appendix m) (m_hweight m) (m_aweight m) (m_surplus m) (m_refunded m).
Definition xset_hold x m := Machine (m_chain m) (m_origin m) x (m_trader m) (m_jit m) (m_prog m) (m_handler m) (m_appendix m) (m_hweight m) (m_aweight m) (m_surplus m) (m_refunded m).
Definition xset_trader x m := Machine (m_chain m) (m_origin m) (m_hold m) x (m_jit m) (m_prog m) (m_handler m) (m_appendix m) (m_hweight m) (m_aweight m) (m_surplus m) (m_refunded m).
Definition xset_jit x m := Machine (m_chain m) (m_origin m) (m_hold m) (m_trader m) x (m_prog m) (m_handler m) (m_appendix m) (m_hweight m) (m_aweight m) (m_surplus m) (m_refunded m).
Definition xset_prog x m := Machine (m_chain m) (m_origin m) (m_hold m) (m_trader m) (m_jit m) x (m_handler m) (m_appendix m) (m_hweight m) (m_aweight m) (m_surplus m) (m_refunded m).
Definition xset_handler x m := Machine (m_chain m) (m_origin m) (m_hold m) (m_trader m) (m_jit m) (m_prog m) x (m_appendix m) (m_hweight m) (m_aweight m) (m_surplus m) (m_refunded m).
Definition xset_appendix x m := Machine (m_chain m) (m_origin m) (m_hold m) (m_trader m) (m_jit m) (m_prog m) (m_handler m) x (m_hweight m) (m_aweight m) (m_surplus m) (m_refunded m).
Definition xset_hweight x m := Machine (m_chain m) (m_origin m) (m_hold m) (m_trader m) (m_jit m) (m_prog m) (m_handler m) (m_appendix m) x (m_aweight m) (m_surplus m) (m_refunded m).
Definition xset_aweight x m := Machine (m_chain m) (m_origin m) (m_hold m) (m_trader m) (m_jit m) (m_prog m) (m_handler m) (m_appendix m) (m_hweight m) x (m_surplus m) (m_refunded m).
Definition xset_surplus x m := Machine (m_chain m) (m_origin m) (m_hold m) (m_trader m) (m_jit m) (m_prog m) (m_handler m) (m_appendix m) (m_hweight m) (m_aweight m) x (m_refunded m).
Definition xset_refunded x m := Machine (m_chain m) (m_origin m) (m_hold m) (m_trader m) (m_jit m) (m_prog m) (m_handler m) (m_appendix m) (m_hweight m) (m_aweight m) (m_surplus m) x.

(** What the outside world decides: whether a withdrawal or deposit is refused beyond the checks below (frozen, existential deposit, ...)
    and whether a remainder is burnt as dust; the reference time of an empty transaction, which fees are measured by; for each asset
    whether it is sufficient and its minimum balance, which do not change while a message runs; delivery fees and whether sending works;
    whether tokens sent away by teleport are put into the checking account; whether a call is refused, the weight it declares and the
    weight it uses; whether an instruction without effects fails. *)
Record xenv := XEnv {
  xe_withdraw_ok : chain -> token -> N -> N -> bool;
  xe_dust : chain -> token -> N -> bool;
  xe_deposit_ok : chain -> token -> N -> N -> bool;
  xe_base : N;
  xe_asset : asset_id -> option (bool * N);
  xe_delivery : machine -> list xasset;
  xe_send_ok : machine -> bool;
  xe_check_account : N;
  xe_checked : chain -> token -> bool;
  xe_call_ok : machine -> N -> bool;
  xe_call_weight : N -> weight;
  xe_call_used : machine -> N -> weight;
  xe_other_ok : machine -> other_kind -> bool
}.

Inductive xres (A : Type) := XOk (a : A) | XErr | XPanic.
Arguments XOk {A} _.
Arguments XErr {A}.
Arguments XPanic {A}.
Definition xbind {A B} (x : xres A) (f : A -> xres B) : xres B := match x with XOk a => f a | XErr => XErr | XPanic => XPanic end.
Notation "'run' x <- a ; b" := (xbind a (fun x => b)) (at level 200, x name, right associativity).
Definition xensure (b : bool) : xres unit := if b then XOk tt else XErr.
Definition xsome {A} (x : option A) : xres A := match x with Some a => XOk a | None => XErr end.
Definition xtoken (l : location) : xres token :=
  match token_of l with Val (Some t) => XOk t | Panic => XPanic | _ => XErr end.

(* ------------------------------------------------------------------ *)
(** * Moving assets *)

Section assets.
  Context (e : xenv).

  (** xcm_builder [FungibleAdapter], [FungiblesAdapter] [withdraw_asset], [deposit_asset] (dependencies): the asset is matched before the
      account ([LocationToAccountId], runtime/kreivo/src/xcm_config.rs:56-67). *)
  Definition withdraw_one (ch : chain) (a : xasset) (who : location) : xres chain :=
    run t <- xtoken (fst a);
    run x <- xsome (location_to_account who);
    run _ <- xensure (xe_withdraw_ok e ch t x (snd a) && (snd a <=? bal ch t x));
    XOk (set_bal ch t x (if xe_dust e ch t x then 0 else bal ch t x - snd a)).
  Definition deposit_to (ch : chain) (t : token) (n x : N) : xres chain :=
    run _ <- xensure (xe_deposit_ok e ch t x n && (bal ch t x + n <=? u128_max));
    XOk (set_bal ch t x (bal ch t x + n)).
  Definition deposit_one (ch : chain) (a : xasset) (who : location) : xres chain :=
    run t <- xtoken (fst a);
    run x <- xsome (location_to_account who);
    deposit_to ch t (snd a) x.
  Fixpoint each (f : chain -> xasset -> xres chain) (l : list xasset) (ch : chain) : xres chain :=
    match l with [] => XOk ch | a :: r => run ch' <- f ch a; each f r ch' end.
  Definition withdraw_all (l : list xasset) (who : location) (ch : chain) : xres chain := each (fun ch a => withdraw_one ch a who) l ch.
  (** xcm_executor [deposit_assets_with_retry] (dependency): deposits that fail are tried again after the others. *)
  Fixpoint deposit_some (l : list xasset) (who : location) (ch : chain) : xres (list xasset * chain) :=
    match l with
    | [] => XOk ([], ch)
    | a :: r =>
        match deposit_one ch a who with
        | XOk ch' => deposit_some r who ch'
        | XErr => run q <- deposit_some r who ch; XOk (a :: fst q, snd q)
        | XPanic => XPanic
        end
    end.
  Definition deposit_all (l : list xasset) (who : location) (ch : chain) : xres chain :=
    run q <- deposit_some l who ch;
    each (fun ch a => deposit_one ch a who) (fst q) (snd q).
  (** [transfer_asset] *)
  Definition transfer_one (from to : location) (ch : chain) (a : xasset) : xres chain :=
    run ch' <- withdraw_one ch a from; deposit_one ch' a to.
  (** [check_out] of a teleport: the native token and assets with issuance go to the checking account (xcm_config.rs:40-41,88-91). *)
  Definition check_out_one (ch : chain) (a : xasset) : xres chain :=
    run t <- xtoken (fst a);
    if xe_checked e ch t then deposit_to ch t (snd a) (xe_check_account e) else XOk ch.

  (** xcm_executor [AssetsInHolding] (dependency): [subsume], [saturating_take], [try_take] *)
  Definition held_of (h : holding) (k : location) : N := default 0 (h !! k).
  Definition set_held_of (h : holding) (k : location) (v : N) : holding := if v =? 0 then delete k h else <[k := v]> h.
  Definition subsume (h : holding) (l : list xasset) : holding := fold_left (fun h a => set_held_of h (fst a) (sat128 (held_of h (fst a) + snd a))) l h.
  Definition requested (f : xfilter) (h : holding) : list xasset :=
    match f with
    | FDefinite l => l
    | FAll => map_to_list h
    | FAllOf k nft => if nft then [] else [(k, held_of h k)]
    | FAllCounted n => take n (map_to_list h)
    | FAllOfCounted k nft n => if nft || (n =? 0)%nat then [] else [(k, held_of h k)]
    end.
  Fixpoint saturating_take (l : list xasset) (h : holding) : list xasset * holding :=
    match l with
    | [] => ([], h)
    | a :: r =>
        let n := N.min (snd a) (held_of h (fst a)) in
        let '(taken, rest) := saturating_take r (set_held_of h (fst a) (held_of h (fst a) - n)) in
        ((fst a, n) :: taken, rest)
    end.
  Fixpoint try_take (l : list xasset) (h : holding) : option holding :=
    match l with
    | [] => Some h
    | a :: r => if snd a <=? held_of h (fst a) then try_take r (set_held_of h (fst a) (held_of h (fst a) - snd a)) else None
    end.

  (** xcm_executor [send] (dependency): one more message is on its way. *)
  Definition mark_sent (m : machine) : machine :=
    let ch := m_chain m in xset_chain (Chain (ch_bal ch) (ch_traps ch) (ch_calls ch) (ch_sent ch + 1)) m.

  (** xcm_executor [take_fee] for delivery, [FeeManager] is () (runtime/kreivo/src/xcm_config.rs:250): fees are taken from holding, or from
      the origin's account in jit mode, and dropped. *)
  Definition take_delivery_fee (m : machine) : xres machine :=
    run _ <- xensure (xe_send_ok e m);
    if m_jit m then
      run o <- xsome (m_origin m);
      run ch <- withdraw_all (xe_delivery e m) o (m_chain m);
      XOk (mark_sent (xset_chain ch m))
    else
      run h <- xsome (try_take (xe_delivery e m) (m_hold m));
      XOk (mark_sent (xset_hold h m)).

  (** xcm_executor [ensure_can_subsume_assets] (dependency), [MaxAssetsIntoHolding] is 64: runtime/kreivo/src/xcm_config.rs:135,247 *)
  Definition holding_limit : nat := 128.
  Definition can_subsume (m : machine) (l : list xasset) : bool := (size (m_hold m) + length l <=? holding_limit)%nat.

  (** xcm_executor [refund_surplus] (dependency): what the trader gives back for weight not needed and not yet refunded; refused if it does
      not fit into holding (then the executor tries to buy the weight back; here nothing changes). *)
  Definition credit (w : weight) (m : machine) : machine := xset_surplus (weight_sat_add (m_surplus m) w) m.
  Definition unrefunded (m : machine) : weight := weight_sub (m_surplus m) (m_refunded m).
  Definition refund_surplus (m : machine) : xres machine :=
    if weight_le (unrefunded m) (0, 0) then XOk m
    else match refund_weight (xe_base e) (xe_asset e) (m_trader m) (unrefunded m) with
         | (t, None) => XOk (xset_trader t m)
         | (t, Some a) =>
             if (held_of (m_hold m) (fst a) =? 0) && negb (can_subsume m [a]) then XErr
             else XOk (xset_hold (subsume (m_hold m) [a]) (xset_refunded (weight_sat_add (m_refunded m) (unrefunded m)) (xset_trader t m)))
         end.

  (** pallet_xcm [claim_assets] (dependency) *)
  Fixpoint claim (o : location) (h : holding) (l : list (location * holding)) : option (list (location * holding)) :=
    match l with
    | [] => None
    | t :: r => if bool_decide (t = (o, h)) then Some r else (cons t) <$> claim o h r
    end.

  (** xcm_executor [process_instruction] (dependency); an error undoes what the instruction did. *)
  Definition exec_instr (m : machine) (i : xinstr) : xres machine :=
    match i with
    | XWithdraw l =>
        run o <- xsome (m_origin m);
        run _ <- xensure (can_subsume m l);
        run ch <- withdraw_all l o (m_chain m);
        XOk (xset_hold (subsume (m_hold m) l) (xset_chain ch m))
    | XReserveDeposited l =>
        run o <- xsome (m_origin m);
        run _ <- xensure (can_subsume m l);
        run _ <- xensure (forallb (fun a => is_reserve (fst a) o) l);
        XOk (xset_hold (subsume (m_hold m) l) m)
    | XReceiveTeleported l => (* [IsTeleporter] is (): xcm_config.rs:237 *)
        run _ <- xsome (m_origin m);
        run _ <- xensure (bool_decide (l = []));
        XOk m
    | XTransfer l dest =>
        run o <- xsome (m_origin m);
        run ch <- each (transfer_one o dest) l (m_chain m);
        XOk (xset_chain ch m)
    | XTransferReserve l dest =>
        run o <- xsome (m_origin m);
        run ch <- each (transfer_one o dest) l (m_chain m);
        take_delivery_fee (xset_chain ch m)
    | XTransact k most call =>
        run o <- xsome (m_origin m);
        run d <- xsome (transact_origin o k);
        run _ <- xensure (xe_call_ok e m call);
        run _ <- xensure (weight_le (xe_call_weight e call) most);
        XOk (credit (weight_sub most (xe_call_used e m call))
               (xset_chain (Chain (ch_bal (m_chain m)) (ch_traps (m_chain m)) (ch_calls (m_chain m) ++ [(d, call)]) (ch_sent (m_chain m))) m))
    | XClearOrigin => XOk (xset_origin None m)
    | XDescend js =>
        run o <- xsome (m_origin m);
        XOk (xset_origin (Some (Location (loc_parents o) (loc_interior o ++ js))) m)
    | XUniversalOrigin _ => XErr (* [UniversalAliases] is Nothing: xcm_config.rs:252 *)
    | XAliasOrigin _ => XErr (* [Aliasers] is Nothing: xcm_config.rs:255 *)
    | XDeposit f dest =>
        let '(taken, rest) := saturating_take (requested f (m_hold m)) (m_hold m) in
        run ch <- deposit_all taken dest (m_chain m);
        XOk (xset_hold rest (xset_chain ch m))
    | XDepositReserve f dest =>
        run m' <- take_delivery_fee m;
        let '(taken, rest) := saturating_take (requested f (m_hold m')) (m_hold m') in
        run ch <- deposit_all taken dest (m_chain m');
        XOk (xset_hold rest (xset_chain ch m'))
    | XInitiateReserveWithdraw f =>
        run m' <- take_delivery_fee m;
        let '(_, rest) := saturating_take (requested f (m_hold m')) (m_hold m') in
        XOk (xset_hold rest m')
    | XInitiateTeleport f =>
        run m' <- take_delivery_fee m;
        let '(taken, rest) := saturating_take (requested f (m_hold m')) (m_hold m') in
        run ch <- each check_out_one taken (m_chain m');
        XOk (xset_hold rest (xset_chain ch m'))
    | XExchange _ => XErr (* [AssetExchanger] is (): xcm_config.rs:249 *)
    | XBuy _ None => XOk m
    | XBuy fee (Some w) =>
        run _ <- xensure (snd fee <=? held_of (m_hold m) (fst fee));
        run q <- xsome (buy_weight (xe_base e) (xe_asset e) (m_trader m) w fee);
        XOk (xset_trader (fst q) (xset_hold (set_held_of (m_hold m) (fst fee) (held_of (m_hold m) (fst fee) - snd q)) m))
    | XUnpaid _ => XOk m
    | XRefund => refund_surplus m
    | XSetErrorHandler p =>
        run w <- xsome (weigh p);
        XOk (xset_handler p (xset_hweight w (credit (m_hweight m) m)))
    | XSetAppendix p =>
        run w <- xsome (weigh p);
        XOk (xset_appendix p (xset_aweight w (credit (m_aweight m) m)))
    | XClaim l =>
        run o <- xsome (m_origin m);
        run _ <- xensure (can_subsume m l);
        run traps <- xsome (claim o (subsume ∅ l) (ch_traps (m_chain m)));
        XOk (xset_hold (subsume (m_hold m) l) (xset_chain (Chain (ch_bal (m_chain m)) traps (ch_calls (m_chain m)) (ch_sent (m_chain m))) m))
    | XTrap => XErr
    | XBurn l => XOk (xset_hold (snd (saturating_take l (m_hold m))) m)
    | XSetFeesMode jit => XOk (xset_jit jit m)
    | XSend _ => take_delivery_fee m
    | XUnsupported _ => XErr
    | XOther k =>
        run _ <- xensure (xe_other_ok e m k);
        XOk (match k with SubscribeVersion => mark_sent m | _ => m end) (* pallet_xcm answers at once *)
    end.

  (** xcm_executor [execute], [process] (dependency): one instruction, or the switch to the error handler or appendix. Instructions skipped
      because of an error count as surplus if they can be weighed, and so does an error handler that was not needed. *)
  Fixpoint skipped (p : list xinstr) : weight :=
    match p with
    | [] => (0, 0)
    | i :: r => match weigh_one i with Some w => weight_sat_add w (skipped r) | None => skipped r end
    end.
  Definition to_appendix (m : machine) : machine := xset_prog (m_appendix m) (xset_aweight (0, 0) (xset_appendix [] m)).
  Definition to_handler (m : machine) : machine := xset_prog (m_handler m) (xset_hweight (0, 0) (xset_handler [] m)).
  Definition halted (m : machine) : bool := match m_prog m, m_handler m, m_appendix m with [], [], [] => true | _, _, _ => false end.
  Definition xstep (m : machine) : xres machine :=
    match m_prog m with
    | [] => XOk (if halted m then m else to_appendix (xset_hweight (0, 0) (xset_handler [] (credit (m_hweight m) m))))
    | i :: p =>
        match exec_instr (xset_prog p m) i with
        | XOk m' => XOk m'
        | XErr =>
            match m_handler m with
            | [] => XOk (to_appendix (xset_hweight (0, 0) (credit (skipped p) m)))
            | _ => XOk (to_handler (credit (skipped p) m))
            end
        | XPanic => XPanic
        end
    end.
  Fixpoint xsteps (n : nat) (m : machine) : xres machine :=
    match n with O => XOk m | S n' => run m' <- xstep m; xsteps n' m' end.

  (** xcm_executor [post_process] (dependency): surplus is refunded, fees go to the treasury ([XcmAssetFeesReceiver], [TreasuryAccount]:
      runtime/kreivo/src/xcm_config.rs:136,209-220) or are dropped if it cannot take them, what is left in holding is trapped for the origin. *)
  Definition pay_fees (l : list xasset) (ch : chain) : chain :=
    fold_left (fun ch a => match xtoken (fst a) with
                           | XOk t => match deposit_to ch t (snd a) treasury_account with XOk ch' => ch' | _ => ch end
                           | _ => ch
                           end) l ch.
  Definition settled (m : machine) : machine := match refund_surplus m with XOk m' => m' | _ => m end.
  Definition post_process (original : location) (m : machine) : chain :=
    let m' := settled m in
    let ch := pay_fees (outstanding (m_trader m')) (m_chain m') in
    if bool_decide (m_hold m' = ∅) then ch
    else Chain (ch_bal ch) (ch_traps ch ++ [(default original (m_origin m'), m_hold m')]) (ch_calls ch) (ch_sent ch).
End assets.

(** What the barrier sees of an instruction. *)
Definition shape (i : xinstr) : binstr :=
  match i with
  | XWithdraw l | XReserveDeposited l | XReceiveTeleported l | XClaim l => BAssets (length l)
  | XClearOrigin => BClearOrigin
  | XDescend js => BDescendOrigin js
  | XUniversalOrigin j => BUniversalOrigin j
  | XBuy _ limit => BBuyExecution limit
  | XUnpaid limit => BUnpaidExecution limit
  | _ => BOther 0
  end.

Definition start (ch : chain) (origin : location) (p : list xinstr) : machine := Machine ch (Some origin) ∅ no_trader false p [] [] (0, 0) (0, 0) (0, 0) (0, 0).

(** Steps enough to finish a program. *)
Fixpoint instr_size (i : xinstr) : nat :=
  match i with
  | XSetErrorHandler p | XSetAppendix p => S (S (list_sum (map instr_size p)))
  | _ => 1
  end%nat.
Definition prog_size (p : list xinstr) : nat := list_sum (map instr_size p).

(** xcm_builder [AllowTopLevelPaidExecutionFrom] (dependency) fixes what must be bought. *)
Fixpoint set_limit (need : weight) (p : list xinstr) : list xinstr :=
  match p with
  | [] => []
  | XBuy fee _ :: r => XBuy fee (Some need) :: r
  | i :: r => i :: set_limit need r
  end.

(** xcm_executor [prepare_and_execute] (dependency), [Barrier] (runtime/kreivo/src/xcm_config.rs:156-167): a message from [origin] that needs
    weight [need], which is not executed unless let through. *)
Definition let_through (para : N) (origin : location) (p : list xinstr) (need credit : weight) : option (list xinstr) :=
  let '(o, r) := computed_origin (universal_location para) 8 origin (map shape p) in
  if take_weight_credit credit need then Some p
  else if paid_execution r need then Some (set_limit need p)
  else if unpaid_execution parent_or_executive o r need then Some p
  else None.
Definition process (e : xenv) (para : N) (ch : chain) (origin : location) (p : list xinstr) (need credit : weight) : xres chain :=
  match let_through para origin p need credit with
  | Some p' => run m <- xsteps e (prog_size p') (start ch origin p'); XOk (post_process e origin m)
  | None => XOk ch
  end.
(** Messages from other chains have no weight credit (cumulus message queues, dependencies). *)
Definition receive (e : xenv) (para : N) (ch : chain) (origin : location) (p : list xinstr) (need : weight) : xres chain :=
  process e para ch origin p need (0, 0).
(** pallet_xcm (dependency) executes programs for those with [ExecuteXcmOrigin] (runtime/kreivo/src/xcm_config.rs:269-273,286), who pay for
    weight as for any call. Which programs it builds is not modelled, so any is allowed here ([XcmExecuteFilter] forbids free ones). *)
Definition execute_for (e : xenv) (para : N) (ch : chain) (o : origin) (p : list xinstr) (need : weight) : option (xres chain) :=
  (fun l => process e para ch l p need need) <$> can_execute_xcm o.

(** xcm_executor [prepare] (dependency): messages that cannot be weighed are dropped, others need what they weigh. Whether there is enough
    weight left in the block is not modelled. *)
Definition receive_message (e : xenv) (para : N) (ch : chain) (origin : location) (p : list xinstr) : xres chain :=
  match weigh p with
  | None => XOk ch
  | Some need => receive e para ch origin p need
  end.

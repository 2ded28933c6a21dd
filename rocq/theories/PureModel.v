(** Accounts without keys ("pure" proxies), and what proxies and announcements cost (runtime/kreivo/src/lib.rs:501-526,
    runtime/kreivo/src/impls.rs:48-135; pallet_proxy and pallet_balances' reserves, dependencies, from memory). *)
From stdpp Require Import gmap.
From Verif Require Import Base RuntimeModel ProxyModel DelayedModel.
Open Scope N_scope.

(** The calls: those of pallet_proxy, batches, and all others ([YOther], as ProxyModel.v tells them apart). *)
Inductive ycall :=
| YOther (k : rcall)
| YBatch (m : batch_mode) (l : list ycall)
| YAdd (delegate : N) (ty : proxy_type) (delay : N)
| YRemove (delegate : N) (ty : proxy_type) (delay : N)
| YRemoveAll
| YCreate (ty : proxy_type) (delay index : N)
| YKill (maker : N) (ty : proxy_type) (index : N) (at_ : N * N)
| YAnnounce (real h : N)
| YWithdraw (real h : N)
| YReject (delegate h : N)
| YProxy (real : N) (force : option proxy_type) (c : ycall)
| YProxyAnnounced (delegate real : N) (force : option proxy_type) (c : ycall).

(** The call as the filters of ProxyModel.v see it (they tell apart no more than this). *)
Definition yseen (c : ycall) : rcall :=
  match c with
  | YOther k => k
  | YBatch BStop _ => RBatch []
  | YBatch BAll _ => RBatchAll []
  | YBatch BForce _ => RForceBatch []
  | YAdd _ ty _ => RAddProxy ty
  | YRemove _ ty _ => RRemoveProxy ty
  | YRemoveAll => RRemoveProxies
  | YCreate _ _ _ => ROtherProxy 4
  | YKill _ _ _ _ => RKillPure
  | YAnnounce _ _ => ROtherProxy 6
  | YWithdraw _ _ => ROtherProxy 7
  | YReject _ _ => RRejectAnnouncement
  | YProxy real force _ => RProxy real force (RBatch [])
  | YProxyAnnounced _ _ _ _ => ROtherProxy 9
  end.

(** What happened, for the record of a history (not part of the program). *)
Inductive yentry :=
| YDid (who : N) (k : rcall)
| YAdded (real delegate : N) (ty : proxy_type) (delay : N)
| YRemoved (real delegate : N) (ty : proxy_type) (delay : N)
| YRemovedAll (real : N)
| YCreated (maker pure_ : N) (ty : proxy_type) (delay index : N) (at_ : N * N)
| YKilled (maker pure_ : N)
| YAnnEdit (who : N)
| YActed (real delegate : N) (ty : proxy_type) (delay : N).

(** lib.rs:502-505, 507-509: [ProxyDepositBase] and [ProxyDepositFactor], [AnnouncementDepositBase] and [AnnouncementDepositFactor];
    pallet_proxy [deposit] and what [rejig_deposit] works out: nothing for none. *)
Definition proxies_cost (n : nat) : N := match n with O => 0 | _ => deposit 1 40 + deposit 0 33 * N.of_nat n end.
Definition announcements_cost (n : nat) : N := match n with O => 0 | _ => deposit 1 48 + deposit 0 66 * N.of_nat n end.

(** pallet_proxy storage: of each account, its proxies and their deposit; of each delegate, the announcements (for whom, the hash of the call,
    the block) and their deposit. Of pallet_balances: the free and the reserved tokens. [y_others] is what other pallets have reserved, which
    the chain does not record: reserves are not told apart. [y_at]: the block and the index of the transaction. *)
Record yst := Yst {
  y_at : N * N;
  y_proxies : gmap N (list (N * proxy_type * N) * N);
  y_ann : gmap N (list (N * N * N) * N);
  y_free : gmap N N;
  y_held : gmap N N;
  y_others : gmap N N
}.
Definition amt (m : gmap N N) (a : N) : N := default 0 (m !! a).
Definition yproxies (s : yst) (a : N) : list (N * proxy_type * N) := match y_proxies s !! a with Some p => fst p | None => [] end.
Definition yproxies_dep (s : yst) (a : N) : N := match y_proxies s !! a with Some p => snd p | None => 0 end.
Definition ypending (s : yst) (a : N) : list (N * N * N) := match y_ann s !! a with Some p => fst p | None => [] end.
Definition yann_dep (s : yst) (a : N) : N := match y_ann s !! a with Some p => snd p | None => 0 end.
Definition set_money (f h : gmap N N) (s : yst) : yst := Yst (y_at s) (y_proxies s) (y_ann s) f h (y_others s).
Definition set_px (a : N) (l : list (N * proxy_type * N)) (d : N) (s : yst) : yst :=
  Yst (y_at s) (<[a := (l, d)]> (y_proxies s)) (y_ann s) (y_free s) (y_held s) (y_others s).
Definition drop_px (a : N) (s : yst) : yst := Yst (y_at s) (delete a (y_proxies s)) (y_ann s) (y_free s) (y_held s) (y_others s).
Definition set_ann (a : N) (l : list (N * N * N)) (d : N) (s : yst) : yst :=
  Yst (y_at s) (y_proxies s) (<[a := (l, d)]> (y_ann s)) (y_free s) (y_held s) (y_others s).
Definition drop_ann (a : N) (s : yst) : yst := Yst (y_at s) (y_proxies s) (delete a (y_ann s)) (y_free s) (y_held s) (y_others s).

(** The environment of one transaction: whether an account may reserve that much (locks, existential deposit), whether calls of other pallets
    succeed. *)
Record yenv := YEnv { q_reserve : N -> N -> bool; q_ok : N -> rcall -> bool }.

(** pallet_balances [reserve], [unreserve]: no more can be given back than is reserved, whoever reserved it. *)
Definition y_reserve (e : yenv) (who n : N) (s : yst) : option yst :=
  if n =? 0 then Some s
  else if (n <=? amt (y_free s) who) && q_reserve e who n then
    Some (set_money (<[who := amt (y_free s) who - n]> (y_free s)) (<[who := amt (y_held s) who + n]> (y_held s)) s)
  else None.
Definition y_unreserve (who n : N) (s : yst) : yst :=
  let m := N.min n (amt (y_held s) who) in
  set_money (<[who := amt (y_free s) who + m]> (y_free s)) (<[who := amt (y_held s) who - m]> (y_held s)) s.
(** From a deposit of [old] to one of [new]. *)
Definition rejig (e : yenv) (who old new : N) (s : yst) : option yst :=
  if old <? new then y_reserve e who (new - old) s else if new <? old then Some (y_unreserve who (old - new) s) else Some s.

(** pallet_proxy [find_proxy] *)
Definition yfind (s : yst) (real delegate : N) (force : option proxy_type) : option (proxy_type * N) :=
  match find (fun d => (fst (fst d) =? delegate) && match force with Some t => bool_decide (snd (fst d) = t) | None => true end) (yproxies s real) with
  | Some d => Some (snd (fst d), snd d)
  | None => None
  end.

(** pallet_proxy [edit_announcements]: keeps what [keep] says; an error unless something goes. *)
Definition yedit (e : yenv) (s : yst) (delegate : N) (keep : N * N * N -> bool) : option yst :=
  let l := List.filter keep (ypending s delegate) in
  if (length l <? length (ypending s delegate))%nat then
    match rejig e delegate (yann_dep s delegate) (announcements_cost (length l)) s with
    | Some s' => Some (match l with [] => drop_ann delegate s' | _ => set_ann delegate l (announcements_cost (length l)) s' end)
    | None => None
    end
  else None.

Section run.
  (** [pure_id] is pallet_proxy's [pure_account], a hash of the maker, the block and transaction, the type and an index. *)
  Context (pure_id : N -> N * N -> proxy_type -> N -> N) (hash : ycall -> N) (e : yenv).

  (** The calls that dispatch no others, signed by [who]; [None] is an error. *)
  Definition yprim (who : N) (c : ycall) (s : yst) : option (yst * yentry) :=
    match c with
    | YOther k => if q_ok e who k then Some (s, YDid who k) else None
    (* [add_proxy_delegate] *)
    | YAdd delegate ty delay =>
        if (who =? delegate) || bool_decide ((delegate, ty, delay) ∈ yproxies s who) || (max_proxies <=? length (yproxies s who))%nat then None
        else
          let l := insert_def (delegate, ty, delay) (yproxies s who) in
          match rejig e who (yproxies_dep s who) (proxies_cost (length l)) s with
          | Some s' => Some (set_px who l (proxies_cost (length l)) s', YAdded who delegate ty delay)
          | None => None
          end
    (* [remove_proxy_delegate] *)
    | YRemove delegate ty delay =>
        if bool_decide ((delegate, ty, delay) ∈ yproxies s who) then
          let l := List.filter (fun x => negb (bool_decide (x = (delegate, ty, delay)))) (yproxies s who) in
          match rejig e who (yproxies_dep s who) (proxies_cost (length l)) s with
          | Some s' => Some (match l with [] => drop_px who s' | _ => set_px who l (proxies_cost (length l)) s' end, YRemoved who delegate ty delay)
          | None => None
          end
        else None
    (* [remove_all_proxy_delegates] *)
    | YRemoveAll => Some (drop_px who (y_unreserve who (yproxies_dep s who) s), YRemovedAll who)
    (* [create_pure] *)
    | YCreate ty delay index =>
        let p := pure_id who (y_at s) ty index in
        match y_proxies s !! p with
        | Some _ => None
        | None =>
            match y_reserve e who (proxies_cost 1) s with
            | Some s' => Some (set_px p [(who, ty, delay)] (proxies_cost 1) s', YCreated who p ty delay index (y_at s))
            | None => None
            end
        end
    (* [kill_pure] *)
    | YKill maker ty index at_ =>
        if pure_id maker at_ ty index =? who then Some (drop_px who (y_unreserve maker (yproxies_dep s who) s), YKilled maker who) else None
    (* [announce] *)
    | YAnnounce real h =>
        if existsb (fun x => fst (fst x) =? who) (yproxies s real) && (length (ypending s who) <? max_pending)%nat then
          let l := ypending s who ++ [(real, h, fst (y_at s))] in
          match rejig e who (yann_dep s who) (announcements_cost (length l)) s with
          | Some s' => Some (set_ann who l (announcements_cost (length l)) s', YAnnEdit who)
          | None => None
          end
        else None
    (* [remove_announcement], [reject_announcement] *)
    | YWithdraw real h =>
        match yedit e s who (fun a => negb (fst (fst a) =? real) || negb (snd (fst a) =? h)) with Some s' => Some (s', YAnnEdit who) | None => None end
    | YReject delegate h =>
        match yedit e s delegate (fun a => negb (fst (fst a) =? who) || negb (snd (fst a) =? h)) with Some s' => Some (s', YAnnEdit delegate) | None => None end
    | YBatch _ _ | YProxy _ _ _ | YProxyAnnounced _ _ _ _ => None
    end.

  (** Going through a batch (pallet_utility). *)
  Definition yrun_batch (run : yst -> ycall -> option (yst * list yentry)) (m : batch_mode) : yst -> list ycall -> option (yst * list yentry) :=
    fix go s l :=
      match l with
      | [] => Some (s, [])
      | c :: r =>
          match run s c with
          | Some (s1, e1) => match go s1 r with Some (s2, e2) => Some (s2, e1 ++ e2) | None => None end
          | None => match m with BStop => Some (s, []) | BAll => None | BForce => go s r end
          end
      end.

  (** Dispatching call [c] with a signed origin of [who] and filter [f]; [None] is an error, which changes nothing. *)
  Fixpoint yrun (f : rcall -> bool) (who : N) (c : ycall) (s : yst) : option (yst * list yentry) :=
    if f (yseen c) then
      match c with
      | YBatch m l => yrun_batch (fun s c => yrun f who c s) m s l
      (* [proxy]; [do_proxy]: an error of the call does not make [proxy] one *)
      | YProxy real force c' =>
          match yfind s real who force with
          | Some (ty, delay) =>
              if delay =? 0 then
                match yrun (proxied_filter ty) real c' s with
                | Some (s', l) => Some (s', YActed real who ty delay :: l)
                | None => Some (s, [YActed real who ty delay])
                end
              else None
          | None => None
          end
      (* [proxy_announced]: may be signed by anyone *)
      | YProxyAnnounced delegate real force c' =>
          match yfind s real delegate force with
          | Some (ty, delay) =>
              match yedit e s delegate
                      (fun a => negb (fst (fst a) =? real) || negb (snd (fst a) =? hash c') || (fst (y_at s) - snd a <? delay)) with
              | Some s1 =>
                  match yrun (proxied_filter ty) real c' s1 with
                  | Some (s', l) => Some (s', YAnnEdit delegate :: YActed real delegate ty delay :: l)
                  | None => Some (s1, [YAnnEdit delegate; YActed real delegate ty delay])
                  end
              | None => None
              end
          | None => None
          end
      | _ => match yprim who c s with Some (s', x) => Some (s', [x]) | None => None end
      end
    else None.
End run.

(** A history: transactions, each with its block and index; and what the rest of the chain does: it changes what accounts have, reserves for
    other purposes, and gives back as much as it reserved. *)
Inductive ystep :=
| YTx (at_ : N * N) (e : yenv) (who : N) (c : ycall)
| YMoney (who n : N)
| YReserve (who n : N)
| YRelease (who n : N).
Definition ystep_run (pure_id : N -> N * N -> proxy_type -> N -> N) (hash : ycall -> N) (s : yst) (x : ystep) : yst * list yentry :=
  match x with
  | YTx at_ e who c =>
      let s0 := Yst at_ (y_proxies s) (y_ann s) (y_free s) (y_held s) (y_others s) in
      match yrun pure_id hash e (fun _ => true) who c s0 with Some r => r | None => (s0, []) end
  | YMoney who n => (set_money (<[who := n]> (y_free s)) (y_held s) s, [])
  | YReserve who n =>
      match y_reserve (YEnv (fun _ _ => true) (fun _ _ => true)) who n s with
      | Some s' => (Yst (y_at s') (y_proxies s') (y_ann s') (y_free s') (y_held s') (<[who := amt (y_others s) who + n]> (y_others s)), [])
      | None => (s, [])
      end
  | YRelease who n =>
      if n <=? amt (y_others s) who then
        let s' := y_unreserve who n s in
        (Yst (y_at s') (y_proxies s') (y_ann s') (y_free s') (y_held s') (<[who := amt (y_others s) who - n]> (y_others s)), [])
      else (s, [])
  end.
Fixpoint yrun_all (pure_id : N -> N * N -> proxy_type -> N -> N) (hash : ycall -> N) (s : yst) (l : list ystep) : yst * list yentry :=
  match l with
  | [] => (s, [])
  | x :: r => let '(s1, l1) := ystep_run pure_id hash s x in let '(s2, l2) := yrun_all pure_id hash s1 r in (s2, l1 ++ l2)
  end.
Definition y_start : yst := Yst (0, 0) ∅ ∅ ∅ ∅ ∅.

(** Proxies that act with a delay: what they announce, and how that is stopped (runtime/kreivo/src/impls.rs:48-135,
    runtime/kreivo/src/lib.rs:501-526; pallet_proxy, dependency, from memory). *)
From stdpp Require Import gmap.
From Verif Require Import Base XcmTypes OriginTypes PaymentsModel ProxyModel.
Open Scope N_scope.

(** pallet_utility (dependency): [batch] keeps what was done before an error, [batch_all] nothing, [force_batch] passes over errors. *)
Inductive batch_mode := BStop | BAll | BForce.

(** The calls: those of pallet_proxy (without pure proxies), batches, and all others ([DOther]). Calls that dispatch as an account derived
    from the caller (multisig, as_derivative) are among the others: what they dispatch counts as signed by the derived account. *)
Inductive dcall :=
| DOther (k : rcall)
| DBatch (m : batch_mode) (l : list dcall)
| DAddProxy (delegate : N) (ty : proxy_type) (delay : N)
| DRemoveProxy (delegate : N) (ty : proxy_type) (delay : N)
| DRemoveProxies
| DAnnounce (real h : N)
| DRemoveAnnouncement (real h : N)
| DReject (delegate h : N)
| DProxy (real : N) (force : option proxy_type) (c : dcall)
| DProxyAnnounced (delegate real : N) (force : option proxy_type) (c : dcall).

(** The call as the filters of ProxyModel.v see it (they tell apart no more than this). *)
Definition seen (c : dcall) : rcall :=
  match c with
  | DOther k => k
  | DBatch BStop _ => RBatch []
  | DBatch BAll _ => RBatchAll []
  | DBatch BForce _ => RForceBatch []
  | DAddProxy _ ty _ => RAddProxy ty
  | DRemoveProxy _ ty _ => RRemoveProxy ty
  | DRemoveProxies => RRemoveProxies
  | DAnnounce _ _ => ROtherProxy 6
  | DRemoveAnnouncement _ _ => ROtherProxy 7
  | DReject _ _ => RRejectAnnouncement
  | DProxy real force _ => RProxy real force (RBatch [])
  | DProxyAnnounced _ _ _ _ => ROtherProxy 9
  end.

(** What happened, for the record of a history (not part of the program). [Acted real d ty delay announced c]: [d]'s proxy of that type
    and delay was used to dispatch [c] as [real]. *)
Inductive entry :=
| Did (who : N) (k : rcall)
| Added (real delegate : N) (ty : proxy_type) (delay : N)
| Removed (real delegate : N) (ty : proxy_type) (delay : N)
| RemovedAll (real : N)
| Announced (delegate real h : N)
| Withdrawn (delegate real h : N)
| Rejected (real delegate h : N)
| Acted (real delegate : N) (ty : proxy_type) (delay : N) (announced : bool) (c : dcall).

(** pallet_proxy storage (dependency): the proxies of each account, sorted; the announcements of each delegate, in order: for whom, the
    hash of the call, the block. Deposits are left out but for whether they can be made. *)
Record dst := Dst { x_now : N; x_proxies : gmap N (list (N * proxy_type * N)); x_ann : gmap N (list (N * N * N)) }.
Definition proxies_of (s : dst) (a : N) : list (N * proxy_type * N) := default [] (x_proxies s !! a).
Definition pending_of (s : dst) (d : N) : list (N * N * N) := default [] (x_ann s !! d).
Definition set_proxies_of (a : N) (l : list (N * proxy_type * N)) (s : dst) : dst := Dst (x_now s) (<[a := l]> (x_proxies s)) (x_ann s).
Definition set_pending_of (d : N) (l : list (N * N * N)) (s : dst) : dst := Dst (x_now s) (x_proxies s) (<[d := l]> (x_ann s)).

(** The environment of one transaction: whether deposits can be made, and whether calls of other pallets succeed. *)
Record denv := DEnv { v_deposit : N -> bool; v_ok : N -> rcall -> bool }.

(** runtime/kreivo/src/lib.rs:506,510 *)
Definition max_proxies : nat := 32.
Definition max_pending : nat := 32.

(** The order of [ProxyType] (impls.rs:48-68, derived) and of proxy definitions (delegate, type, delay). *)
Definition ty_index (t : proxy_type) : N :=
  match t with Any => 0 | NonTransfer => 1 | CancelProxy => 2 | AssetsProxy => 3 | AssetOwner => 4 | AssetManager => 5 | Collator => 6 end.
Definition def_before (x y : N * proxy_type * N) : bool :=
  let '(d1, t1, n1) := x in
  let '(d2, t2, n2) := y in
  (d1 <? d2) || ((d1 =? d2) && ((ty_index t1 <? ty_index t2) || ((ty_index t1 =? ty_index t2) && (n1 <? n2)))).
(** pallet_proxy [add_proxy_delegate]: inserted where a binary search says. *)
Fixpoint insert_def (x : N * proxy_type * N) (l : list (N * proxy_type * N)) : list (N * proxy_type * N) :=
  match l with
  | [] => [x]
  | y :: r => if def_before y x then y :: insert_def x r else x :: y :: r
  end.

(** pallet_proxy [find_proxy]: the first proxy of [delegate] of the type asked for, if one is; its type and delay. *)
Definition find_def (s : dst) (real delegate : N) (force : option proxy_type) : option (proxy_type * N) :=
  match find (fun d => (fst (fst d) =? delegate) && match force with Some t => bool_decide (snd (fst d) = t) | None => true end) (proxies_of s real) with
  | Some d => Some (snd (fst d), snd d)
  | None => None
  end.

(** pallet_proxy [edit_announcements]: keeps what [keep] says; an error unless something goes. *)
Definition edit_announcements (s : dst) (delegate : N) (keep : N * N * N -> bool) : option dst :=
  let l := List.filter keep (pending_of s delegate) in
  if (length l <? length (pending_of s delegate))%nat then Some (set_pending_of delegate l s) else None.

Section run.
  Context (hash : dcall -> N) (e : denv).

  (** Going through a batch. *)
  Definition run_batch (run : dst -> dcall -> option (dst * list entry)) (m : batch_mode) : dst -> list dcall -> option (dst * list entry) :=
    fix go s l :=
      match l with
      | [] => Some (s, [])
      | c :: r =>
          match run s c with
          | Some (s1, e1) => match go s1 r with Some (s2, e2) => Some (s2, e1 ++ e2) | None => None end
          | None => match m with BStop => Some (s, []) | BAll => None | BForce => go s r end
          end
      end.

  (** Dispatching call [c] with a signed origin of [who] and filter [f]; [None] is an error, which changes nothing. *)
  Fixpoint drun (f : rcall -> bool) (who : N) (c : dcall) (s : dst) : option (dst * list entry) :=
    if f (seen c) then
      match c with
      | DOther k => if v_ok e who k then Some (s, [Did who k]) else None
      | DBatch m l => run_batch (fun s c => drun f who c s) m s l
      (* pallet_proxy [add_proxy_delegate] *)
      | DAddProxy delegate ty delay =>
          if (who =? delegate) || bool_decide ((delegate, ty, delay) ∈ proxies_of s who) || (max_proxies <=? length (proxies_of s who))%nat
             || negb (v_deposit e who) then None
          else Some (set_proxies_of who (insert_def (delegate, ty, delay) (proxies_of s who)) s, [Added who delegate ty delay])
      (* [remove_proxy_delegate] *)
      | DRemoveProxy delegate ty delay =>
          if bool_decide ((delegate, ty, delay) ∈ proxies_of s who)
          then Some (set_proxies_of who (List.filter (fun x => negb (bool_decide (x = (delegate, ty, delay)))) (proxies_of s who)) s,
                     [Removed who delegate ty delay])
          else None
      (* [remove_all_proxy_delegates] *)
      | DRemoveProxies => Some (set_proxies_of who [] s, [RemovedAll who])
      (* [announce] *)
      | DAnnounce real h =>
          if existsb (fun x => fst (fst x) =? who) (proxies_of s real) && (length (pending_of s who) <? max_pending)%nat && v_deposit e who
          then Some (set_pending_of who (pending_of s who ++ [(real, h, x_now s)]) s, [Announced who real h])
          else None
      (* [remove_announcement] *)
      | DRemoveAnnouncement real h =>
          match edit_announcements s who (fun a => negb (fst (fst a) =? real) || negb (snd (fst a) =? h)) with
          | Some s' => Some (s', [Withdrawn who real h])
          | None => None
          end
      (* [reject_announcement] *)
      | DReject delegate h =>
          match edit_announcements s delegate (fun a => negb (fst (fst a) =? who) || negb (snd (fst a) =? h)) with
          | Some s' => Some (s', [Rejected who delegate h])
          | None => None
          end
      (* [proxy]; [do_proxy]: an error of the call does not make [proxy] one *)
      | DProxy real force c' =>
          match find_def s real who force with
          | Some (ty, delay) =>
              if delay =? 0 then
                match drun (proxied_filter ty) real c' s with
                | Some (s', l) => Some (s', Acted real who ty delay false c' :: l)
                | None => Some (s, [Acted real who ty delay false c'])
                end
              else None
          | None => None
          end
      (* [proxy_announced]: may be signed by anyone *)
      | DProxyAnnounced delegate real force c' =>
          match find_def s real delegate force with
          | Some (ty, delay) =>
              match edit_announcements s delegate
                      (fun a => negb (fst (fst a) =? real) || negb (snd (fst a) =? hash c') || (x_now s - snd a <? delay)) with
              | Some s1 =>
                  match drun (proxied_filter ty) real c' s1 with
                  | Some (s', l) => Some (s', Acted real delegate ty delay true c' :: l)
                  | None => Some (s1, [Acted real delegate ty delay true c'])
                  end
              | None => None
              end
          | None => None
          end
      end
    else None.
End run.

(** A history: transactions, and blocks going by. *)
Inductive dxstep := XTx (e : denv) (who : N) (c : dcall) | XBlock.
(** What one step does, and what it records. *)
Definition xstep (hash : dcall -> N) (s : dst) (x : dxstep) : dst * list (N * entry) :=
  match x with
  | XBlock => (Dst (x_now s + 1) (x_proxies s) (x_ann s), [])
  | XTx e who c => match drun hash e (fun _ => true) who c s with
                   | Some (s', l) => (s', map (pair (x_now s)) l)
                   | None => (s, [])
                   end
  end.
Fixpoint xrun (hash : dcall -> N) (s : dst) (l : list dxstep) : dst * list (N * entry) :=
  match l with
  | [] => (s, [])
  | x :: r => let '(s1, l1) := xstep hash s x in let '(s2, l2) := xrun hash s1 r in (s2, l1 ++ l2)
  end.
(** At the start nobody has proxies. *)
Definition x_start (now : N) : dst := Dst now ∅ ∅.

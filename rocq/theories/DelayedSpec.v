(** The words of C170 and C171: what the record of a history says about proxies and announcements. *)
From stdpp Require Import gmap.
From Verif Require Import Base ProxyModel DelayedModel.
Open Scope N_scope.

(** The announcement of the call with hash [h] is taken back: rejected in the account's name, or withdrawn by the delegate. *)
Definition taken_back (real d h : N) (x : entry) : Prop := x = Rejected real d h \/ x = Withdrawn d real h.
(** The proxy ends. *)
Definition ended (real d : N) (ty : proxy_type) (delay : N) (x : entry) : Prop := x = Removed real d ty delay \/ x = RemovedAll real.

(** At block [m] delegate [d] announced the call with hash [h] for [real], and it was not taken back since. *)
Definition announced (log : list (N * entry)) (d real h m : N) : Prop :=
  exists l1 l2, log = l1 ++ (m, Announced d real h) :: l2 /\ forall y, y ∈ l2 -> ~ taken_back real d h (snd y).
(** At block [m] account [real] made [d] its proxy of type [ty] with that delay, and this did not end since. *)
Definition gave (log : list (N * entry)) (real d : N) (ty : proxy_type) (delay m : N) : Prop :=
  exists l1 l2, log = l1 ++ (m, Added real d ty delay) :: l2 /\ forall y, y ∈ l2 -> ~ ended real d ty delay (snd y).

(** How often [d] announced the call with hash [h] for [real], and how often such an announcement was used. *)
Definition announcing (d real h : N) (x : entry) : bool :=
  match x with Announced d' real' h' => (d' =? d) && (real' =? real) && (h' =? h) | _ => false end.
Definition used (hash : dcall -> N) (d real h : N) (x : entry) : bool :=
  match x with Acted real' d' _ _ true c => (d' =? d) && (real' =? real) && (hash c =? h) | _ => false end.
Definition times (p : entry -> bool) (log : list (N * entry)) : nat := length (List.filter (fun x => p (snd x)) log).

(** The record of a history that starts without proxies at block [now]. *)
Definition record (hash : dcall -> N) (now : N) (l : list dxstep) : list (N * entry) := snd (xrun hash (x_start now) l).

(** In state [s], [real]'s proxy [d] of type [ty] has that delay, and no other. *)
Definition has_proxy (s : dst) (real d : N) (ty : proxy_type) (delay : N) : Prop :=
  (d, ty, delay) ∈ proxies_of s real /\ forall n, (d, ty, n) ∈ proxies_of s real -> n = delay.

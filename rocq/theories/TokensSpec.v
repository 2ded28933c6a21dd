(** The words of C183 to C186. *)
From stdpp Require Import gmap.
From Verif Require Import Base RuntimeModel TokensModel.
Open Scope N_scope.

(** How a history ends; whether a step is carried out. *)
Definition t_end (l : list tstep) : tst := trun t_start l.
Definition goes_through (s : tst) (x : tstep) : Prop := exists s', tstep_try s x = Some s'.

(** What [a] has of an asset, and how much of it votes and the like keep frozen. *)
Definition has (s : tst) (id a : N) : N := match t_accounts s !! (id, a) with Some c => tc_balance c | None => 0 end.
Definition holds_account (s : tst) (id a : N) : Prop := t_accounts s !! (id, a) <> None.
Definition frozen_of (s : tst) (id a : N) : N := default 0 (t_locked s !! (id, a)).
(** Who is what to an asset, and its state. *)
Definition is_owner (s : tst) (id a : N) : Prop := exists d, t_assets s !! id = Some d /\ ta_owner d = a.
Definition is_issuer (s : tst) (id a : N) : Prop := exists d, t_assets s !! id = Some d /\ ta_issuer d = a.
Definition is_admin (s : tst) (id a : N) : Prop := exists d, t_assets s !! id = Some d /\ ta_admin d = a.
Definition is_freezer (s : tst) (id a : N) : Prop := exists d, t_assets s !! id = Some d /\ ta_freezer d = a.
Definition in_state (s : tst) (id : N) (x : tstatus) : Prop := exists d, t_assets s !! id = Some d /\ ta_status d = x.
Definition exists_asset (s : tst) (id : N) : Prop := t_assets s !! id <> None.
(** The least an account may hold of it, and how much there is of it. *)
Definition least (s : tst) (id : N) : N := match t_assets s !! id with Some d => ta_min d | None => 0 end.
Definition supply (s : tst) (id : N) : N := match t_assets s !! id with Some d => ta_supply d | None => 0 end.

(** Asked for [m], [n] leaves: just that, or all there is if less than the minimum would be left. *)
Definition leaves (s : tst) (id a m n : N) : Prop := n = m \/ (m < n /\ n = has s id a /\ n < m + least s id).
(** What [d] may still move for [a], and whether [a] has a record of [d]. *)
Definition approved (s : tst) (id a d : N) : N := match t_approvals s !! (id, a, d) with Some p => ap_amount p | None => 0 end.
Definition is_delegate (s : tst) (id a d : N) : Prop := t_approvals s !! (id, a, d) <> None.

(** Step [x] may take [n] of what [a] has: it is [a]'s own, a delegate's within what is approved, the admin's, or comes of an asset being
    destroyed; or another pallet takes it. *)
Definition may_take (s : tst) (x : tstep) (id a n : N) : Prop :=
  match x with
  | TCall _ (Some b) (KTransfer id' _ m keep) => id' = id /\ b = a /\ leaves s id a m n /\ (keep = true -> n = m)
  | TCall _ (Some b) (KTransferApproved id' a' _ m) => id' = id /\ a' = a /\ m <= approved s id a b /\ leaves s id a m n
  | TCall _ (Some b) (KForceTransfer id' a' _ m) => id' = id /\ a' = a /\ is_admin s id b /\ leaves s id a m n
  | TCall _ (Some b) (KBurn id' a' m) => id' = id /\ a' = a /\ is_admin s id b /\ exists q, q <= m /\ leaves s id a q n
  | TCall _ (Some _) (KDestroyAccounts id' l) => id' = id /\ a ∈ l /\ in_state s id TDestroying /\ n = has s id a
  | TTake id' a' m => id' = id /\ a' = a /\ leaves s id a m n
  | _ => False
  end.
(** [x] moves tokens of an asset, from whom and to whom. *)
Definition moves (x : tstep) : option (N * N * N) :=
  match x with
  | TCall _ (Some b) (KTransfer id to _ _) => Some (id, b, to)
  | TCall _ (Some _) (KTransferApproved id from to _) => Some (id, from, to)
  | TCall _ (Some _) (KForceTransfer id from to _) => Some (id, from, to)
  | _ => None
  end.

(** What a step lets [d] move for [a], what [d] moves; and all that a history does of it. *)
Definition allows (id a d : N) (x : tstep) : N :=
  match x with TCall _ (Some b) (KApprove id' d' n) => if (b =? a) && (id' =? id) && (d' =? d) then n else 0 | _ => 0 end.
Definition spends (id a d : N) (x : tstep) : N :=
  match x with TCall _ (Some b) (KTransferApproved id' a' _ n) => if (b =? d) && (id' =? id) && (a' =? a) then n else 0 | _ => 0 end.
Fixpoint in_all (f : tstep -> N) (s : tst) (l : list tstep) : N :=
  match l with [] => 0 | x :: r => match tstep_try s x with Some _ => f x | None => 0 end + in_all f (tstep_run s x) r end.
Definition names_delegate (id a d : N) (x : tstep) : Prop := exists ok n, x = TCall ok (Some a) (KApprove id d n).

(** What [a] has reserved for approvals, and free. *)
Definition put_down (s : tst) (a : N) : N := default 0 (t_reserved s !! a).
Definition spare (s : tst) (a : N) : N := default 0 (t_free s !! a).

(** Who acts in a step. *)
Definition acts (x : tstep) (o : option N) : Prop := exists ok k, x = TCall ok o k.
(** All that is decided about an asset but its state and how much there is of it. *)
Definition terms (s : tst) (id : N) : option (N * N * N * N * N) :=
  (fun d => (ta_owner d, ta_issuer d, ta_admin d, ta_freezer d, ta_min d)) <$> t_assets s !! id.
(** [x] is neither root's nor the asset's owner's or admin's. *)
Definition of_others (s : tst) (id : N) (x : tstep) : Prop := forall o, acts x o -> exists b, o = Some b /\ ~ is_owner s id b /\ ~ is_admin s id b.
(** Whether an account is open, closed for paying, or closed altogether. *)
Definition account_state (s : tst) (id a : N) : option tclosed := tc_closed <$> t_accounts s !! (id, a).

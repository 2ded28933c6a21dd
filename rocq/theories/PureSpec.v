(** The words of C174 to C176. *)
From stdpp Require Import gmap.
From Verif Require Import Base RuntimeModel ProxyModel PureModel.
Open Scope N_scope.

(** The accounts without keys are told apart by who made them, where, of which type and with which index. *)
Definition ids_differ (pure_id : N -> N * N -> proxy_type -> N -> N) : Prop :=
  forall m a t i m' a' t' i', pure_id m a t i = pure_id m' a' t' i' -> m = m' /\ a = a' /\ t = t' /\ i = i'.

(** How a history ends that starts with nothing, and its record. *)
Definition y_end (pure_id : N -> N * N -> proxy_type -> N -> N) (hash : ycall -> N) (l : list ystep) : yst := fst (yrun_all pure_id hash y_start l).
Definition y_record (pure_id : N -> N * N -> proxy_type -> N -> N) (hash : ycall -> N) (l : list ystep) : list yentry :=
  snd (yrun_all pure_id hash y_start l).
(** A key for [a] signs a transaction of the history. *)
Definition signs (l : list ystep) (a : N) : Prop := exists at_ e c, YTx at_ e a c ∈ l.

(** What [a] has free, what is reserved of it, and what others than pallet_proxy reserved of it. *)
Definition free_of (s : yst) (a : N) : N := amt (y_free s) a.
Definition held_of (s : yst) (a : N) : N := amt (y_held s) a.
Definition others_of (s : yst) (a : N) : N := amt (y_others s) a.

(** [a] makes or closes an account without keys, or is one that is made or closed. *)
Definition pure_deal (a : N) (x : yentry) : Prop :=
  match x with YCreated m p _ _ _ _ | YKilled m p => a = m \/ a = p | _ => False end.

(** [d] became [real]'s proxy of this type and delay, being given it or making the account; and that did not end since. *)
Definition ends (real d : N) (ty : proxy_type) (delay : N) (x : yentry) : Prop :=
  x = YRemoved real d ty delay \/ x = YRemovedAll real \/ exists m, x = YKilled m real.
Definition holds (log : list yentry) (real d : N) (ty : proxy_type) (delay : N) : Prop :=
  exists l1 x l2, log = l1 ++ x :: l2 /\ (x = YAdded real d ty delay \/ exists i at_, x = YCreated d real ty delay i at_) /\
    forall y, y ∈ l2 -> ~ ends real d ty delay y.

(** What is done in the name of [p]. *)
Definition in_name_of (p : N) (x : yentry) : Prop :=
  match x with
  | YDid a _ | YAdded a _ _ _ | YRemoved a _ _ _ | YRemovedAll a | YCreated a _ _ _ _ _ | YKilled _ a => a = p
  | YAnnEdit _ | YActed _ _ _ _ => False
  end.

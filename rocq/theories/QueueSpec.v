(** Words used in the claims about the queues of messages. *)
From stdpp Require Import gmap.
From Verif Require Import BlocksModel BlocksSpec QueueModel.
Open Scope N_scope.

(** All messages of a chain that got into the queue in a history, in the order of delivery. *)
Fixpoint queued (l : list qstep) (o : N) : list msg :=
  match l with
  | [] => []
  | QPage o' room p :: l' => (if o' =? o then take_page room p else []) ++ queued l' o
  | _ :: l' => queued l' o
  end.

(** The messages of a chain among some. *)
Definition from_chain (o : N) (l : list (N * msg)) : list msg := map snd (List.filter (fun x => fst x =? o) l).

(** It needs more than the queues have in a block. *)
Definition too_heavy (m : msg) : bool := any_gt (mg_weight m) queue_limit.

(** The length of a page, and a page without anything broken. *)
Definition page_size (p : list piece) : N := fold_right (fun x n => match x with PMsg m => mg_size m + n | PBroken => n end) 0 p.
Definition messages (l : list msg) : list piece := map PMsg l.

(** How many blocks begin in a history, with this chain not paused in any. *)
Fixpoint blocks (l : list qstep) : nat :=
  match l with [] => 0%nat | QBlock _ :: l' => S (blocks l') | _ :: l' => blocks l' end.
Definition never_paused (o : N) (l : list qstep) : Prop := forall p, In (QBlock p) l -> p o = false.

(** Only these chains deliver. *)
Definition only_from (chains : list N) (l : list qstep) : Prop := forall o room p, In (QPage o room p) l -> In o chains.

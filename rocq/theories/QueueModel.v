(** Messages of other chains between their delivery and their execution: the queue of messages, runtime/kreivo/src/lib.rs:298-323, and how
    pages of sibling chains are put into it, runtime/kreivo/src/lib.rs:361-379. The two pallets are dependencies, their limits are the runtime's. *)
From stdpp Require Import gmap.
From Verif Require Import BlocksModel.
Open Scope N_scope.

(** A message: what it is, its encoded size, and the weight its execution needs (XcmWeightsModel.v). *)
Record msg := Msg { mg_id : N; mg_size : N; mg_weight : weight }.

(** A page delivered by a sibling chain, runtime/kreivo/src/lib.rs:365-366: messages one after the other, perhaps ending in something that does not decode. *)
Inductive piece := PMsg (m : msg) | PBroken.

(** runtime/kreivo/src/lib.rs:319 [HeapSize] without the header of an item (four bytes of length, one flag; dependency). *)
Definition max_message_len : N := 64 * 1024 - 5.

(** runtime/kreivo/src/lib.rs:370-373, in the words of the comment there: the size most channels allow. *)
Definition channel_message_size : N := 102400.

(** [take_first_concatenated_xcm] and [enqueue_xcmp_message] (dependency), runtime/kreivo/src/lib.rs:366: the messages of a page that get into the queue. [room] says for how
    many the weight set aside for this lasts, and the space in the queue ([drop_threshold]). With a message that does not decode, or that is too long, the rest
    of the page is dropped. *)
Fixpoint take_page (room : nat) (p : list piece) : list msg :=
  match room, p with
  | S r, PMsg m :: p' => if mg_size m <=? max_message_len then m :: take_page r p' else []
  | _, _ => []
  end.

(** The queues: messages waiting, per chain; the ring of chains with messages waiting, the one whose turn it is first; those set aside because they need more
    weight than all queues have in a block; and the [Processed] events, oldest first. *)
Record mq := MQ {
  mq_waiting : N -> list msg;
  mq_ring : list N;
  mq_aside : list (N * msg);
  mq_done : list (N * msg);
}.

(** One queue written. *)
Definition put_queue (o : N) (l : list msg) (f : N -> list msg) : N -> list msg := fun o' => if o' =? o then l else f o'.

(** [enqueue_message] (dependency), runtime/kreivo/src/lib.rs:366: behind those waiting; a chain that had none waiting joins the ring at its end. *)
Definition enqueue (q : mq) (o : N) (l : list msg) : mq :=
  match l with
  | [] => q
  | _ => MQ (put_queue o (mq_waiting q o ++ l) (mq_waiting q))
            (if bool_decide (o ∈ mq_ring q) then mq_ring q else mq_ring q ++ [o]) (mq_aside q) (mq_done q)
  end.

(** [process_message_payload] over the messages of a queue (dependency), with [MessageProcessor] of runtime/kreivo/src/lib.rs:308-313: a message that needs more than
    the limit is set aside, one that needs more than what is left ends the turn, others are executed. Results: messages set aside, executed, still waiting, and weight left.
    (The weight of looking at a page or an item is dropped; a message that fails to execute counts as executed.) *)
Fixpoint serve (left : weight) (l : list msg) : list msg * list msg * list msg * weight :=
  match l with
  | [] => ([], [], [], left)
  | m :: l' =>
      if any_gt (mg_weight m) queue_limit then
        let '(a, d, r, w) := serve left l' in (m :: a, d, r, w)
      else if any_gt (mg_weight m) left then ([], [], l, left)
      else let '(a, d, r, w) := serve (wsub left (mg_weight m)) l' in (a, m :: d, r, w)
  end.

(** [service_queues] (dependency), runtime/kreivo/src/lib.rs:298-300, 317-321: the chains of the ring in turn, with what is left of the weight; queues that are paused
    ([QueuePausedQuery]) are passed over. *)
Fixpoint serve_ring (paused : N -> bool) (left : weight) (ring : list N) (q : mq) : mq :=
  match ring with
  | [] => q
  | o :: ring' =>
      if paused o then serve_ring paused left ring' q
      else let '(a, d, r, w) := serve left (mq_waiting q o) in
           serve_ring paused w ring'
             (MQ (put_queue o r (mq_waiting q)) (mq_ring q) (mq_aside q ++ map (pair o) a) (mq_done q ++ map (pair o) d))
  end.

(** A queue has messages waiting. *)
Definition has_waiting (q : mq) (o : N) : bool := match mq_waiting q o with [] => false | _ => true end.

(** A block begins (dependency): the ring is served from its head with the whole weight, the head moves on by one, and empty queues leave the ring. *)
Definition begin_block (paused : N -> bool) (q : mq) : mq :=
  let q' := serve_ring paused queue_limit (mq_ring q) q in
  let ring := match mq_ring q with [] => [] | o :: r => r ++ [o] end in
  MQ (mq_waiting q') (List.filter (has_waiting q') ring) (mq_aside q') (mq_done q').

(** [execute_overweight] (dependency): anybody pays for executing a message that was set aside, with a weight that fits a transaction. *)
Definition execute_aside (q : mq) (i : nat) (w : weight) : mq :=
  match mq_aside q !! i with
  | Some (o, m) =>
      if beyond w (max_extrinsic Normal) || any_gt (mg_weight m) w then q
      else MQ (mq_waiting q) (mq_ring q) (delete i (mq_aside q)) (mq_done q ++ [(o, m)])
  | None => q
  end.

(** What happens to the queues. *)
Inductive qstep := QPage (o : N) (room : nat) (p : list piece) | QBlock (paused : N -> bool) | QAside (i : nat) (w : weight).

(** runtime/kreivo/src/lib.rs:298-323, 361-379 *)
Definition do_qstep (q : mq) (s : qstep) : mq :=
  match s with
  | QPage o room p => enqueue q o (take_page room p)
  | QBlock paused => begin_block paused q
  | QAside i w => execute_aside q i w
  end.

(** Nothing waits at first. *)
Definition mq0 : mq := MQ (fun _ => []) [] [] [].
Definition qrun (q : mq) (l : list qstep) : mq := fold_left do_qstep l q.

(** How much work goes into a block: the limits the runtime configures and the check made before a transaction is dispatched. *)
From Coq Require Import NArith List Bool.
Import ListNotations.
Open Scope N_scope.

(** A weight: time in picoseconds and size of the proof in bytes. (64-bit saturation is dropped: sums that large are beyond every limit below.) *)
Record weight := W { w_time : N; w_proof : N }.

(** Arithmetic of weights, both parts at once (dependency sp_weights). *)
Definition wadd (a b : weight) : weight := W (w_time a + w_time b) (w_proof a + w_proof b).
Definition wsub (a b : weight) : weight := W (w_time a - w_time b) (w_proof a - w_proof b).
Definition wmin (a b : weight) : weight := W (N.min (w_time a) (w_time b)) (N.min (w_proof a) (w_proof b)).
Definition percent (p : N) (a : weight) : weight := W (p * w_time a / 100) (p * w_proof a / 100).

(** [Weight::any_gt] (dependency). *)
Definition any_gt (a b : weight) : bool := (w_time b <? w_time a) || (w_proof b <? w_proof a).

(** Classes of calls (dependency frame_support). *)
Inductive class := Normal | Operational | Mandatory.

(** runtime/kreivo/src/lib.rs:111-114 [MAXIMUM_BLOCK_WEIGHT]: two seconds, [MAX_POV_SIZE] of five mebibytes. *)
Definition max_block : weight := W (2 * 10 ^ 12) (5 * 1024 * 1024).

(** runtime/kreivo/src/lib.rs:106-109: ratios of parachains_common (dependency). *)
Definition normal_share : weight := percent 75 max_block.
Definition average_initialize : weight := percent 5 max_block.

(** runtime/kreivo/src/weights/block_weights.rs and extrinsic_weights.rs *)
Definition base_block : weight := W (5000000 * 1000) 0.
Definition base_extrinsic : weight := W (125000 * 1000) 0.

(** runtime/kreivo/src/configuration/system_support.rs:21-38 [RuntimeBlockWeights]; what the builder fills in is a dependency: no limit for mandatory calls,
    nothing reserved for normal ones. *)
Definition max_total (c : class) : option weight :=
  match c with Normal => Some normal_share | Operational => Some max_block | Mandatory => None end.
Definition reserved (c : class) : option weight :=
  match c with Normal => Some (W 0 0) | Operational => Some (wsub max_block normal_share) | Mandatory => None end.
Definition max_extrinsic (c : class) : option weight :=
  match max_total c with Some m => Some (wsub (wsub m average_initialize) base_extrinsic) | None => None end.

(** runtime/kreivo/src/configuration/system_support.rs:19-20 [RuntimeBlockLength] *)
Definition max_length (c : class) : N :=
  match c with Normal => 75 * (5 * 1024 * 1024) / 100 | _ => 5 * 1024 * 1024 end.

(** The block being built: weight consumed per class and the length of all extrinsics ([BlockWeight] and [AllExtrinsicsLen] of frame_system, dependency). *)
Record block := Block { b_normal : weight; b_operational : weight; b_mandatory : weight; b_length : N }.

(** The parts of a block. *)
Definition of_class (b : block) (c : class) : weight :=
  match c with Normal => b_normal b | Operational => b_operational b | Mandatory => b_mandatory b end.
Definition total (b : block) : weight := wadd (wadd (b_normal b) (b_operational b)) (b_mandatory b).
Definition change (f : weight -> weight) (c : class) (b : block) : block :=
  match c with
  | Normal => Block (f (b_normal b)) (b_operational b) (b_mandatory b) (b_length b)
  | Operational => Block (b_normal b) (f (b_operational b)) (b_mandatory b) (b_length b)
  | Mandatory => Block (b_normal b) (b_operational b) (f (b_mandatory b)) (b_length b)
  end.
Definition set_length (n : N) (b : block) : block := Block (b_normal b) (b_operational b) (b_mandatory b) n.

(** [Option] of a weight as an upper limit. *)
Definition beyond (a : weight) (limit : option weight) : bool := match limit with Some m => any_gt a m | None => false end.

(** [calculate_consumed_weight] of [CheckWeight] (dependency), used at runtime/kreivo/src/lib.rs:138: beyond the limit of the block, a class may
    still use what is reserved for it. *)
Definition consume (b : block) (c : class) (w : weight) : option block :=
  let b' := change (fun x => wadd x (wadd w base_extrinsic)) c b in
  if beyond (of_class b' c) (max_total c) then None
  else if any_gt (total b') max_block && beyond (of_class b' c) (reserved c) then None
  else Some b'.

(** [check_combined_proof_size] (dependency): what is left of the proof has to hold the extrinsics too; mandatory calls are let through. *)
Definition proof_holds (b : block) (c : class) : bool :=
  match c with Mandatory => true | _ => w_proof (total b) + b_length b <=? w_proof max_block end.

(** [CheckWeight::pre_dispatch] (dependency), runtime/kreivo/src/lib.rs:138: length, weight, proof, and the limit for a single call. *)
Definition check_weight (b : block) (c : class) (w : weight) (len : N) : option block :=
  if max_length c <? b_length b + len then None else
  match consume (set_length (b_length b + len) b) c w with
  | None => None
  | Some b' => if proof_holds b' c && negb (beyond w (max_extrinsic c)) then Some b' else None
  end.

(** [CheckWeight::post_dispatch] (dependency): what the call did not use of its weight is given back. *)
Definition give_back (b : block) (c : class) (w used : weight) : block := change (fun x => wsub x (wsub w (wmin used w))) c b.

(** What happens in a block: hooks of pallets (and migrations) register what they used as mandatory, without any check ([register_extra_weight_unchecked]);
    a transaction is offered, with its class, weight, length and what it will have used. *)
Inductive bstep := BHook (w : weight) | BTx (c : class) (w : weight) (len : N) (used : weight).

(** One step, runtime/kreivo/src/lib.rs:130-152 (the executive is a dependency). *)
Definition do_bstep (b : block) (s : bstep) : block :=
  match s with
  | BHook w => change (fun x => wadd x w) Mandatory b
  | BTx c w len used => match check_weight b c w len with Some b' => give_back b' c w used | None => b end
  end.

(** A block begins empty, but for what every block costs. *)
Definition empty_block : block := Block (W 0 0) (W 0 0) base_block 0.
Definition brun (b : block) (l : list bstep) : block := fold_left do_bstep l b.

(** runtime/kreivo/src/lib.rs:298-300 [MessageQueueServiceWeight] and 528-530 [MaximumSchedulerWeight]: what the two queues may use when a block begins. *)
Definition queue_limit : weight := percent 35 max_block.
Definition scheduler_limit : weight := percent 80 max_block.

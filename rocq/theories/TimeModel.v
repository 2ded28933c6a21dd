(** Blocks and time: which blocks may follow one another, as the runtime configures consensus, and the periods it counts in blocks. *)
From Coq Require Import NArith List Bool.
Import ListNotations.
Open Scope N_scope.

(** runtime/kreivo/src/lib.rs:329-336 [async_backing_params] *)
Definition capacity : N := 3.
Definition velocity : N := 1.
Definition relay_slot_ms : N := 6000.

(** runtime/kreivo/src/lib.rs:350-351 [MILLISECS_PER_BLOCK], [SLOT_DURATION] *)
Definition slot_ms : N := 6000.

(** runtime/kreivo/src/configuration/system_support.rs:117 [MinimumPeriod] *)
Definition minimum_period : N := 0.

(** What a block brings along: the slot in its digest, its timestamp in milliseconds, the slot of the relay chain's block it is built upon and how many
    earlier blocks of this chain the relay chain has included since ([set_validation_data] inherent, dependency; heads are counted, not compared). *)
Record header := Header { h_slot : N; h_time : N; h_relay : N; h_included : N }.

(** What the runtime remembers of the latest block: its number, slot, how many blocks that slot had, its timestamp, and how many blocks the relay chain has
    not included yet (storage of pallet_aura, cumulus_pallet_aura_ext, pallet_timestamp and cumulus_pallet_parachain_system, dependencies). *)
Record clock := Clock { c_number : N; c_slot : N; c_authored : N; c_time : N; c_waiting : N }.

(** Before the first block. *)
Definition genesis_clock : clock := Clock 0 0 0 0 0.

(** Execution of a block as far as time is concerned, [None] where it panics and the block is invalid (dependencies, as configured in
    runtime/kreivo/src/lib.rs:339-359 and runtime/kreivo/src/configuration/system_support.rs:94-119): pallet_aura's [on_initialize] with several blocks per slot
    allowed, cumulus_pallet_aura_ext's count, [FixedVelocityConsensusHook::on_state_proof], the capacity of the unincluded segment, [Timestamp::set] and
    pallet_aura's [on_timestamp_set]. *)
Definition next_block (c : clock) (h : header) : option clock :=
  if h_slot h <? c_slot c then None
  else
    let authored := if h_slot h =? c_slot c then c_authored c + 1 else 1 in
    if negb (h_relay h * relay_slot_ms / slot_ms =? h_slot h) then None
    else if velocity + 1 <? authored then None
    else
      let waiting := c_waiting c - h_included h in
      if capacity <=? waiting then None
      else if h_time h <? c_time c + minimum_period then None
      else if negb (h_time h / slot_ms =? h_slot h) then None
      else Some (Clock (c_number c + 1) (h_slot h) authored (h_time h) (waiting + 1)).

(** A chain of blocks. *)
Fixpoint grow (c : clock) (l : list header) : option clock :=
  match l with
  | [] => Some c
  | h :: l => match next_block c h with Some c' => grow c' l | None => None end
  end.

(** runtime/runtime-constants/src/lib.rs:57-64 [time] *)
Definition minutes : N := 60000 / slot_ms.
Definition hours : N := minutes * 60.
Definition days : N := hours * 24.

(** runtime/kreivo/src/payments.rs:93 [CancelBufferBlockLength], "2 days" *)
Definition cancel_buffer : N := 14400.

(** runtime/kreivo/src/collective/tracks.rs:27 [decision_period] *)
Definition decision_period : N := 4 * days.

(** runtime/kreivo/src/communities/governance.rs:15 and runtime/kreivo/src/collective/governance.rs:24 [UndecidingTimeout] *)
Definition undeciding_timeout (community : bool) : N := if community then 14 * days else 2 * days.

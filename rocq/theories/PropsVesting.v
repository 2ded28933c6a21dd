(** C177 to C179: vesting. *)
From stdpp Require Import gmap.
From Coq Require Import Lia.
From Verif Require Import Base RuntimeModel VestingModel VestingSpec Vesting.
Open Scope N_scope.

(* ------------------------------------------------------------------ *)
(** C177. What has not vested is kept. An account always owns at least what has not vested of all it was given, merged or not. The schedules
    root takes away do not count; and it is false of those an account gives to itself, which take nothing. *)
Theorem C177_kept_partial : forall n l a, (forall x, x ∈ l -> ~ to_self a x /\ ~ taken a x) ->
  let s := v_end n l in unvested_of (v_given n l) a (vs_now s) <= owns s a.
Proof. exact kept. Qed.
Print Assumptions C177_kept_partial.

Theorem C177_kept_refuted : exists n l a, (forall x, x ∈ l -> ~ taken a x) /\
  let s := v_end n l in owns s a < unvested_of (v_given n l) a (vs_now s).
Proof.
  exists 1, [VMint 1 5; VGrant true 1 1 (Vest 40000000000 1 1)], 1. split; [|vm_compute; reflexivity].
  intros x H [i ->]. repeat (apply elem_of_cons in H as [H|H]; [discriminate H|]). apply elem_of_nil in H. exact H.
Qed.
Print Assumptions C177_kept_refuted.

(** Given two, merged, half of it reserved, the rest goes no further down than what has not vested. *)
Definition vest_a : vest := Vest 33333333300 5555555550 3.
Definition vest_b : vest := Vest 40000000007 8000000002 1.
Definition vest_l : list vstep := [VMint 1 100000000000; VMint 2 1000000000; VGrant true 1 2 vest_a; VGrant true 1 2 vest_b; VHold 2 40000000000; VBlock; VBlock;
  VMerge 2 0 1; VBlock; VVest 2; VTransfer true 2 3 9000000000; VTransfer true 2 3 7000000000].
Example C177_case : (forall x, x ∈ vest_l -> ~ to_self 2 x /\ ~ taken 2 x) /\ v_given 1 vest_l = [(2, vest_a); (2, vest_b)] /\
  let s := v_end 1 vest_l in vs_now s = 4 /\ unvested_of (v_given 1 vest_l) 2 4 = 43777777751 /\ owns s 2 = 58333333307.
Proof.
  split; [|vm_compute; repeat split; reflexivity]. intros x H. repeat (apply elem_of_cons in H as [->|H]; [split; [intros (? & ? & E)|intros (? & E)]; discriminate E|]).
  apply elem_of_nil in H. destruct H.
Qed.

(* ------------------------------------------------------------------ *)
(** C178. What has vested can be used. Having called for it, who was given schedules can use, of what they have free, all that exceeds what has
    not vested. False once they merge two: what is left is divided by the blocks left, rounded down, and the rest vests later than either. *)
Theorem C178_frees_partial : forall n l a m, (forall x, x ∈ l -> ~ taken a x /\ ~ merges a x) -> (exists v, (a, v) ∈ v_given n l) ->
  let s := fst (vstep_run (v_end n l) (VVest a)) in
  vs_now s = vs_now (v_end n l) /\ owns s a = owns (v_end n l) a /\
  (can_use s a m <-> m <= default 0 (vs_free s !! a) /\ (m = 0 \/ m + unvested_of (v_given n l) a (vs_now s) <= owns s a)).
Proof. exact frees. Qed.
Print Assumptions C178_frees_partial.

(** Before either is over, and after both are. *)
Definition vest_merged (k : nat) : list vstep := [VMint 1 100000000000; VGrant true 1 2 vest_a; VGrant true 1 2 vest_b; VMerge 2 0 1] ++ replicate k VBlock.
Theorem C178_merged_refuted : exists n l a, (forall x, x ∈ l -> ~ taken a x /\ ~ to_self a x) /\ (exists v, (a, v) ∈ v_given n l) /\
  let s := fst (vstep_run (v_end n l) (VVest a)) in
  unvested_of (v_given n l) a (vs_now s) = 0 /\ default 0 (vs_held s !! a) = 0 /\ 0 < owns s a /\ ~ can_use s a (owns s a).
Proof.
  exists 1, (vest_merged 8), 2. split.
  - intros x H. unfold vest_merged in H. apply elem_of_app in H as [H|H].
    + repeat (apply elem_of_cons in H as [->|H]; [split; [intros (? & E)|intros (? & ? & E)]; discriminate E|]). apply elem_of_nil in H. destruct H.
    + apply elem_of_replicate in H as [-> _]. split; [intros (? & E)|intros (? & ? & E)]; discriminate E.
  - split; [exists vest_a; vm_compute; left|]. cbv zeta. split; [vm_compute; reflexivity|]. split; [vm_compute; reflexivity|]. split; [vm_compute; reflexivity|].
    rewrite can_use_usable. vm_compute. intros H. apply H. reflexivity.
Qed.
Print Assumptions C178_merged_refuted.

(** At block 7, the first to vest in part, the second over; part of it on hold. *)
Definition vest_two : list vstep :=
  [VMint 1 100000000000; VGrant true 1 2 vest_a; VGrant true 1 2 vest_b; VHold 2 3000000000] ++ replicate 6 VBlock.
Example C178_case : (forall x, x ∈ vest_two -> ~ taken 2 x /\ ~ merges 2 x) /\ (exists v, (2, v) ∈ v_given 1 vest_two) /\
  let s := fst (vstep_run (v_end 1 vest_two) (VVest 2)) in
  unvested_of (v_given 1 vest_two) 2 (vs_now s) = 11111111100 /\ owns s 2 = 73333333307 /\
  can_use s 2 62222222207 /\ ~ can_use s 2 62222222208 /\ ~ can_use (v_end 1 vest_two) 2 1.
Proof.
  split; [|split; [exists vest_a; vm_compute; left|cbv zeta; rewrite !can_use_usable; vm_compute; repeat split; try discriminate; intros H; apply H; reflexivity]].
  intros x H. unfold vest_two in H. apply elem_of_app in H as [H|H].
  - repeat (apply elem_of_cons in H as [->|H]; [split; [intros (? & E)|intros (? & ? & E)]; discriminate E|]). apply elem_of_nil in H. destruct H.
  - apply elem_of_replicate in H as [-> _]. split; [intros (? & E)|intros (? & ? & E)]; discriminate E.
Qed.

(* ------------------------------------------------------------------ *)
(** C179. Nobody locks what is another's. Unless they spend it, give it, or it is reserved or held of them, what somebody can use they still can,
    whatever is given to them; and where somebody gave them all the schedules there can be, merging two makes room. *)
Theorem C179_others : forall n l x a m, ~ spends a x -> can_use (v_end n l) a m -> can_use (fst (vstep_run (v_end n l) x)) a m.
Proof. exact others_no_less. Qed.
Print Assumptions C179_others.

Theorem C179_bounded : forall n l a, (length (scheds (v_end n l) a) <= 28)%nat.
Proof. exact bounded. Qed.
Print Assumptions C179_bounded.

Theorem C179_room : forall n l a i j b v, i <> j -> (i < length (scheds (v_end n l) a))%nat -> (j < length (scheds (v_end n l) a))%nat -> b <> a ->
  100 * CENTS <= v_locked v -> 0 < v_per_block v -> can_use (v_end n l) b (v_locked v) ->
  let s := fst (vstep_run (v_end n l) (VMerge a i j)) in snd (vstep_run s (VGrant true b a v)) = [(a, v)].
Proof. exact room. Qed.
Print Assumptions C179_room.

(** Somebody is given 28 that never end: no more can be given, until they merge two. What they had they can use throughout. *)
Definition vest_long : vest := Vest 33333333300 1 1.
Definition vest_full : list vstep := [VMint 1 10000000000000; VMint 2 77] ++ replicate 28 (VGrant true 1 2 vest_long).
Example C179_case : let s := v_end 1 vest_full in
  length (scheds s 2) = 28%nat /\ snd (vstep_run s (VGrant true 1 2 vest_long)) = [] /\ can_use s 1 (v_locked vest_long) /\ can_use s 2 77 /\ ~ can_use s 2 78 /\
  100 * CENTS = v_locked vest_long /\ ~ spends 2 (VGrant true 1 2 vest_long).
Proof.
  cbv zeta. split; [vm_compute; reflexivity|]. split; [vm_compute; reflexivity|]. rewrite !can_use_usable. split; [vm_compute; discriminate|].
  split; [vm_compute; discriminate|]. split; [vm_compute; intros H; apply H; reflexivity|]. split; [vm_compute; reflexivity|].
  intros [(? & ? & ? & E)|[(? & ? & ? & E)|(? & E)]]; discriminate E.
Qed.

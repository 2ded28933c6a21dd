(** Proofs about blocks. *)
From Coq Require Import NArith List Bool Lia.
From Verif Require Import BlocksModel BlocksSpec.
Import ListNotations.
Open Scope N_scope.

Lemma any_gt_false a b : any_gt a b = false <-> within a b.
Proof. unfold any_gt, within. rewrite orb_false_iff, !N.ltb_ge. tauto. Qed.

Lemma max_block_v : max_block = W 2000000000000 5242880. Proof. reflexivity. Qed.
Lemma normal_share_v : normal_share = W 1500000000000 3932160. Proof. reflexivity. Qed.
Lemma reserve_v : wsub max_block normal_share = W 500000000000 1310720. Proof. reflexivity. Qed.
Lemma base_v : base_extrinsic = W 125000000 0. Proof. reflexivity. Qed.
Lemma init_v : average_initialize = W 100000000000 262144. Proof. reflexivity. Qed.
Lemma max_normal_v : max_extrinsic Normal = Some (W 1399875000000 3670016). Proof. reflexivity. Qed.
Lemma max_operational_v : max_extrinsic Operational = Some (W 1899875000000 4980736). Proof. reflexivity. Qed.
Lemma base_block_v : base_block = W 5000000000 0. Proof. reflexivity. Qed.

Ltac nums := unfold total in *; cbn [b_normal b_operational b_mandatory b_length] in *; rewrite ?max_block_v, ?normal_share_v, ?reserve_v, ?base_v, ?init_v, ?base_block_v in *; cbn [w_time w_proof wadd wsub wmin] in *.

(** What a check that passes says. *)
Lemma check_inv b c w len b' : check_weight b c w len = Some b' ->
  b' = change (fun x => wadd x (wadd w base_extrinsic)) c (set_length (b_length b + len) b) /\
  b_length b + len <= max_length c /\
  (forall m, max_total c = Some m -> within (of_class b' c) m) /\
  (within (total b') max_block \/ forall m, reserved c = Some m -> within (of_class b' c) m) /\
  (c <> Mandatory -> w_proof (total b') + b_length b' <= w_proof max_block) /\
  (forall m, max_extrinsic c = Some m -> within w m).
Proof.
  unfold check_weight. destruct (N.ltb_spec (max_length c) (b_length b + len)) as [|Hl]; [discriminate|].
  unfold consume. set (b1 := change _ _ _).
  destruct (beyond (of_class b1 c) (max_total c)) eqn:E1; [discriminate|].
  destruct (any_gt (total b1) max_block && beyond (of_class b1 c) (reserved c)) eqn:E2; [discriminate|].
  destruct (proof_holds b1 c && negb (beyond w (max_extrinsic c))) eqn:E3; [|discriminate].
  intros [= <-]. apply andb_prop in E3 as [E3 E4]. apply negb_true_iff in E4.
  repeat split; auto.
  - rewrite H in E1. cbn [beyond] in E1. apply any_gt_false in E1. apply E1.
  - rewrite H in E1. cbn [beyond] in E1. apply any_gt_false in E1. apply E1.
  - apply andb_false_iff in E2 as [E2|E2].
    + left. apply any_gt_false, E2.
    + right. intros m Hm. rewrite Hm in E2. apply any_gt_false, E2.
  - intros Hc. unfold proof_holds in E3. destruct c; [apply N.leb_le, E3|apply N.leb_le, E3|congruence].
  - rewrite H in E4. apply any_gt_false in E4. apply E4.
  - rewrite H in E4. apply any_gt_false in E4. apply E4.
Qed.

(** The invariant of a block. *)
Definition good (b : block) : Prop :=
  within (b_normal b) normal_share /\ within (wadd (b_normal b) (b_operational b)) max_block /\ b_length b <= 5242880.

Lemma good_empty : good empty_block.
Proof. unfold good, empty_block, within. cbn [b_normal b_operational b_length]. nums. lia. Qed.

Lemma good_check b c w len b' : good b -> check_weight b c w len = Some b' -> good b'.
Proof.
  intros (Hn & Ho & Hl) H. apply check_inv in H as (-> & Hlen & Hmax & Hres & Hproof & _).
  unfold good, within in *. destruct c; cbn [change set_length of_class total b_normal b_operational b_mandatory b_length max_total reserved max_length] in *.
  - specialize (Hmax _ eq_refl). split; [exact Hmax|]. split; [|change (75 * (5 * 1024 * 1024) / 100) with 3932160 in Hlen; lia].
    destruct Hres as [Hres|Hres]; [nums; lia|]. specialize (Hres _ eq_refl). nums. lia.
  - split; [exact Hn|]. split; [|change (5 * 1024 * 1024) with 5242880 in Hlen; lia].
    destruct Hres as [Hres|Hres]; [nums; lia|]. specialize (Hres _ eq_refl). nums. lia.
  - split; [exact Hn|]. split; [exact Ho|change (5 * 1024 * 1024) with 5242880 in Hlen; lia].
Qed.

Lemma good_back b c w u : good b -> good (give_back b c w u).
Proof.
  intros (Hn & Ho & Hl). unfold good, give_back, within in *.
  destruct c; cbn [change b_normal b_operational b_mandatory b_length] in *; nums; lia.
Qed.

Lemma good_step b s : good b -> good (do_bstep b s).
Proof.
  intros H. destruct s as [w|c w len u]; cbn [do_bstep].
  - destruct H as (Hn & Ho & Hl). unfold good. cbn [change b_normal b_operational b_mandatory b_length]. auto.
  - destruct (check_weight b c w len) as [b'|] eqn:E; [|exact H]. apply good_back. eapply good_check; eauto.
Qed.

Lemma good_run l b : good b -> good (brun b l).
Proof. revert b. induction l as [|s l IH]; intros b H; [exact H|]. apply IH, good_step, H. Qed.

(** Transactions stay within the limits of their classes, and those that are not mandatory together within the block's. *)
Lemma classes_fit l : let b := brun empty_block l in
  within (b_normal b) normal_share /\ within (wadd (b_normal b) (b_operational b)) max_block /\
  within (total b) (wadd max_block (b_mandatory b)) /\ b_length b <= 5 * 1024 * 1024.
Proof.
  cbn zeta. destruct (good_run l _ good_empty) as (Hn & Ho & Hl). split; [exact Hn|]. split; [exact Ho|]. split.
  - unfold within, total in *. nums. lia.
  - exact Hl.
Qed.

(** Letting a transaction in leaves the proof within its limit, extrinsics included; a normal one leaves the whole block within its limit. *)
Lemma admission_fits b c w len b' : check_weight b c w len = Some b' ->
  (c <> Mandatory -> w_proof (total b') + b_length b' <= w_proof max_block) /\ (c = Normal -> within (total b') max_block).
Proof.
  intros H. apply check_inv in H as (Eb & _ & _ & Hres & Hproof & _). split; [exact Hproof|]. intros ->.
  destruct Hres as [|Hres]; [assumption|]. specialize (Hres _ eq_refl). subst b'. unfold within in Hres. cbn in Hres. lia.
Qed.

(** Operational transactions: what it takes. *)
Lemma operational_admitted b w len : good b ->
  within (wadd (b_operational b) (wadd w base_extrinsic)) (wsub max_block normal_share) ->
  w_proof (total b) + w_proof w + (b_length b + len) <= w_proof max_block ->
  admitted b Operational w len.
Proof.
  intros (Hn & Ho & Hl) Hw Hp. unfold admitted, check_weight.
  destruct (N.ltb_spec (max_length Operational) (b_length b + len)) as [Hlt|_].
  { change (max_length Operational) with 5242880 in Hlt. unfold total in Hp. nums. lia. }
  unfold consume. cbn [change set_length b_normal b_operational b_mandatory b_length of_class].
  set (b1 := Block _ _ _ _).
  assert (E1 : beyond (wadd (b_operational b) (wadd w base_extrinsic)) (max_total Operational) = false).
  { cbn [max_total beyond]. apply any_gt_false. unfold within in *. nums. lia. }
  rewrite E1.
  assert (E2 : any_gt (wadd (b_operational b) (wadd w base_extrinsic)) (wsub max_block normal_share) = false) by (apply any_gt_false; exact Hw).
  cbn [reserved beyond]. rewrite E2, andb_false_r.
  assert (E3 : proof_holds b1 Operational = true).
  { unfold proof_holds, b1, total. cbn [b_normal b_operational b_mandatory b_length]. apply N.leb_le. unfold total in Hp. nums. lia. }
  rewrite E3. cbn [andb].
  assert (E4 : beyond w (max_extrinsic Operational) = false).
  { rewrite max_operational_v. cbn [beyond]. apply any_gt_false. unfold within in *. nums. lia. }
  rewrite E4. cbn [negb]. eexists. reflexivity.
Qed.

Lemma operational_reserve l w len : let b := brun empty_block l in
  within (wadd (b_operational b) (wadd w base_extrinsic)) (percent 25 max_block) ->
  w_proof (total b) + w_proof w + (b_length b + len) <= w_proof max_block ->
  admitted b Operational w len.
Proof. cbn zeta. intros Hw Hp. apply operational_admitted; auto. apply good_run, good_empty. Qed.

(** A permitted normal transaction fits a block that has only begun, if hooks leave thirty percent. *)
Lemma normal_admitted hooks w len : permitted Normal w len ->
  w_time hooks + w_time base_block <= w_time (percent 30 max_block) -> w_proof hooks + len <= w_proof (percent 30 max_block) ->
  admitted (brun empty_block [BHook hooks]) Normal w len.
Proof.
  intros [Hw Hlen] Ht Hp. rewrite max_normal_v in Hw. unfold admitted, check_weight.
  change (percent 30 max_block) with (W 600000000000 1572864) in *.
  cbn [brun fold_left do_bstep change empty_block b_normal b_operational b_mandatory b_length].
  destruct (N.ltb_spec (max_length Normal) (0 + len)) as [Hlt|_]; [rewrite N.add_0_l in Hlt; lia|].
  unfold consume. cbn [change set_length b_normal b_operational b_mandatory b_length of_class]. set (b1 := Block _ _ _ _).
  unfold within in Hw.
  assert (E1 : beyond (wadd (W 0 0) (wadd w base_extrinsic)) (max_total Normal) = false).
  { cbn [max_total beyond]. apply any_gt_false. unfold within. nums. lia. }
  rewrite E1.
  assert (E2 : any_gt (total b1) max_block = false).
  { apply any_gt_false. unfold within, total, b1. cbn [b_normal b_operational b_mandatory b_length]. nums. lia. }
  rewrite E2. cbn [andb].
  assert (E3 : proof_holds b1 Normal = true).
  { unfold proof_holds, b1, total. cbn [b_normal b_operational b_mandatory b_length]. apply N.leb_le. nums. lia. }
  rewrite E3. cbn [andb].
  assert (E4 : beyond w (max_extrinsic Normal) = false).
  { rewrite max_normal_v. cbn [beyond]. apply any_gt_false. unfold within. nums. lia. }
  rewrite E4. cbn [negb]. eexists. reflexivity.
Qed.

(** Once hooks used all of the block, no normal transaction gets in. *)
Lemma hooks_starve hooks w len : w_time max_block <= w_time hooks \/ w_proof max_block <= w_proof hooks -> 0 < len ->
  ~ admitted (brun empty_block [BHook hooks]) Normal w len.
Proof.
  intros Hh Hlen [b' H]. pose proof (admission_fits _ _ _ _ _ H) as [Hp Hn].
  specialize (Hn eq_refl). specialize (Hp ltac:(discriminate)). apply check_inv in H as (-> & _).
  unfold within, total in *. cbn [brun fold_left do_bstep change empty_block set_length b_normal b_operational b_mandatory b_length] in *. nums. lia.
Qed.

(** The two queues alone can take more than a block has; then nothing else gets in. *)
Lemma hooks_exceed : exists scheduler queue, within scheduler scheduler_limit /\ within queue queue_limit /\
  ~ within (total (begun scheduler queue)) max_block /\
  forall w len, 0 < len -> ~ admitted (begun scheduler queue) Normal w len.
Proof.
  exists scheduler_limit, queue_limit. split; [split; apply N.le_refl|]. split; [split; apply N.le_refl|]. split.
  - intros [H _]. vm_compute in H. apply H. reflexivity.
  - intros w len Hlen [b' H]. pose proof (admission_fits _ _ _ _ _ H) as [_ Hn]. specialize (Hn eq_refl) as [Hn _].
    apply check_inv in H as (-> & _). unfold total in Hn.
    change (begun scheduler_limit queue_limit) with (Block (W 0 0) (W 0 0) (W 2305000000000 6029312) 0) in Hn.
    cbn [change set_length b_normal b_operational b_mandatory b_length] in Hn. nums. lia.
Qed.

(** With moderate hooks, operational transactions push a block beyond its limit. *)
Lemma reserve_exceeds : exists hooks l, within hooks (percent 25 max_block) /\ (forall s, In s l -> exists c w len u, s = BTx c w len u /\ c <> Mandatory) /\
  ~ within (total (brun (brun empty_block [BHook hooks]) l)) max_block.
Proof.
  exists (W 400000000000 0), [BTx Normal (W 1300000000000 0) 100 (W 1300000000000 0); BTx Operational (W 499000000000 0) 100 (W 499000000000 0)].
  split; [split; discriminate|]. split.
  - intros s [<-|[<-|[]]]; repeat eexists; discriminate.
  - intros [H _]. vm_compute in H. apply H. reflexivity.
Qed.

(** Operational transactions are shut out of blocks whose proof is full. *)
Lemma reserve_gone : exists l w, (forall s, In s l -> match s with BHook h => within h (percent 35 max_block) | BTx c _ _ _ => c = Normal end) /\
  within w (percent 1 max_block) /\ b_operational (brun empty_block l) = W 0 0 /\ within (total (brun empty_block l)) max_block /\
  ~ admitted (brun empty_block l) Operational w 200.
Proof.
  exists [BHook (W 0 1835008); BTx Normal (W 0 3400000) 200 (W 0 3400000)], (W 1000000000 10000).
  split; [|split; [|split; [|split]]].
  - intros s [<-|[<-|[]]]; [split; discriminate|reflexivity].
  - split; discriminate.
  - reflexivity.
  - split; discriminate.
  - intros [b' H]. vm_compute in H. discriminate.
Qed.

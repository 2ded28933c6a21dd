(** Every call of Kreivo's own pallets fits into a block, and into what the scheduler may use. *)
From Verif Require Import BlocksModel BlocksSpec BlocksProofs CallsFitSpec.
From Verif Require Import Base XcmTypes OriginTypes FeesModel LedgerModel AccountsModel PaymentsModel CommunitiesModel XcmConfigModel XcmInstrModel XcmWeightsModel CostModel WritesModel.
Open Scope N_scope.

Lemma bench_is t p r w : bench t p r w = (t + 25000000 * r + 100000000 * w, p).
Proof. reflexivity. Qed.

Lemma declares_plain k : within_limits k -> (forall k', k <> OwnAsAccount k') ->
  fst (declares k) <= 600000000000 /\ snd (declares k) <= 3417563.
Proof.
  destruct k as [k|k| |n|k]; intros H1 H2; cbn [declares]; unfold benched_weight; rewrite ?bench_is.
  - destruct k as [b a m [l|]| | | | | | |]; cbn [pcall_benched bn_time bn_proof bn_reads bn_writes fst snd default length]; cbn in H1; try (split; lia).
    assert (N.of_nat (length l) <= 50) by lia. change (id l) with l. split; lia.
  - destruct k; vm_compute; split; discriminate.
  - vm_compute; split; discriminate.
  - cbn [create_memberships_benched bn_time bn_proof bn_reads bn_writes fst snd]. cbn in H1. split; lia.
  - destruct (H2 k eq_refl).
Qed.

Lemma sat64_le x : sat64 x <= x.
Proof. unfold sat64. apply N.le_min_l. Qed.
Lemma sat_add_le a b : fst (weight_sat_add a b) <= fst a + fst b /\ snd (weight_sat_add a b) <= snd a + snd b.
Proof. split; apply sat64_le. Qed.

Lemma declares_bound k : within_limits k -> fst (declares k) <= 600300000000 /\ snd (declares k) <= 3422000.
Proof.
  intros H. destruct k as [k|k| |n|k]; try (assert (H' := declares_plain _ H ltac:(intros; discriminate)); lia).
  assert (Hk : within_limits k /\ (forall k', k <> OwnAsAccount k')) by (destruct k; cbn in H; try (split; [exact H|intros; discriminate]); destruct H).
  destruct Hk as [Hk1 Hk2]. destruct (declares_plain k Hk1 Hk2) as [B1 B2].
  cbn [declares]. unfold as_account_info. cbn [ci_weight]. unfold w_dispatch_as_account. rewrite !bench_is.
  match goal with |- context [weight_sat_add (weight_sat_add ?x ?y) ?z] => destruct (sat_add_le (weight_sat_add x y) z), (sat_add_le x y) end.
  cbn [fst snd] in *. lia.
Qed.

Lemma call_permitted k len : within_limits k -> len <= 3932160 -> permitted Normal (declared k) len.
Proof.
  intros H Hl. destruct (declares_bound k H) as [B1 B2]. split.
  - assert (E : max_extrinsic Normal = Some (BlocksModel.W 1399875000000 3670016)) by (vm_compute; reflexivity). rewrite E.
    unfold declared. split; cbn; lia.
  - assert (E : max_length Normal = 3932160) by (vm_compute; reflexivity). rewrite E. exact Hl.
Qed.

Lemma call_admitted : forall k hooks len, within_limits k ->
  w_time hooks <= 590000000000 -> w_proof hooks + len <= 1572864 ->
  admitted (brun empty_block [BHook hooks]) Normal (declared k) len.
Proof.
  intros k hooks len H H1 H2. apply normal_admitted.
  - apply call_permitted; [exact H|lia].
  - assert (E : w_time (percent 30 max_block) = 600000000000) by (vm_compute; reflexivity). rewrite E.
    assert (E' : w_time base_block <= 10000000000) by (vm_compute; discriminate). lia.
  - assert (E : w_proof (percent 30 max_block) = 1572864) by (vm_compute; reflexivity). rewrite E. exact H2.
Qed.

Lemma call_schedulable : forall k, within_limits k ->
  BlocksSpec.within (wadd (declared k) (BlocksModel.W 900000000000 700000)) (BlocksModel.W (2 * 10 ^ 12 * 80 / 100) (5 * 1024 * 1024 * 80 / 100)).
Proof.
  intros k H. destruct (declares_bound k H) as [B1 B2].
  replace (2 * 10 ^ 12 * 80 / 100) with 1600000000000 by (vm_compute; reflexivity). replace (5 * 1024 * 1024 * 80 / 100) with 4194304 by (vm_compute; reflexivity).
  unfold declared, wadd. split; cbn; lia.
Qed.

Lemma memberships_permitted : forall n len, len <= 3932160 -> (permitted Normal (declared (OwnMemberships n)) len <-> n <= 1099).
Proof.
  intros n len Hl. unfold permitted.
  assert (E : max_extrinsic Normal = Some (BlocksModel.W 1399875000000 3670016)) by (vm_compute; reflexivity). rewrite E.
  assert (E2 : max_length Normal = 3932160) by (vm_compute; reflexivity). rewrite E2.
  unfold declared. cbn [declares]. unfold benched_weight. rewrite bench_is. cbn [create_memberships_benched bn_time bn_proof bn_reads bn_writes fst snd].
  unfold BlocksSpec.within. cbn [w_time w_proof]. split; [intros [[_ H] _]; lia|intros H; split; [split; lia|exact Hl]].
Qed.

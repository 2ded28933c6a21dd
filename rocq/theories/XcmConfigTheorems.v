(** What the barrier lets through and whose reserves are accepted, spelt out for PropsXcm.v. *)
From stdpp Require Import list.
From Coq Require Import NArith Lia.
From Verif Require Import Base XcmTypes AssetLocationModel OriginTypes AccountsModel XcmConfigModel XcmConfigSpec XcmBarrierSpec XcmConfigProofs.
Open Scope N_scope.

Lemma skip_clear_is l x rest : skip_clear l = x :: rest -> exists j, l = replicate j BClearOrigin ++ x :: rest.
Proof.
  induction l as [|y l IH]; cbn; [discriminate|]. destruct y; try (intros ->; by exists 0%nat).
  intros H. destruct (IH H) as (j & ->). by exists (S j).
Qed.

Lemma barrier_lets_through : forall para origin l need, need <> (0, 0) -> barrier para origin l need (0, 0) = true ->
  exists k, (k <= 8)%nat /\
  ((exists n j limit rest, drop k l = BAssets n :: replicate j BClearOrigin ++ BBuyExecution limit :: rest /\ (n <= 2)%nat /\ (j <= 3)%nat /\ limit_covers need limit) \/
   (exists limit rest part, drop k l = BUnpaidExecution limit :: rest /\ limit_covers need limit /\
      (forall i x, (i < k)%nat -> l !! i = Some x -> exists js, x = BDescendOrigin js) /\
      let inner := concat (map (fun x => match x with BDescendOrigin js => js | _ => [] end) (take k l)) in
      (origin = Location 1 [] /\ (inner = [] \/ inner = [Plurality BExecutive part]) \/
       origin = Location 1 [Plurality BExecutive part] /\ inner = []))).
Proof.
  intros para origin l need Hn H. destruct (barrier_passes para origin l need Hn H) as (k & Hk & [(n & r & limit & rest & E1 & E2 & E3 & E4)|H2]).
  - exists k. split; [exact Hk|]. left. apply skip_clear_is in E3 as (j & E3).
    exists n, j, limit, (rest ++ drop 4 r). split_and!; [|exact E2| |exact E4].
    + rewrite E1. f_equal. rewrite <- (take_drop 4 r) at 1. rewrite E3, <- app_assoc. reflexivity.
    + assert (L : (length (take 4 r) <= 4)%nat) by (rewrite take_length; lia). rewrite E3, app_length, replicate_length in L. cbn in L. lia.
  - exists k. split; [exact Hk|]. right. exact H2.
Qed.

Lemma covers_within need limit : limit_covers need limit -> within need limit = true.
Proof.
  destruct limit as [w|]; [|done]. intros H. destruct (H w eq_refl) as [H1 H2]. cbn. unfold weight_le. apply andb_true_intro. split; by apply N.leb_le.
Qed.
Lemma skip_clear_replicate j x l : x <> BClearOrigin -> skip_clear (replicate j BClearOrigin ++ x :: l) = x :: l.
Proof. intros Hx. induction j as [|j IH]; cbn; [|exact IH]. by destruct x. Qed.

Lemma paid_let_through : forall para origin n j rest need limit credit, (n <= 2)%nat -> (j <= 3)%nat -> limit_covers need limit ->
  barrier para origin (BAssets n :: replicate j BClearOrigin ++ BBuyExecution limit :: rest) need credit = true.
Proof.
  intros para origin n j rest need limit credit Hn Hj He. unfold barrier. cbn [computed_origin]. apply orb_true_intro. right. apply orb_true_intro. left.
  unfold paid_execution. cbn [take].
  replace (take 4 (replicate j BClearOrigin ++ BBuyExecution limit :: rest)) with (replicate j BClearOrigin ++ BBuyExecution limit :: take (3 - j) rest).
  2:{ rewrite take_app_ge by (rewrite replicate_length; lia). rewrite replicate_length. replace (4 - j)%nat with (S (3 - j)) by lia. reflexivity. }
  rewrite skip_clear_replicate by discriminate. rewrite (covers_within _ _ He). destruct (Nat.leb_spec n 2) as [_|?]; [|lia]. reflexivity.
Qed.
Lemma relay_let_through : forall para rest need limit credit, limit_covers need limit ->
  barrier para (Location 1 []) (BUnpaidExecution limit :: rest) need credit = true.
Proof. intros. apply (barrier_relay para rest need limit credit). by apply covers_within. Qed.
Lemma transact_sovereign : forall l a, transact_origin l KSovereign = Some (RoSigned a) <-> location_to_account l = Some a.
Proof.
  intros l a. unfold transact_origin. destruct (location_to_account l) as [b|]; simpl; split; intros H; try discriminate H; by inversion H.
Qed.
Lemma transact_native : forall l a, transact_origin l KNative = Some (RoSigned a) <->
  exists net id, l = Location 0 [AccountId32 net id] /\ (net = None \/ net = relay_network) /\ a = account_of_bytes id.
Proof.
  intros l a. split.
  - intros H. unfold transact_origin in H.
    repeat match type of H with
    | context [match ?x with _ => _ end] => first [is_var x; destruct x|destruct x eqn:?]; try discriminate H
    end.
    injection H as <-. eexists _, _. split; [reflexivity|]. split; [|reflexivity].
    match goal with E : _ || _ = true |- _ => apply orb_true_iff in E as [E|E]; apply bool_decide_eq_true in E; auto end.
  - intros (net & id & -> & Hn & ->). unfold transact_origin.
    assert (bool_decide (net = None) || bool_decide (net = relay_network) = true) as ->; [|reflexivity].
    apply orb_true_iff. destruct Hn; [left|right]; by apply bool_decide_eq_true.
Qed.

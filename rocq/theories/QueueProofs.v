(** Proofs about the queues of messages. *)
From stdpp Require Import gmap.
From Coq Require Import Lia.
From Verif Require Import BlocksModel BlocksSpec BlocksProofs QueueModel QueueSpec.
Open Scope N_scope.

Definition light (m : msg) : bool := negb (too_heavy m).

Lemma light_heavy m : too_heavy m = true -> light m = false.
Proof. unfold light. intros ->. reflexivity. Qed.
Lemma light_light m : too_heavy m = false -> light m = true.
Proof. unfold light. intros ->. reflexivity. Qed.

(** Messages are taken from the front: heavy ones aside, others executed. *)
Lemma serve_spec : forall l left a d r w, serve left l = (a, d, r, w) ->
  exists t, l = t ++ r /\ a = List.filter too_heavy t /\ d = List.filter light t.
Proof.
  induction l as [|m l IH]; intros left a d r w H; cbn [serve] in H.
  - injection H as <- <- <- <-. exists []. auto.
  - destruct (any_gt (mg_weight m) queue_limit) eqn:E.
    + destruct (serve left l) as [[[a1 d1] r1] w1] eqn:Es. injection H as <- <- <- <-.
      destruct (IH _ _ _ _ _ Es) as (t & -> & -> & ->). exists (m :: t).
      split; [reflexivity|]. change (too_heavy m = true) in E. cbn [List.filter]. rewrite (light_heavy m E), E. auto.
    + destruct (any_gt (mg_weight m) left).
      * injection H as <- <- <- <-. exists []. auto.
      * destruct (serve (wsub left (mg_weight m)) l) as [[[a1 d1] r1] w1] eqn:Es. injection H as <- <- <- <-.
        destruct (IH _ _ _ _ _ Es) as (t & -> & -> & ->). exists (m :: t).
        split; [reflexivity|]. change (too_heavy m = false) in E. cbn [List.filter]. rewrite (light_light m E), E. auto.
Qed.

(** With the whole weight the first message is taken. *)
Lemma serve_head l a d r w : l <> [] -> serve queue_limit l = (a, d, r, w) -> (length r < length l)%nat.
Proof.
  destruct l as [|m l]; [congruence|]. intros _ H. cbn [serve] in H.
  destruct (any_gt (mg_weight m) queue_limit) eqn:E.
  - destruct (serve queue_limit l) as [[[a1 d1] r1] w1] eqn:Es. injection H as <- <- <- <-.
    destruct (serve_spec _ _ _ _ _ _ Es) as (t & -> & _). cbn. rewrite app_length. lia.
  - destruct (serve (wsub queue_limit (mg_weight m)) l) as [[[a1 d1] r1] w1] eqn:Es. injection H as <- <- <- <-.
    destruct (serve_spec _ _ _ _ _ _ Es) as (t & -> & _). cbn. rewrite app_length. lia.
Qed.

Lemma from_chain_app o l1 l2 : from_chain o (l1 ++ l2) = from_chain o l1 ++ from_chain o l2.
Proof. unfold from_chain. rewrite List.filter_app, map_app. reflexivity. Qed.

Lemma from_chain_own o l : from_chain o (map (pair o) l) = l.
Proof. unfold from_chain. induction l as [|m l IH]; [reflexivity|]. cbn. rewrite N.eqb_refl. cbn. f_equal. exact IH. Qed.

Lemma from_chain_other o o' l : o <> o' -> from_chain o' (map (pair o) l) = [].
Proof. intros Hne. unfold from_chain. induction l as [|m l IH]; [reflexivity|]. cbn. destruct (N.eqb_spec o o'); [congruence|]. exact IH. Qed.

(** What serving does to each queue. *)
Definition taken_from (q q' : mq) (o : N) (t : list msg) : Prop :=
  mq_waiting q o = t ++ mq_waiting q' o /\
  from_chain o (mq_done q') = from_chain o (mq_done q) ++ List.filter light t /\
  from_chain o (mq_aside q') = from_chain o (mq_aside q) ++ List.filter too_heavy t.

Lemma taken_refl q o : taken_from q q o [].
Proof. unfold taken_from. cbn. rewrite !app_nil_r. auto. Qed.

Lemma taken_trans q1 q2 q3 o t1 t2 : taken_from q1 q2 o t1 -> taken_from q2 q3 o t2 -> taken_from q1 q3 o (t1 ++ t2).
Proof.
  intros (A1 & B1 & C1) (A2 & B2 & C2). unfold taken_from. rewrite A1, A2, B2, C2, B1, C1, !List.filter_app, !app_assoc. auto.
Qed.

Lemma put_own o l f : put_queue o l f o = l.
Proof. unfold put_queue. rewrite N.eqb_refl. reflexivity. Qed.
Lemma put_other o o' l f : o' <> o -> put_queue o l f o' = f o'.
Proof. unfold put_queue. destruct (N.eqb_spec o' o); congruence. Qed.

Lemma serve_one q o left a d r w : serve left (mq_waiting q o) = (a, d, r, w) ->
  let q' := MQ (put_queue o r (mq_waiting q)) (mq_ring q) (mq_aside q ++ map (pair o) a) (mq_done q ++ map (pair o) d) in
  forall o', exists t, taken_from q q' o' t /\ (o' <> o -> t = []).
Proof.
  cbn zeta. intros H o'. destruct (serve_spec _ _ _ _ _ _ H) as (t & Hw & -> & ->).
  destruct (N.eq_dec o' o) as [->|Hne].
  - exists t. split; [|congruence]. unfold taken_from. cbn [mq_waiting mq_done mq_aside mq_ring]. rewrite put_own, !from_chain_app, !from_chain_own. auto.
  - exists []. split; [|auto]. unfold taken_from. cbn [mq_waiting mq_done mq_aside mq_ring]. rewrite (put_other _ _ _ _ Hne), !from_chain_app, !from_chain_other, !app_nil_r by auto. auto.
Qed.

Lemma serve_ring_spec paused : forall ring left q o, exists t, taken_from q (serve_ring paused left ring q) o t.
Proof.
  induction ring as [|o1 ring IH]; intros left q o; cbn [serve_ring].
  - exists []. apply taken_refl.
  - destruct (paused o1); [apply IH|].
    destruct (serve left (mq_waiting q o1)) as [[[a d] r] w] eqn:Es.
    destruct (serve_one q o1 left a d r w Es o) as (t1 & H1 & _).
    match goal with |- context [serve_ring paused w ring ?q1] => destruct (IH w q1 o) as (t2 & H2) end.
    exists (t1 ++ t2). eapply taken_trans; eauto.
Qed.

(** Pages. *)
Lemma enqueue_waiting q o l o' : mq_waiting (enqueue q o l) o' = mq_waiting q o' ++ (if o =? o' then l else []).
Proof.
  unfold enqueue. destruct l as [|m l].
  - destruct (o =? o'); rewrite app_nil_r; reflexivity.
  - cbn. destruct (N.eqb_spec o o') as [<-|Hne]; [apply put_own|]. rewrite (put_other _ _ _ _ (not_eq_sym Hne)), app_nil_r. reflexivity.
Qed.
Lemma enqueue_done q o l : mq_done (enqueue q o l) = mq_done q /\ mq_aside (enqueue q o l) = mq_aside q.
Proof. unfold enqueue. destruct l; auto. Qed.

(** The account of a history: light messages in order, heavy ones all there. *)
Definition accounted (q : mq) (o : N) (l : list msg) : Prop :=
  List.filter light l = List.filter light (from_chain o (mq_done q)) ++ List.filter light (mq_waiting q o) /\
  Permutation (List.filter too_heavy l)
    (List.filter too_heavy (from_chain o (mq_done q)) ++ from_chain o (mq_aside q) ++ List.filter too_heavy (mq_waiting q o)) /\
  Forall (fun x => too_heavy (snd x) = true) (mq_aside q).

Lemma filter_twice {A} (f : A -> bool) l : List.filter f (List.filter f l) = List.filter f l.
Proof. induction l as [|x l IH]; [reflexivity|]. cbn. destruct (f x) eqn:E; [cbn; rewrite E; f_equal|]; exact IH. Qed.
Lemma filter_neither l : List.filter light (List.filter too_heavy l) = [] /\ List.filter too_heavy (List.filter light l) = [].
Proof.
  induction l as [|x l [IH1 IH2]]; [auto|]. cbn. destruct (too_heavy x) eqn:E; [rewrite (light_heavy x E)|rewrite (light_light x E)]; cbn; [rewrite (light_heavy x E)|rewrite E]; auto.
Qed.

Lemma serve_ring_aside paused : forall ring left q, Forall (fun x => too_heavy (snd x) = true) (mq_aside q) ->
  Forall (fun x => too_heavy (snd x) = true) (mq_aside (serve_ring paused left ring q)).
Proof.
  induction ring as [|o ring IH]; intros left q H; cbn [serve_ring]; [exact H|].
  destruct (paused o); [apply IH, H|].
  destruct (serve left (mq_waiting q o)) as [[[a d] r] w] eqn:Es. apply IH. cbn [mq_waiting mq_done mq_aside mq_ring].
  apply Forall_app. split; [exact H|].
  destruct (serve_spec _ _ _ _ _ _ Es) as (t & _ & -> & _).
  apply Forall_forall. intros x Hx. apply elem_of_list_In in Hx. apply in_map_iff in Hx as (m & <- & Hm).
  apply filter_In in Hm as [_ Hm]. exact Hm.
Qed.

Lemma from_chain_delete o l i o' m : l !! i = Some (o', m) ->
  Permutation (from_chain o l) ((if o' =? o then [m] else []) ++ from_chain o (delete i l)).
Proof.
  intros H. rewrite <- (take_drop_middle l i (o', m) H) at 1. rewrite delete_take_drop.
  rewrite !from_chain_app. change (from_chain o ((o', m) :: drop (S i) l)) with (from_chain o ([(o', m)] ++ drop (S i) l)).
  rewrite from_chain_app. unfold from_chain at 2. cbn. destruct (o' =? o); cbn; [symmetry; apply Permutation_middle|reflexivity].
Qed.

Lemma accounted_step q s o l : accounted q o l ->
  accounted (do_qstep q s) o (l ++ match s with QPage o' room p => if o' =? o then take_page room p else [] | _ => [] end).
Proof.
  intros (H1 & H2 & H3). destruct s as [o' room p|paused|i w]; cbn [do_qstep].
  - destruct (enqueue_done q o' (take_page room p)) as [Ed Ea]. unfold accounted. rewrite Ed, Ea, enqueue_waiting, !List.filter_app.
    split_and!; [rewrite H1, app_assoc; reflexivity| |exact H3].
    rewrite H2. rewrite !app_assoc. reflexivity.
  - rewrite app_nil_r. unfold begin_block.
    destruct (serve_ring_spec paused (mq_ring q) queue_limit q o) as (t & Hw & Hd & Ha).
    set (q' := serve_ring paused queue_limit (mq_ring q) q) in *. unfold accounted. cbn [mq_waiting mq_done mq_aside mq_ring].
    destruct (filter_neither t) as [N1 N2]. split_and!.
    + rewrite H1, Hw, Hd, !List.filter_app, filter_twice, app_assoc. reflexivity.
    + rewrite H2, Hd, Ha, Hw, !List.filter_app, N2, app_nil_r, !app_assoc. reflexivity.
    + apply serve_ring_aside, H3.
  - rewrite app_nil_r. unfold execute_aside. destruct (mq_aside q !! i) as [[o' m]|] eqn:E; [|unfold accounted; auto].
    destruct (beyond w (max_extrinsic Normal) || any_gt (mg_weight m) w); [unfold accounted; auto|].
    assert (Hm : too_heavy m = true).
    { rewrite Forall_forall in H3. apply (H3 (o', m)). eapply elem_of_list_lookup_2, E. }
    unfold accounted. cbn [mq_waiting mq_done mq_aside mq_ring]. rewrite from_chain_app, !List.filter_app. split_and!.
    + rewrite H1. f_equal. unfold from_chain at 2. cbn. destruct (o' =? o); cbn; [|rewrite app_nil_r; reflexivity].
      rewrite (light_heavy m Hm), app_nil_r. reflexivity.
    + rewrite H2, (from_chain_delete o _ _ _ _ E). unfold from_chain at 3. cbn. destruct (o' =? o); cbn.
      * rewrite Hm. rewrite <- !app_assoc. reflexivity.
      * rewrite app_nil_r. reflexivity.
    + apply Forall_delete, H3.
Qed.

Lemma accounted_run o : forall l q l0, accounted q o l0 -> accounted (qrun q l) o (l0 ++ queued l o).
Proof.
  induction l as [|s l IH]; intros q l0 H; [cbn; rewrite app_nil_r; exact H|].
  change (qrun q (s :: l)) with (qrun (do_qstep q s) l). specialize (IH _ _ (accounted_step q s o l0 H)).
  destruct s as [o' room p|paused|i w]; cbn [queued]; [rewrite app_assoc; exact IH| |]; rewrite app_nil_r in IH; exact IH.
Qed.

(** Every message that got into the queue is waiting, set aside, or was executed, once; those that fit a block are executed in the order of delivery. *)
Lemma queue_account l o : let q := qrun mq0 l in
  Permutation (queued l o) (from_chain o (mq_done q) ++ from_chain o (mq_aside q) ++ mq_waiting q o) /\
  List.filter (fun m => negb (too_heavy m)) (queued l o) =
    List.filter (fun m => negb (too_heavy m)) (from_chain o (mq_done q)) ++ List.filter (fun m => negb (too_heavy m)) (mq_waiting q o) /\
  (forall x, In x (mq_aside q) -> too_heavy (snd x) = true).
Proof.
  cbn zeta. assert (H0 : accounted mq0 o []) by (unfold accounted; cbn; split_and!; auto).
  destruct (accounted_run o l mq0 [] H0) as (H1 & H2 & H3). cbn [app] in H1, H2. set (q := qrun mq0 l) in *.
  assert (Split : forall x : list msg, Permutation x (List.filter light x ++ List.filter too_heavy x)).
  { induction x as [|m x IH]; [reflexivity|]. cbn. unfold light at 1. destruct (too_heavy m); cbn; [|apply perm_skip, IH].
    rewrite <- Permutation_middle. apply perm_skip, IH. }
  split_and!.
  - etransitivity; [apply Split|]. rewrite H1, H2.
    etransitivity; [|symmetry; apply Permutation_app; [apply Split|apply Permutation_app_head, Split]].
    rewrite <- !app_assoc. apply Permutation_app_head.
    rewrite (app_assoc (List.filter too_heavy (from_chain o (mq_done q)))), (app_assoc (List.filter light (mq_waiting q o))).
    rewrite (Permutation_app_comm (List.filter light (mq_waiting q o))), <- !app_assoc. reflexivity.
  - exact H1.
  - intros x Hx. rewrite Forall_forall in H3. apply H3. apply elem_of_list_In, Hx.
Qed.

(* ------------------------------------------------------------------ *)
(** * Messages get their turn *)

(** The ring holds the chains with messages waiting, each once. *)
Record ring_ok (q : mq) : Prop := {
  ro_nodup : NoDup (mq_ring q);
  ro_in : forall o, o ∈ mq_ring q <-> mq_waiting q o <> [];
}.

Lemma has_waiting_spec q o : has_waiting q o = true <-> mq_waiting q o <> [].
Proof. unfold has_waiting. destruct (mq_waiting q o); split; congruence. Qed.

Lemma rotate_perm (l : list N) : Permutation (match l with [] => [] | o :: r => r ++ [o] end) l.
Proof. destruct l as [|o r]; [reflexivity|]. symmetry. apply Permutation_cons_append. Qed.

Lemma NoDup_List_filter {A} (f : A -> bool) (l : list A) : NoDup l -> NoDup (List.filter f l).
Proof. rewrite !NoDup_ListNoDup. apply List.NoDup_filter. Qed.

Lemma ring_ok_step q s : ring_ok q -> ring_ok (do_qstep q s).
Proof.
  intros [H1 H2]. destruct s as [o room p|paused|i w]; cbn [do_qstep].
  - unfold enqueue. destruct (take_page room p) as [|m l] eqn:E; [split; assumption|].
    split; cbn [mq_ring mq_waiting].
    + case_bool_decide; [exact H1|]. apply NoDup_app. split_and!; [exact H1| |apply NoDup_singleton].
      intros x Hx Hin. apply elem_of_list_singleton in Hin. subst. contradiction.
    + intros o'. destruct (N.eq_dec o' o) as [->|Hne].
      * rewrite put_own. split; [intros _; destruct (mq_waiting q o); discriminate|]. intros _. case_bool_decide; [assumption|].
        apply elem_of_app. right. apply elem_of_list_singleton. reflexivity.
      * rewrite (put_other _ _ _ _ Hne), <- H2. case_bool_decide; [reflexivity|]. rewrite elem_of_app, elem_of_list_singleton. tauto.
  - unfold begin_block. set (q' := serve_ring paused queue_limit (mq_ring q) q). split; cbn [mq_ring mq_waiting].
    + apply NoDup_List_filter. rewrite rotate_perm. exact H1.
    + intros o. rewrite elem_of_list_In, filter_In. rewrite <- elem_of_list_In, rotate_perm, H2.
      assert (Hs : has_waiting (MQ (mq_waiting q') (mq_ring q) (mq_aside q) (mq_done q)) o = has_waiting q' o) by reflexivity.
      rewrite has_waiting_spec. split; [tauto|]. intros Hw. split; [|exact Hw].
      destruct (serve_ring_spec paused (mq_ring q) queue_limit q o) as (t & Hw' & _). fold q' in Hw'. rewrite Hw'. intros He. apply app_eq_nil in He. tauto.
  - unfold execute_aside. destruct (mq_aside q !! i) as [[o m]|]; [|split; assumption].
    destruct (beyond w (max_extrinsic Normal) || any_gt (mg_weight m) w); split; assumption.
Qed.

Lemma ring_ok_run l : forall q, ring_ok q -> ring_ok (qrun q l).
Proof. induction l as [|s l IH]; intros q H; [exact H|]. change (qrun q (s :: l)) with (qrun (do_qstep q s) l). apply IH, ring_ok_step, H. Qed.
Lemma ring_ok0 : ring_ok mq0.
Proof. split; [constructor|]. intros o. cbn. split; [intros H; inversion H|congruence]. Qed.

(** Only chains that deliver are in the ring. *)
Lemma ring_from chains l : forall q, only_from chains l -> (forall o, o ∈ mq_ring q -> In o chains) -> forall o, o ∈ mq_ring (qrun q l) -> In o chains.
Proof.
  induction l as [|s l IH]; intros q Ho Hq o; [apply Hq|]. change (qrun q (s :: l)) with (qrun (do_qstep q s) l). apply IH.
  { intros o1 room p H. apply (Ho o1 room p). right. exact H. }
  intros o1. destruct s as [o2 room p|paused|i w]; cbn [do_qstep].
  - unfold enqueue. destruct (take_page room p) eqn:E; [apply Hq|]. cbn [mq_ring]. case_bool_decide; [apply Hq|].
    rewrite elem_of_app, elem_of_list_singleton. intros [H1| ->]; [apply Hq, H1|]. apply (Ho o2 room p). left. reflexivity.
  - unfold begin_block. cbn [mq_ring]. rewrite elem_of_list_In, filter_In. intros [H _]. apply elem_of_list_In in H. rewrite rotate_perm in H. apply Hq, H.
  - unfold execute_aside. destruct (mq_aside q !! i) as [[o2 m]|]; [|apply Hq].
    destruct (beyond w (max_extrinsic Normal) || any_gt (mg_weight m) w); apply Hq.
Qed.

(** How long a message still waits: [k] messages before it, its chain at place [i] of the ring. *)
Definition waits (q : mq) (o : N) (k i : nat) (m : msg) (post : list msg) : Prop :=
  (exists pre, mq_waiting q o = pre ++ m :: post /\ length pre = k) /\ (exists r1 r2, mq_ring q = r1 ++ o :: r2 /\ length r1 = i).

Lemma filter_place (f : N -> bool) r1 o r2 : f o = true -> exists r1' r2', List.filter f (r1 ++ o :: r2) = r1' ++ o :: r2' /\ (length r1' <= length r1)%nat.
Proof.
  intros Ho. rewrite List.filter_app. cbn. rewrite Ho. eexists _, _. split; [reflexivity|].
  induction r1 as [|x r1 IH]; cbn; [lia|]. destruct (f x); cbn; lia.
Qed.

(** Served with the whole weight, the first chain of the ring gets rid of a message. *)
Lemma serve_ring_head paused o r q : paused o = false -> mq_waiting q o <> [] ->
  exists t, taken_from q (serve_ring paused queue_limit (o :: r) q) o t /\ t <> [].
Proof.
  intros Hp Hw. cbn [serve_ring]. rewrite Hp.
  destruct (serve queue_limit (mq_waiting q o)) as [[[a d] r0] w] eqn:Es.
  destruct (serve_one q o queue_limit a d r0 w Es o) as (t1 & H1 & _).
  match goal with |- context [serve_ring paused w r ?q1] => destruct (serve_ring_spec paused r w q1 o) as (t2 & H2) end.
  exists (t1 ++ t2). split; [eapply taken_trans; eauto|].
  pose proof (serve_head _ _ _ _ _ Hw Es) as Hl. destruct H1 as (H1 & _). cbn [mq_waiting] in H1. rewrite put_own in H1.
  destruct t1; [|discriminate]. cbn in H1. rewrite H1 in Hl. lia.
Qed.

(** Taking some from the front of a queue takes a given message or leaves fewer before it. *)
Lemma take_front (pre : list msg) m post t w : pre ++ m :: post = t ++ w ->
  (In m t /\ exists u, post = u ++ w) \/ (exists pre', w = pre' ++ m :: post /\ pre = t ++ pre').
Proof.
  revert t. induction pre as [|x pre IH]; intros [|y t] H.
  - right. exists []. cbn in *. auto.
  - left. cbn in H. injection H as -> ->. split; [left; reflexivity|]. exists t. reflexivity.
  - right. exists (x :: pre). cbn in *. auto.
  - cbn in H. injection H as -> H. destruct (IH t H) as [[H1 H2]|(pre' & H1 & ->)].
    + left. split; [right; exact H1|exact H2].
    + right. exists pre'. auto.
Qed.

(** One block: the message is dealt with, or its wait is shorter. *)
Lemma block_turn paused q o k i m post bound : ring_ok q -> paused o = false -> waits q o k i m post -> (length (mq_ring (begin_block paused q)) <= bound)%nat ->
  (exists t, taken_from q (begin_block paused q) o t /\ In m t) \/
  (exists k' i', waits (begin_block paused q) o k' i' m post /\ (k' * bound + i' < k * bound + i)%nat).
Proof.
  intros [Hnd Hin] Hp [(pre & Hw & <-) (r1 & r2 & Hr & <-)] Hb.
  assert (Hne : mq_waiting q o <> []) by (rewrite Hw; destruct pre; discriminate).
  set (q1 := begin_block paused q) in *.
  assert (Hser : exists t, taken_from q (serve_ring paused queue_limit (mq_ring q) q) o t /\ (r1 = [] -> t <> [])).
  { rewrite Hr. destruct r1 as [|x r1].
    - destruct (serve_ring_head paused o r2 q Hp Hne) as (t & Ht & Hn). exists t. auto.
    - destruct (serve_ring_spec paused ((x :: r1) ++ o :: r2) queue_limit q o) as (t & Ht). exists t. split; [exact Ht|discriminate]. }
  destruct Hser as (t & Ht & Hhead).
  assert (Ht1 : taken_from q q1 o t) by exact Ht.
  destruct Ht as (Hwt & _ & _). rewrite Hw in Hwt.
  destruct (take_front _ _ _ _ _ Hwt) as [[Hm _]|(pre' & Hw' & ->)]; [left; eauto|right].
  assert (Hq1 : mq_waiting q1 o = pre' ++ m :: post) by exact Hw'.
  assert (Hwo : has_waiting (serve_ring paused queue_limit (mq_ring q) q) o = true) by (apply has_waiting_spec; rewrite Hw'; destruct pre'; discriminate).
  assert (Hring : exists r1' r2', mq_ring q1 = r1' ++ o :: r2' /\ (r1 <> [] -> length r1' < length r1)%nat).
  { unfold q1, begin_block. cbn [mq_ring]. rewrite Hr. rewrite Hr in Hwo. destruct r1 as [|x r1].
    - cbn [app] in *. destruct (filter_place (has_waiting (serve_ring paused queue_limit (o :: r2) q)) r2 o [] Hwo) as (r1' & r2' & E & _).
      exists r1', r2'. split; [exact E|congruence].
    - cbn [app] in *. rewrite <- app_assoc. cbn [app].
      destruct (filter_place (has_waiting (serve_ring paused queue_limit (x :: r1 ++ o :: r2) q)) r1 o (r2 ++ [x]) Hwo) as (r1' & r2' & E & Hl).
      exists r1', r2'. split; [exact E|]. cbn. lia. }
  destruct Hring as (r1' & r2' & Hr1 & Hlen).
  exists (length pre'), (length r1'). split.
  - split; [exists pre'; auto|exists r1', r2'; auto].
  - rewrite app_length. destruct r1 as [|x r1].
    + rewrite Hr1, app_length in Hb. cbn in Hb. specialize (Hhead eq_refl). destruct t; [congruence|]. cbn. nia.
    + specialize (Hlen ltac:(discriminate)). nia.
Qed.

(** Other steps do not make it wait longer. *)
Lemma other_turn q s o k i m post : (forall p, s <> QBlock p) -> waits q o k i m post ->
  exists post', waits (do_qstep q s) o k i m post' /\ exists x, post' = post ++ x.
Proof.
  intros Hs [(pre & Hw & Hk) (r1 & r2 & Hr & Hi)]. destruct s as [o' room p|paused|j w]; [|exfalso; eapply Hs; reflexivity|]; cbn [do_qstep].
  - exists (post ++ (if o' =? o then take_page room p else [])). split; [|eauto]. split.
    + exists pre. rewrite enqueue_waiting, Hw. rewrite <- app_assoc. auto.
    + unfold enqueue. destruct (take_page room p); [eauto|]. cbn [mq_ring]. case_bool_decide; [eauto|].
      exists r1, (r2 ++ [o']). rewrite Hr, <- app_assoc. auto.
  - exists post. split; [|exists []; rewrite app_nil_r; reflexivity]. unfold execute_aside. destruct (mq_aside q !! j) as [[o' m']|]; [|split; eauto].
    destruct (beyond w (max_extrinsic Normal) || any_gt (mg_weight m') w); split; cbn; eauto.
Qed.

(** Executed messages stay on record. *)
Lemma done_grows o s q : exists x, from_chain o (mq_done (do_qstep q s)) = from_chain o (mq_done q) ++ x.
Proof.
  destruct s as [o' room p|paused|i w]; cbn [do_qstep].
  - destruct (enqueue_done q o' (take_page room p)) as [-> _]. exists []. rewrite app_nil_r. reflexivity.
  - unfold begin_block. cbn [mq_done]. destruct (serve_ring_spec paused (mq_ring q) queue_limit q o) as (t & _ & -> & _). eauto.
  - unfold execute_aside. destruct (mq_aside q !! i) as [[o' m']|]; [|exists []; rewrite app_nil_r; reflexivity].
    destruct (beyond w (max_extrinsic Normal) || any_gt (mg_weight m') w); [exists []; rewrite app_nil_r; reflexivity|].
    cbn [mq_done]. rewrite from_chain_app. eauto.
Qed.
Lemma done_grows_run o l : forall q, exists x, from_chain o (mq_done (qrun q l)) = from_chain o (mq_done q) ++ x.
Proof.
  induction l as [|s l IH]; intros q; [exists []; rewrite app_nil_r; reflexivity|].
  change (qrun q (s :: l)) with (qrun (do_qstep q s) l). destruct (IH (do_qstep q s)) as (x & ->). destruct (done_grows o s q) as (y & ->).
  exists (y ++ x). rewrite app_assoc. reflexivity.
Qed.

Lemma turn_comes chains o m : too_heavy m = false -> forall l q k i post, ring_ok q -> only_from chains l -> (forall o, o ∈ mq_ring q -> In o chains) ->
  never_paused o l -> waits q o k i m post -> (k * length chains + i < blocks l)%nat ->
  exists x, from_chain o (mq_done (qrun q l)) = from_chain o (mq_done q) ++ x /\ In m x.
Proof.
  intros Hm. induction l as [|s l IH]; intros q k i post Hok Hfrom Hring Hnp Hw Hlt; [cbn in Hlt; lia|].
  change (qrun q (s :: l)) with (qrun (do_qstep q s) l).
  assert (Hok' : ring_ok (do_qstep q s)) by (apply ring_ok_step, Hok).
  assert (Hfrom' : only_from chains l) by (intros o1 r p H; apply (Hfrom o1 r p); right; exact H).
  assert (Hring' : forall o, o ∈ mq_ring (do_qstep q s) -> In o chains).
  { apply (ring_from chains [s] q); [|exact Hring]. intros o1 r p [H|[]]. apply (Hfrom o1 r p). left. exact H. }
  assert (Hnp' : never_paused o l) by (intros p H; apply Hnp; right; exact H).
  destruct (done_grows o s q) as (y & Hy).
  assert (Hcase : (exists p, s = QBlock p) \/ forall p, s <> QBlock p) by (destruct s; [right; intros; discriminate|left; eauto|right; intros; discriminate]).
  destruct Hcase as [[p ->]|Hs].
  - cbn [blocks] in Hlt. cbn [do_qstep] in *.
    assert (Hb : (length (mq_ring (begin_block p q)) <= length chains)%nat).
    { apply NoDup_incl_length; [apply NoDup_ListNoDup, (ro_nodup _ Hok')|]. intros x Hx. apply Hring', elem_of_list_In, Hx. }
    destruct (block_turn p q o k i m post (length chains) Hok (Hnp p ltac:(left; reflexivity)) Hw Hb) as [(t & Ht & Hin)|(k' & i' & Hw' & Hless)].
    + destruct Ht as (_ & Hd & _). destruct (done_grows_run o l (begin_block p q)) as (x & Hx). rewrite Hx, Hd.
      exists (List.filter light t ++ x). split; [rewrite app_assoc; reflexivity|]. apply in_or_app. left. apply filter_In.
      split; [exact Hin|apply light_light, Hm].
    + destruct (IH _ k' i' post Hok' Hfrom' Hring' Hnp' Hw' ltac:(lia)) as (x & Hx & Hin). rewrite Hx, Hy.
      exists (y ++ x). split; [rewrite app_assoc; reflexivity|]. apply in_or_app. auto.
  - destruct (other_turn q s o k i m post Hs Hw) as (post' & Hw' & _).
    assert (Hl : (k * length chains + i < blocks l)%nat).
    { destruct s; cbn [blocks] in Hlt; [exact Hlt|exfalso; eapply Hs; reflexivity|exact Hlt]. }
    destruct (IH _ k i post' Hok' Hfrom' Hring' Hnp' Hw' Hl) as (x & Hx & Hin). rewrite Hx, Hy.
    exists (y ++ x). split; [rewrite app_assoc; reflexivity|]. apply in_or_app. auto.
Qed.

(** A message that fits is executed after at most as many blocks as chains deliver, for it and for each message that waits before it. *)
Lemma executed_in_time chains l1 l2 o pre m post :
  only_from chains (l1 ++ l2) -> never_paused o l2 -> mq_waiting (qrun mq0 l1) o = pre ++ m :: post -> too_heavy m = false ->
  ((length pre + 1) * length chains <= blocks l2)%nat ->
  exists x, from_chain o (mq_done (qrun mq0 (l1 ++ l2))) = from_chain o (mq_done (qrun mq0 l1)) ++ x /\ In m x.
Proof.
  intros Hfrom Hnp Hw Hm Hb. unfold qrun at 1. rewrite fold_left_app. fold (qrun mq0 l1). fold (qrun (qrun mq0 l1) l2).
  pose proof (ring_ok_run l1 mq0 ring_ok0) as Hok. set (q := qrun mq0 l1) in *.
  assert (Hf1 : only_from chains l1) by (intros o1 r p H; apply (Hfrom o1 r p), in_or_app; auto).
  assert (Hf2 : only_from chains l2) by (intros o1 r p H; apply (Hfrom o1 r p), in_or_app; auto).
  assert (Hring : forall o, o ∈ mq_ring q -> In o chains) by (apply (ring_from chains l1 mq0 Hf1); intros x Hx; inversion Hx).
  assert (Hin : o ∈ mq_ring q) by (apply (ro_in _ Hok); rewrite Hw; destruct pre; discriminate).
  destruct (elem_of_list_split _ _ Hin) as (r1 & r2 & Hr).
  assert (Hlen : (length r1 < length chains)%nat).
  { assert (H : (length (mq_ring q) <= length chains)%nat).
    { apply NoDup_incl_length; [apply NoDup_ListNoDup, (ro_nodup _ Hok)|]. intros x Hx. apply Hring, elem_of_list_In, Hx. }
    rewrite Hr, app_length in H. cbn in H. lia. }
  eapply (turn_comes chains o m Hm l2 q (length pre) (length r1) post); auto; [|lia].
  split; [exists pre; auto|exists r1, r2; auto].
Qed.

(** What was executed fits a transaction at least. *)
Lemma executed_fits l : forall q, (forall x, In x (mq_done q) -> any_gt (mg_weight (snd x)) (W 1399875000000 3670016) = false) ->
  forall x, In x (mq_done (qrun q l)) -> any_gt (mg_weight (snd x)) (W 1399875000000 3670016) = false.
Proof.
  assert (Serve : forall paused ring left q, (forall x, In x (mq_done q) -> any_gt (mg_weight (snd x)) (W 1399875000000 3670016) = false) ->
    forall x, In x (mq_done (serve_ring paused left ring q)) -> any_gt (mg_weight (snd x)) (W 1399875000000 3670016) = false).
  { intros paused. induction ring as [|o ring IH]; intros left q Hq; cbn [serve_ring]; [exact Hq|].
    destruct (paused o); [apply IH, Hq|]. destruct (serve left (mq_waiting q o)) as [[[a d] r] w] eqn:Es. apply IH. cbn [mq_done].
    intros x Hx. apply in_app_or in Hx as [Hx|Hx]; [apply Hq, Hx|]. apply in_map_iff in Hx as (m & <- & Hm).
    destruct (serve_spec _ _ _ _ _ _ Es) as (t & _ & _ & ->). apply filter_In in Hm as [_ Hm]. unfold light in Hm. apply negb_true_iff in Hm.
    unfold too_heavy in Hm. apply any_gt_false in Hm. apply any_gt_false. change queue_limit with (W 700000000000 1835008) in Hm.
    unfold within in *. cbn [w_time w_proof snd] in *. lia. }
  induction l as [|s l IH]; intros q Hq; [exact Hq|]. change (qrun q (s :: l)) with (qrun (do_qstep q s) l). apply IH.
  destruct s as [o room p|paused|i w]; cbn [do_qstep].
  - destruct (enqueue_done q o (take_page room p)) as [-> _]. exact Hq.
  - unfold begin_block. cbn [mq_done]. apply Serve, Hq.
  - unfold execute_aside. destruct (mq_aside q !! i) as [[o' m']|]; [|exact Hq].
    destruct (beyond w (max_extrinsic Normal) || any_gt (mg_weight m') w) eqn:E; [exact Hq|].
    apply orb_false_iff in E as [E1 E2]. cbn [mq_done]. intros x Hx. apply in_app_or in Hx as [Hx|[<-|[]]]; [apply Hq, Hx|].
    rewrite max_normal_v in E1. cbn [beyond] in E1. apply any_gt_false in E1, E2. apply any_gt_false. unfold within in *. cbn [snd w_time w_proof] in *. lia.
Qed.

(** Pages of messages that are short enough are queued as they are. *)
Lemma page_taken l : forall room, (forall m, In m l -> mg_size m <= max_message_len) -> (length l <= room)%nat -> take_page room (messages l) = l.
Proof.
  induction l as [|m l IH]; intros room H Hr; [destruct room; reflexivity|].
  destruct room as [|room]; [cbn in Hr; lia|]. cbn [messages map take_page]. fold (messages l). destruct (N.leb_spec (mg_size m) max_message_len) as [_|Hlt].
  - f_equal. apply IH; [|cbn in Hr; lia]. intros m' Hm'. apply H. right. exact Hm'.
  - specialize (H m ltac:(left; reflexivity)). lia.
Qed.
Lemma page_queued q o room l : (forall m, In m l -> mg_size m <= 65531) -> (length l <= room)%nat ->
  mq_waiting (do_qstep q (QPage o room (messages l))) o = mq_waiting q o ++ l.
Proof. intros H Hr. cbn [do_qstep]. rewrite enqueue_waiting, N.eqb_refl, page_taken; auto. Qed.

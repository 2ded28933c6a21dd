(** C180 to C182: texts of calls kept on chain for referenda and the scheduler. *)
From stdpp Require Import gmap countable.
From Coq Require Import Lia.
From Verif Require Import Base RuntimeModel PreimageModel PreimageSpec Preimage.
Open Scope N_scope.

(** A hash to show cases with. *)
Definition a_hash (t : list N) : N := N.pos (encode t).
Lemma a_hash_injective : no_collisions a_hash.
Proof. intros t u H. unfold a_hash in H. injection H as H. exact (encode_inj t u H). Qed.

(* ------------------------------------------------------------------ *)
(** C180. Texts stay. A text somebody pays for is there until they take it back or root removes it; one that was there as it was asked for
    is there until all that was asked for is withdrawn, whoever takes it back; and what is there for a hash is what has that hash. *)
Theorem C180_paid : forall hash, no_collisions hash -> forall l1 ok a t l2,
  has_free (p_end hash l1) a <> has_free (p_end hash (l1 ++ [PNote (Some a) ok t])) a ->
  (forall x, x ∈ l2 -> x <> PUnnote (Some a) (hash t) /\ x <> PUnnote None (hash t)) ->
  let s := p_end hash (l1 ++ PNote (Some a) ok t :: l2) in text_of s (hash t) = Some t /\ pays s a (hash t).
Proof. exact kept_paid. Qed.
Print Assumptions C180_paid.

Theorem C180_wanted : forall hash, no_collisions hash -> forall l1 h t l2,
  text_of (p_end hash l1) h = Some t -> wanted h 1 l2 -> text_of (p_end hash (l1 ++ PRequest h :: l2)) h = Some t.
Proof. exact kept_wanted. Qed.
Print Assumptions C180_wanted.

Theorem C180_right : forall hash, no_collisions hash -> forall l h t, text_of (p_end hash l) h = Some t -> hash t = h.
Proof. exact right_text. Qed.
Print Assumptions C180_right.

Definition pre_t : list N := [4; 0; 77].
Definition pre_l1 : list pstep := [PMoney 1 (10 * UNITS); PMoney 2 (10 * UNITS); PNote (Some 2) true [5]].
Definition pre_l2 : list pstep := [PRequest (a_hash pre_t); PUnnote (Some 2) (a_hash pre_t); PNote (Some 2) true pre_t; PUnrequest (a_hash pre_t); PSpend 1 7].
Example C180_paid_case : has_free (p_end a_hash pre_l1) 1 <> has_free (p_end a_hash (pre_l1 ++ [PNote (Some 1) true pre_t])) 1 /\
  (forall x, x ∈ pre_l2 -> x <> PUnnote (Some 1) (a_hash pre_t) /\ x <> PUnnote None (a_hash pre_t)).
Proof.
  split; [vm_compute; intros H; discriminate H|]. intros x H. unfold pre_l2 in H. repeat (apply elem_of_cons in H as [->|H]; [split; discriminate|]). apply elem_of_nil in H. destruct H.
Qed.
(** Taken back by who paid, and given by another for nothing, while asked for twice. *)
Definition pre_l3 : list pstep := [PUnnote (Some 1) (a_hash pre_t); PRequest (a_hash pre_t); PUnrequest (a_hash pre_t); PNote (Some 2) true pre_t].
Example C180_wanted_case : text_of (p_end a_hash (pre_l1 ++ [PNote (Some 1) true pre_t])) (a_hash pre_t) = Some pre_t /\ wanted (a_hash pre_t) 1 pre_l3 /\
  text_of (p_end a_hash ((pre_l1 ++ [PNote (Some 1) true pre_t]) ++ PRequest (a_hash pre_t) :: pre_l3 ++ [PUnrequest (a_hash pre_t)])) (a_hash pre_t) = None.
Proof. split; [vm_compute; reflexivity|]. split; [vm_compute; repeat split; reflexivity|vm_compute; reflexivity]. Qed.

(* ------------------------------------------------------------------ *)
(** C181. What is deposited for texts. On hold is exactly what the texts cost that an account pays for; it comes back in full as a text is taken
    back, by who paid or by root, which always succeeds, and others cannot take it back; nothing is lost or gained, and nobody else touched. *)
Theorem C181_exact : forall hash, no_collisions hash -> forall l a hs, NoDup hs ->
  let s := p_end hash l in (forall h, h ∈ hs <-> pays s a h) ->
  on_hold s a = foldr (fun h z => match text_of s h with Some t => costs t | None => 0 end + z) 0 hs.
Proof. exact exact_hold. Qed.
Print Assumptions C181_exact.

Theorem C181_back : forall hash, no_collisions hash -> forall l a h who t,
  let s := p_end hash l in pays s a h -> text_of s h = Some t -> who = Some a \/ who = None ->
  exists s', pstep_try hash s (PUnnote who h) = Some s' /\ on_hold s' a + costs t = on_hold s a /\ has_free s' a = has_free s a + costs t /\ ~ pays s' a h.
Proof. exact takes_back. Qed.
Print Assumptions C181_back.

Theorem C181_others : forall hash l a b h, let s := p_end hash l in pays s a h -> b <> a -> ~ succeeds hash s (PUnnote (Some b) h).
Proof. exact others_cannot. Qed.
Print Assumptions C181_others.

Theorem C181_sum : forall hash s x s' a, pstep_try hash s x = Some s' -> (forall n, x <> PMoney a n /\ x <> PSpend a n) ->
  has_free s' a + on_hold s' a = has_free s a + on_hold s a.
Proof. exact sums. Qed.
Print Assumptions C181_sum.

Theorem C181_untouched : forall hash s x s' a, pstep_try hash s x = Some s' ->
  match x with
  | PNote (Some b) _ _ | PUnnote (Some b) _ | PMoney b _ | PSpend b _ => b <> a
  | PUnnote None h => ~ pays s a h
  | _ => True
  end -> has_free s' a = has_free s a /\ on_hold s' a = on_hold s a.
Proof. exact untouched. Qed.
Print Assumptions C181_untouched.

Definition pre_l4 : list pstep := pre_l1 ++ [PNote (Some 1) true pre_t; PRequest (a_hash pre_t); PNote (Some 1) true [9; 9]].
Example C181_case : let s := p_end a_hash pre_l4 in pays s 1 (a_hash pre_t) /\ pays s 1 (a_hash [9; 9]) /\ pays s 2 (a_hash [5]) /\
  on_hold s 1 = costs pre_t + costs [9; 9] /\ costs pre_t = 13355666631 /\ has_free s 1 + on_hold s 1 = 10 * UNITS.
Proof.
  cbv zeta. split; [eexists; right; do 2 eexists; vm_compute; reflexivity|]. split; [eexists; left; eexists; vm_compute; reflexivity|].
  split; [eexists; left; eexists; vm_compute; reflexivity|]. split; [vm_compute; reflexivity|]. split; vm_compute; reflexivity.
Qed.

(* ------------------------------------------------------------------ *)
(** C182. Whoever pays for a text can have it on chain until they take it back. True of texts nobody pays for already; false of others. Then the
    call fails, and who was first can take the text back though the other wants to pay for it. *)
Theorem C182_note_partial : forall hash l a t, let s := p_end hash l in
  N.of_nat (length t) <= 4194304 -> costs t <= has_free s a -> (forall b, ~ pays s b (hash t)) ->
  exists s', pstep_try hash s (PNote (Some a) true t) = Some s' /\ text_of s' (hash t) = Some t.
Proof. exact can_note. Qed.
Print Assumptions C182_note_partial.

Theorem C182_note_refuted : exists hash, no_collisions hash /\ exists l1 l2 a b t, a <> b /\
  N.of_nat (length t) <= 4194304 /\ costs t <= has_free (p_end hash l1) a /\ ~ succeeds hash (p_end hash l1) (PNote (Some a) true t) /\
  l2 = [PUnnote (Some b) (hash t)] /\ text_of (p_end hash (l1 ++ PNote (Some a) true t :: l2)) (hash t) = None.
Proof.
  exists a_hash. split; [exact a_hash_injective|]. exists (pre_l1 ++ [PNote (Some 2) true pre_t]), [PUnnote (Some 2) (a_hash pre_t)], 1, 2, pre_t.
  split; [discriminate|]. split; [vm_compute; discriminate|]. split; [vm_compute; discriminate|].
  split; [intros [s' E]; vm_compute in E; discriminate E|]. split; [reflexivity|vm_compute; reflexivity].
Qed.
Print Assumptions C182_note_refuted.

Example C182_case : let s := p_end a_hash pre_l1 in N.of_nat (length pre_t) <= 4194304 /\ costs pre_t <= has_free s 1 /\ (forall b, ~ pays s b (a_hash pre_t)).
Proof.
  cbv zeta. split; [vm_compute; discriminate|]. split; [vm_compute; discriminate|].
  intros b (n & [(k & E)|(c & k & E)]); vm_compute in E; discriminate E.
Qed.

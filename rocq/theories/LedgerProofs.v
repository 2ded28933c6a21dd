(** What the ledger operations do to balances and totals. *)
From Verif Require Import BaseProofs FeesModel LedgerModel PaymentsModel PaymentsSpec.
From stdpp Require Import gmap.
Open Scope N_scope.

Section gsum.
  Context {K A} `{Countable K} (f : K -> A -> N).

  Lemma gsum_empty : gsum f ∅ = 0.
  Proof. unfold gsum. by rewrite map_fold_empty. Qed.

  Lemma gsum_insert_new k v m : m !! k = None -> gsum f (<[k:=v]> m) = f k v + gsum f m.
  Proof. intros Hk. unfold gsum. rewrite map_fold_insert_L; [done| |done]. intros. lia. Qed.

  Lemma gsum_delete k v m : m !! k = Some v -> f k v + gsum f (delete k m) = gsum f m.
  Proof.
    intros Hk. rewrite <-(gsum_insert_new k v (delete k m)) by apply lookup_delete.
    by rewrite insert_delete.
  Qed.

  Lemma gsum_insert k v m : gsum f (<[k:=v]> m) + from_option (f k) 0 (m !! k) = gsum f m + f k v.
  Proof.
    destruct (m !! k) as [w|] eqn:Hk; cbn [from_option].
    - rewrite <-(gsum_delete k w m Hk), <-insert_delete_insert.
      rewrite gsum_insert_new by apply lookup_delete. lia.
    - rewrite gsum_insert_new by done. lia.
  Qed.

  Lemma gsum_ge k v m : m !! k = Some v -> f k v <= gsum f m.
  Proof. intros Hk. rewrite <-(gsum_delete k v m Hk). lia. Qed.

  Lemma gsum_ge2 k1 v1 k2 v2 m : k1 <> k2 -> m !! k1 = Some v1 -> m !! k2 = Some v2 -> f k1 v1 + f k2 v2 <= gsum f m.
  Proof.
    intros Hne H1 H2. rewrite <-(gsum_delete k1 v1 m H1).
    rewrite <-(gsum_delete k2 v2 (delete k1 m)); [lia|]. by rewrite lookup_delete_ne.
  Qed.
End gsum.

Lemma ind_true n : ind true n = n. Proof. done. Qed.
Lemma ind_false n : ind false n = 0. Proof. done. Qed.

(* ------------------------------------------------------------------ *)

Lemma free_set_free l a x v a' x' :
  free (set_free l a x v) a' x' = if (a =? a') && (x =? x') then v else free l a' x'.
Proof.
  unfold free, set_free; cbn [l_free]. destruct (N.eqb_spec a a') as [->|Ha]; cbn [andb].
  - destruct (N.eqb_spec x x') as [->|Hx]; [by rewrite lookup_insert|]. rewrite lookup_insert_ne; [done|congruence].
  - rewrite lookup_insert_ne; [done|congruence].
Qed.
Lemma free_set_held l a x v a' x' : free (set_held l a x v) a' x' = free l a' x'.
Proof. done. Qed.
Lemma held_set_free l a x v a' x' : held (set_free l a x v) a' x' = held l a' x'.
Proof. done. Qed.
Lemma held_set_held l a x v a' x' :
  held (set_held l a x v) a' x' = if (a =? a') && (x =? x') then v else held l a' x'.
Proof.
  unfold held, set_held; cbn [l_held]. destruct (N.eqb_spec a a') as [->|Ha]; cbn [andb].
  - destruct (N.eqb_spec x x') as [->|Hx]; [by rewrite lookup_insert|]. rewrite lookup_insert_ne; [done|congruence].
  - rewrite lookup_insert_ne; [done|congruence].
Qed.
Lemma free_add_dust l a v a' x' : free (add_dust l a v) a' x' = free l a' x'.
Proof. done. Qed.
Lemma held_add_dust l a v a' x' : held (add_dust l a v) a' x' = held l a' x'.
Proof. done. Qed.
Lemma dusted_set_free l a x v a' : dusted (set_free l a x v) a' = dusted l a'.
Proof. done. Qed.
Lemma dusted_set_held l a x v a' : dusted (set_held l a x v) a' = dusted l a'.
Proof. done. Qed.
Lemma dusted_add_dust l a v a' : dusted (add_dust l a v) a' = dusted l a' + ind (a =? a') v.
Proof.
  unfold dusted at 1, add_dust; cbn [l_dusted]. destruct (N.eqb_spec a a') as [->|Ha]; cbn [ind].
  - by rewrite lookup_insert.
  - rewrite lookup_insert_ne; [|congruence]. unfold dusted. lia.
Qed.

Lemma issuance_set_free l a x v a' :
  issuance (set_free l a x v) a' + ind (a =? a') (free l a x) = issuance l a' + ind (a =? a') v.
Proof.
  unfold issuance, set_free, free; cbn [l_free l_held].
  pose proof (gsum_insert (fun k v => ind (fst k =? a') v) (a, x) v (l_free l)) as H. cbn [fst] in H.
  destruct (l_free l !! (a, x)); cbn [from_option default] in *; destruct (a =? a'); cbn [ind] in *; unfold id; lia.
Qed.

Lemma issuance_set_held l a x v a' :
  issuance (set_held l a x v) a' + ind (a =? a') (held l a x) = issuance l a' + ind (a =? a') v.
Proof.
  unfold issuance, set_held, held; cbn [l_free l_held].
  pose proof (gsum_insert (fun k v => ind (fst k =? a') v) (a, x) v (l_held l)) as H. cbn [fst] in H.
  destruct (l_held l !! (a, x)); cbn [from_option default] in *; destruct (a =? a'); cbn [ind] in *; unfold id; lia.
Qed.

Lemma issuance_add_dust l a v a' : issuance (add_dust l a v) a' = issuance l a'.
Proof. done. Qed.

Lemma gsum_ind_ge (m : gmap (N * N) N) a x : default 0 (m !! (a, x)) <= gsum (fun k v => ind (fst k =? a) v) m.
Proof.
  destruct (m !! (a, x)) as [v|] eqn:E; cbn [default]; [|lia].
  pose proof (gsum_ge (fun (k : N*N) v => ind (fst k =? a) v) (a, x) v m E) as H. cbn [fst] in H.
  rewrite N.eqb_refl in H. cbn [ind] in H. unfold id. lia.
Qed.

Lemma issuance_ge_free_held l a x y : free l a x + held l a y <= issuance l a.
Proof. unfold issuance, free, held. pose proof (gsum_ind_ge (l_free l) a x). pose proof (gsum_ind_ge (l_held l) a y). lia. Qed.

Lemma issuance_ge_free2 l a x y : x <> y -> free l a x + free l a y <= issuance l a.
Proof.
  intros Hne. unfold issuance, free.
  pose proof (gsum_ind_ge (l_free l) a x). pose proof (gsum_ind_ge (l_free l) a y).
  destruct (l_free l !! (a, x)) as [v|] eqn:E1; destruct (l_free l !! (a, y)) as [w|] eqn:E2; cbn [default] in *; try lia.
  pose proof (gsum_ge2 (fun (k : N*N) v => ind (fst k =? a) v) (a, x) v (a, y) w (l_free l)) as H2. cbn [fst] in H2.
  rewrite N.eqb_refl in H2. cbn [ind] in H2. assert ((a,x) <> (a,y)) by congruence. specialize (H2 H1 E1 E2).
  unfold id in *. lia.
Qed.

Lemma issuance_ge_held2 l a x y : x <> y -> held l a x + held l a y <= issuance l a.
Proof.
  intros Hne. unfold issuance, held.
  pose proof (gsum_ind_ge (l_held l) a x). pose proof (gsum_ind_ge (l_held l) a y).
  destruct (l_held l !! (a, x)) as [v|] eqn:E1; destruct (l_held l !! (a, y)) as [w|] eqn:E2; cbn [default] in *; try lia.
  pose proof (gsum_ge2 (fun (k : N*N) v => ind (fst k =? a) v) (a, x) v (a, y) w (l_held l)) as H2. cbn [fst] in H2.
  rewrite N.eqb_refl in H2. cbn [ind] in H2. assert ((a,x) <> (a,y)) by congruence. specialize (H2 H1 E1 E2).
  unfold id in *. lia.
Qed.

(* ------------------------------------------------------------------ *)
(** [here a x a' x']: the balance (a', x') is the balance (a, x). *)
Notation here a x a' x' := ((a =? a') && (x =? x')).

Ltac cases_ind :=
  repeat match goal with
  | |- context [?a =? ?b] => destruct (N.eqb_spec a b); subst
  | H : context [?a =? ?b] |- _ => destruct (N.eqb_spec a b); subst
  end; cbn [andb ind] in *.

(** Effect of an operation on all balances: [fo]/[fi] leave/enter free balances, [ho]/[hi] leave/enter held balances, [du] is burnt. *)
Definition effect (l l' : ledger) (fo fi ho hi : N -> N -> N) (du : N -> N) : Prop :=
  (forall a x, free l' a x + fo a x = free l a x + fi a x) /\
  (forall a x, held l' a x + ho a x = held l a x + hi a x) /\
  (forall a, dusted l' a = dusted l a + du a) /\
  (forall a, issuance l' a + du a = issuance l a).

Definition none2 : N -> N -> N := fun _ _ => 0.
Definition none1 : N -> N := fun _ => 0.
Definition at2 (a x n : N) : N -> N -> N := fun a' x' => ind (here a x a' x') n.
Definition plus2 (f g : N -> N -> N) : N -> N -> N := fun a x => f a x + g a x.
Definition at1 (a n : N) : N -> N := fun a' => ind (a =? a') n.
Definition plus1 (f g : N -> N) : N -> N := fun a => f a + g a.

Lemma effect_refl l : effect l l none2 none2 none2 none2 none1.
Proof. unfold effect, none2, none1. split_and!; intros; lia. Qed.

Lemma effect_trans l1 l2 l3 fo fi ho hi du fo' fi' ho' hi' du' :
  effect l1 l2 fo fi ho hi du -> effect l2 l3 fo' fi' ho' hi' du' ->
  effect l1 l3 (plus2 fo fo') (plus2 fi fi') (plus2 ho ho') (plus2 hi hi') (plus1 du du').
Proof.
  intros (A1 & A2 & A3 & A4) (B1 & B2 & B3 & B4). unfold effect, plus2, plus1. split_and!; intros.
  - specialize (A1 a x); specialize (B1 a x); lia.
  - specialize (A2 a x); specialize (B2 a x); lia.
  - specialize (A3 a); specialize (B3 a); lia.
  - specialize (A4 a); specialize (B4 a); lia.
Qed.

Lemma hold_effect e l a w n l' : ledger_hold e l a w n = Some l' ->
  effect l l' (at2 a w n) none2 none2 (at2 a w n) none1 /\ n <= free l a w /\ held l a w + n <= u128_max.
Proof.
  unfold ledger_hold. destruct (_ && _) eqn:E; [|done]. intros [= <-].
  apply andb_true_iff in E as [E E3]. apply andb_true_iff in E as [E1 E2].
  apply N.leb_le in E2. unfold fits in E3. apply N.leb_le in E3.
  split; [|done]. unfold effect, at2, none2, none1. split_and!; intros.
  - rewrite free_set_held, free_set_free. destruct (N.eqb_spec a a0), (N.eqb_spec w x); subst; cbn [andb ind]; lia.
  - rewrite held_set_held, held_set_free. destruct (N.eqb_spec a a0), (N.eqb_spec w x); subst; cbn [andb ind]; lia.
  - rewrite dusted_set_held, dusted_set_free. lia.
  - pose proof (issuance_set_held (set_free l a w (free l a w - n)) a w (held l a w + n) a0) as H1.
    pose proof (issuance_set_free l a w (free l a w - n) a0) as H2. rewrite held_set_free in H1.
    destruct (N.eqb_spec a a0); subst; cbn [ind] in *; lia.
Qed.

Lemma release_effect e l a w n l' : ledger_release e l a w n = Some l' ->
  effect l l' none2 (at2 a w n) (at2 a w n) none2 none1 /\ n <= held l a w.
Proof.
  unfold ledger_release. destruct (_ && _) eqn:E; [|done]. intros [= <-].
  apply andb_true_iff in E as [E E3]. apply andb_true_iff in E as [E1 E2].
  apply N.leb_le in E2. unfold fits in E3. apply N.leb_le in E3.
  split; [|done]. unfold effect, at2, none2, none1. split_and!; intros.
  - rewrite free_set_held, free_set_free. destruct (N.eqb_spec a a0), (N.eqb_spec w x); subst; cbn [andb ind]; lia.
  - rewrite held_set_held, held_set_free. destruct (N.eqb_spec a a0), (N.eqb_spec w x); subst; cbn [andb ind]; lia.
  - rewrite dusted_set_held, dusted_set_free. lia.
  - pose proof (issuance_set_held (set_free l a w (free l a w + n)) a w (held l a w - n) a0) as H1.
    pose proof (issuance_set_free l a w (free l a w + n) a0) as H2. rewrite held_set_free in H1.
    destruct (N.eqb_spec a a0); subst; cbn [ind] in *; lia.
Qed.

Lemma transfer_hold_effect e l a s d n l' : ledger_transfer_hold e l a s d n = Some l' ->
  effect l l' (at2 a s n) none2 none2 (at2 a d n) none1 /\ n <= free l a s /\ held l a d + n <= u128_max.
Proof.
  unfold ledger_transfer_hold. destruct (_ && _) eqn:E; [|done]. intros [= <-].
  apply andb_true_iff in E as [E E3]. apply andb_true_iff in E as [E1 E2].
  apply N.leb_le in E2. unfold fits in E3. apply N.leb_le in E3.
  split; [|done]. unfold effect, at2, none2, none1. split_and!; intros.
  - rewrite free_set_held, free_set_free. destruct (N.eqb_spec a a0), (N.eqb_spec s x); subst; cbn [andb ind]; lia.
  - rewrite held_set_held, held_set_free. destruct (N.eqb_spec a a0), (N.eqb_spec d x); subst; cbn [andb ind]; lia.
  - rewrite dusted_set_held, dusted_set_free. lia.
  - pose proof (issuance_set_held (set_free l a s (free l a s - n)) a d (held l a d + n) a0) as H1.
    pose proof (issuance_set_free l a s (free l a s - n) a0) as H2. rewrite held_set_free in H1.
    destruct (N.eqb_spec a a0); subst; cbn [ind] in *; lia.
Qed.

(** A transfer moves exactly the amount; [b] is burnt from the source's remainder. *)
Lemma transfer_effect e l a s d n p l' : ledger_transfer e l a s d n p = Some l' ->
  exists b, effect l l' (plus2 (at2 a s n) (at2 a s b)) (at2 a d n) none2 none2 (at1 a b) /\
    n <= free l a s /\ (b = 0 \/ b < ext_min_balance e a) /\ (p = Preserve -> b = 0) /\ (s = d -> b = 0) /\
    n + b <= free l a s.
Proof.
  unfold ledger_transfer. destruct (_ && _) eqn:E; [|done].
  apply andb_true_iff in E as [E1 E2]. apply N.leb_le in E2.
  destruct (N.eqb_spec s d) as [->|Hne].
  { intros [= <-]. exists 0. split.
    - unfold effect, plus2, at2, at1, none2. split_and!; intros; cases_ind; lia.
    - repeat split; try done; try lia. }
  destruct (fits _) eqn:E3; [|done]. unfold fits in E3. apply N.leb_le in E3.
  set (l1 := set_free (set_free l a s (free l a s - n)) a d (free l a d + n)).
  assert (Hl1 : effect l l1 (at2 a s n) (at2 a d n) none2 none2 none1).
  { unfold l1, effect, at2, none2, none1. split_and!; intros.
    - rewrite !free_set_free. destruct (N.eqb_spec a a0), (N.eqb_spec s x), (N.eqb_spec d x); subst; cbn [andb ind]; try lia; try congruence.
    - rewrite !held_set_free. lia.
    - rewrite !dusted_set_free. lia.
    - pose proof (issuance_set_free (set_free l a s (free l a s - n)) a d (free l a d + n) a0) as H1.
      pose proof (issuance_set_free l a s (free l a s - n) a0) as H2.
      rewrite free_set_free in H1. rewrite N.eqb_refl in H1. destruct (N.eqb_spec s d); [congruence|].
      cbn [andb] in H1. destruct (N.eqb_spec a a0); subst; cbn [ind] in *; lia. }
  assert (Hplain : exists b, effect l l1 (plus2 (at2 a s n) (at2 a s b)) (at2 a d n) none2 none2 (at1 a b) /\
    n <= free l a s /\ (b = 0 \/ b < ext_min_balance e a) /\ (p = Preserve -> b = 0) /\ (s = d -> b = 0) /\
    n + b <= free l a s).
  { exists 0. split; [|repeat split; try done; try lia].
    destruct Hl1 as (A1 & A2 & A3 & A4). unfold effect, plus2, at1 in *. split_and!; intros.
    - specialize (A1 a0 x). unfold at2 in *. cases_ind; lia.
    - apply A2.
    - rewrite A3. unfold none1. cases_ind; lia.
    - rewrite <-(A4 a0). unfold none1. cases_ind; lia. }
  destruct p; [|intros [= <-]; exact Hplain].
  destruct (_ && _) eqn:E4; [|intros [= <-]; exact Hplain].
  intros [= <-]. apply andb_true_iff in E4 as [E4 _]. apply N.ltb_lt in E4.
  exists (free l a s - n). split; [|repeat split; try done; try lia].
  destruct Hl1 as (A1 & A2 & A3 & A4). unfold effect, plus2, at1 in *. split_and!; intros.
  - rewrite free_add_dust, free_set_free. specialize (A1 a0 x). unfold at2 in *.
    destruct (N.eqb_spec a a0), (N.eqb_spec s x), (N.eqb_spec d x); subst; cbn [andb ind] in *; try lia; try congruence.
  - apply A2.
  - rewrite dusted_add_dust, dusted_set_free, A3. unfold none1. lia.
  - rewrite issuance_add_dust.
    pose proof (issuance_set_free l1 a s 0 a0) as H1. specialize (A4 a0). unfold none1 in A4.
    specialize (A1 a s). unfold at2 in A1. rewrite !N.eqb_refl in A1.
    destruct (N.eqb_spec d s); [congruence|]. cbn [andb ind] in A1.
    destruct (N.eqb_spec a a0); subst; cbn [ind] in *; lia.
Qed.

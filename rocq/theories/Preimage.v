(** Proofs on preimages (C180 to C182). *)
From stdpp Require Import gmap.
From Coq Require Import Lia.
From Verif Require Import Base RuntimeModel PreimageModel PreimageSpec.
Open Scope N_scope.

Lemma price_costs t : preimage_price (N.of_nat (length t)) = costs t.
Proof.
  unfold preimage_price, preimage_base_deposit, preimage_byte_deposit, costs.
  replace (deposit 2 64) with 13354666632 by (vm_compute; reflexivity). replace (deposit 0 1) with 333333 by (vm_compute; reflexivity).
  replace CENTS with 333333333 by (vm_compute; reflexivity). replace MILLICENTS with 333333 by (vm_compute; reflexivity). lia.
Qed.

Lemma pamt_eq m a n : pamt (<[a := n]> m) a = n.
Proof. unfold pamt. rewrite lookup_insert. reflexivity. Qed.
Lemma pamt_ne m a b n : a <> b -> pamt (<[a := n]> m) b = pamt m b.
Proof. intros H. unfold pamt. rewrite lookup_insert_ne by exact H. reflexivity. Qed.

(** What is paid for a text, in a status. *)
Definition ticket_of (st : pstatus) : option ticket := match st with Unrequested t _ => Some t | Requested t _ _ => t end.
Definition len_of (st : pstatus) : option N := match st with Unrequested _ l => Some l | Requested _ _ l => l end.
Definition due (a : N) (st : pstatus) : N := match ticket_of st with Some (b, n) => if b =? a then n else 0 | None => 0 end.
Definition owed (a : N) (m : gmap N pstatus) : N := map_fold (fun _ st acc => due a st + acc) 0 m.

Arguments due : simpl never.

Lemma owed_insert a m h st : m !! h = None -> owed a (<[h := st]> m) = due a st + owed a m.
Proof. intros H. unfold owed. rewrite map_fold_insert_L; [reflexivity| |exact H]. intros. lia. Qed.
Lemma owed_delete a m h : owed a m = match m !! h with Some st => due a st | None => 0 end + owed a (delete h m).
Proof.
  destruct (m !! h) as [st|] eqn:E; [|rewrite delete_notin by exact E; lia].
  rewrite <- (insert_delete m h st E) at 1. rewrite owed_insert by apply lookup_delete. reflexivity.
Qed.
Lemma owed_set a m h st : owed a (<[h := st]> m) = due a st + owed a (delete h m).
Proof. rewrite <- insert_delete_insert. apply owed_insert. apply lookup_delete. Qed.

Lemma owed_ge a m h st : m !! h = Some st -> due a st <= owed a m.
Proof. intros H. rewrite (owed_delete a m h), H. lia. Qed.

Section P.
Variable hash : list N -> N.
Hypothesis inj : no_collisions hash.

(** What always holds: of a text whose length is known there are the bytes; what is paid is its price; what is on hold is what is paid. *)
Definition ok_at (b : gmap N (list N)) (h : N) (st : pstatus) : Prop :=
  (forall l, len_of st = Some l -> exists t, b !! h = Some t /\ hash t = h /\ l = N.of_nat (length t)) /\
  (forall tk, ticket_of st = Some tk -> exists l, len_of st = Some l /\ snd tk = preimage_price l) /\
  (forall tk c l, st = Requested tk c l -> 0 < c).
Definition odue (a : N) (o : option pstatus) : N := match o with Some st => due a st | None => 0 end.
Record pinv (s : pst) : Prop := Pinv {
  i_text : forall h st, p_status s !! h = Some st -> ok_at (p_bytes s) h st;
  i_held : forall a, pamt (p_held s) a = owed a (p_status s)
}.

Lemma inv_start : pinv p_start.
Proof. split; [intros h st H; cbn in H; rewrite lookup_empty in H; discriminate H|intros a; reflexivity]. Qed.

Lemma inv_set s s' h st : pinv s -> p_status s' = <[h := st]> (p_status s) -> (forall h0, h0 <> h -> p_bytes s' !! h0 = p_bytes s !! h0) ->
  ok_at (p_bytes s') h st -> (forall a, pamt (p_held s') a + odue a (p_status s !! h) = pamt (p_held s) a + due a st) -> pinv s'.
Proof.
  intros [IT IH] E B O D. split.
  - intros h0 st0 H. rewrite E in H. destruct (decide (h0 = h)) as [->|Hn]; [rewrite lookup_insert in H; injection H as <-; exact O|].
    rewrite lookup_insert_ne in H by congruence. destruct (IT h0 st0 H) as (I1 & I2 & I3). split; [|split; assumption].
    rewrite (B h0 Hn). exact I1.
  - intros a. specialize (D a). rewrite IH in D. rewrite E, owed_set. rewrite (owed_delete a (p_status s) h) in D. unfold odue in D. lia.
Qed.

Lemma inv_del s s' h : pinv s -> p_status s' = delete h (p_status s) -> (forall h0, h0 <> h -> p_bytes s' !! h0 = p_bytes s !! h0) ->
  (forall a, pamt (p_held s') a + odue a (p_status s !! h) = pamt (p_held s) a) -> pinv s'.
Proof.
  intros [IT IH] E B D. split.
  - intros h0 st0 H. rewrite E in H. destruct (decide (h0 = h)) as [->|Hn]; [rewrite lookup_delete in H; discriminate H|].
    rewrite lookup_delete_ne in H by congruence. destruct (IT h0 st0 H) as (I1 & I2 & I3). split; [|split; assumption].
    rewrite (B h0 Hn). exact I1.
  - intros a. specialize (D a). rewrite IH in D. rewrite E. rewrite (owed_delete a (p_status s) h) in D. unfold odue in D. lia.
Qed.

Lemma hold_does ok a n s s' : hold ok a n s = Some s' ->
  n <= pamt (p_free s) a /\ p_status s' = p_status s /\ p_bytes s' = p_bytes s /\ pamt (p_held s') a = pamt (p_held s) a + n /\
  pamt (p_free s') a = pamt (p_free s) a - n /\
  forall b, b <> a -> pamt (p_held s') b = pamt (p_held s) b /\ pamt (p_free s') b = pamt (p_free s) b.
Proof.
  unfold hold. intros H. destruct (N.leb_spec n (pamt (p_free s) a)) as [Hn|Hn]; [|discriminate H]. destruct ok; [|discriminate H]. injection H as <-. cbn.
  split_and!; try reflexivity; try exact Hn; try apply pamt_eq. intros b Hb. rewrite !pamt_ne by congruence. split; reflexivity.
Qed.

(** All that is paid for a text comes back. *)
Lemma unhold_does s h st a n : pinv s -> p_status s !! h = Some st -> ticket_of st = Some (a, n) ->
  pamt (p_held (unhold (a, n) s)) a + n = pamt (p_held s) a /\ pamt (p_free (unhold (a, n) s)) a = pamt (p_free s) a + n /\
  forall b, b <> a -> pamt (p_held (unhold (a, n) s)) b = pamt (p_held s) b /\ pamt (p_free (unhold (a, n) s)) b = pamt (p_free s) b.
Proof.
  intros I H T. pose proof (owed_ge a (p_status s) h st H) as G. rewrite <- (i_held s I) in G. unfold due in G. rewrite T, N.eqb_refl in G.
  unfold unhold. cbn. rewrite !pamt_eq. split_and!; try lia. intros b Hb. rewrite !pamt_ne by congruence. split; reflexivity.
Qed.

Lemma due_other a b n st : ticket_of st = Some (a, n) -> b <> a -> due b st = 0.
Proof. intros T Hb. unfold due. rewrite T. destruct (N.eqb_spec a b); [congruence|reflexivity]. Qed.
Lemma due_own a n st : ticket_of st = Some (a, n) -> due a st = n.
Proof. intros T. unfold due. rewrite T, N.eqb_refl. reflexivity. Qed.
Lemma due_none a st : ticket_of st = None -> due a st = 0.
Proof. intros T. unfold due. rewrite T. reflexivity. Qed.

(** What a step does to the text of a hash. *)
Lemma unrequest_inv h s s' : pinv s -> unrequest h s = Some s' -> pinv s'.
Proof.
  intros I E. unfold unrequest in E. destruct (p_status s !! h) as [[t l|t c l]|] eqn:Es; try discriminate E.
  destruct (i_text s I h _ Es) as (I1 & I2 & I3). specialize (I3 t c l eq_refl). destruct (N.ltb_spec 1 c) as [Hc|Hc].
  - injection E as <-. apply (inv_set s _ h (Requested t (c - 1) l) I); try reflexivity.
    + split; [exact I1|]. split; [exact I2|]. intros tk c0 l0 Er. injection Er as _ <- _. lia.
    + intros a. rewrite Es. reflexivity.
  - destruct l as [n|].
    + destruct t as [t|]; injection E as <-.
      * apply (inv_set s _ h (Unrequested t n) I); try reflexivity.
        -- split; [exact I1|]. split; [exact I2|]. intros tk c0 l0 Er. discriminate Er.
        -- intros a. rewrite Es. reflexivity.
      * apply (inv_del s _ h I); try reflexivity.
        -- intros h0 Hn. cbn. apply lookup_delete_ne. congruence.
        -- intros a. rewrite Es. cbn. rewrite due_none by reflexivity. lia.
    + injection E as <-. apply (inv_del s _ h I); try reflexivity. intros a. rewrite Es. cbn.
      destruct t as [t|]; [destruct (I2 t eq_refl) as (l & El & _); discriminate El|]. rewrite due_none by reflexivity. lia.
Qed.

Lemma inv_try s x s' : pinv s -> pstep_try hash s x = Some s' -> pinv s'.
Proof.
  intros I E. destruct x as [who ok text|who h|h|h|a n|a n]; cbn in E.
  - unfold note in E. destruct (preimage_max <? _); [discriminate E|]. set (h := hash text) in *. set (len := N.of_nat (length text)) in *.
    destruct (p_status s !! h) as [[t l|t c l]|] eqn:Es.
    + destruct who; [discriminate E|]. injection E as <-. destruct (i_text s I h _ Es) as (I1 & I2 & _).
      apply (inv_set s _ h (Requested (Some t) 1 (Some l)) I); try reflexivity.
      * intros h0 Hn. cbn. apply lookup_insert_ne. congruence.
      * split; [|split; [exact I2|intros tk c l0 Er; injection Er as _ <- _; lia]]. intros l0 El. destruct (I1 l0 El) as (t0 & B & Hh & ->).
        cbn. rewrite lookup_insert. exists text. split; [reflexivity|]. split; [reflexivity|]. apply inj in Hh. rewrite Hh. reflexivity.
      * intros a. rewrite Es. reflexivity.
    + injection E as <-. destruct (i_text s I h _ Es) as (I1 & I2 & I3).
      apply (inv_set s _ h (Requested t c (Some len)) I); try reflexivity.
      * intros h0 Hn. cbn. apply lookup_insert_ne. congruence.
      * split; [|split].
        -- intros l0 El. injection El as <-. cbn. rewrite lookup_insert. exists text. split_and!; reflexivity.
        -- intros tk Etk. destruct (I2 tk Etk) as (l0 & El & Ep). exists len. split; [reflexivity|]. rewrite Ep.
           destruct (I1 l0 El) as (t0 & _ & Hh & ->). apply inj in Hh. rewrite Hh. reflexivity.
        -- intros tk c0 l0 Er. injection Er as _ <- _. exact (I3 t c l eq_refl).
      * intros a. rewrite Es. reflexivity.
    + destruct who as [b|].
      * destruct (hold ok b (preimage_price len) s) as [s1|] eqn:Eh; [|discriminate E]. injection E as <-.
        destruct (hold_does _ _ _ _ _ Eh) as (_ & E1 & E2 & E3 & _ & E5).
        apply (inv_set s _ h (Unrequested (b, preimage_price len) len) I); cbn.
        -- rewrite E1. reflexivity.
        -- intros h0 Hn. rewrite E2. apply lookup_insert_ne. congruence.
        -- split; [|split].
           ++ intros l0 El. injection El as <-. rewrite lookup_insert. exists text. split_and!; reflexivity.
           ++ intros tk Etk. injection Etk as <-. exists len. split; reflexivity.
           ++ intros tk c0 l0 Er. discriminate Er.
        -- intros a. rewrite Es. cbn. unfold due. cbn. destruct (N.eqb_spec b a) as [->|Hn]; [lia|]. destruct (E5 a ltac:(congruence)) as [-> _]. lia.
      * injection E as <-. apply (inv_set s _ h (Requested None 1 (Some len)) I); cbn; try reflexivity.
        -- intros h0 Hn. apply lookup_insert_ne. congruence.
        -- split; [|split].
           ++ intros l0 El. injection El as <-. rewrite lookup_insert. exists text. split_and!; reflexivity.
           ++ intros tk Etk. discriminate Etk.
           ++ intros tk c0 l0 Er. injection Er as _ <- _. lia.
        -- intros a. rewrite Es. cbn. rewrite due_none by reflexivity. lia.
  - unfold unnote in E. destruct (p_status s !! h) as [[[b n] l|[[b n]|] c l]|] eqn:Es.
    + destruct (match who with Some a => a =? _ | None => true end); [|discriminate E]. injection E as <-.
      destruct (unhold_does s h _ b n I Es eq_refl) as (U1 & _ & U3). apply (inv_del s _ h I); cbn; try reflexivity.
      * intros h0 Hn. apply lookup_delete_ne. congruence.
      * intros a. rewrite Es. cbn. destruct (decide (a = b)) as [->|Hn].
        -- rewrite (due_own b n) by reflexivity. exact U1.
        -- rewrite (due_other b a n) by first [reflexivity|exact Hn]. destruct (U3 a Hn) as [U _]. cbn in U. rewrite U. lia.
    + destruct (match who with Some a => a =? _ | None => true end); [|discriminate E]. injection E as <-.
      destruct (unhold_does s h _ b n I Es eq_refl) as (U1 & _ & U3). destruct (i_text s I h _ Es) as (I1 & _ & I3).
      apply (inv_set s _ h (Requested None c l) I); cbn; try reflexivity.
      * split; [exact I1|]. split; [intros tk Etk; discriminate Etk|]. intros tk c0 l0 Er. injection Er as _ <- _. exact (I3 _ c l eq_refl).
      * intros a. rewrite Es. cbn. rewrite (due_none a (Requested None c l)) by reflexivity. destruct (decide (a = b)) as [->|Hn].
        -- rewrite (due_own b n) by reflexivity. cbn in U1. lia.
        -- rewrite (due_other b a n) by first [reflexivity|exact Hn]. destruct (U3 a Hn) as [U _]. cbn in U. rewrite U. lia.
    + destruct who; [discriminate E|]. exact (unrequest_inv h s s' I E).
    + discriminate E.
  - injection E as <-. destruct (p_status s !! h) as [[t l|t c l]|] eqn:Es.
    + destruct (i_text s I h _ Es) as (I1 & I2 & _). apply (inv_set s _ h (Requested (Some t) 1 (Some l)) I); cbn; try reflexivity.
      * rewrite Es. reflexivity.
      * split; [exact I1|]. split; [exact I2|]. intros tk c0 l0 Er. injection Er as _ <- _. lia.
      * intros a. rewrite Es. reflexivity.
    + destruct (i_text s I h _ Es) as (I1 & I2 & I3). apply (inv_set s _ h (Requested t (c + 1) l) I); cbn; try reflexivity.
      * rewrite Es. reflexivity.
      * split; [exact I1|]. split; [exact I2|]. intros tk c0 l0 Er. injection Er as _ <- _. lia.
      * intros a. rewrite Es. reflexivity.
    + apply (inv_set s _ h (Requested None 1 None) I); cbn; try reflexivity.
      * rewrite Es. reflexivity.
      * split; [intros l El; discriminate El|]. split; [intros tk Etk; discriminate Etk|]. intros tk c0 l0 Er. injection Er as _ <- _. lia.
      * intros a. rewrite Es. cbn. rewrite due_none by reflexivity. lia.
  - exact (unrequest_inv h s s' I E).
  - injection E as <-. destruct I as [IT IH]. split; [exact IT|exact IH].
  - destruct (n <=? pamt (p_free s) a); [|discriminate E]. injection E as <-. destruct I as [IT IH]. split; [exact IT|exact IH].
Qed.

Lemma inv_run l : forall s, pinv s -> pinv (prun hash s l).
Proof.
  induction l as [|x l IH]; intros s I; [exact I|]. cbn. apply IH. unfold pstep_run.
  destruct (pstep_try hash s x) as [s'|] eqn:E; [exact (inv_try s x s' I E)|exact I].
Qed.
Lemma inv_end l : pinv (p_end hash l).
Proof. apply inv_run, inv_start. Qed.

(** Who pays for a text. *)
Lemma pays_ticket s a h : pays s a h <-> exists st n, p_status s !! h = Some st /\ ticket_of st = Some (a, n).
Proof.
  split.
  - intros [n [[l H]|(c & l & H)]]; eexists _, n; split; [exact H|reflexivity|exact H|reflexivity].
  - intros ([t l|t c l] & n & H & T); cbn in T; subst t || (injection T as ->); exists n; [left; eauto|right; eauto].
Qed.

(** Of a text paid for, the bytes. *)
Lemma paid_text s a h : pinv s -> pays s a h -> exists t, p_bytes s !! h = Some t /\ hash t = h.
Proof.
  intros I H. apply pays_ticket in H as (st & n & H & T). destruct (i_text s I h st H) as (I1 & I2 & _).
  destruct (I2 _ T) as (l & El & _). destruct (I1 l El) as (t & B & Hh & _). exists t. split; assumption.
Qed.

(** Texts of other hashes are left alone. *)
Definition concerns (x : pstep) (h : N) : Prop :=
  match x with PNote _ _ t => hash t = h | PUnnote _ h' | PRequest h' | PUnrequest h' => h' = h | PMoney _ _ | PSpend _ _ => False end.
Lemma unrequest_frame s s' h h' : unrequest h' s = Some s' -> h' <> h -> p_status s' !! h = p_status s !! h /\ p_bytes s' !! h = p_bytes s !! h.
Proof.
  intros E N1. unfold unrequest in E. destruct (p_status s !! h') as [[t l|t c l]|]; try discriminate E.
  destruct (1 <? c); [injection E as <-; cbn; rewrite lookup_insert_ne by exact N1; split; reflexivity|].
  destruct l, t; injection E as <-; cbn; rewrite ?lookup_insert_ne, ?lookup_delete_ne by exact N1; split; reflexivity.
Qed.
Lemma frame s x s' h : pstep_try hash s x = Some s' -> ~ concerns x h -> p_status s' !! h = p_status s !! h /\ p_bytes s' !! h = p_bytes s !! h.
Proof.
  intros E C. destruct x as [who ok text|who h'|h'|h'|a n|a n]; cbn in E, C.
  - unfold note in E. destruct (preimage_max <? _); [discriminate E|]. destruct (p_status s !! hash text) as [[t l|t c l]|].
    + destruct who; [discriminate E|]. injection E as <-. cbn. rewrite !lookup_insert_ne by exact C. split; reflexivity.
    + injection E as <-. cbn. rewrite !lookup_insert_ne by exact C. split; reflexivity.
    + destruct who as [b|].
      * destruct (hold ok b _ s) as [s1|] eqn:Eh; [|discriminate E]. injection E as <-. destruct (hold_does _ _ _ _ _ Eh) as (_ & E1 & E2 & _).
        cbn. rewrite !lookup_insert_ne by exact C. rewrite E1, E2. split; reflexivity.
      * injection E as <-. cbn. rewrite !lookup_insert_ne by exact C. split; reflexivity.
  - unfold unnote in E. destruct (p_status s !! h') as [[t l|[t|] c l]|]; try discriminate E.
    + destruct (match who with Some a => a =? _ | None => true end); [|discriminate E]. injection E as <-. cbn. rewrite !lookup_delete_ne by exact C. split; reflexivity.
    + destruct (match who with Some a => a =? _ | None => true end); [|discriminate E]. injection E as <-. cbn. rewrite !lookup_insert_ne by exact C. split; reflexivity.
    + destruct who; [discriminate E|]. exact (unrequest_frame s s' h h' E C).
  - injection E as <-. cbn. rewrite !lookup_insert_ne by exact C. split; reflexivity.
  - exact (unrequest_frame s s' h h' E C).
  - injection E as <-. split; reflexivity.
  - destruct (n <=? _); [|discriminate E]. injection E as <-. split; reflexivity.
Qed.

Lemma unrequest_paid s s' h st tk : pinv s -> p_status s !! h = Some st -> ticket_of st = Some tk -> unrequest h s = Some s' ->
  exists st', p_status s' !! h = Some st' /\ ticket_of st' = Some tk.
Proof.
  intros I H T E. unfold unrequest in E. rewrite H in E. destruct st as [t l|t c l]; [discriminate E|]. cbn in T. subst t.
  destruct (i_text s I h _ H) as (_ & I2 & _). destruct (I2 tk eq_refl) as (l0 & El & _). cbn in El. subst l.
  destruct (1 <? c); injection E as <-; cbn; rewrite lookup_insert; eexists; split; reflexivity.
Qed.

Lemma pays_step s x a h : pinv s -> pays s a h -> x <> PUnnote (Some a) h -> x <> PUnnote None h -> pays (pstep_run hash s x) a h.
Proof.
  intros I P N1 N2. apply pays_ticket in P as (st & n & H & T). apply pays_ticket. unfold pstep_run.
  destruct (pstep_try hash s x) as [s'|] eqn:E; cbn; [|eauto].
  assert (concerns x h \/ ~ concerns x h) as [C|C] by (destruct x; cbn; try (right; tauto); match goal with |- ?p = ?q \/ _ => destruct (decide (p = q)); tauto end).
  2:{ destruct (frame s x s' h E C) as [E1 _]. rewrite E1. eauto. }
  destruct x as [who ok text|who h'|h'|h'|b m|b m]; cbn in E, C; try contradiction; subst.
  - unfold note in E. destruct (preimage_max <? _); [discriminate E|]. rewrite H in E. destruct st as [t l|t c l]; cbn in T.
    + destruct who; [discriminate E|]. injection E as <-. injection T as ->. cbn. rewrite lookup_insert. eauto.
    + injection E as <-. subst t. cbn. rewrite lookup_insert. eauto.
  - unfold unnote in E. rewrite H in E. destruct who as [b|]; [|congruence]. assert (b <> a) as Hb by congruence.
    assert ((b =? a) = false) as Ef by (apply N.eqb_neq; exact Hb).
    destruct st as [t l|t c l]; cbn in T; [injection T as ->|subst t]; cbn in E; rewrite Ef in E; discriminate E.
  - injection E as <-. cbn. rewrite lookup_insert. eexists _, n. split; [reflexivity|]. rewrite H. destruct st; exact T.
  - destruct (unrequest_paid s s' h st (a, n) I H T E) as (st' & H' & T'). eauto.
Qed.

Lemma pays_run l : forall s a h, pinv s -> pays s a h -> (forall x, x ∈ l -> x <> PUnnote (Some a) h /\ x <> PUnnote None h) -> pays (prun hash s l) a h.
Proof.
  induction l as [|x l IH]; intros s a h I P N; [exact P|]. cbn. apply IH.
  - exact (inv_run [x] s I).
  - destruct (N x ltac:(left)) as [N1 N2]. exact (pays_step s x a h I P N1 N2).
  - intros y Hy. apply N. right. exact Hy.
Qed.

Lemma end_app l1 l2 : p_end hash (l1 ++ l2) = prun hash (p_end hash l1) l2.
Proof. unfold p_end, prun. apply fold_left_app. Qed.

Lemma kept_paid l1 ok a t l2 : has_free (p_end hash l1) a <> has_free (p_end hash (l1 ++ [PNote (Some a) ok t])) a ->
  (forall x, x ∈ l2 -> x <> PUnnote (Some a) (hash t) /\ x <> PUnnote None (hash t)) ->
  let s := p_end hash (l1 ++ PNote (Some a) ok t :: l2) in text_of s (hash t) = Some t /\ pays s a (hash t).
Proof.
  intros F N. cbv zeta. replace (l1 ++ PNote (Some a) ok t :: l2) with ((l1 ++ [PNote (Some a) ok t]) ++ l2) by (rewrite <- app_assoc; reflexivity).
  rewrite end_app. pose proof (inv_end (l1 ++ [PNote (Some a) ok t])) as I. set (s1 := p_end hash (l1 ++ _)) in *.
  assert (pays s1 a (hash t)) as P.
  { unfold s1 in *. rewrite end_app in F |- *. cbn in F |- *. unfold pstep_run in *. cbn in F |- *. unfold note in *.
    destruct (preimage_max <? _); [exfalso; apply F; reflexivity|]. destruct (p_status _ !! hash t) as [[tk l|tk c l]|].
    - exfalso. apply F. reflexivity.
    - exfalso. apply F. reflexivity.
    - destruct (hold ok a _ _) as [s'|]; [|exfalso; apply F; reflexivity]. cbn. eexists. left. eexists. cbn. apply lookup_insert. }
  pose proof (pays_run l2 s1 a (hash t) I P N) as P2. split; [|exact P2].
  destruct (paid_text _ a (hash t) (inv_run l2 s1 I) P2) as (u & B & Hu). apply inj in Hu. subst u. exact B.
Qed.

(** Requested texts. *)
Lemma wanted_run l : forall s h t n, pinv s -> (exists tk c k, p_status s !! h = Some (Requested tk c (Some k)) /\ n <= c) -> p_bytes s !! h = Some t -> hash t = h ->
  0 < n -> wanted h n l -> p_bytes (prun hash s l) !! h = Some t.
Proof.
  induction l as [|x l IH]; intros s h t n I (tk & c & k & H & Hc) B Ht Hn W; [exact B|]. cbn in W |- *. set (n' := match x with PNote _ _ _ => _ | _ => _ end) in W.
  destruct W as [Hn' W]. apply (IH _ h t n'); try assumption; try exact (inv_run [x] s I).
  - assert (forall s', unrequest h s = Some s' -> 1 < n -> exists tk' c' k', p_status s' !! h = Some (Requested tk' c' (Some k')) /\ n - 1 <= c') as UR.
    { intros s' E Hn1. unfold unrequest in E. rewrite H in E. destruct (N.ltb_spec 1 c); [|lia]. injection E as <-. cbn. rewrite lookup_insert.
      exists tk, (c - 1), k. split; [reflexivity|lia]. }
    unfold pstep_run. destruct (pstep_try hash s x) as [s'|] eqn:E; cbn.
    + assert (concerns x h \/ ~ concerns x h) as [C|C] by (destruct x; cbn; try (right; tauto); match goal with |- ?p = ?q \/ _ => destruct (decide (p = q)); tauto end).
      2:{ destruct (frame s x s' h E C) as [E1 _]. rewrite E1. exists tk, c, k. split; [exact H|]. subst n'.
          destruct x as [who ok text|[b|] h'|h'|h'|b m|b m]; cbn in C |- *; try lia; destruct (N.eqb_spec h' h); try contradiction; lia. }
      destruct x as [who ok text|who h'|h'|h'|b m|b m]; cbn in E, C; try contradiction.
      * unfold note in E. destruct (preimage_max <? _); [discriminate E|]. rewrite C, H in E. injection E as <-. cbn. rewrite lookup_insert.
        eexists _, _, _. split; [reflexivity|]. subst n'. exact Hc.
      * subst h'. unfold unnote in E. rewrite H in E. destruct tk as [tk|].
        -- destruct (match who with Some a => a =? _ | None => true end); [|discriminate E]. injection E as <-. cbn. rewrite lookup_insert.
           eexists _, _, _. split; [reflexivity|]. subst n'. destruct who; [exact Hc|]. rewrite N.eqb_refl. lia.
        -- destruct who; [discriminate E|]. subst n'. cbn in *. rewrite N.eqb_refl in *. apply UR; [exact E|lia].
      * injection E as <-. subst h' n'. cbn. rewrite N.eqb_refl. rewrite lookup_insert, H. eexists _, _, _. split; [reflexivity|lia].
      * subst h' n'. cbn in *. rewrite N.eqb_refl in *. apply UR; [exact E|lia].
    + exists tk, c, k. split; [exact H|]. subst n'. destruct x as [who ok text|[b|] h'|h'|h'|b m|b m]; cbn in *; try lia; try (destruct (h' =? h); lia).
      discriminate E.
  - unfold pstep_run. destruct (pstep_try hash s x) as [s'|] eqn:E; cbn; [|exact B].
    assert (concerns x h \/ ~ concerns x h) as [C|C] by (destruct x; cbn; try (right; tauto); match goal with |- ?p = ?q \/ _ => destruct (decide (p = q)); tauto end).
    2:{ destruct (frame s x s' h E C) as [_ E1]. rewrite E1. exact B. }
    assert (unrequest h s = Some s' -> 1 < n -> p_bytes s' !! h = Some t) as UR.
    { intros E' Hn1. unfold unrequest in E'. rewrite H in E'. destruct (N.ltb_spec 1 c); [|lia]. injection E' as <-. exact B. }
    destruct x as [who ok text|who h'|h'|h'|b m|b m]; cbn in E, C; try contradiction.
    * unfold note in E. destruct (preimage_max <? _); [discriminate E|]. rewrite C, H in E. injection E as <-. cbn. rewrite lookup_insert.
      f_equal. apply inj. congruence.
    * subst h'. unfold unnote in E. rewrite H in E. destruct tk as [tk|].
      -- destruct (match who with Some a => a =? _ | None => true end); [|discriminate E]. injection E as <-. exact B.
      -- destruct who; [discriminate E|]. subst n'. cbn in *. rewrite N.eqb_refl in *. apply UR; [exact E|lia].
    * injection E as <-. exact B.
    * subst h' n'. cbn in *. rewrite N.eqb_refl in *. apply UR; [exact E|lia].
Qed.

Lemma request_known s h t : pinv s -> p_bytes s !! h = Some t -> (exists st l, p_status s !! h = Some st /\ len_of st = Some l) ->
  exists tk c k, p_status (request h s) !! h = Some (Requested tk c (Some k)) /\ 1 <= c.
Proof.
  intros I B (st & l & H & L). unfold request. cbn. rewrite lookup_insert, H. destruct st as [tk l0|tk c l0]; cbn in L.
  - eexists _, 1, _. split; [reflexivity|lia].
  - subst l0. eexists _, (c + 1), _. split; [reflexivity|lia].
Qed.

(** Bytes are there only of texts whose length is known. *)
Definition binv (s : pst) : Prop := forall h t, p_bytes s !! h = Some t -> exists st l, p_status s !! h = Some st /\ len_of st = Some l.
Lemma unrequest_known h s s' : binv s -> unrequest h s = Some s' -> forall t, p_bytes s' !! h = Some t -> exists st l, p_status s' !! h = Some st /\ len_of st = Some l.
Proof.
  intros I E t B. unfold unrequest in E. destruct (p_status s !! h) as [[tk l|tk c l]|] eqn:Es; try discriminate E. destruct (1 <? c).
  - injection E as <-. cbn in *. rewrite lookup_insert. destruct (I h t B) as (st & l' & H & L). rewrite Es in H. injection H as <-. eauto.
  - destruct l as [n|]; [destruct tk|]; injection E as <-; cbn in *.
    + rewrite lookup_insert. eauto.
    + rewrite lookup_delete in B. discriminate B.
    + destruct (I h t B) as (st & l' & H & L). rewrite Es in H. injection H as <-. discriminate L.
Qed.
Lemma known_run l : forall s, binv s -> binv (prun hash s l).
Proof.
  induction l as [|x l IH]; intros s I; [exact I|]. cbn. apply IH. unfold pstep_run. destruct (pstep_try hash s x) as [s'|] eqn:E; cbn; [|exact I].
  intros h t B. assert (concerns x h \/ ~ concerns x h) as [C|C] by (destruct x; cbn; try (right; tauto); match goal with |- ?p = ?q \/ _ => destruct (decide (p = q)); tauto end).
  2:{ destruct (frame s x s' h E C) as [E1 E2]. rewrite E1. rewrite E2 in B. exact (I h t B). }
  destruct x as [who ok text|who h'|h'|h'|b m|b m]; cbn in E, C; try contradiction; first [subst h' | subst h].
  - unfold note in E. destruct (preimage_max <? _); [discriminate E|]. destruct (p_status s !! hash text) as [[tk l0|tk c l0]|].
    + destruct who; [discriminate E|]. injection E as <-. cbn. rewrite lookup_insert. eauto.
    + injection E as <-. cbn. rewrite lookup_insert. eauto.
    + destruct who as [b|]; [destruct (hold ok b _ s); [|discriminate E]|]; injection E as <-; cbn; rewrite lookup_insert; eauto.
  - unfold unnote in E. destruct (p_status s !! h) as [[tk l0|[tk|] c l0]|] eqn:Es; try discriminate E.
    + destruct (match who with Some a => a =? _ | None => true end); [|discriminate E]. injection E as <-. cbn in B. rewrite lookup_delete in B. discriminate B.
    + destruct (match who with Some a => a =? _ | None => true end); [|discriminate E]. injection E as <-. cbn in B |- *. rewrite lookup_insert.
      destruct (I h t B) as (st & l' & H & L). rewrite Es in H. injection H as <-. eauto.
    + destruct who; [discriminate E|]. exact (unrequest_known h s s' I E t B).
  - injection E as <-. cbn in B |- *. rewrite lookup_insert. destruct (I h t B) as (st & l' & H & L). rewrite H. destruct st as [tk1 l1|tk1 c1 l1]; cbn in L; [|subst l1]; eauto.
  - exact (unrequest_known h s s' I E t B).
Qed.
Lemma known_end l : binv (p_end hash l).
Proof. apply known_run. intros h t H. cbn in H. rewrite lookup_empty in H. discriminate H. Qed.

Lemma kept_wanted l1 h t l2 : text_of (p_end hash l1) h = Some t -> wanted h 1 l2 -> text_of (p_end hash (l1 ++ PRequest h :: l2)) h = Some t.
Proof.
  intros B W. rewrite end_app. cbn. set (s := p_end hash l1) in *. destruct (known_end l1 h t B) as (st & l & H & L).
  destruct (request_known s h t (inv_end l1) B ltac:(eauto)) as (tk & c & k & R & Hc).
  destruct (i_text s (inv_end l1) h st H) as (I1 & _). destruct (I1 l L) as (t' & B' & Ht & _). unfold text_of in B. rewrite B in B'. injection B' as <-.
  apply (wanted_run l2 (request h s) h t 1); try assumption; try lia.
  - exact (inv_run [PRequest h] s (inv_end l1)).
  - exists tk, c, k. split; assumption.
Qed.

(** What is on hold, text by text. *)
Definition cost_at (s : pst) (h : N) : N := match text_of s h with Some t => costs t | None => 0 end.
Lemma owed_zero a m : (forall h st, m !! h = Some st -> due a st = 0) -> owed a m = 0.
Proof.
  revert m. apply (map_ind (fun m => (forall h st, m !! h = Some st -> due a st = 0) -> owed a m = 0)); [intros _; reflexivity|].
  intros h st m Hh IH H. rewrite owed_insert by exact Hh. rewrite (H h st) by apply lookup_insert. rewrite IH; [reflexivity|].
  intros h0 st0 H0. apply (H h0). rewrite lookup_insert_ne by (intros ->; congruence). exact H0.
Qed.
Lemma owed_sum a f hs : forall m, NoDup hs -> (forall h, h ∈ hs -> exists st n, m !! h = Some st /\ ticket_of st = Some (a, n) /\ n = f h) ->
  (forall h st n, m !! h = Some st -> ticket_of st = Some (a, n) -> h ∈ hs) -> owed a m = foldr (fun h z => f h + z) 0 hs.
Proof.
  induction hs as [|h hs IH]; intros m ND H1 H2.
  - cbn. apply owed_zero. intros h st H. unfold due. destruct (ticket_of st) as [[b n]|] eqn:T; [|reflexivity].
    destruct (N.eqb_spec b a) as [->|]; [|reflexivity]. exfalso. exact (not_elem_of_nil h (H2 h st n H T)).
  - apply NoDup_cons in ND as [Hh ND]. destruct (H1 h ltac:(left)) as (st & n & E & T & ->). rewrite (owed_delete a m h), E, (due_own a _ st T). cbn. f_equal.
    apply IH; [exact ND| |].
    + intros h0 H0. destruct (H1 h0 ltac:(right; exact H0)) as (st0 & n0 & E0 & R). exists st0, n0. rewrite lookup_delete_ne by (intros ->; contradiction). split; assumption.
    + intros h0 st0 n0 E0 T0. destruct (decide (h0 = h)) as [->|Hn]; [rewrite lookup_delete in E0; discriminate E0|]. rewrite lookup_delete_ne in E0 by congruence.
      pose proof (H2 h0 st0 n0 E0 T0) as H0. apply elem_of_cons in H0 as [->|H0]; [congruence|exact H0].
Qed.

Lemma ticket_cost s h st a n : pinv s -> p_status s !! h = Some st -> ticket_of st = Some (a, n) -> n = cost_at s h.
Proof.
  intros I H T. destruct (i_text s I h st H) as (I1 & I2 & _). destruct (I2 _ T) as (l & L & P). cbn in P. destruct (I1 l L) as (t & B & _ & ->).
  unfold cost_at, text_of. rewrite B, P. apply price_costs.
Qed.

Lemma exact_hold l a hs : NoDup hs -> let s := p_end hash l in (forall h, h ∈ hs <-> pays s a h) ->
  on_hold s a = foldr (fun h z => match text_of s h with Some t => costs t | None => 0 end + z) 0 hs.
Proof.
  intros ND. cbv zeta. pose proof (inv_end l) as I. set (s := p_end hash l) in *. intros H.
  change (on_hold s a) with (pamt (p_held s) a). rewrite (i_held s I). apply (owed_sum a (cost_at s)); [exact ND| |].
  - intros h Hh. apply H, pays_ticket in Hh as (st & n & E & T). exists st, n. split; [exact E|]. split; [exact T|]. exact (ticket_cost s h st a n I E T).
  - intros h st n E T. apply H, pays_ticket. eauto.
Qed.

Lemma takes_back l a h who t : let s := p_end hash l in pays s a h -> text_of s h = Some t -> who = Some a \/ who = None ->
  exists s', pstep_try hash s (PUnnote who h) = Some s' /\ on_hold s' a + costs t = on_hold s a /\ has_free s' a = has_free s a + costs t /\ ~ pays s' a h.
Proof.
  cbv zeta. pose proof (inv_end l) as I. set (s := p_end hash l) in *. intros P B Hw. apply pays_ticket in P as (st & n & E & T).
  assert (n = costs t) as -> by (rewrite (ticket_cost s h st a n I E T); unfold cost_at; rewrite B; reflexivity).
  destruct (unhold_does s h st a _ I E T) as (U1 & U2 & _). cbn [pstep_try]. unfold unnote. rewrite E.
  assert (match who with Some b => b =? fst (a, costs t) | None => true end = true) as M by (destruct Hw as [-> | ->]; [apply N.eqb_refl|reflexivity]).
  destruct st as [tk l0|tk c l0]; cbn in T; [injection T as ->|subst tk]; rewrite M; eexists; (split; [reflexivity|]); (split; [exact U1|]); (split; [exact U2|]).
  - rewrite pays_ticket. intros (st' & n' & E' & _). cbn in E'. rewrite lookup_delete in E'. discriminate E'.
  - rewrite pays_ticket. intros (st' & n' & E' & T'). cbn in E'. rewrite lookup_insert in E'. injection E' as <-. discriminate T'.
Qed.

Lemma others_cannot l a b h : let s := p_end hash l in pays s a h -> b <> a -> ~ succeeds hash s (PUnnote (Some b) h).
Proof.
  cbv zeta. set (s := p_end hash l). intros P Hb [s' E]. apply pays_ticket in P as (st & n & H & T). cbn in E. unfold unnote in E. rewrite H in E.
  assert ((b =? a) = false) as Ef by (apply N.eqb_neq; exact Hb). destruct st as [tk l0|tk c l0]; cbn in T; [injection T as ->|subst tk]; cbn in E; rewrite Ef in E; discriminate E.
Qed.

(** Sums. *)
Lemma unrequest_money h s s' : unrequest h s = Some s' -> p_free s' = p_free s /\ p_held s' = p_held s.
Proof.
  intros E. unfold unrequest in E. destruct (p_status s !! h) as [[tk l|tk c l]|]; try discriminate E. destruct (1 <? c); [injection E as <-; split; reflexivity|].
  destruct l, tk; injection E as <-; split; reflexivity.
Qed.
Lemma sums s x s' a : pstep_try hash s x = Some s' -> (forall n, x <> PMoney a n /\ x <> PSpend a n) -> has_free s' a + on_hold s' a = has_free s a + on_hold s a.
Proof.
  intros E N. change (pamt (p_free s') a + pamt (p_held s') a = pamt (p_free s) a + pamt (p_held s) a).
  assert (forall b n, pamt (p_free (unhold (b, n) s)) a + pamt (p_held (unhold (b, n) s)) a = pamt (p_free s) a + pamt (p_held s) a) as UH.
  { intros b n. unfold unhold. cbn. destruct (decide (b = a)) as [->|Hn]; [rewrite !pamt_eq; lia|rewrite !pamt_ne by exact Hn; reflexivity]. }
  assert (forall h, unrequest h s = Some s' -> pamt (p_free s') a + pamt (p_held s') a = pamt (p_free s) a + pamt (p_held s) a) as UR.
  { intros h E'. destruct (unrequest_money h s s' E') as [-> ->]. reflexivity. }
  destruct x as [who ok text|who h'|h'|h'|b m|b m]; cbn in E.
  - unfold note in E. destruct (preimage_max <? _); [discriminate E|]. destruct (p_status s !! hash text) as [[tk l0|tk c l0]|].
    + destruct who; [discriminate E|]. injection E as <-. reflexivity.
    + injection E as <-. reflexivity.
    + destruct who as [b|]; [|injection E as <-; reflexivity]. destruct (hold ok b _ s) as [s1|] eqn:Eh; [|discriminate E]. injection E as <-. cbn.
      destruct (hold_does _ _ _ _ _ Eh) as (H1 & _ & _ & H2 & H3 & H4). destruct (decide (a = b)) as [->|Hn]; [lia|]. destruct (H4 a Hn) as [-> ->]. reflexivity.
  - unfold unnote in E. destruct (p_status s !! h') as [[[b n] l0|[[b n]|] c l0]|] eqn:Es; try discriminate E.
    + destruct (match who with Some a => a =? _ | None => true end); [|discriminate E]. injection E as <-. apply UH.
    + destruct (match who with Some a => a =? _ | None => true end); [|discriminate E]. injection E as <-. apply UH.
    + destruct who; [discriminate E|]. exact (UR h' E).
  - injection E as <-. reflexivity.
  - exact (UR h' E).
  - injection E as <-. cbn. rewrite pamt_ne by (intros ->; destruct (N m); congruence). reflexivity.
  - destruct (m <=? _); [|discriminate E]. injection E as <-. cbn. rewrite pamt_ne by (intros ->; destruct (N m); congruence). reflexivity.
Qed.

(** Noting what nobody pays for. *)
Lemma can_note l a t : let s := p_end hash l in N.of_nat (length t) <= 4194304 -> costs t <= has_free s a -> (forall b, ~ pays s b (hash t)) ->
  exists s', pstep_try hash s (PNote (Some a) true t) = Some s' /\ text_of s' (hash t) = Some t.
Proof.
  cbv zeta. set (s := p_end hash l). intros L F P. cbn [pstep_try]. unfold note. replace (preimage_max <? _) with false by (symmetry; apply N.ltb_ge; exact L).
  destruct (p_status s !! hash t) as [[[b n] l0|tk c l0]|] eqn:E.
  - exfalso. apply (P b). apply pays_ticket. eauto.
  - eexists. split; [reflexivity|]. unfold text_of. cbn. apply lookup_insert.
  - unfold hold. rewrite price_costs. replace (costs t <=? pamt (p_free s) a) with true by (symmetry; apply N.leb_le; exact F). cbn.
    eexists. split; [reflexivity|]. unfold text_of. cbn. apply lookup_insert.
Qed.

Lemma right_text l h t : text_of (p_end hash l) h = Some t -> hash t = h.
Proof.
  intros B. destruct (known_end l h t B) as (st & n & H & L). destruct (i_text _ (inv_end l) h st H) as (I1 & _). destruct (I1 n L) as (t' & B' & Ht & _).
  unfold text_of in B. rewrite B in B'. injection B' as <-. exact Ht.
Qed.

(** Steps of others. *)
Lemma unhold_other b n s a : b <> a -> pamt (p_free (unhold (b, n) s)) a = pamt (p_free s) a /\ pamt (p_held (unhold (b, n) s)) a = pamt (p_held s) a.
Proof. intros H. unfold unhold. cbn. rewrite !pamt_ne by exact H. split; reflexivity. Qed.
Lemma untouched s x s' a : pstep_try hash s x = Some s' ->
  match x with
  | PNote (Some b) _ _ | PUnnote (Some b) _ | PMoney b _ | PSpend b _ => b <> a
  | PUnnote None h => ~ pays s a h
  | _ => True
  end -> has_free s' a = has_free s a /\ on_hold s' a = on_hold s a.
Proof.
  intros E N. change (pamt (p_free s') a = pamt (p_free s) a /\ pamt (p_held s') a = pamt (p_held s) a).
  assert (forall h, unrequest h s = Some s' -> pamt (p_free s') a = pamt (p_free s) a /\ pamt (p_held s') a = pamt (p_held s) a) as UR.
  { intros h E'. destruct (unrequest_money h s s' E') as [-> ->]. split; reflexivity. }
  destruct x as [who ok text|who h'|h'|h'|b m|b m]; cbn in E.
  - unfold note in E. destruct (preimage_max <? _); [discriminate E|]. destruct (p_status s !! hash text) as [[tk l0|tk c l0]|].
    + destruct who; [discriminate E|]. injection E as <-. split; reflexivity.
    + injection E as <-. split; reflexivity.
    + destruct who as [b|]; [|injection E as <-; split; reflexivity]. destruct (hold ok b _ s) as [s1|] eqn:Eh; [|discriminate E]. injection E as <-. cbn.
      destruct (hold_does _ _ _ _ _ Eh) as (_ & _ & _ & _ & _ & H4). apply and_comm, H4. congruence.
  - unfold unnote in E. destruct (p_status s !! h') as [[[b n] l0|[[b n]|] c l0]|] eqn:Es; try discriminate E.
    + destruct (match who with Some a => a =? _ | None => true end) eqn:M; [|discriminate E]. injection E as <-. apply unhold_other.
      destruct who as [b'|]; cbn in M; [apply N.eqb_eq in M; congruence|]. intros ->. apply N, pays_ticket. eauto.
    + destruct (match who with Some a => a =? _ | None => true end) eqn:M; [|discriminate E]. injection E as <-. apply unhold_other.
      destruct who as [b'|]; cbn in M; [apply N.eqb_eq in M; congruence|]. intros ->. apply N, pays_ticket. exists (Requested (Some (a, n)) c l0), n. split; [exact Es|reflexivity].
    + destruct who; [discriminate E|]. exact (UR h' E).
  - injection E as <-. split; reflexivity.
  - exact (UR h' E).
  - injection E as <-. cbn. rewrite pamt_ne by exact N. split; reflexivity.
  - destruct (m <=? _); [|discriminate E]. injection E as <-. cbn. rewrite pamt_ne by exact N. split; reflexivity.
Qed.
End P.

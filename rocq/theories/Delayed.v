(** Proofs about DelayedModel.v. *)
From stdpp Require Import gmap.
From Verif Require Import Base ProxyModel DelayedModel DelayedSpec.
Open Scope N_scope.

Section dcall_induction.
  Context (P : dcall -> Prop).
  Context (Hother : forall k, P (DOther k)) (Hbatch : forall m l, Forall P l -> P (DBatch m l))
    (Hadd : forall d t n, P (DAddProxy d t n)) (Hrem : forall d t n, P (DRemoveProxy d t n)) (Hall : P DRemoveProxies)
    (Hann : forall r h, P (DAnnounce r h)) (Hwith : forall r h, P (DRemoveAnnouncement r h)) (Hrej : forall d h, P (DReject d h))
    (Hproxy : forall r f c, P c -> P (DProxy r f c)) (Hpa : forall d r f c, P c -> P (DProxyAnnounced d r f c)).
  Fixpoint dcall_all (c : dcall) : P c :=
    match c with
    | DOther k => Hother k
    | DBatch m l => Hbatch m l ((fix go l : Forall P l := match l with [] => List.Forall_nil P | c :: r => List.Forall_cons P c r (dcall_all c) (go r) end) l)
    | DAddProxy d t n => Hadd d t n
    | DRemoveProxy d t n => Hrem d t n
    | DRemoveProxies => Hall
    | DAnnounce r h => Hann r h
    | DRemoveAnnouncement r h => Hwith r h
    | DReject d h => Hrej d h
    | DProxy r f c => Hproxy r f c (dcall_all c)
    | DProxyAnnounced d r f c => Hpa d r f c (dcall_all c)
    end.
End dcall_induction.

(** One thing that happens, and how the state changes. *)
Inductive prim (hash : dcall -> N) (s : dst) : entry -> dst -> Prop :=
| P_did w k : prim hash s (Did w k) s
| P_added w d ty n : w <> d -> prim hash s (Added w d ty n) (set_proxies_of w (insert_def (d, ty, n) (proxies_of s w)) s)
| P_removed w d ty n :
    prim hash s (Removed w d ty n) (set_proxies_of w (List.filter (fun x => negb (bool_decide (x = (d, ty, n)))) (proxies_of s w)) s)
| P_removed_all w : prim hash s (RemovedAll w) (set_proxies_of w [] s)
| P_announced d real h : (exists x, x ∈ proxies_of s real /\ fst (fst x) = d) ->
    prim hash s (Announced d real h) (set_pending_of d (pending_of s d ++ [(real, h, x_now s)]) s)
| P_withdrawn d real h : prim hash s (Withdrawn d real h)
    (set_pending_of d (List.filter (fun a => negb (fst (fst a) =? real) || negb (snd (fst a) =? h)) (pending_of s d)) s)
| P_rejected d real h : prim hash s (Rejected real d h)
    (set_pending_of d (List.filter (fun a => negb (fst (fst a) =? real) || negb (snd (fst a) =? h)) (pending_of s d)) s)
| P_acted real d ty c : (d, ty, 0) ∈ proxies_of s real -> prim hash s (Acted real d ty 0 false c) s
| P_announced_acted real d ty n c : (d, ty, n) ∈ proxies_of s real ->
    let l := List.filter (fun a => negb (fst (fst a) =? real) || negb (snd (fst a) =? hash c) || (x_now s - snd a <? n)) (pending_of s d) in
    (length l < length (pending_of s d))%nat -> prim hash s (Acted real d ty n true c) (set_pending_of d l s).
Inductive prims (hash : dcall -> N) : dst -> list entry -> dst -> Prop :=
| PS_nil s : prims hash s [] s
| PS_cons s x s1 l s2 : prim hash s x s1 -> prims hash s1 l s2 -> prims hash s (x :: l) s2.
Lemma prims_app hash s l1 s1 l2 s2 : prims hash s l1 s1 -> prims hash s1 l2 s2 -> prims hash s (l1 ++ l2) s2.
Proof. induction 1; intros H2; [exact H2|]. cbn. econstructor; eauto. Qed.
Lemma prims_one hash s x s1 : prim hash s x s1 -> prims hash s [x] s1.
Proof. intros H. econstructor; [exact H | constructor]. Qed.

Lemma edit_some s d keep s' : edit_announcements s d keep = Some s' ->
  s' = set_pending_of d (List.filter keep (pending_of s d)) s /\ (length (List.filter keep (pending_of s d)) < length (pending_of s d))%nat.
Proof.
  unfold edit_announcements. destruct (_ <? _)%nat eqn:E; [|discriminate]. intros H. injection H as <-. apply Nat.ltb_lt in E. auto.
Qed.
Lemma find_def_some s real d force ty n : find_def s real d force = Some (ty, n) -> (d, ty, n) ∈ proxies_of s real.
Proof.
  unfold find_def. destruct (find _ _) as [[[d' t'] n']|] eqn:E; [|discriminate]. intros H. cbn in H. injection H as <- <-.
  apply List.find_some in E as [H1 H2]. apply andb_true_iff in H2 as [H2 _]. cbn in H2. apply N.eqb_eq in H2 as ->. apply elem_of_list_In. exact H1.
Qed.

Lemma run_batch_prims hash (run : dst -> dcall -> option (dst * list entry)) m l :
  Forall (fun c => forall s s' es, run s c = Some (s', es) -> prims hash s es s') l ->
  forall s s' es, run_batch run m s l = Some (s', es) -> prims hash s es s'.
Proof.
  induction 1 as [|c r Hc _ IH]; intros s s' es H; cbn in H.
  - injection H as <- <-. constructor.
  - destruct (run s c) as [[s1 e1]|] eqn:E.
    + destruct (run_batch run m s1 r) as [[s2 e2]|] eqn:E2; [|discriminate].
      injection H as <- <-. eapply prims_app; [apply Hc; exact E | apply IH; exact E2].
    + destruct m; [injection H as <- <-; constructor | discriminate | apply IH; exact H].
Qed.

Lemma drun_prims hash e c : forall f who s s' es, drun hash e f who c s = Some (s', es) -> prims hash s es s'.
Proof.
  induction c as [k|m l IH|d t n|d t n| |r h|r h|d h|r fo c IH|d r fo c IH] using dcall_all; intros f who s s' es H; cbn [drun] in H;
    (destruct (f _); [|discriminate]).
  - destruct (v_ok e who k); [|discriminate]. injection H as <- <-. apply prims_one. constructor.
  - eapply run_batch_prims; [|exact H]. eapply Forall_impl; [exact IH|]. cbn. intros c Hc s1 s2 es1 H1. exact (Hc _ _ _ _ _ H1).
  - destruct ((who =? d) || _ || _ || _) eqn:E; [discriminate|]. injection H as <- <-. apply prims_one. constructor.
    apply orb_false_iff in E as [E _]. apply orb_false_iff in E as [E _]. apply orb_false_iff in E as [E _]. apply N.eqb_neq in E. exact E.
  - destruct (bool_decide _); [|discriminate]. injection H as <- <-. apply prims_one. constructor.
  - injection H as <- <-. apply prims_one. constructor.
  - destruct (existsb _ _ && _ && _) eqn:E; [|discriminate]. injection H as <- <-. apply prims_one. constructor.
    apply andb_true_iff in E as [E _]. apply andb_true_iff in E as [E _]. apply existsb_exists in E as (x & Hx & Ex). apply N.eqb_eq in Ex.
    exists x. split; [apply elem_of_list_In; exact Hx | exact Ex].
  - destruct (edit_announcements _ _ _) eqn:E; [|discriminate]. injection H as <- <-. apply edit_some in E as [-> _]. apply prims_one. constructor.
  - destruct (edit_announcements _ _ _) eqn:E; [|discriminate]. injection H as <- <-. apply edit_some in E as [-> _]. apply prims_one. constructor.
  - destruct (find_def s r who fo) as [[ty n]|] eqn:E; [|discriminate]. apply find_def_some in E.
    destruct (n =? 0) eqn:En; [|discriminate]. apply N.eqb_eq in En as ->.
    destruct (drun hash e (proxied_filter ty) r c s) as [[s1 l]|] eqn:E1; injection H as <- <-.
    + econstructor; [apply P_acted; exact E | eapply IH; exact E1].
    + apply prims_one. apply P_acted. exact E.
  - destruct (find_def s r d fo) as [[ty n]|] eqn:E; [|discriminate]. apply find_def_some in E.
    destruct (edit_announcements _ _ _) as [s1|] eqn:E0; [|discriminate]. apply edit_some in E0 as [-> L].
    destruct (drun hash e (proxied_filter ty) r c _) as [[s2 l]|] eqn:E1; injection H as <- <-.
    + econstructor; [apply P_announced_acted; [exact E | exact L] | eapply IH; exact E1].
    + apply prims_one. apply P_announced_acted; [exact E | exact L].
Qed.

Lemma prim_now hash s x s' : prim hash s x s' -> x_now s' = x_now s.
Proof. destruct 1; reflexivity. Qed.

Lemma proxies_set s a l b : proxies_of (set_proxies_of a l s) b = if decide (b = a) then l else proxies_of s b.
Proof. unfold proxies_of, set_proxies_of. cbn. destruct (decide (b = a)) as [->|Hn]; [rewrite lookup_insert | rewrite lookup_insert_ne by congruence]; reflexivity. Qed.
Lemma pending_set s a l b : pending_of (set_pending_of a l s) b = if decide (b = a) then l else pending_of s b.
Proof. unfold pending_of, set_pending_of. cbn. destruct (decide (b = a)) as [->|Hn]; [rewrite lookup_insert | rewrite lookup_insert_ne by congruence]; reflexivity. Qed.
Lemma insert_def_in x l y : y ∈ insert_def x l <-> y = x \/ y ∈ l.
Proof.
  induction l as [|z l IH]; cbn [insert_def]; [rewrite elem_of_list_singleton; split; [auto | intros [?|H]; [auto | apply elem_of_nil in H as []]]|].
  destruct (def_before z x); rewrite ?elem_of_cons, ?IH, ?elem_of_cons; tauto.
Qed.

(* ------------------------------------------------------------------ *)
(** * The record and the state *)

Definition ever_gave (log : list (N * entry)) (real d : N) : Prop := exists m ty n, (m, Added real d ty n) ∈ log.
Record rec_inv (hash : dcall -> N) (s : dst) (log : list (N * entry)) : Prop := {
  ri_pending : forall d real h m, (real, h, m) ∈ pending_of s d -> m <= x_now s /\ announced log d real h m;
  ri_proxies : forall real d ty n, (d, ty, n) ∈ proxies_of s real -> exists m, gave log real d ty n m;
  ri_given : forall l1 m d real h l2, log = l1 ++ (m, Announced d real h) :: l2 -> ever_gave l1 real d;
  ri_times : forall x, x ∈ log -> fst x <= x_now s;
  ri_order : forall l1 x l2 y, log = l1 ++ x :: l2 -> y ∈ l2 -> fst x <= fst y;
  ri_count : forall d real h,
    (times (used hash d real h) log + length (List.filter (fun a => (fst (fst a) =? real)%N && (snd (fst a) =? h)%N) (pending_of s d))
       <= times (announcing d real h) log)%nat
}.
(** What is claimed of a use of a proxy at the end of record [log]. *)
Definition use_ok (hash : dcall -> N) (log : list (N * entry)) (now : N) (x : entry) : Prop :=
  forall real d ty delay a c, x = Acted real d ty delay a c ->
    (exists m, gave log real d ty delay m) /\ (0 < delay -> exists m, announced log d real (hash c) m /\ m + delay <= now).

Lemma gave_more log real d ty n m y : gave log real d ty n m -> ~ ended real d ty n (snd y) -> gave (log ++ [y]) real d ty n m.
Proof.
  intros (l1 & l2 & -> & H) Hy. exists l1, (l2 ++ [y]). split; [rewrite <- app_assoc; reflexivity|].
  intros z Hz. apply elem_of_app in Hz as [Hz|Hz]; [exact (H _ Hz)|]. apply elem_of_list_singleton in Hz as ->. exact Hy.
Qed.
Lemma announced_more log d real h m y : announced log d real h m -> ~ taken_back real d h (snd y) -> announced (log ++ [y]) d real h m.
Proof.
  intros (l1 & l2 & -> & H) Hy. exists l1, (l2 ++ [y]). split; [rewrite <- app_assoc; reflexivity|].
  intros z Hz. apply elem_of_app in Hz as [Hz|Hz]; [exact (H _ Hz)|]. apply elem_of_list_singleton in Hz as ->. exact Hy.
Qed.
Lemma times_more p log y : times p (log ++ [y]) = (times p log + (if p (snd y) then 1 else 0))%nat.
Proof. unfold times. rewrite List.filter_app, app_length. cbn. destruct (p (snd y)); reflexivity. Qed.
Lemma filter_in {A} (p : A -> bool) l x : x ∈ List.filter p l -> x ∈ l /\ p x = true.
Proof. intros H. apply elem_of_list_In, List.filter_In in H as [H1 H2]. split; [apply elem_of_list_In; exact H1 | exact H2]. Qed.
Lemma filter_shorter {A} (p : A -> bool) l : (length (List.filter p l) < length l)%nat -> exists x, x ∈ l /\ p x = false.
Proof.
  induction l as [|a l IH]; cbn; [lia|]. destruct (p a) eqn:E.
  - cbn. intros H. destruct IH as (x & Hx & Ex); [lia|]. exists x. split; [right; exact Hx | exact Ex].
  - intros _. exists a. split; [left | exact E].
Qed.
Lemma filter_twice {A} (p q : A -> bool) l : (length (List.filter p (List.filter q l)) <= length (List.filter p l))%nat.
Proof. induction l as [|a l IH]; cbn; [lia|]. destruct (q a); cbn; destruct (p a); cbn; lia. Qed.
Lemma filter_one_less {A} (p q : A -> bool) l : (forall a, q a = false -> p a = true) -> (length (List.filter q l) < length l)%nat ->
  (length (List.filter p (List.filter q l)) < length (List.filter p l))%nat.
Proof.
  intros Hpq. induction l as [|a l IH]; cbn; [lia|]. destruct (q a) eqn:Eq; cbn.
  - intros H. destruct (p a); cbn; [|apply IH; lia]. apply -> Nat.succ_lt_mono. apply IH. lia.
  - intros _. rewrite (Hpq _ Eq). cbn. pose proof (filter_twice p q l). lia.
Qed.

Lemma split_last {A} (l : list A) y l1 x l2 : l ++ [y] = l1 ++ x :: l2 ->
  (l2 = [] /\ l = l1 /\ y = x) \/ exists l2', l2 = l2' ++ [y] /\ l = l1 ++ x :: l2'.
Proof.
  intros H. induction l2 as [|z l2' _] using rev_ind.
  - left. apply app_inj_tail in H as [-> ->]. auto.
  - right. exists l2'. rewrite app_comm_cons, app_assoc in H. apply app_inj_tail in H as [-> ->]. auto.
Qed.

Lemma prim_inv hash s x s' log : prim hash s x s' -> rec_inv hash s log -> rec_inv hash s' (log ++ [(x_now s, x)]) /\ use_ok hash log (x_now s) x.
Proof.
  intros Hp [I1 I2 I3 I4 I5 I6].
  assert (U : use_ok hash log (x_now s) x).
  { intros real d ty delay a c ->. inversion Hp as [| | | | | | |? ? ? ? Hin|? ? ? ? ? Hin l L]; subst.
    - split; [exact (I2 _ _ _ _ Hin) | lia].
    - split; [exact (I2 _ _ _ _ Hin)|]. intros Hd. apply filter_shorter in L as ([[r h] m] & Hx & E). cbn in E.
      apply orb_false_iff in E as [E E3]. apply orb_false_iff in E as [E1 E2]. apply negb_false_iff, N.eqb_eq in E1, E2. subst r h.
      apply N.ltb_ge in E3. destruct (I1 _ _ _ _ Hx) as [Hm Ha]. exists m. split; [exact Ha | lia]. }
  split; [|exact U]. clear U.
  assert (Now : x_now s' = x_now s) by (eapply prim_now; exact Hp).
  split.
  - (* pending *)
    intros d real h m Hin. rewrite Now.
    assert (G : ((real, h, m) ∈ pending_of s d /\ ~ taken_back real d h x) \/ (m = x_now s /\ x = Announced d real h)).
    { destruct Hp as [| | | |d0 r0 h0 _|d0 r0 h0|d0 r0 h0| |r0 d0 ty n c _ l L];
        try (left; split; [exact Hin | intros [T|T]; discriminate T]); rewrite pending_set in Hin; destruct (decide (d = d0)) as [->|Hn];
        try (left; split; [exact Hin | intros [T|T]; congruence]).
      - apply elem_of_app in Hin as [Hin|Hin]; [left; split; [exact Hin | intros [T|T]; discriminate T]|].
        apply elem_of_list_singleton in Hin. injection Hin as -> -> ->. right. auto.
      - apply filter_in in Hin as [Hin E]. left. split; [exact Hin|]. intros [T|T]; [discriminate T|]. injection T as -> ->. cbn in E.
        rewrite !N.eqb_refl in E. discriminate E.
      - apply filter_in in Hin as [Hin E]. left. split; [exact Hin|]. intros [T|T]; [|discriminate T]. injection T as -> ->. cbn in E.
        rewrite !N.eqb_refl in E. discriminate E.
      - apply filter_in in Hin as [Hin E]. left. split; [exact Hin|]. intros [T|T]; discriminate T. }
    destruct G as [[Hin' Ht]|[-> ->]].
    + destruct (I1 _ _ _ _ Hin') as [Hm Ha]. split; [exact Hm|]. apply announced_more; [exact Ha | exact Ht].
    + split; [lia|]. exists log, []. split; [reflexivity|]. intros y Hy. apply elem_of_nil in Hy as [].
  - (* proxies *)
    intros real d ty n Hin.
    assert (G : ((d, ty, n) ∈ proxies_of s real /\ ~ ended real d ty n x) \/ x = Added real d ty n).
    { destruct Hp as [|w d0 ty0 n0 _|w d0 ty0 n0|w| | | | |];
        try (left; split; [exact Hin | intros [T|T]; discriminate T]); rewrite proxies_set in Hin; destruct (decide (real = w)) as [->|Hn];
        try (left; split; [exact Hin | intros [T|T]; congruence]).
      - apply insert_def_in in Hin as [T|Hin]; [injection T as -> -> ->; right; reflexivity|]. left. split; [exact Hin | intros [T|T]; discriminate T].
      - apply filter_in in Hin as [Hin E]. left. split; [exact Hin|]. intros [T|T]; [|discriminate T]. injection T as -> -> ->. cbn in E.
        rewrite bool_decide_eq_true_2 in E by reflexivity. discriminate E.
      - apply elem_of_nil in Hin as []. }
    destruct G as [[Hin' Ht]| ->].
    + destruct (I2 _ _ _ _ Hin') as [m Hm]. exists m. apply gave_more; [exact Hm | exact Ht].
    + exists (x_now s), log, []. split; [reflexivity|]. intros y Hy. apply elem_of_nil in Hy as [].
  - (* announcing takes being a proxy *)
    intros l1 m d real h l2 H. apply split_last in H as [(-> & -> & H)|(l2' & -> & H)]; [|eapply I3; exact H].
    injection H as <- ->. inversion Hp as [| | | |? ? ? Hx| | | |]; subst. destruct Hx as ([[d0 ty] n] & Hin & E). cbn in E. subst d0.
    destruct (I2 _ _ _ _ Hin) as (m & k1 & k2 & -> & _). exists m, ty, n. apply elem_of_app. right. left.
  - intros y Hy. rewrite Now. apply elem_of_app in Hy as [Hy|Hy]; [exact (I4 _ Hy)|]. apply elem_of_list_singleton in Hy as ->. cbn. lia.
  - intros l1 y l2 z H Hz. apply split_last in H as [(-> & -> & H)|(l2' & -> & H)]; [apply elem_of_nil in Hz as []|].
    apply elem_of_app in Hz as [Hz|Hz]; [exact (I5 _ _ _ _ H Hz)|]. apply elem_of_list_singleton in Hz as ->. cbn. apply I4. rewrite H.
    apply elem_of_app. right. left.
  - (* counting *)
    intros d real h. rewrite !times_more. cbn [snd]. specialize (I6 d real h).
    destruct Hp as [| | | |d0 r0 h0 _|d0 r0 h0|d0 r0 h0| |r0 d0 ty n c _ l L]; cbn [announcing used];
      rewrite ?Nat.add_0_r; try exact I6; rewrite pending_set; destruct (decide (d = d0)) as [->|Hn];
      rewrite ?N.eqb_refl; try (replace (d0 =? d) with false by (symmetry; apply N.eqb_neq; congruence)); cbn [andb]; rewrite ?Nat.add_0_r; try exact I6.
    + rewrite List.filter_app, app_length. cbn. destruct ((r0 =? real) && (h0 =? h)); cbn; lia.
    + pose proof (filter_twice (fun a => (fst (fst a) =? real) && (snd (fst a) =? h))
        (fun a : N * N * N => negb (fst (fst a) =? r0) || negb (snd (fst a) =? h0)) (pending_of s d0)). lia.
    + pose proof (filter_twice (fun a => (fst (fst a) =? real) && (snd (fst a) =? h))
        (fun a : N * N * N => negb (fst (fst a) =? r0) || negb (snd (fst a) =? h0)) (pending_of s d0)). lia.
    + destruct ((r0 =? real) && (hash c =? h)) eqn:E.
      * apply andb_true_iff in E as [E1 E2]. apply N.eqb_eq in E1, E2. subst r0 h.
        assert ((length (List.filter (fun a => (fst (fst a) =? real)%N && (snd (fst a) =? hash c)%N) l) <
                 length (List.filter (fun a => (fst (fst a) =? real)%N && (snd (fst a) =? hash c)%N) (pending_of s d0)))%nat) as HL; [|lia].
        apply filter_one_less; [|exact L]. intros a Ea. apply orb_false_iff in Ea as [Ea _]. apply orb_false_iff in Ea as [Ea1 Ea2].
        apply negb_false_iff in Ea1, Ea2. rewrite Ea1, Ea2. reflexivity.
      * pose proof (filter_twice (fun a => (fst (fst a) =? real) && (snd (fst a) =? h))
          (fun a : N * N * N => negb (fst (fst a) =? r0) || negb (snd (fst a) =? hash c) || (x_now s - snd a <? n)) (pending_of s d0)).
        fold l in H. lia.
Qed.

Definition log_ok (hash : dcall -> N) (log : list (N * entry)) : Prop :=
  forall l1 n x l2, log = l1 ++ (n, x) :: l2 -> use_ok hash l1 n x.
Lemma prims_inv hash s l s' : prims hash s l s' -> forall log, rec_inv hash s log -> log_ok hash log ->
  rec_inv hash s' (log ++ map (pair (x_now s)) l) /\ log_ok hash (log ++ map (pair (x_now s)) l) /\ x_now s' = x_now s.
Proof.
  induction 1 as [s|s x s1 l s2 Hp _ IH]; intros log I O; cbn.
  - rewrite app_nil_r. auto.
  - destruct (prim_inv _ _ _ _ _ Hp I) as [I1 U]. pose proof (prim_now _ _ _ _ Hp) as Hnow. rewrite Hnow in IH.
    change ((x_now s, x) :: map (pair (x_now s)) l) with ([(x_now s, x)] ++ map (pair (x_now s)) l). rewrite app_assoc.
    apply IH; [exact I1|]. intros l1 n y l2 H. apply split_last in H as [(-> & -> & H)|(l2' & -> & H)]; [|eapply O; exact H].
    injection H as <- <-. exact U.
Qed.

Lemma xstep_inv hash s x log : rec_inv hash s log -> log_ok hash log ->
  rec_inv hash (fst (xstep hash s x)) (log ++ snd (xstep hash s x)) /\ log_ok hash (log ++ snd (xstep hash s x)).
Proof.
  intros I O. destruct x as [e who c|]; cbn [xstep].
  - destruct (drun hash e (fun _ => true) who c s) as [[s' l]|] eqn:E; cbn [fst snd]; [|rewrite app_nil_r; auto].
    apply drun_prims in E. destruct (prims_inv _ _ _ _ E _ I O) as (? & ? & _). auto.
  - cbn [fst snd]. rewrite app_nil_r. split; [|exact O]. destruct I as [I1 I2 I3 I4 I5 I6]. split; try assumption.
    + intros d real h m H. destruct (I1 _ _ _ _ H) as [Hm Ha]. split; [cbn; lia | exact Ha].
    + intros y Hy. specialize (I4 _ Hy). cbn. lia.
Qed.
Lemma xrun_inv hash l : forall s log, rec_inv hash s log -> log_ok hash log ->
  rec_inv hash (fst (xrun hash s l)) (log ++ snd (xrun hash s l)) /\ log_ok hash (log ++ snd (xrun hash s l)).
Proof.
  induction l as [|x r IH]; intros s log I O; cbn [xrun].
  - cbn. rewrite app_nil_r. auto.
  - destruct (xstep_inv hash s x log I O) as [I1 O1]. destruct (xstep hash s x) as [s1 l1]. cbn [fst snd] in I1, O1.
    specialize (IH s1 _ I1 O1). destruct (xrun hash s1 r) as [s2 l2]. cbn [fst snd] in *. rewrite app_assoc. exact IH.
Qed.
Lemma start_inv hash now : rec_inv hash (x_start now) [] /\ log_ok hash [].
Proof.
  split.
  - split.
    + intros d real h m H. apply elem_of_nil in H as [].
    + intros real d ty n H. apply elem_of_nil in H as [].
    + intros [|? ?]; discriminate.
    + intros x H. apply elem_of_nil in H as [].
    + intros [|? ?]; discriminate.
    + intros d real h. unfold times. change (pending_of (x_start now) d) with (@nil (N * N * N)). cbn. lia.
  - intros [|? ?]; discriminate.
Qed.
Lemma record_inv hash now l : rec_inv hash (fst (xrun hash (x_start now) l)) (record hash now l) /\ log_ok hash (record hash now l).
Proof. destruct (start_inv hash now) as [I O]. exact (xrun_inv hash l _ _ I O). Qed.

Lemma was_announced hash now l before n real d ty delay a c after :
  record hash now l = before ++ (n, Acted real d ty delay a c) :: after ->
  (exists m, gave before real d ty delay m) /\ (0 < delay -> exists m, announced before d real (hash c) m /\ m + delay <= n).
Proof. intros H. destruct (record_inv hash now l) as [_ O]. exact (O _ _ _ _ H _ _ _ _ _ _ eq_refl). Qed.

Lemma used_once hash now l d real h : (times (used hash d real h) (record hash now l) <= times (announcing d real h) (record hash now l))%nat.
Proof. destruct (record_inv hash now l) as [I _]. pose proof (ri_count _ _ _ I d real h). lia. Qed.

Lemma first_given hash now l l1 m0 real d ty0 n0 l2 n ty delay a c after :
  record hash now l = l1 ++ (m0, Added real d ty0 n0) :: l2 ++ (n, Acted real d ty delay a c) :: after ->
  (forall m ty' n', (m, Added real d ty' n') ∉ l1) -> 0 < delay -> m0 + delay <= n.
Proof.
  intros H Hno Hd. rewrite app_comm_cons, app_assoc in H. destruct (was_announced _ _ _ _ _ _ _ _ _ _ _ _ H) as [_ A].
  destruct (A Hd) as (m & (k1 & k2 & Hk & _) & Hm). destruct (record_inv hash now l) as [I _].
  assert (Hm0 : m0 <= m); [|lia].
  assert (G : ever_gave k1 real d).
  { apply (ri_given _ _ _ I k1 m d real (hash c) (k2 ++ (n, Acted real d ty delay a c) :: after)). rewrite H, Hk, <- app_assoc. reflexivity. }
  destruct G as (m1 & ty1 & n1 & G).
  (* the announcement comes after the first gift *)
  destruct (decide (m0 <= m)) as [Hle|Hgt]; [exact Hle|exfalso].
  apply app_eq_app in Hk as (k & [[E1 E2]|[E1 E2]]).
  - (* l1 = k1 ++ k *) apply (Hno m1 ty1 n1). rewrite E1. apply elem_of_app. left. exact G.
  - destruct k as [|y k]; cbn in E2.
    + rewrite app_nil_r in E1. subst k1. injection E2. intros. discriminate.
    + injection E2 as <- E2. apply Hgt.
      assert (Ho : record hash now l = l1 ++ (m0, Added real d ty0 n0) :: (l2 ++ (n, Acted real d ty delay a c) :: after))
        by (rewrite H, <- app_assoc; reflexivity).
      apply (ri_order _ _ _ I _ _ _ (m, Announced d real (hash c)) Ho). rewrite E2. apply elem_of_app. left. apply elem_of_app. right. left.
Qed.

(** In whose name calls are made. *)
Lemma run_batch_did (run : dst -> dcall -> option (dst * list entry)) m who real k l : real <> who ->
  Forall (fun c => forall s s' es, run s c = Some (s', es) -> Did real k ∈ es -> exists d ty n a c', Acted real d ty n a c' ∈ es) l ->
  forall s s' es, run_batch run m s l = Some (s', es) -> Did real k ∈ es -> exists d ty n a c', Acted real d ty n a c' ∈ es.
Proof.
  intros Hne. induction 1 as [|c r Hc _ IH]; intros s s' es H Hd; cbn in H.
  - injection H as <- <-. apply elem_of_nil in Hd as [].
  - destruct (run s c) as [[s1 e1]|] eqn:E.
    + destruct (run_batch run m s1 r) as [[s2 e2]|] eqn:E2; [|discriminate].
      injection H as <- <-. apply elem_of_app in Hd as [Hd|Hd].
      * destruct (Hc _ _ _ E Hd) as (d & ty & n & a & c' & X). exists d, ty, n, a, c'. apply elem_of_app. left. exact X.
      * destruct (IH _ _ _ E2 Hd) as (d & ty & n & a & c' & X). exists d, ty, n, a, c'. apply elem_of_app. right. exact X.
    + destruct m; [injection H as <- <-; apply elem_of_nil in Hd as [] | discriminate | exact (IH _ _ _ H Hd)].
Qed.
Lemma drun_did hash e real k c : forall f who s s' es, real <> who -> drun hash e f who c s = Some (s', es) -> Did real k ∈ es ->
  exists d ty n a c', Acted real d ty n a c' ∈ es.
Proof.
  induction c as [k0|m l IH|d t n|d t n| |r h|r h|d h|r fo c IH|d r fo c IH] using dcall_all; intros f who s s' es Hne H Hd; cbn [drun] in H;
    (destruct (f _); [|discriminate]).
  - destruct (v_ok e who k0); [|discriminate]. injection H as <- <-. apply elem_of_list_singleton in Hd. congruence.
  - eapply run_batch_did; [exact Hne | | exact H | exact Hd]. eapply Forall_impl; [exact IH|]. cbn. intros c Hc s1 s2 es1 H1. exact (Hc _ _ _ _ _ Hne H1).
  - destruct ((who =? d) || _ || _ || _); [discriminate|]. injection H as <- <-. apply elem_of_list_singleton in Hd. discriminate Hd.
  - destruct (bool_decide _); [|discriminate]. injection H as <- <-. apply elem_of_list_singleton in Hd. discriminate Hd.
  - injection H as <- <-. apply elem_of_list_singleton in Hd. discriminate Hd.
  - destruct (existsb _ _ && _ && _); [|discriminate]. injection H as <- <-. apply elem_of_list_singleton in Hd. discriminate Hd.
  - destruct (edit_announcements _ _ _); [|discriminate]. injection H as <- <-. apply elem_of_list_singleton in Hd. discriminate Hd.
  - destruct (edit_announcements _ _ _); [|discriminate]. injection H as <- <-. apply elem_of_list_singleton in Hd. discriminate Hd.
  - destruct (find_def s r who fo) as [[ty n]|]; [|discriminate]. destruct (n =? 0); [|discriminate].
    destruct (decide (real = r)) as [->|Hr].
    + exists who, ty, n, false, c. destruct (drun hash e (proxied_filter ty) r c s) as [[s1 l]|]; injection H as <- <-; left.
    + destruct (drun hash e (proxied_filter ty) r c s) as [[s1 l]|] eqn:E; injection H as <- <-.
      * apply elem_of_cons in Hd as [Hd|Hd]; [discriminate Hd|]. destruct (IH _ _ _ _ _ Hr E Hd) as (d & t & n1 & a & c' & X).
        exists d, t, n1, a, c'. right. exact X.
      * apply elem_of_list_singleton in Hd. discriminate Hd.
  - destruct (find_def s r d fo) as [[ty n]|]; [|discriminate]. destruct (edit_announcements _ _ _) as [s1|]; [|discriminate].
    destruct (decide (real = r)) as [->|Hr].
    + exists d, ty, n, true, c. destruct (drun hash e (proxied_filter ty) r c s1) as [[s2 l]|]; injection H as <- <-; left.
    + destruct (drun hash e (proxied_filter ty) r c s1) as [[s2 l]|] eqn:E; injection H as <- <-.
      * apply elem_of_cons in Hd as [Hd|Hd]; [discriminate Hd|]. destruct (IH _ _ _ _ _ Hr E Hd) as (d1 & t & n1 & a & c' & X).
        exists d1, t, n1, a, c'. right. exact X.
      * apply elem_of_list_singleton in Hd. discriminate Hd.
Qed.

Lemma own_name hash s e who c n real k : (n, Did real k) ∈ snd (xstep hash s (XTx e who c)) -> real <> who ->
  exists d ty delay a c', (n, Acted real d ty delay a c') ∈ snd (xstep hash s (XTx e who c)).
Proof.
  cbn [xstep]. destruct (drun hash e (fun _ => true) who c s) as [[s' l]|] eqn:E; cbn [snd]; [|intros H; apply elem_of_nil in H as []].
  intros H Hne. apply elem_of_list_In, in_map_iff in H as (x & Hx & Hin). injection Hx as Hn ->. apply elem_of_list_In in Hin.
  destruct (drun_did _ _ _ _ _ _ _ _ _ _ Hne E Hin) as (d & ty & delay & a & c' & X). exists d, ty, delay, a, c'.
  apply elem_of_list_In, in_map_iff. exists (Acted real d ty delay a c'). split; [rewrite Hn; reflexivity | apply elem_of_list_In; exact X].
Qed.

Lemma has_found s real d ty delay : has_proxy s real d ty delay -> find_def s real d (Some ty) = Some (ty, delay).
Proof.
  intros [Hin Hu]. unfold find_def. destruct (find _ _) as [[[d' t'] n']|] eqn:E.
  - apply List.find_some in E as [H1 H2]. cbn in *. apply andb_true_iff in H2 as [H2 H3]. apply N.eqb_eq in H2 as ->.
    apply bool_decide_eq_true in H3 as ->. apply elem_of_list_In in H1. rewrite (Hu _ H1). reflexivity.
  - exfalso. apply elem_of_list_In in Hin. apply (List.find_none _ _ E) in Hin. cbn in Hin. rewrite N.eqb_refl, bool_decide_eq_true_2 in Hin by reflexivity.
    discriminate Hin.
Qed.

(** Rejecting. *)
Lemma edit_rejects s d real h m : (real, h, m) ∈ pending_of s d ->
  exists s', edit_announcements s d (fun a => negb (fst (fst a) =? real) || negb (snd (fst a) =? h)) = Some s' /\
    x_now s' = x_now s /\ (forall m', (real, h, m') ∉ pending_of s' d).
Proof.
  intros Hin. unfold edit_announcements. set (keep := fun a : N * N * N => negb (fst (fst a) =? real) || negb (snd (fst a) =? h)).
  assert (L : (length (List.filter keep (pending_of s d)) < length (pending_of s d))%nat).
  { apply elem_of_list_split in Hin as (l1 & l2 & E). rewrite E, List.filter_app, !app_length. cbn. unfold keep at 2. cbn.
    rewrite !N.eqb_refl. cbn. assert (F : forall l, (length (List.filter keep l) <= length l)%nat).
    { intros l. induction l as [|a l IH]; cbn; [lia|]. destruct (keep a); cbn; lia. }
    pose proof (F l1). pose proof (F l2). lia. }
  apply Nat.ltb_lt in L. rewrite L. eexists. split; [reflexivity|]. split; [reflexivity|]. intros m' X. rewrite pending_set, decide_True in X by reflexivity.
  apply filter_in in X as [_ X]. unfold keep in X. cbn in X. rewrite !N.eqb_refl in X. discriminate X.
Qed.
Lemma stopped hash s e d real h m : (real, h, m) ∈ pending_of s d ->
  (let r := xstep hash s (XTx e real (DReject d h)) in
   snd r = [(x_now s, Rejected real d h)] /\ (forall m', (real, h, m') ∉ pending_of (fst r) d)) /\
  (forall g, has_proxy s real g CancelProxy 0 ->
   let r := xstep hash s (XTx e g (DProxy real (Some CancelProxy) (DReject d h))) in
   (x_now s, Rejected real d h) ∈ snd r /\ (forall m', (real, h, m') ∉ pending_of (fst r) d)).
Proof.
  intros Hin. destruct (edit_rejects _ _ _ _ _ Hin) as (s' & E & _ & Hno). split.
  - cbn [xstep drun]. rewrite E. cbn. auto.
  - intros g Hg. apply has_found in Hg. cbn [xstep drun]. rewrite Hg. cbn [N.eqb seen proxied_filter proxy_filter]. rewrite E. cbn [fst snd map]. split; [right; left | exact Hno].
Qed.

(** A delayed proxy given to who is a proxy already. *)
Definition willing : denv := DEnv (fun _ => true) (fun _ _ => true).
Definition ahead (hash : dcall -> N) (real d delay : N) (c : dcall) : list dxstep :=
  [XTx willing real (DAddProxy d Collator 0); XTx willing d (DAnnounce real (hash c))] ++ replicate (N.to_nat delay) XBlock ++
  [XTx willing real (DAddProxy d Any delay); XTx willing d (DProxyAnnounced d real (Some Any) c)].
Lemma xrun_app hash l1 l2 : forall s, xrun hash s (l1 ++ l2) =
  (fst (xrun hash (fst (xrun hash s l1)) l2), snd (xrun hash s l1) ++ snd (xrun hash (fst (xrun hash s l1)) l2)).
Proof.
  induction l1 as [|x r IH]; intros s; cbn [app xrun].
  - cbn. destruct (xrun hash s l2). reflexivity.
  - destruct (xstep hash s x) as [s1 e1]. rewrite IH. destruct (xrun hash s1 r) as [s2 e2]. cbn. rewrite app_assoc. reflexivity.
Qed.
Lemma xrun_blocks hash k : forall s, xrun hash s (replicate k XBlock) = (Dst (x_now s + N.of_nat k) (x_proxies s) (x_ann s), []).
Proof.
  induction k as [|k IH]; intros s; [cbn; rewrite N.add_0_r; destruct s; reflexivity|]. cbn [replicate xrun xstep]. rewrite IH. cbn [x_now x_proxies x_ann app].
  do 2 f_equal. lia.
Qed.
Lemma xrun_cons hash s x r : xrun hash s (x :: r) =
  (fst (xrun hash (fst (xstep hash s x)) r), snd (xstep hash s x) ++ snd (xrun hash (fst (xstep hash s x)) r)).
Proof. cbn [xrun]. destruct (xstep hash s x) as [s1 e1]. cbn [fst snd]. destruct (xrun hash s1 r). reflexivity. Qed.
Lemma step_add hash s real d ty n : real <> d -> (d, ty, n) ∉ proxies_of s real -> (length (proxies_of s real) < 32)%nat ->
  xstep hash s (XTx willing real (DAddProxy d ty n)) =
  (set_proxies_of real (insert_def (d, ty, n) (proxies_of s real)) s, [(x_now s, Added real d ty n)]).
Proof.
  intros H1 H2 H3. cbn [xstep drun]. apply N.eqb_neq in H1. rewrite H1, (bool_decide_eq_false_2 _ H2).
  assert (E : (max_proxies <=? length (proxies_of s real))%nat = false) by (apply Nat.leb_gt; exact H3). rewrite E. reflexivity.
Qed.
Lemma step_announce hash s real d h : existsb (fun x => fst (fst x) =? d) (proxies_of s real) = true -> (length (pending_of s d) < 32)%nat ->
  xstep hash s (XTx willing d (DAnnounce real h)) =
  (set_pending_of d (pending_of s d ++ [(real, h, x_now s)]) s, [(x_now s, Announced d real h)]).
Proof.
  intros H1 H2. cbn [xstep drun]. rewrite H1. assert (E : (length (pending_of s d) <? max_pending)%nat = true) by (apply Nat.ltb_lt; exact H2).
  rewrite E. reflexivity.
Qed.
Lemma step_act hash e s real d force ty n c who s1 : find_def s real d force = Some (ty, n) ->
  edit_announcements s d (fun a => negb (fst (fst a) =? real) || negb (snd (fst a) =? hash c) || (x_now s - snd a <? n)) = Some s1 ->
  exists l, snd (xstep hash s (XTx e who (DProxyAnnounced d real force c))) = (x_now s, Acted real d ty n true c) :: l.
Proof.
  intros H1 H2. cbn [xstep drun]. rewrite H1, H2. destruct (drun _ _ _ _ c s1) as [[s2 l]|]; cbn [snd map]; eauto.
Qed.
Lemma too_early hash now real d delay c : real <> d -> 0 < delay ->
  exists before after, record hash now (ahead hash real d delay c) =
    before ++ [(now + delay, Added real d Any delay); (now + delay, Acted real d Any delay true c)] ++ after.
Proof.
  intros Hne Hd. unfold record, ahead. rewrite xrun_app. cbn [snd fst].
  set (s0 := x_start now). assert (P0 : proxies_of s0 real = []) by reflexivity.
  assert (A0 : pending_of s0 d = []) by reflexivity. assert (N0 : x_now s0 = now) by reflexivity. clearbody s0.
  rewrite xrun_cons, step_add; [|exact Hne | rewrite P0; apply not_elem_of_nil | rewrite P0; cbn; lia]. cbn [fst snd].
  rewrite P0. cbn [insert_def]. set (s1 := set_proxies_of real [(d, Collator, 0)] s0).
  assert (P1 : proxies_of s1 real = [(d, Collator, 0)]) by (unfold s1; rewrite proxies_set, decide_True by reflexivity; reflexivity).
  assert (A1 : pending_of s1 d = []) by exact A0. assert (N1 : x_now s1 = now) by exact N0. clearbody s1.
  rewrite xrun_cons, step_announce; [|rewrite P1; cbn; rewrite N.eqb_refl; reflexivity | rewrite A1; cbn; lia]. cbn [fst snd xrun].
  rewrite A1, N1. cbn [app]. set (s2 := set_pending_of d [(real, hash c, now)] s1).
  assert (P2 : proxies_of s2 real = [(d, Collator, 0)]) by exact P1.
  assert (A2 : pending_of s2 d = [(real, hash c, now)]) by (unfold s2; rewrite pending_set, decide_True by reflexivity; reflexivity).
  assert (N2 : x_now s2 = now) by exact N1. clearbody s2.
  rewrite xrun_app, xrun_blocks. cbn [fst snd app]. rewrite N2Nat.id, N2.
  set (s3 := Dst (now + delay) (x_proxies s2) (x_ann s2)). assert (P3 : proxies_of s3 real = [(d, Collator, 0)]) by exact P2.
  assert (A3 : pending_of s3 d = [(real, hash c, now)]) by exact A2. assert (N3 : x_now s3 = now + delay) by reflexivity. clearbody s3.
  rewrite xrun_cons, step_add; [|exact Hne | rewrite P3, elem_of_list_singleton; discriminate | rewrite P3; cbn; lia]. cbn [fst snd].
  rewrite P3, N3. assert (Ins : insert_def (d, Any, delay) [(d, Collator, 0)] = [(d, Any, delay); (d, Collator, 0)]).
  { cbn [insert_def def_before]. rewrite N.ltb_irrefl, N.eqb_refl. reflexivity. }
  rewrite Ins. set (s4 := set_proxies_of real [(d, Any, delay); (d, Collator, 0)] s3).
  assert (P4 : proxies_of s4 real = [(d, Any, delay); (d, Collator, 0)]) by (unfold s4; rewrite proxies_set, decide_True by reflexivity; reflexivity).
  assert (A4 : pending_of s4 d = [(real, hash c, now)]) by exact A3. assert (N4 : x_now s4 = now + delay) by exact N3. clearbody s4.
  rewrite xrun_cons. destruct (step_act hash willing s4 real d (Some Any) Any delay c d (set_pending_of d [] s4)) as [l El].
  - unfold find_def. rewrite P4. cbn [find fst snd]. rewrite N.eqb_refl, bool_decide_eq_true_2 by reflexivity. reflexivity.
  - unfold edit_announcements. rewrite A4, N4. cbn [List.filter fst snd]. rewrite !N.eqb_refl.
    replace (now + delay - now <? delay) with false by (symmetry; apply N.ltb_ge; lia). reflexivity.
  - rewrite El, N4. cbn [snd xrun app]. eexists [_; _], (l ++ []). reflexivity.
Qed.

Lemma can_act hash e s real d ty delay c who m : has_proxy s real d ty delay -> (real, hash c, m) ∈ pending_of s d ->
  m + delay <= x_now s -> exists l, snd (xstep hash s (XTx e who (DProxyAnnounced d real (Some ty) c))) = (x_now s, Acted real d ty delay true c) :: l.
Proof.
  intros Hf Hin Hm. eapply step_act; [apply has_found; exact Hf|]. unfold edit_announcements.
  set (keep := fun a : N * N * N => negb (fst (fst a) =? real) || negb (snd (fst a) =? hash c) || (x_now s - snd a <? delay)).
  assert (L : (length (List.filter keep (pending_of s d)) < length (pending_of s d))%nat).
  { apply elem_of_list_split in Hin as (l1 & l2 & E). rewrite E, List.filter_app, !app_length. cbn [List.filter length].
    assert (K : keep (real, hash c, m) = false).
    { unfold keep. cbn. rewrite !N.eqb_refl. cbn. apply N.ltb_ge. lia. }
    rewrite K. assert (F : forall l, (length (List.filter keep l) <= length l)%nat).
    { intros l. induction l as [|a l IH]; cbn; [lia|]. destruct (keep a); cbn; lia. }
    pose proof (F l1). pose proof (F l2). lia. }
  apply Nat.ltb_lt in L. rewrite L. reflexivity.
Qed.

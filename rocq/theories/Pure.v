(** Proofs about PureModel.v. *)
From stdpp Require Import gmap.
From Verif Require Import Base RuntimeModel ProxyModel DelayedModel PureModel PureSpec.
Open Scope N_scope.

(** Induction on calls. *)
Lemma ycall_ind' (P : ycall -> Prop) :
  (forall c, match c with YBatch _ _ | YProxy _ _ _ | YProxyAnnounced _ _ _ _ => False | _ => True end -> P c) ->
  (forall m l, (forall c, c ∈ l -> P c) -> P (YBatch m l)) ->
  (forall r f c, P c -> P (YProxy r f c)) -> (forall d r f c, P c -> P (YProxyAnnounced d r f c)) -> forall c, P c.
Proof.
  intros H0 HB HP HA. fix IH 1. intros [k|m l| | | | | | | | |r f c|d r f c]; try (apply H0; exact I).
  - apply HB. induction l as [|c l IHl]; intros x Hx; [inversion Hx|]. apply elem_of_cons in Hx as [->|Hx]; [apply IH | exact (IHl x Hx)].
  - apply HP, IH.
  - apply HA, IH.
Qed.

(** What a history is made of: the calls that dispatch no others, each in the name of a signer or of one who acts for its account; what they
    are used for by the rest; and what the rest of the chain does. *)
Section trace.
  Context (pure_id : N -> N * N -> proxy_type -> N -> N) (hash : ycall -> N) (W : N -> Prop) (M : Prop) (s0 : yst).
  Inductive trace : list yentry -> yst -> Prop :=
  | T_nil : trace [] s0
  | T_at l s at_ : trace l s -> trace l (Yst at_ (y_proxies s) (y_ann s) (y_free s) (y_held s) (y_others s))
  | T_prim l s e who c s' x : trace l s ->
      (W who \/ exists d ty delay, YActed who d ty delay ∈ l /\ proxied_filter ty (yseen c) = true) ->
      yprim pure_id e who c s = Some (s', x) -> trace (l ++ [x]) s'
  | T_acted l s real d ty delay : trace l s -> (d, ty, delay) ∈ yproxies s real -> trace (l ++ [YActed real d ty delay]) s
  | T_edit l s e d keep s' : trace l s -> yedit e s d keep = Some s' -> trace (l ++ [YAnnEdit d]) s'
  | T_money l s x : trace l s -> M -> match x with YTx _ _ _ _ => False | _ => True end -> trace l (fst (ystep_run pure_id hash s x)).

  Definition cap (f : rcall -> bool) (who : N) (l : list yentry) : Prop :=
    W who \/ exists d ty delay, YActed who d ty delay ∈ l /\ forall c, f c = true -> proxied_filter ty c = true.
  Lemma cap_more f who l l' : cap f who l -> cap f who (l ++ l').
  Proof. intros [H|(d & ty & n & H & Hf)]; [left; exact H|]. right. exists d, ty, n. split; [apply elem_of_app; left; exact H | exact Hf]. Qed.

  Lemma yfind_in s real d force ty n : yfind s real d force = Some (ty, n) -> (d, ty, n) ∈ yproxies s real.
  Proof.
    unfold yfind. destruct (find _ _) as [[[d' t'] n']|] eqn:E; [|discriminate]. intros H. injection H as <- <-. apply find_some in E as [Hi Hp].
    apply andb_true_iff in Hp as [Hp _]. apply N.eqb_eq in Hp. cbn in Hp. subst. apply elem_of_list_In. exact Hi.
  Qed.
  Lemma rejig_proxies e who a b s s' : rejig e who a b s = Some s' -> y_proxies s' = y_proxies s /\ y_ann s' = y_ann s /\ y_others s' = y_others s /\ y_at s' = y_at s.
  Proof.
    unfold rejig, y_reserve. destruct (a <? b); [destruct (b - a =? 0); [intros H; injection H as <-; auto|]; destruct (_ && _); [|discriminate]; intros H; injection H as <-; auto|].
    destruct (b <? a); intros H; injection H as <-; auto.
  Qed.
  Lemma yedit_proxies e s d keep s' : yedit e s d keep = Some s' -> y_proxies s' = y_proxies s.
  Proof.
    unfold yedit. destruct (_ <? _)%nat; [|discriminate]. destruct (rejig _ _ _ _ _) as [s1|] eqn:E; [|discriminate]. apply rejig_proxies in E as (E & _).
    intros H. injection H as <-. destruct (List.filter keep _); exact E.
  Qed.

  Lemma yrun_trace e c : forall f who s1 s2 l l2, yrun pure_id hash e f who c s1 = Some (s2, l2) -> cap f who l -> trace l s1 -> trace (l ++ l2) s2.
  Proof.
    induction c as [c Hc|m ls IHc|r fo c IHc|d r fo c IHc] using ycall_ind'; intros f who s1 s2 l l2 H Hcap T.
    - assert (f (yseen c) = true /\ exists x, yprim pure_id e who c s1 = Some (s2, x) /\ l2 = [x]) as (Hf & x & Hp & ->).
      { revert H. destruct c; cbn [yrun]; try contradiction; (destruct (f _) eqn:Ef; [|discriminate]); (destruct (yprim _ _ _ _ _) as [[s' x]|] eqn:Ep; [|discriminate]);
          intros H; injection H as <- <-; split; try reflexivity; exists x; auto. }
      eapply T_prim; [exact T| |exact Hp]. destruct Hcap as [Hw|(d & ty & n & Hi & Hs)]; [left; exact Hw|]. right. exists d, ty, n. auto.
    - cbn [yrun] in H. destruct (f _); [|discriminate]. revert s1 l l2 H Hcap T. induction ls as [|c ls IHl]; intros s1 l l2 H Hcap T.
      + injection H as <- <-. rewrite app_nil_r. exact T.
      + cbn [yrun_batch] in H. fold (yrun_batch (fun s c => yrun pure_id hash e f who c s) m) in H.
        destruct (yrun pure_id hash e f who c s1) as [[s3 e1]|] eqn:E1.
        * destruct (yrun_batch _ _ s3 ls) as [[s4 e2]|] eqn:E2; [|discriminate]. injection H as <- <-. rewrite app_assoc.
          apply (IHl (fun x Hx => IHc x (elem_of_list_further _ _ _ Hx)) s3 (l ++ e1) e2 E2); [apply cap_more; exact Hcap|].
          exact (IHc c (elem_of_list_here _ _) f who s1 s3 l e1 E1 Hcap T).
        * destruct m; [injection H as <- <-; rewrite app_nil_r; exact T | discriminate |].
          exact (IHl (fun x Hx => IHc x (elem_of_list_further _ _ _ Hx)) s1 l l2 H Hcap T).
    - cbn [yrun] in H. destruct (f _); [|discriminate]. destruct (yfind s1 r who fo) as [[ty n]|] eqn:Ef; [|discriminate]. destruct (n =? 0) eqn:En; [|discriminate].
      apply yfind_in in Ef. pose proof (T_acted _ _ _ _ _ _ T Ef) as T'.
      destruct (yrun pure_id hash e (proxied_filter ty) r c s1) as [[s3 l3]|] eqn:E3; injection H as <- <-; [|exact T'].
      change (YActed r who ty n :: l3) with ([YActed r who ty n] ++ l3). rewrite app_assoc. refine (IHc _ _ _ _ _ _ E3 _ T').
      right. exists who, ty, n. split; [apply elem_of_app; right; left | auto].
    - cbn [yrun] in H. destruct (f _); [|discriminate]. destruct (yfind s1 r d fo) as [[ty n]|] eqn:Ef; [|discriminate].
      destruct (yedit e s1 d _) as [s3|] eqn:Ee; [|discriminate]. apply yfind_in in Ef. pose proof (T_edit _ _ _ _ _ _ T Ee) as T1.
      assert ((d, ty, n) ∈ yproxies s3 r) as Ef' by (unfold yproxies in *; rewrite (yedit_proxies _ _ _ _ _ Ee); exact Ef).
      pose proof (T_acted _ _ _ _ _ _ T1 Ef') as T2. rewrite <- app_assoc in T2. cbn [app] in T2.
      destruct (yrun pure_id hash e (proxied_filter ty) r c s3) as [[s4 l4]|] eqn:E4; injection H as <- <-; [|exact T2].
      change (YAnnEdit d :: YActed r d ty n :: l4) with ([YAnnEdit d; YActed r d ty n] ++ l4). rewrite app_assoc. refine (IHc _ _ _ _ _ _ E4 _ T2).
      right. exists d, ty, n. split; [apply elem_of_app; right; right; left | auto].
  Qed.
  Lemma ystep_trace x l s : (forall at_ e who c, x = YTx at_ e who c -> W who) -> (match x with YTx _ _ _ _ => True | _ => M end) -> trace l s ->
    trace (l ++ snd (ystep_run pure_id hash s x)) (fst (ystep_run pure_id hash s x)).
  Proof.
    intros Hw HM T. assert (forall l', trace l s -> M -> match x with YTx _ _ _ _ => False | _ => True end -> snd (ystep_run pure_id hash s x) = l' -> l' = [] ->
      trace (l ++ snd (ystep_run pure_id hash s x)) (fst (ystep_run pure_id hash s x))) as Hm.
    { intros l' _ HM' Hx -> ->. rewrite app_nil_r. apply T_money; assumption. }
    destruct x as [at_ e who c|who n|who n|who n].
    - cbn [ystep_run]. pose proof (T_at _ _ at_ T) as T1. destruct (yrun _ _ _ _ _ _ _) as [[s2 l2]|] eqn:E; cbn [fst snd].
      + refine (yrun_trace _ _ _ _ _ _ _ _ E _ T1). left. exact (Hw _ _ _ _ eq_refl).
      + rewrite app_nil_r. exact T1.
    - apply (Hm [] T HM I); reflexivity.
    - apply (Hm [] T HM I); [|reflexivity]. cbn [ystep_run]. destruct (y_reserve _ _ _ _); reflexivity.
    - apply (Hm [] T HM I); [|reflexivity]. cbn [ystep_run]. destruct (_ <=? _); reflexivity.
  Qed.
End trace.

Lemma yrun_all_trace pure_id hash (W : N -> Prop) s0 steps : (forall at_ e who c, YTx at_ e who c ∈ steps -> W who) ->
  forall l s, trace pure_id hash W True s0 l s -> trace pure_id hash W True s0 (l ++ snd (yrun_all pure_id hash s steps)) (fst (yrun_all pure_id hash s steps)).
Proof.
  induction steps as [|x r IH]; intros Hw l s T; cbn [yrun_all].
  - cbn. rewrite app_nil_r. exact T.
  - pose proof (ystep_trace pure_id hash W True s0 x l s (fun a e w c E => Hw a e w c (eq_ind x (fun y => y ∈ x :: r) (elem_of_list_here _ _) _ E)) (match x with YTx _ _ _ _ | _ => I end) T) as T1.
    destruct (ystep_run pure_id hash s x) as [s1 l1] eqn:E1. cbn [fst snd] in T1.
    pose proof (IH (fun a e w c Hi => Hw a e w c (elem_of_list_further _ _ _ Hi)) _ _ T1) as T2.
    destruct (yrun_all pure_id hash s1 r) as [s2 l2] eqn:E2. cbn [fst snd] in *. rewrite app_assoc. exact T2.
Qed.
Lemma history_trace pure_id hash l : trace pure_id hash (signs l) True y_start (y_record pure_id hash l) (y_end pure_id hash l).
Proof. exact (yrun_all_trace pure_id hash (signs l) y_start l (fun a e w c H => ex_intro _ a (ex_intro _ e (ex_intro _ c H))) [] y_start (T_nil _ _ _ _ _)). Qed.

Lemma tx_trace pure_id hash s at_ e who c : let r := ystep_run pure_id hash s (YTx at_ e who c) in
  trace pure_id hash (eq who) False s (snd r) (fst r).
Proof.
  cbv zeta. refine (ystep_trace pure_id hash (eq who) False s (YTx at_ e who c) [] s _ I (T_nil _ _ _ _ _)). intros a e' w c' E. injection E as _ _ E _. exact E.
Qed.

(* ------------------------------------------------------------------ *)
(** * Money *)

Lemma amt_insert_eq (m : gmap N N) a n : amt (<[a := n]> m) a = n.
Proof. unfold amt. rewrite lookup_insert. reflexivity. Qed.
Lemma amt_insert_ne (m : gmap N N) a b n : a <> b -> amt (<[a := n]> m) b = amt m b.
Proof. intros H. unfold amt. rewrite lookup_insert_ne by exact H. reflexivity. Qed.

Lemma reserve_money e who n s s' : y_reserve e who n s = Some s' ->
  (held_of s' who = held_of s who + n /\ free_of s' who + n = free_of s who) /\ (forall a, a <> who -> held_of s' a = held_of s a /\ free_of s' a = free_of s a) /\
  y_proxies s' = y_proxies s /\ y_ann s' = y_ann s /\ y_others s' = y_others s.
Proof.
  unfold y_reserve. destruct (n =? 0) eqn:E0.
  - apply N.eqb_eq in E0. subst. intros H. injection H as <-. split_and!; auto; unfold held_of, free_of; lia.
  - destruct (n <=? _) eqn:E1; cbn [andb]; [|discriminate]. destruct (q_reserve _ _ _); [|discriminate]. apply N.leb_le in E1. intros H. injection H as <-.
    unfold held_of, free_of. cbn. rewrite !amt_insert_eq. split_and!; auto; try lia. intros a Ha. rewrite !amt_insert_ne by congruence. auto.
Qed.
Lemma unreserve_money who n s : let s' := y_unreserve who n s in
  (held_of s' who = held_of s who - n /\ free_of s' who + held_of s' who = free_of s who + held_of s who) /\
  (forall a, a <> who -> held_of s' a = held_of s a /\ free_of s' a = free_of s a) /\
  y_proxies s' = y_proxies s /\ y_ann s' = y_ann s /\ y_others s' = y_others s.
Proof.
  cbv zeta. unfold y_unreserve, held_of, free_of. cbn. rewrite !amt_insert_eq. split_and!; auto; try lia. intros a Ha. rewrite !amt_insert_ne by congruence. auto.
Qed.
Lemma rejig_money e who old new s s' : rejig e who old new s = Some s' ->
  (old <= held_of s who -> held_of s' who = held_of s who - old + new) /\ (forall a, a <> who -> held_of s' a = held_of s a) /\
  (forall a, free_of s' a + held_of s' a = free_of s a + held_of s a) /\
  y_proxies s' = y_proxies s /\ y_ann s' = y_ann s /\ y_others s' = y_others s.
Proof.
  unfold rejig. destruct (old <? new) eqn:E1; [|destruct (new <? old) eqn:E2].
  - apply N.ltb_lt in E1. intros H. apply reserve_money in H as ((H1 & H2) & H3 & H4). split_and!; [intros; lia|intros a Ha; apply (H3 a Ha)| |tauto..].
    intros a. destruct (N.eq_dec a who) as [->|Ha]; [lia|]. destruct (H3 a Ha). lia.
  - apply N.ltb_lt in E2. intros H. injection H as <-. destruct (unreserve_money who (old - new) s) as ((H1 & H2) & H3 & H4). split_and!; [intros; lia|intros a Ha; apply (H3 a Ha)| |tauto..].
    intros a. destruct (N.eq_dec a who) as [->|Ha]; [lia|]. destruct (H3 a Ha). lia.
  - apply N.ltb_ge in E1, E2. intros H. injection H as <-. split_and!; auto. intros. lia.
Qed.

(** The same after the change of proxies or announcements. *)
Lemma total_px a l d s b : free_of (set_px a l d s) b + held_of (set_px a l d s) b = free_of s b + held_of s b. Proof. reflexivity. Qed.

Lemma edit_total e s d keep s' a : yedit e s d keep = Some s' -> free_of s' a + held_of s' a = free_of s a + held_of s a.
Proof.
  unfold yedit. destruct (_ <? _)%nat; [|discriminate]. destruct (rejig _ _ _ _ _) as [s1|] eqn:E; [|discriminate]. apply rejig_money in E as (_ & _ & E & _).
  intros H. injection H as <-. destruct (List.filter keep _); exact (E a).
Qed.
Lemma prim_total pure_id e who c s s' x a : yprim pure_id e who c s = Some (s', x) -> free_of s' a + held_of s' a = free_of s a + held_of s a.
Proof.
  destruct c; cbn [yprim]; try discriminate.
  - destruct (q_ok _ _ _); [|discriminate]. intros H. injection H as <- <-. reflexivity.
  - destruct (_ || _); [discriminate|]. destruct (rejig _ _ _ _ _) as [s1|] eqn:E; [|discriminate]. apply rejig_money in E as (_ & _ & E & _).
    intros H. injection H as <- <-. exact (E a).
  - destruct (bool_decide _); [|discriminate]. destruct (rejig _ _ _ _ _) as [s1|] eqn:E; [|discriminate]. apply rejig_money in E as (_ & _ & E & _).
    intros H. injection H as <- <-. destruct (List.filter _ _); exact (E a).
  - intros H. injection H as <- <-. change (free_of (y_unreserve who (yproxies_dep s who) s) a + held_of (y_unreserve who (yproxies_dep s who) s) a = free_of s a + held_of s a).
    destruct (unreserve_money who (yproxies_dep s who) s) as ((_ & H2) & H3 & _). destruct (N.eq_dec a who) as [->|Ha]; [exact H2|]. destruct (H3 a Ha) as [-> ->]. reflexivity.
  - destruct (y_proxies s !! _); [discriminate|]. destruct (y_reserve _ _ _ _) as [s1|] eqn:E; [|discriminate]. apply reserve_money in E as ((H1 & H2) & H3 & _).
    intros H. injection H as <- <-. change (free_of s1 a + held_of s1 a = free_of s a + held_of s a).
    destruct (N.eq_dec a who) as [->|Ha]; [lia|]. destruct (H3 a Ha) as [-> ->]. reflexivity.
  - destruct (_ =? _); [|discriminate]. intros H. injection H as <- <-.
    change (free_of (y_unreserve maker (yproxies_dep s who) s) a + held_of (y_unreserve maker (yproxies_dep s who) s) a = free_of s a + held_of s a).
    destruct (unreserve_money maker (yproxies_dep s who) s) as ((_ & H2) & H3 & _). destruct (N.eq_dec a maker) as [->|Ha]; [exact H2|]. destruct (H3 a Ha) as [-> ->]. reflexivity.
  - destruct (_ && _); [|discriminate]. destruct (rejig _ _ _ _ _) as [s1|] eqn:E; [|discriminate]. apply rejig_money in E as (_ & _ & E & _).
    intros H. injection H as <- <-. exact (E a).
  - destruct (yedit _ _ _ _) as [s1|] eqn:E; [|discriminate]. intros H. injection H as <- <-. exact (edit_total _ _ _ _ _ a E).
  - destruct (yedit _ _ _ _) as [s1|] eqn:E; [|discriminate]. intros H. injection H as <- <-. exact (edit_total _ _ _ _ _ a E).
Qed.
Lemma tx_total pure_id hash s at_ e who c a : let s' := fst (ystep_run pure_id hash s (YTx at_ e who c)) in
  free_of s' a + held_of s' a = free_of s a + held_of s a.
Proof.
  cbv zeta. pose proof (tx_trace pure_id hash s at_ e who c) as T. cbv zeta in T. induction T as [|l s1 at1 T IH|l s1 e1 w1 c1 s2 x T IH Hw Hp|l s1 r d ty n T IH Hd|l s1 e1 d k s2 T IH He|l s1 x T IH []].
  - reflexivity.
  - exact IH.
  - rewrite (prim_total _ _ _ _ _ _ _ a Hp). exact IH.
  - exact IH.
  - rewrite (edit_total _ _ _ _ _ a He). exact IH.
Qed.

(** The books of account [a] are in order. *)
Definition book (a : N) (s : yst) : Prop :=
  yproxies_dep s a = proxies_cost (length (yproxies s a)) /\ yann_dep s a = announcements_cost (length (ypending s a)) /\
  held_of s a = yproxies_dep s a + yann_dep s a + others_of s a.
Lemma book_same a s s' : y_proxies s' !! a = y_proxies s !! a -> y_ann s' !! a = y_ann s !! a -> held_of s' a = held_of s a ->
  others_of s' a = others_of s a -> book a s -> book a s'.
Proof. unfold book, yproxies_dep, yproxies, yann_dep, ypending. intros -> -> -> ->. auto. Qed.
Lemma insert_def_length x l : length (insert_def x l) = S (length l).
Proof. induction l as [|y r IH]; [reflexivity|]. cbn. destruct (def_before y x); cbn; [rewrite IH|]; reflexivity. Qed.

Lemma edit_book a e s d keep s' : yedit e s d keep = Some s' -> book a s -> book a s'.
Proof.
  unfold yedit. destruct (_ <? _)%nat; [|discriminate]. destruct (rejig _ _ _ _ _) as [s1|] eqn:E; [|discriminate]. apply rejig_money in E as (E1 & E2 & _ & E3 & E4 & E5).
  intros H (B1 & B2 & B3). injection H as <-. destruct (N.eq_dec a d) as [->|Ha].
  - specialize (E1 ltac:(lia)). set (l := List.filter keep (ypending s d)) in *.
    assert (forall s2, y_proxies s2 !! d = y_proxies s !! d -> ypending s2 d = l -> yann_dep s2 d = announcements_cost (length l) -> held_of s2 d = held_of s1 d -> others_of s2 d = others_of s d -> book d s2) as Hb.
    { intros s2 P1 P2 P3 P4 P5. unfold book. rewrite P2, P3, P4, P5. unfold yproxies_dep, yproxies. rewrite P1. split_and!; [exact B1|reflexivity|]. rewrite E1.
      change (match y_proxies s !! d with Some p => snd p | None => 0 end) with (yproxies_dep s d). lia. }
    destruct l as [|z l'] eqn:El; apply Hb; try (cbn; rewrite E3; reflexivity); try reflexivity; try (unfold others_of; cbn; rewrite E5; reflexivity);
      unfold ypending, yann_dep; cbn; rewrite ?lookup_delete, ?lookup_insert; reflexivity.
  - refine (book_same a s _ _ _ _ _ (conj B1 (conj B2 B3))); destruct (List.filter keep _); cbn; rewrite ?E3, ?E4, ?lookup_delete_ne, ?lookup_insert_ne by congruence;
      try reflexivity; try (exact (E2 a Ha)); unfold others_of; cbn; rewrite E5; reflexivity.
Qed.
Lemma prim_book a pure_id e who c s s' x : yprim pure_id e who c s = Some (s', x) -> ~ pure_deal a x -> book a s -> book a s'.
Proof.
  destruct c; cbn [yprim]; try discriminate.
  - destruct (q_ok _ _ _); [|discriminate]. intros H. injection H as <- <-. auto.
  - destruct (_ || _); [discriminate|]. destruct (rejig _ _ _ _ _) as [s1|] eqn:E; [|discriminate]. apply rejig_money in E as (E1 & E2 & _ & E3 & E4 & E5).
    intros H _ (B1 & B2 & B3). injection H as <- <-. destruct (N.eq_dec a who) as [->|Ha].
    + specialize (E1 ltac:(lia)). unfold book, yproxies_dep, yproxies, yann_dep, ypending. cbn [y_proxies y_ann set_px]. rewrite lookup_insert, E4. cbn [fst snd].
      split_and!; [reflexivity|exact B2|]. change (held_of s1 who = proxies_cost (length (insert_def (delegate, ty, delay) (yproxies s who))) + yann_dep s who + amt (y_others s1) who).
      rewrite E5, E1. change (amt (y_others s) who) with (others_of s who). lia.
    + refine (book_same a s _ _ _ _ _ (conj B1 (conj B2 B3))); cbn; rewrite ?E3, ?E4, ?lookup_insert_ne by congruence; try reflexivity; [exact (E2 a Ha)|]. unfold others_of. cbn. rewrite E5. reflexivity.
  - destruct (bool_decide _); [|discriminate]. destruct (rejig _ _ _ _ _) as [s1|] eqn:E; [|discriminate]. apply rejig_money in E as (E1 & E2 & _ & E3 & E4 & E5).
    intros H _ (B1 & B2 & B3). injection H as <- _. set (l := List.filter _ (yproxies s who)) in *. destruct (N.eq_dec a who) as [->|Ha].
    + specialize (E1 ltac:(lia)).
      assert (forall s2, y_ann s2 !! who = y_ann s !! who -> yproxies s2 who = l -> yproxies_dep s2 who = proxies_cost (length l) -> held_of s2 who = held_of s1 who -> others_of s2 who = others_of s who -> book who s2) as Hb.
      { intros s2 P1 P2 P3 P4 P5. unfold book. rewrite P2, P3, P4, P5. unfold yann_dep, ypending. rewrite P1. split_and!; [reflexivity|exact B2|]. rewrite E1.
        change (match y_ann s !! who with Some p => snd p | None => 0 end) with (yann_dep s who). lia. }
      destruct l as [|z l'] eqn:El; apply Hb; try (cbn; rewrite E4; reflexivity); try reflexivity; try (unfold others_of; cbn; rewrite E5; reflexivity);
        unfold yproxies, yproxies_dep; cbn; rewrite ?lookup_delete, ?lookup_insert; reflexivity.
    + refine (book_same a s _ _ _ _ _ (conj B1 (conj B2 B3))); destruct l; cbn; rewrite ?E3, ?E4, ?lookup_delete_ne, ?lookup_insert_ne by congruence;
        try reflexivity; try (exact (E2 a Ha)); unfold others_of; cbn; rewrite E5; reflexivity.
  - intros H _ (B1 & B2 & B3). injection H as <- <-. destruct (unreserve_money who (yproxies_dep s who) s) as ((H1 & _) & H3 & H4 & H5 & H6). destruct (N.eq_dec a who) as [->|Ha].
    + set (s1 := y_unreserve who (yproxies_dep s who) s) in *. clearbody s1.
      assert (yproxies_dep (drop_px who s1) who = 0) as P1 by (unfold yproxies_dep; cbn [drop_px y_proxies]; rewrite lookup_delete; reflexivity).
      assert (yproxies (drop_px who s1) who = []) as P2 by (unfold yproxies; cbn [drop_px y_proxies]; rewrite lookup_delete; reflexivity).
      unfold book. rewrite P1, P2. unfold yann_dep, ypending, held_of, others_of in *. cbn [drop_px y_ann y_held y_others]. rewrite H5, H6. split_and!; [reflexivity|exact B2|]. lia.
    + refine (book_same a s _ _ _ _ _ (conj B1 (conj B2 B3))); cbn; rewrite ?lookup_delete_ne by congruence; try reflexivity. exact (proj1 (H3 a Ha)).
  - destruct (y_proxies s !! _) eqn:Ep; [discriminate|]. destruct (y_reserve _ _ _ _) as [s1|] eqn:E; [|discriminate]. apply reserve_money in E as (_ & H3 & H4 & H5 & H6).
    intros H Hn B. injection H as <- <-. cbn in Hn. apply (book_same a s); [| | | |exact B]; cbn; rewrite ?H4, ?H5, ?lookup_insert_ne by (intros Hq; apply Hn; right; symmetry; exact Hq); try reflexivity.
    + apply (H3 a). tauto.
    + unfold others_of. cbn. rewrite H6. reflexivity.
  - destruct (_ =? _); [|discriminate]. intros H Hn B. injection H as <- <-. cbn in Hn. destruct (unreserve_money maker (yproxies_dep s who) s) as (_ & H3 & H4 & H5 & H6).
    apply (book_same a s); [| | | |exact B]; cbn; rewrite ?lookup_delete_ne by (intros Hq; apply Hn; right; symmetry; exact Hq); try reflexivity. apply (H3 a). tauto.
  - destruct (_ && _); [|discriminate]. destruct (rejig _ _ _ _ _) as [s1|] eqn:E; [|discriminate]. apply rejig_money in E as (E1 & E2 & _ & E3 & E4 & E5).
    intros H _ (B1 & B2 & B3). injection H as <- <-. destruct (N.eq_dec a who) as [->|Ha].
    + specialize (E1 ltac:(lia)). unfold book, yproxies_dep, yproxies, yann_dep, ypending. cbn [y_proxies y_ann set_ann]. rewrite lookup_insert, E3. cbn [fst snd].
      split_and!; [exact B1|reflexivity|]. change (held_of s1 who = yproxies_dep s who + announcements_cost (length (ypending s who ++ [(real, h, (y_at s).1)])) + amt (y_others s1) who).
      rewrite E5, E1. change (amt (y_others s) who) with (others_of s who). lia.
    + refine (book_same a s _ _ _ _ _ (conj B1 (conj B2 B3))); cbn; rewrite ?E3, ?E4, ?lookup_insert_ne by congruence; try reflexivity; [exact (E2 a Ha)|]. unfold others_of. cbn. rewrite E5. reflexivity.
  - destruct (yedit _ _ _ _) as [s1|] eqn:E; [|discriminate]. intros H _. injection H as <- <-. exact (edit_book a _ _ _ _ _ E).
  - destruct (yedit _ _ _ _) as [s1|] eqn:E; [|discriminate]. intros H _. injection H as <- <-. exact (edit_book a _ _ _ _ _ E).
Qed.
Lemma money_book a pure_id hash s x : match x with YTx _ _ _ _ => False | _ => True end -> book a s -> book a (fst (ystep_run pure_id hash s x)).
Proof.
  destruct x as [|who n|who n|who n]; intros Hx B; [destruct Hx| | |]; cbn [ystep_run].
  - refine (book_same a s _ _ _ _ _ B); reflexivity.
  - destruct (y_reserve _ _ _ _) as [s1|] eqn:E; [|exact B]. apply reserve_money in E as ((H1 & _) & H3 & H4 & H5 & H6). destruct B as (B1 & B2 & B3).
    cbn [fst]. unfold book, yproxies_dep, yproxies, yann_dep, ypending, held_of, others_of in *. cbn [y_proxies y_ann y_held y_others]. rewrite H4, H5. split_and!; [exact B1|exact B2|].
    destruct (N.eq_dec a who) as [->|Ha]; [rewrite amt_insert_eq, H1; lia|]. rewrite amt_insert_ne by congruence. rewrite (proj1 (H3 a Ha)). exact B3.
  - destruct (n <=? _) eqn:En; [|exact B]. apply N.leb_le in En. destruct (unreserve_money who n s) as ((H1 & _) & H3 & H4 & H5 & H6). destruct B as (B1 & B2 & B3).
    cbn [fst]. unfold book, yproxies_dep, yproxies, yann_dep, ypending, held_of, others_of in *. cbn [y_proxies y_ann y_held y_others]. rewrite H4, H5. split_and!; [exact B1|exact B2|].
    destruct (N.eq_dec a who) as [->|Ha]; [rewrite amt_insert_eq, H1; lia|]. rewrite amt_insert_ne by congruence. rewrite (proj1 (H3 a Ha)). exact B3.
Qed.
Lemma trace_book pure_id hash W a l s : trace pure_id hash W True y_start l s -> (forall x, x ∈ l -> ~ pure_deal a x) -> book a s.
Proof.
  intros T. induction T as [|l s1 at1 T IH|l s1 e1 w1 c1 s2 x T IH Hw Hp|l s1 r d ty n T IH Hd|l s1 e1 d k s2 T IH He|l s1 x T IH _ Hx]; intros Hn.
  - split_and!; reflexivity.
  - exact (IH Hn).
  - apply (prim_book a _ _ _ _ _ _ _ Hp); [apply Hn, elem_of_app; right; left|]. apply IH. intros y Hy. apply Hn, elem_of_app. left. exact Hy.
  - apply IH. intros y Hy. apply Hn, elem_of_app. left. exact Hy.
  - apply (edit_book a _ _ _ _ _ He). apply IH. intros y Hy. apply Hn, elem_of_app. left. exact Hy.
  - exact (money_book a _ _ _ _ Hx (IH Hn)).
Qed.
Lemma books_in_order pure_id hash l a : (forall x, x ∈ y_record pure_id hash l -> ~ pure_deal a x) -> let s := y_end pure_id hash l in
  held_of s a = proxies_cost (length (yproxies s a)) + announcements_cost (length (ypending s a)) + others_of s a.
Proof. intros H. cbv zeta. destruct (trace_book _ _ _ a _ _ (history_trace pure_id hash l) H) as (B1 & B2 & B). rewrite <- B1, <- B2. exact B. Qed.

(* ------------------------------------------------------------------ *)
(** * Who acts *)

Lemma snoc_split {A} (l : list A) y before x after : l ++ [y] = before ++ x :: after ->
  (after = [] /\ x = y /\ before = l) \/ exists after', after = after' ++ [y] /\ l = before ++ x :: after'.
Proof.
  destruct after as [|z r] using rev_ind; intros H.
  - left. apply app_inj_tail in H as [-> ->]. auto.
  - right. exists r. rewrite app_comm_cons, app_assoc in H. apply app_inj_tail in H as [-> ->]. auto.
Qed.
Lemma insert_def_in x y l : x ∈ insert_def y l <-> x = y \/ x ∈ l.
Proof.
  induction l as [|z r IH]; cbn.
  - rewrite elem_of_list_singleton. split; [auto|]. intros [H|H]; [exact H|inversion H].
  - destruct (def_before z y); rewrite !elem_of_cons, ?IH; tauto.
Qed.
Lemma filter_not_in x y (l : list (N * proxy_type * N)) : x ∈ List.filter (fun z => negb (bool_decide (z = y))) l <-> x ∈ l /\ x <> y.
Proof.
  rewrite !elem_of_list_In, filter_In, negb_true_iff. split; intros [H1 H2]; (split; [exact H1|]).
  - exact (proj1 (bool_decide_eq_false _) H2).
  - apply bool_decide_eq_false. exact H2.
Qed.
Lemma yproxies_set a l d s b : yproxies (set_px a l d s) b = if decide (a = b) then l else yproxies s b.
Proof. unfold yproxies. cbn. destruct (decide (a = b)) as [->|H]; [rewrite lookup_insert | rewrite lookup_insert_ne by exact H]; reflexivity. Qed.
Lemma yproxies_drop a s b : yproxies (drop_px a s) b = if decide (a = b) then [] else yproxies s b.
Proof. unfold yproxies. cbn. destruct (decide (a = b)) as [->|H]; [rewrite lookup_delete | rewrite lookup_delete_ne by exact H]; reflexivity. Qed.
Lemma yproxies_eq s s' b : y_proxies s' = y_proxies s -> yproxies s' b = yproxies s b.
Proof. unfold yproxies. intros ->. reflexivity. Qed.

(** The proxies after a call, from what it records. *)
Definition begins (real d : N) (ty : proxy_type) (n : N) (x : yentry) : Prop := x = YAdded real d ty n \/ exists i at_, x = YCreated d real ty n i at_.
Lemma prim_defs pure_id e who c s s' x : yprim pure_id e who c s = Some (s', x) -> forall real d ty n,
  (d, ty, n) ∈ yproxies s' real <-> begins real d ty n x \/ ((d, ty, n) ∈ yproxies s real /\ ~ ends real d ty n x).
Proof.
  unfold begins, ends. destruct c; cbn [yprim]; try discriminate.
  - destruct (q_ok _ _ _); [|discriminate]. intros H. injection H as <- <-. intros. split; [intros Hi; right; split; [exact Hi|]; intros [E|[E|[m E]]]; discriminate E|].
    intros [[E|(i & a & E)]|[H _]]; [discriminate E|discriminate E|exact H].
  - destruct (_ || _); [discriminate|]. destruct (rejig _ _ _ _ _) as [s1|] eqn:E; [|discriminate]. apply rejig_money in E as (_ & _ & _ & E & _).
    intros H. injection H as <- <-. intros real d t n. rewrite yproxies_set, (yproxies_eq _ _ _ E). destruct (decide (who = real)) as [<-|Hne].
    + rewrite insert_def_in. split.
      * intros [H|H]; [injection H as -> -> ->; left; left; reflexivity|]. right. split; [exact H|]. intros [X|[X|[m X]]]; discriminate X.
      * intros [[X|(i & a & X)]|[H _]]; [injection X as <- <- <-; left; reflexivity|discriminate X|right; exact H].
    + split; [intros H; right; split; [exact H|]; intros [X|[X|[m X]]]; discriminate X|]. intros [[X|(i & a & X)]|[H _]]; [injection X as X1 _ _ _; contradiction|discriminate X|exact H].
  - destruct (bool_decide _); [|discriminate]. destruct (rejig _ _ _ _ _) as [s1|] eqn:E; [|discriminate]. apply rejig_money in E as (_ & _ & _ & E & _).
    intros H. injection H as H <-. intros real d t n.
    assert (yproxies s' real = if decide (who = real) then List.filter (fun x => negb (bool_decide (x = (delegate, ty, delay)))) (yproxies s who) else yproxies s real) as ->.
    { rewrite <- H. destruct (List.filter _ _); rewrite ?yproxies_set, ?yproxies_drop, (yproxies_eq _ _ _ E); reflexivity. }
    destruct (decide (who = real)) as [<-|Hne].
    + rewrite filter_not_in. split.
      * intros [H1 H2]. right. split; [exact H1|]. intros [X|[X|[m X]]]; [|discriminate X..]. injection X as <- <- <-. contradiction.
      * intros [[X|(i & a & X)]|[H1 H2]]; [discriminate X..|]. split; [exact H1|]. intros X. injection X as -> -> ->. apply H2. left. reflexivity.
    + split; [intros H1; right; split; [exact H1|]; intros [X|[X|[m X]]]; [injection X as X1 _ _ _; contradiction|discriminate X..]|].
      intros [[X|(i & a & X)]|[H1 _]]; [discriminate X..|exact H1].
  - intros H. injection H as <- <-. intros real d t n. rewrite yproxies_drop. destruct (unreserve_money who (yproxies_dep s who) s) as (_ & _ & E & _).
    rewrite (yproxies_eq _ _ _ E). destruct (decide (who = real)) as [<-|Hne].
    + split; [intros H; inversion H|]. intros [[X|(i & a & X)]|[_ H]]; [discriminate X..|]. exfalso. apply H. right. left. reflexivity.
    + split; [intros H1; right; split; [exact H1|]; intros [X|[X|[m X]]]; [discriminate X|injection X as X; contradiction|discriminate X]|].
      intros [[X|(i & a & X)]|[H1 _]]; [discriminate X..|exact H1].
  - destruct (y_proxies s !! _) eqn:Ep; [discriminate|]. destruct (y_reserve _ _ _ _) as [s1|] eqn:E; [|discriminate]. apply reserve_money in E as (_ & _ & E & _).
    intros H. injection H as <- <-. intros real d t n. rewrite yproxies_set, (yproxies_eq _ _ _ E). destruct (decide (_ = real)) as [<-|Hne].
    + rewrite elem_of_list_singleton. split.
      * intros H. injection H as -> -> ->. left. right. exists index, (y_at s). reflexivity.
      * intros [[X|(i & a & X)]|[H _]]; [discriminate X|injection X as <- <- <- _ _; reflexivity|]. unfold yproxies in H. rewrite Ep in H. inversion H.
    + split; [intros H; right; split; [exact H|]; intros [X|[X|[m X]]]; discriminate X|]. intros [[X|(i & a & X)]|[H _]]; [discriminate X|injection X as _ X1 _ _ _ _; contradiction|exact H].
  - destruct (_ =? _) eqn:Ei; [|discriminate]. intros H. injection H as <- <-. intros real d t n. rewrite yproxies_drop.
    destruct (unreserve_money maker (yproxies_dep s who) s) as (_ & _ & E & _). rewrite (yproxies_eq _ _ _ E). destruct (decide (who = real)) as [<-|Hne].
    + split; [intros H; inversion H|]. intros [[X|(i & a & X)]|[_ H]]; [discriminate X..|]. exfalso. apply H. right. right. exists maker. reflexivity.
    + split; [intros H1; right; split; [exact H1|]; intros [X|[X|[m X]]]; [discriminate X..|injection X as _ X; contradiction]|].
      intros [[X|(i & a & X)]|[H1 _]]; [discriminate X..|exact H1].
  - destruct (_ && _); [|discriminate]. destruct (rejig _ _ _ _ _) as [s1|] eqn:E; [|discriminate]. apply rejig_money in E as (_ & _ & _ & E & _).
    intros H. injection H as <- <-. intros. rewrite (yproxies_eq s (set_ann who _ _ s1) _ E). split; [intros Hi; right; split; [exact Hi|]; intros [X|[X|[m X]]]; discriminate X|].
    intros [[X|(i & a & X)]|[H _]]; [discriminate X..|exact H].
  - destruct (yedit _ _ _ _) as [s1|] eqn:E; [|discriminate]. apply yedit_proxies in E. intros H. injection H as <- <-. intros. rewrite (yproxies_eq _ _ _ E).
    split; [intros Hi; right; split; [exact Hi|]; intros [X|[X|[m X]]]; discriminate X|]. intros [[X|(i & a & X)]|[H _]]; [discriminate X..|exact H].
  - destruct (yedit _ _ _ _) as [s1|] eqn:E; [|discriminate]. apply yedit_proxies in E. intros H. injection H as <- <-. intros. rewrite (yproxies_eq _ _ _ E).
    split; [intros Hi; right; split; [exact Hi|]; intros [X|[X|[m X]]]; discriminate X|]. intros [[X|(i & a & X)]|[H _]]; [discriminate X..|exact H].
Qed.
Lemma holds_snoc log x real d ty n : holds (log ++ [x]) real d ty n <-> begins real d ty n x \/ (holds log real d ty n /\ ~ ends real d ty n x).
Proof.
  unfold holds. split.
  - intros (l1 & y & l2 & H & Hb & He). apply snoc_split in H as [(-> & <- & ->)|(a & -> & ->)]; [left; exact Hb|]. right. split.
    + exists l1, y, a. split_and!; [reflexivity|exact Hb|]. intros z Hz. apply He, elem_of_app. left. exact Hz.
    + apply He, elem_of_app. right. left.
  - intros [H|[(l1 & y & l2 & -> & Hb & He) Hx]].
    + exists log, x, []. split_and!; [reflexivity|exact H|]. intros z Hz. inversion Hz.
    + exists l1, y, (l2 ++ [x]). rewrite <- app_assoc. split_and!; [reflexivity|exact Hb|]. intros z Hz. apply elem_of_app in Hz as [Hz|Hz]; [exact (He z Hz)|].
      apply elem_of_list_singleton in Hz as ->. exact Hx.
Qed.
Lemma money_proxies pure_id hash s x : match x with YTx _ _ _ _ => False | _ => True end -> y_proxies (fst (ystep_run pure_id hash s x)) = y_proxies s.
Proof.
  destruct x as [|who n|who n|who n]; intros Hx; [destruct Hx| | |]; cbn [ystep_run]; [reflexivity| |].
  - destruct (y_reserve _ _ _ _) as [s1|] eqn:E; [|reflexivity]. apply reserve_money in E as (_ & _ & E & _). exact E.
  - destruct (_ <=? _); reflexivity.
Qed.
Lemma trace_holds pure_id hash W M l s : trace pure_id hash W M y_start l s -> forall real d ty n, (d, ty, n) ∈ yproxies s real <-> holds l real d ty n.
Proof.
  intros T. induction T as [|l s1 at1 T IH|l s1 e1 w1 c1 s2 x T IH Hw Hp|l s1 r d ty n T IH Hd|l s1 e1 d k s2 T IH He|l s1 x T IH _ Hx]; intros real d' ty' n'.
  - split; [intros H; inversion H|]. intros (l1 & x & l2 & H & _). destruct l1; discriminate H.
  - exact (IH real d' ty' n').
  - rewrite (prim_defs _ _ _ _ _ _ _ Hp), holds_snoc, IH. reflexivity.
  - rewrite holds_snoc, <- IH. split; [intros H; right; split; [exact H|]; intros [X|[X|[m X]]]; discriminate X|]. intros [[X|(i & a & X)]|[H _]]; [discriminate X..|exact H].
  - rewrite holds_snoc, <- IH. rewrite (yproxies_eq _ _ _ (yedit_proxies _ _ _ _ _ He)).
    split; [intros H; right; split; [exact H|]; intros [X|[X|[m X]]]; discriminate X|]. intros [[X|(i & a & X)]|[H _]]; [discriminate X..|exact H].
  - rewrite (yproxies_eq _ _ _ (money_proxies pure_id hash s1 x Hx)). apply IH.
Qed.
Lemma proxies_hold pure_id hash l real d ty n : (d, ty, n) ∈ yproxies (y_end pure_id hash l) real <-> holds (y_record pure_id hash l) real d ty n.
Proof. apply (trace_holds _ _ _ _ _ _ (history_trace pure_id hash l)). Qed.

Lemma prim_entry pure_id e who c s s' x : yprim pure_id e who c s = Some (s', x) ->
  match x with YActed _ _ _ _ => False | YCreated m p ty n i a => m = who /\ p = pure_id who a ty i /\ y_proxies s !! p = None /\ c = YCreate ty n i
  | YKilled m p => p = who /\ exists ty i a, c = YKill m ty i a /\ p = pure_id m a ty i | YAdded r d ty n => r = who /\ c = YAdd d ty n | YDid a _ | YRemoved a _ _ _ | YRemovedAll a => a = who | YAnnEdit _ => True end.
Proof.
  destruct c; cbn [yprim]; try discriminate.
  - destruct (q_ok _ _ _); [|discriminate]. intros H. injection H as <- <-. reflexivity.
  - destruct (_ || _); [discriminate|]. destruct (rejig _ _ _ _ _); [|discriminate]. intros H. injection H as <- <-. auto.
  - destruct (bool_decide _); [|discriminate]. destruct (rejig _ _ _ _ _); [|discriminate]. intros H. injection H as _ <-. reflexivity.
  - intros H. injection H as <- <-. reflexivity.
  - destruct (y_proxies s !! _) eqn:Ep; [discriminate|]. destruct (y_reserve _ _ _ _); [|discriminate]. intros H. injection H as <- <-. auto.
  - destruct (_ =? _) eqn:Ei; [|discriminate]. apply N.eqb_eq in Ei. intros H. injection H as <- <-. split; [reflexivity|]. exists ty, index, at_. auto.
  - destruct (_ && _); [|discriminate]. destruct (rejig _ _ _ _ _); [|discriminate]. intros H. injection H as <- <-. exact I.
  - destruct (yedit _ _ _ _); [|discriminate]. intros H. injection H as <- <-. exact I.
  - destruct (yedit _ _ _ _); [|discriminate]. intros H. injection H as <- <-. exact I.
Qed.

Lemma trace_acted pure_id hash W M l s : trace pure_id hash W M y_start l s -> forall before real d ty n after, l = before ++ YActed real d ty n :: after ->
  holds before real d ty n.
Proof.
  intros T. induction T as [|l s1 at1 T IH|l s1 e1 w1 c1 s2 x T IH Hw Hp|l s1 r d ty n T IH Hd|l s1 e1 d k s2 T IH He|l s1 x T IH _ Hx]; intros before real d' ty' n' after H.
  - destruct before; discriminate H.
  - exact (IH _ _ _ _ _ _ H).
  - apply snoc_split in H as [(-> & <- & ->)|(a & -> & H)]; [|exact (IH _ _ _ _ _ _ H)]. apply prim_entry in Hp. destruct Hp.
  - apply snoc_split in H as [(-> & E & ->)|(a & -> & H)]; [|exact (IH _ _ _ _ _ _ H)]. injection E as -> -> -> ->. exact (proj1 (trace_holds _ _ _ _ _ _ T _ _ _ _) Hd).
  - apply snoc_split in H as [(-> & E & ->)|(a & -> & H)]; [discriminate E|exact (IH _ _ _ _ _ _ H)].
  - exact (IH _ _ _ _ _ _ H).
Qed.
Lemma acted_holds pure_id hash l before real d ty n after : y_record pure_id hash l = before ++ YActed real d ty n :: after -> holds before real d ty n.
Proof. apply (trace_acted _ _ _ _ _ _ (history_trace pure_id hash l)). Qed.

Lemma trace_names pure_id hash W M s0 l s : trace pure_id hash W M s0 l s -> forall before x after p, l = before ++ x :: after -> in_name_of p x ->
  W p \/ exists d ty n, YActed p d ty n ∈ before.
Proof.
  intros T. induction T as [|l s1 at1 T IH|l s1 e1 w1 c1 s2 x T IH Hw Hp|l s1 r d ty n T IH Hd|l s1 e1 d k s2 T IH He|l s1 x T IH _ Hx]; intros before y after p H Hn.
  - destruct before; discriminate H.
  - exact (IH _ _ _ _ H Hn).
  - apply snoc_split in H as [(-> & -> & ->)|(a & -> & H)]; [|exact (IH _ _ _ _ H Hn)]. apply prim_entry in Hp.
    assert (p = w1) as ->. { destruct x; cbn in Hn; try contradiction; subst; try tauto. }
    destruct Hw as [Hw|(d & ty & n & Hi & _)]; [left; exact Hw|]. right. exists d, ty, n. exact Hi.
  - apply snoc_split in H as [(-> & -> & ->)|(a & -> & H)]; [destruct Hn|exact (IH _ _ _ _ H Hn)].
  - apply snoc_split in H as [(-> & -> & ->)|(a & -> & H)]; [destruct Hn|exact (IH _ _ _ _ H Hn)].
  - exact (IH _ _ _ _ H Hn).
Qed.
Lemma tx_names pure_id hash s at_ e who c before x after p : snd (ystep_run pure_id hash s (YTx at_ e who c)) = before ++ x :: after -> in_name_of p x ->
  p = who \/ exists d ty n, YActed p d ty n ∈ before.
Proof.
  intros H Hn. destruct (trace_names _ _ _ _ _ _ _ (tx_trace pure_id hash s at_ e who c) _ _ _ _ H Hn) as [->|H']; [left; reflexivity|right; exact H'].
Qed.

Lemma trace_made pure_id hash W M l s : trace pure_id hash W M y_start l s ->
  (forall before m p ty n i a after, l = before ++ YCreated m p ty n i a :: after -> p = pure_id m a ty i /\ forall d t k, ~ holds before p d t k) /\
  (forall m p, YKilled m p ∈ l -> exists a ty i, p = pure_id m a ty i).
Proof.
  intros T. induction T as [|l s1 at1 T IH|l s1 e1 w1 c1 s2 x T IH Hw Hp|l s1 r d ty n T IH Hd|l s1 e1 d k s2 T IH He|l s1 x T IH _ Hx].
  - split; [intros before m p ty n i a after H; destruct before; discriminate H|]. intros m p H. inversion H.
  - exact IH.
  - destruct IH as [IH1 IH2]. apply prim_entry in Hp. split.
    + intros before m p ty n i a after H. apply snoc_split in H as [(-> & <- & ->)|(r & -> & H)]; [|exact (IH1 _ _ _ _ _ _ _ _ H)].
      destruct Hp as (-> & -> & Hnone & _). split; [reflexivity|]. intros d t k Hh. apply (trace_holds _ _ _ _ _ _ T) in Hh. unfold yproxies in Hh. rewrite Hnone in Hh. inversion Hh.
    + intros m p H. apply elem_of_app in H as [H|H]; [exact (IH2 m p H)|]. apply elem_of_list_singleton in H as <-. destruct Hp as (_ & ty & i & a & _ & ->). exists a, ty, i. reflexivity.
  - destruct IH as [IH1 IH2]. split.
    + intros before m p ty' n' i a after H. apply snoc_split in H as [(-> & E & ->)|(r' & -> & H)]; [discriminate E|exact (IH1 _ _ _ _ _ _ _ _ H)].
    + intros m p H. apply elem_of_app in H as [H|H]; [exact (IH2 m p H)|]. apply elem_of_list_singleton in H. discriminate H.
  - destruct IH as [IH1 IH2]. split.
    + intros before m p ty' n' i a after H. apply snoc_split in H as [(-> & E & ->)|(r' & -> & H)]; [discriminate E|exact (IH1 _ _ _ _ _ _ _ _ H)].
    + intros m p H. apply elem_of_app in H as [H|H]; [exact (IH2 m p H)|]. apply elem_of_list_singleton in H. discriminate H.
  - exact IH.
Qed.
Lemma made_new pure_id hash l before m p ty n i a after : y_record pure_id hash l = before ++ YCreated m p ty n i a :: after -> forall d t k, ~ holds before p d t k.
Proof. intros H. apply (proj1 (trace_made _ _ _ _ _ _ (history_trace pure_id hash l)) _ _ _ _ _ _ _ _ H). Qed.
Lemma created_id pure_id hash l m p ty n i a : YCreated m p ty n i a ∈ y_record pure_id hash l -> p = pure_id m a ty i.
Proof. intros H. apply elem_of_list_split in H as (b & c & H). apply (proj1 (trace_made _ _ _ _ _ _ (history_trace pure_id hash l)) _ _ _ _ _ _ _ _ H). Qed.
Lemma made_by_one pure_id hash l m p ty n i a m' ty' n' i' a' : ids_differ pure_id -> YCreated m p ty n i a ∈ y_record pure_id hash l ->
  YCreated m' p ty' n' i' a' ∈ y_record pure_id hash l -> m = m' /\ ty = ty' /\ i = i' /\ a = a'.
Proof. intros Hd H1 H2. apply created_id in H1, H2. subst. apply Hd in H2 as (-> & -> & -> & ->). auto. Qed.
Lemma closed_for_maker pure_id hash l m p ty n i a m' : ids_differ pure_id -> YCreated m p ty n i a ∈ y_record pure_id hash l ->
  YKilled m' p ∈ y_record pure_id hash l -> m' = m.
Proof.
  intros Hd H1 H2. apply created_id in H1. destruct (proj2 (trace_made _ _ _ _ _ _ (history_trace pure_id hash l)) _ _ H2) as (a' & t' & i' & E). subst.
  apply Hd in E as (-> & _). reflexivity.
Qed.

(** Who has a proxy can use it. *)
Lemma can_act pure_id hash l p m ty at_ e c : holds (y_record pure_id hash l) p m ty 0 -> (forall n, holds (y_record pure_id hash l) p m ty n -> n = 0) ->
  let s := y_end pure_id hash l in let s0 := Yst at_ (y_proxies s) (y_ann s) (y_free s) (y_held s) (y_others s) in
  ystep_run pure_id hash s (YTx at_ e m (YProxy p (Some ty) c)) =
  match yrun pure_id hash e (proxied_filter ty) p c s0 with Some (s', r) => (s', YActed p m ty 0 :: r) | None => (s0, [YActed p m ty 0]) end.
Proof.
  intros H Hu. cbv zeta. apply proxies_hold in H. cbn [ystep_run yrun]. set (s := y_end pure_id hash l) in *.
  assert (yfind (Yst at_ (y_proxies s) (y_ann s) (y_free s) (y_held s) (y_others s)) p m (Some ty) = Some (ty, 0)) as ->.
  { unfold yfind. change (yproxies (Yst at_ (y_proxies s) (y_ann s) (y_free s) (y_held s) (y_others s)) p) with (yproxies s p).
    destruct (find _ _) as [[[d' t'] n']|] eqn:E.
    - apply find_some in E as [Hi Hp]. apply andb_true_iff in Hp as [H1 H2]. apply N.eqb_eq in H1. apply bool_decide_eq_true in H2. cbn in H1, H2. subst.
      apply elem_of_list_In, (proj1 (proxies_hold _ _ _ _ _ _ _)), Hu in Hi. subst. reflexivity.
    - exfalso. apply elem_of_list_In in H. apply (find_none _ _ E) in H. cbn in H. rewrite N.eqb_refl, bool_decide_eq_true_2 in H by reflexivity. discriminate H. }
  cbn [N.eqb]. destruct (yrun _ _ _ _ _ _ _) as [[s' r]|]; reflexivity.
Qed.
Lemma any_all c : proxied_filter Any c = true.
Proof. destruct c as [| | | | | | | | | | | | | |t|t| | | |]; try reflexivity; destruct t; reflexivity. Qed.

(* ------------------------------------------------------------------ *)
(** * What cannot be closed *)

Lemma superset_any ty ty' : ty <> Any -> is_superset ty ty' = true -> ty' <> Any.
Proof. destruct ty, ty'; cbn; intros H1 H2; try discriminate H2; congruence. Qed.
Lemma trace_stuck pure_id hash W M l s m0 a0 t0 i0 : ids_differ pure_id -> t0 <> Any -> ~ W (pure_id m0 a0 t0 i0) ->
  trace pure_id hash W M y_start l s -> let p := pure_id m0 a0 t0 i0 in
  (forall d ty n, (d, ty, n) ∈ yproxies s p -> ty <> Any) /\ (forall d ty n, YActed p d ty n ∈ l -> ty <> Any) /\ (forall m, YKilled m p ∉ l) /\ YRemovedAll p ∉ l.
Proof.
  intros Hd Ht Hs T. cbv zeta. set (p := pure_id m0 a0 t0 i0) in *.
  induction T as [|l s1 at1 T IH|l s1 e1 w1 c1 s2 x T IH Hw Hp|l s1 r d ty n T IH Hi|l s1 e1 d k s2 T IH He|l s1 x T IH _ Hx].
  - split_and!; [intros d ty n H; inversion H|intros d ty n H; inversion H|intros m H; inversion H|intros H; inversion H].
  - exact IH.
  - destruct IH as (I1 & I2 & I3 & I4). pose proof (prim_defs _ _ _ _ _ _ _ Hp) as Hdef. pose proof (prim_entry _ _ _ _ _ _ _ Hp) as He. split_and!.
    + intros d ty n Hin. apply Hdef in Hin as [[->|(i & a & ->)]|[Hin _]]; [| |exact (I1 _ _ _ Hin)].
      * destruct He as [<- ->]. destruct Hw as [Hw|(d' & ty' & n' & Ha & Hf)]; [contradiction|]. cbn [yseen proxied_filter] in Hf.
        destruct (is_superset ty' ty) eqn:Es; [|discriminate Hf]. exact (superset_any _ _ (I2 _ _ _ Ha) Es).
      * destruct He as (_ & E & _). apply Hd in E as (_ & _ & <- & _). exact Ht.
    + intros d ty n Ha. apply elem_of_app in Ha as [Ha|Ha]; [exact (I2 _ _ _ Ha)|]. apply elem_of_list_singleton in Ha as <-. destruct He.
    + intros m Hk. apply elem_of_app in Hk as [Hk|Hk]; [exact (I3 _ Hk)|]. apply elem_of_list_singleton in Hk as <-. destruct He as (<- & ty & i & a & -> & _).
      destruct Hw as [Hw|(d' & ty' & n' & Ha & Hf)]; [contradiction|]. cbn [yseen proxied_filter] in Hf. destruct (decide (ty' = Any)) as [->|]; [exact (I2 _ _ _ Ha eq_refl)|discriminate Hf].
    + intros Hk. apply elem_of_app in Hk as [Hk|Hk]; [exact (I4 Hk)|]. apply elem_of_list_singleton in Hk as <-. rewrite <- He in *.
      destruct Hw as [Hw|(d' & ty' & n' & Ha & Hf)]; [contradiction|]. clear Hdef.
      assert (c1 = YRemoveAll) as -> by (clear -Hp; destruct c1; cbn [yprim] in Hp; try discriminate Hp; try reflexivity;
        repeat match type of Hp with context [match ?y with _ => _ end] => destruct y; try discriminate Hp end).
      cbn [yseen proxied_filter] in Hf. destruct (decide (ty' = Any)) as [->|]; [exact (I2 _ _ _ Ha eq_refl)|discriminate Hf].
  - destruct IH as (I1 & I2 & I3 & I4). split_and!; [exact I1| | |].
    + intros d' ty' n' Ha. apply elem_of_app in Ha as [Ha|Ha]; [exact (I2 _ _ _ Ha)|]. apply elem_of_list_singleton in Ha. injection Ha as <- -> -> ->. exact (I1 _ _ _ Hi).
    + intros m Hk. apply elem_of_app in Hk as [Hk|Hk]; [exact (I3 _ Hk)|]. apply elem_of_list_singleton in Hk. discriminate Hk.
    + intros Hk. apply elem_of_app in Hk as [Hk|Hk]; [exact (I4 Hk)|]. apply elem_of_list_singleton in Hk. discriminate Hk.
  - destruct IH as (I1 & I2 & I3 & I4). split_and!.
    + intros d' ty' n' Ha. rewrite (yproxies_eq _ _ _ (yedit_proxies _ _ _ _ _ He)) in Ha. exact (I1 _ _ _ Ha).
    + intros d' ty' n' Ha. apply elem_of_app in Ha as [Ha|Ha]; [exact (I2 _ _ _ Ha)|]. apply elem_of_list_singleton in Ha. discriminate Ha.
    + intros m Hk. apply elem_of_app in Hk as [Hk|Hk]; [exact (I3 _ Hk)|]. apply elem_of_list_singleton in Hk. discriminate Hk.
    + intros Hk. apply elem_of_app in Hk as [Hk|Hk]; [exact (I4 Hk)|]. apply elem_of_list_singleton in Hk. discriminate Hk.
  - destruct IH as (I1 & I2 & I3 & I4). split_and!; [|exact I2|exact I3|exact I4]. intros d ty n Ha. rewrite (yproxies_eq _ _ _ (money_proxies pure_id hash s1 x Hx)) in Ha. exact (I1 _ _ _ Ha).
Qed.
Lemma never_closed pure_id hash l m p ty n i a : ids_differ pure_id -> YCreated m p ty n i a ∈ y_record pure_id hash l -> ty <> Any -> ~ signs l p ->
  forall m', YKilled m' p ∉ y_record pure_id hash l.
Proof.
  intros Hd H Ht Hs. pose proof (created_id _ _ _ _ _ _ _ _ _ H) as ->. apply (trace_stuck pure_id hash _ _ _ _ _ _ _ _ Hd Ht Hs (history_trace pure_id hash l)).
Qed.

(** What is recorded of an account's proxies is what their number costs. *)
Lemma prim_dep pure_id e who c s s' x a : yprim pure_id e who c s = Some (s', x) -> yproxies_dep s a = proxies_cost (length (yproxies s a)) ->
  yproxies_dep s' a = proxies_cost (length (yproxies s' a)).
Proof.
  assert (forall s1 b l d, y_proxies s1 = y_proxies s -> d = proxies_cost (length l) -> yproxies_dep s a = proxies_cost (length (yproxies s a)) ->
    yproxies_dep (set_px b l d s1) a = proxies_cost (length (yproxies (set_px b l d s1) a))) as Hset.
  { intros s1 b l d E -> H. unfold yproxies_dep, yproxies in *. cbn. rewrite E. destruct (decide (b = a)) as [->|Hne]; [rewrite lookup_insert; reflexivity | rewrite lookup_insert_ne by exact Hne; exact H]. }
  assert (forall s1 b, y_proxies s1 = y_proxies s -> yproxies_dep s a = proxies_cost (length (yproxies s a)) ->
    yproxies_dep (drop_px b s1) a = proxies_cost (length (yproxies (drop_px b s1) a))) as Hdrop.
  { intros s1 b E H. unfold yproxies_dep, yproxies in *. cbn. rewrite E. destruct (decide (b = a)) as [->|Hne]; [rewrite lookup_delete; reflexivity | rewrite lookup_delete_ne by exact Hne; exact H]. }
  assert (forall s1, y_proxies s1 = y_proxies s -> yproxies_dep s a = proxies_cost (length (yproxies s a)) -> yproxies_dep s1 a = proxies_cost (length (yproxies s1 a))) as Hsame.
  { intros s1 E H. unfold yproxies_dep, yproxies in *. rewrite E. exact H. }
  destruct c; cbn [yprim]; try discriminate.
  - destruct (q_ok _ _ _); [|discriminate]. intros H. injection H as <- <-. auto.
  - destruct (_ || _); [discriminate|]. destruct (rejig _ _ _ _ _) as [s1|] eqn:E; [|discriminate]. apply rejig_money in E as (_ & _ & _ & E & _). intros H. injection H as <- <-.
    apply Hset; [exact E|reflexivity].
  - destruct (bool_decide _); [|discriminate]. destruct (rejig _ _ _ _ _) as [s1|] eqn:E; [|discriminate]. apply rejig_money in E as (_ & _ & _ & E & _). intros H. injection H as <- _.
    destruct (List.filter _ _); [apply Hdrop; exact E | apply Hset; [exact E|reflexivity]].
  - intros H. injection H as <- <-. apply Hdrop. reflexivity.
  - destruct (y_proxies s !! _) eqn:Ep; [discriminate|]. destruct (y_reserve _ _ _ _) as [s1|] eqn:E; [|discriminate]. apply reserve_money in E as (_ & _ & E & _). intros H. injection H as <- <-.
    apply Hset; [exact E|reflexivity].
  - destruct (_ =? _); [|discriminate]. intros H. injection H as <- <-. apply Hdrop. reflexivity.
  - destruct (_ && _); [|discriminate]. destruct (rejig _ _ _ _ _) as [s1|] eqn:E; [|discriminate]. apply rejig_money in E as (_ & _ & _ & E & _). intros H. injection H as <- <-. apply Hsame. exact E.
  - destruct (yedit _ _ _ _) as [s1|] eqn:E; [|discriminate]. intros H. injection H as <- <-. apply Hsame. exact (yedit_proxies _ _ _ _ _ E).
  - destruct (yedit _ _ _ _) as [s1|] eqn:E; [|discriminate]. intros H. injection H as <- <-. apply Hsame. exact (yedit_proxies _ _ _ _ _ E).
Qed.
Lemma trace_dep pure_id hash W M l s a : trace pure_id hash W M y_start l s -> yproxies_dep s a = proxies_cost (length (yproxies s a)).
Proof.
  intros T. induction T as [|l s1 at1 T IH|l s1 e1 w1 c1 s2 x T IH Hw Hp|l s1 r d ty n T IH Hd|l s1 e1 d k s2 T IH He|l s1 x T IH _ Hx].
  - reflexivity.
  - exact IH.
  - exact (prim_dep _ _ _ _ _ _ _ _ Hp IH).
  - exact IH.
  - unfold yproxies_dep, yproxies in *. rewrite (yedit_proxies _ _ _ _ _ He). exact IH.
  - unfold yproxies_dep, yproxies in *. rewrite (money_proxies pure_id hash s1 x Hx). exact IH.
Qed.
(** Who holds the proxy of type [Any] closes the account. *)
Lemma closes_it pure_id hash l m p ty i a at_ e : p = pure_id m a ty i -> holds (y_record pure_id hash l) p m Any 0 ->
  (forall n, holds (y_record pure_id hash l) p m Any n -> n = 0) ->
  let s := y_end pure_id hash l in let r := ystep_run pure_id hash s (YTx at_ e m (YProxy p (Some Any) (YKill m ty i a))) in
  snd r = [YActed p m Any 0; YKilled m p] /\ yproxies (fst r) p = [] /\
  held_of (fst r) m = held_of s m - proxies_cost (length (yproxies s p)) /\ free_of (fst r) m + held_of (fst r) m = free_of s m + held_of s m.
Proof.
  intros Hp H Hu. cbv zeta. rewrite (can_act pure_id hash l p m Any at_ e (YKill m ty i a) H Hu). rewrite <- (trace_dep _ _ _ _ _ _ p (history_trace pure_id hash l)).
  set (s := y_end pure_id hash l). cbn [yrun]. rewrite any_all. cbn [yprim]. rewrite <- Hp, N.eqb_refl. cbn [fst snd]. split; [reflexivity|].
  set (s0 := Yst at_ _ _ _ _ _). change (yproxies_dep s p) with (yproxies_dep s0 p). destruct (unreserve_money m (yproxies_dep s0 p) s0) as ((H1 & H2) & _).
  split; [rewrite yproxies_drop; destruct (decide (p = p)) as [_|X]; [reflexivity|contradiction]|]. split; [exact H1|exact H2].
Qed.

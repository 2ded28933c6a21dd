(** Proofs about collators: bonds, selection, sessions. *)
From stdpp Require Import gmap sorting.
From Verif Require Import Base XcmTypes OriginTypes XcmConfigModel TimeModel CollatorsModel CollatorsSpec.
Open Scope N_scope.

Lemma period_is : period = 3600.
Proof. reflexivity. Qed.
Lemma kick_is : kick_threshold = 3600.
Proof. reflexivity. Qed.
Lemma offset_is : offset = 0.
Proof. reflexivity. Qed.
Local Opaque period kick_threshold.

(* ------------------------------------------------------------------ *)
(** * Funds *)

Lemma amount_insert m w n x : amount_in (<[w := n]> m) x = if w =? x then n else amount_in m x.
Proof.
  unfold amount_in. destruct (N.eqb_spec w x) as [->|H]; [by rewrite lookup_insert|by rewrite lookup_insert_ne].
Qed.

Lemma unreserve_free who n s x :
  amount_in (k_free (unreserve who n s)) x =
  amount_in (k_free s) x + if who =? x then N.min n (amount_in (k_reserved s) who) else 0.
Proof.
  unfold unreserve. cbn [k_free with_funds]. rewrite amount_insert. destruct (N.eqb_spec who x) as [->|H]; lia.
Qed.
Lemma unreserve_reserved who n s x :
  amount_in (k_reserved (unreserve who n s)) x =
  amount_in (k_reserved s) x - if who =? x then N.min n (amount_in (k_reserved s) who) else 0.
Proof.
  unfold unreserve. cbn [k_reserved with_funds]. rewrite amount_insert. destruct (N.eqb_spec who x) as [->|H]; lia.
Qed.

Lemma reserve_effect e who n s s' : reserve e who n s = Some s' ->
  exists f r, s' = with_funds f r s /\ n <= amount_in (k_free s) who /\
    (forall x, amount_in f x = amount_in (k_free s) x - if who =? x then n else 0) /\
    (forall x, amount_in r x = amount_in (k_reserved s) x + if who =? x then n else 0).
Proof.
  unfold reserve. destruct (N.eqb_spec n 0) as [->|Hn].
  - intros [= <-]. exists (k_free s), (k_reserved s). split_and!; [by destruct s|lia|..]; intros x; destruct (who =? x); lia.
  - destruct (N.leb_spec n (amount_in (k_free s) who)) as [Hle|]; [|discriminate]. cbn [andb].
    destruct (ke_reserve_ok e who n); [|discriminate]. intros [= <-]. eexists _, _. split_and!; [reflexivity|done|..]; intros x;
      rewrite amount_insert; destruct (N.eqb_spec who x) as [->|]; lia.
Qed.

(** Sum of the bonds of [who] in a list. *)
Definition bonds (l : list candidate) (who : N) : N := foldr (fun c n => (if cd_who c =? who then cd_bond c else 0) + n) 0 l.
Lemma bonds_cons c l who : bonds (c :: l) who = (if cd_who c =? who then cd_bond c else 0) + bonds l who.
Proof. reflexivity. Qed.
Lemma bonds_app l1 l2 who : bonds (l1 ++ l2) who = bonds l1 who + bonds l2 who.
Proof. induction l1 as [|c l1 IH]; cbn [app]; rewrite ?bonds_cons; [cbn; lia|]. rewrite IH. lia. Qed.
Lemma bonds_perm l1 l2 who : l1 ≡ₚ l2 -> bonds l1 who = bonds l2 who.
Proof. induction 1; rewrite ?bonds_cons; try congruence; lia. Qed.
Lemma bonds_none l who : who ∉ map cd_who l -> bonds l who = 0.
Proof.
  induction l as [|c l IH]; [done|]. cbn [map]. rewrite not_elem_of_cons, bonds_cons. intros [H1 H2].
  destruct (N.eqb_spec (cd_who c) who); [congruence|]. rewrite IH by done. lia.
Qed.

(* ------------------------------------------------------------------ *)
(** * Lists of candidates *)

Definition low_first (c d : candidate) : Prop := cd_bond c <= cd_bond d.
Global Instance low_first_trans : Transitive low_first.
Proof. intros a b c. unfold low_first. lia. Qed.

Lemma insert_candidate_perm c l : insert_candidate c l ≡ₚ c :: l.
Proof.
  induction l as [|d l IH]; [done|]. cbn [insert_candidate]. destruct (cd_bond c <=? cd_bond d); [done|].
  rewrite IH. apply perm_swap.
Qed.
Lemma insert_candidate_sorted c l : StronglySorted low_first l -> StronglySorted low_first (insert_candidate c l).
Proof.
  induction 1 as [|d l Hs IH Hd]; cbn [insert_candidate]; [repeat constructor|].
  destruct (N.leb_spec (cd_bond c) (cd_bond d)) as [Hle|Hlt].
  - constructor; [by constructor|]. constructor; [done|]. eapply Forall_impl; [exact Hd|]. intros x Hx. unfold low_first in *. lia.
  - constructor; [done|]. rewrite insert_candidate_perm. constructor; [unfold low_first; lia|done].
Qed.

Lemma find_candidate_some who l c : find_candidate who l = Some c -> cd_who c = who /\ l ≡ₚ c :: remove_candidate who l.
Proof.
  induction l as [|d l IH]; [discriminate|]. cbn [find_candidate remove_candidate].
  destruct (N.eqb_spec (cd_who d) who) as [He|Hne]; [intros [= ->]; done|]. intros H. destruct (IH H) as [H1 H2]. split; [done|].
  etransitivity; [by constructor; exact H2|]. apply perm_swap.
Qed.
Lemma find_candidate_none who l : find_candidate who l = None <-> who ∉ map cd_who l.
Proof.
  induction l as [|d l IH]; cbn [find_candidate map]; [rewrite elem_of_nil; naive_solver|].
  rewrite not_elem_of_cons. destruct (N.eqb_spec (cd_who d) who) as [He|Hne]; [naive_solver|]. rewrite IH. naive_solver.
Qed.
Lemma remove_candidate_sublist who l : sublist (remove_candidate who l) l.
Proof.
  induction l as [|d l IH]; cbn [remove_candidate]; [constructor|]. destruct (cd_who d =? who); [by apply sublist_cons|by apply sublist_skip].
Qed.
Lemma remove_candidate_sorted who l : StronglySorted low_first l -> StronglySorted low_first (remove_candidate who l).
Proof.
  induction 1 as [|d l Hs IH Hd]; cbn [remove_candidate]; [constructor|]. destruct (cd_who d =? who); [done|]. constructor; [done|].
  rewrite Forall_forall in *. intros x Hx. apply Hd. eapply elem_of_submseteq; [exact Hx|apply sublist_submseteq, remove_candidate_sublist].
Qed.

Lemma is_candidate_stands s who : is_candidate s who = true <-> stands s who.
Proof.
  unfold is_candidate, stands. rewrite existsb_exists. split; intros (c & H1 & H2); exists c; rewrite <-elem_of_list_In in *;
    (split; [done|]); by apply N.eqb_eq.
Qed.
Lemma stands_map s who : stands s who <-> who ∈ map cd_who (k_candidates s).
Proof.
  unfold stands. change (map cd_who (k_candidates s)) with (cd_who <$> k_candidates s). rewrite elem_of_list_fmap. naive_solver.
Qed.

Lemma below_bond_split n l : let '(out, rest) := below_bond n l in l = out ++ rest /\ Forall (fun c => cd_bond c < n) out /\
  (StronglySorted low_first l -> Forall (fun c => n <= cd_bond c) rest).
Proof.
  induction l as [|c l IH]; cbn [below_bond]; [by split_and!|]. destruct (N.leb_spec n (cd_bond c)) as [Hle|Hlt].
  - split_and!; [done|constructor|]. intros H. inversion H as [|? ? Hs Hf]; subst. constructor; [done|].
    eapply Forall_impl; [exact Hf|]. unfold low_first. intros x Hx. lia.
  - destruct (below_bond n l) as [out rest]. destruct IH as (-> & H2 & H3). split_and!; [done|by constructor|].
    intros H. inversion H; subst. by apply H3.
Qed.

Lemma sorted_app {A} (R : A -> A -> Prop) (l1 l2 : list A) :
  StronglySorted R (l1 ++ l2) -> StronglySorted R l1 /\ StronglySorted R l2 /\ (forall x y, x ∈ l1 -> y ∈ l2 -> R x y).
Proof.
  induction l1 as [|a l1 IH]; cbn [app]; intros H; [split_and!; [constructor|done|intros x y Hx; by apply elem_of_nil in Hx]|].
  inversion H as [|? ? Hs Hf]; subst. destruct (IH Hs) as (H1 & H2 & H3). rewrite Forall_app in Hf. destruct Hf as [Hf1 Hf2].
  split_and!; [by constructor|done|]. intros x y Hx Hy. apply elem_of_cons in Hx as [->|Hx]; [|by apply H3].
  rewrite Forall_forall in Hf2. by apply Hf2.
Qed.

(* ------------------------------------------------------------------ *)
(** * What is true of candidates at all times *)

Record kok (s : collators) : Prop := KOk {
  ok_nodup : NoDup (map cd_who (k_candidates s));
  ok_sorted : StronglySorted low_first (k_candidates s);
  ok_min : Forall (fun c => k_bond s <= cd_bond c) (k_candidates s);
  ok_reserved : forall who, amount_in (k_reserved s) who = bonds (k_candidates s) who
}.

(** The parts of the state that matter to [kok]. *)
Lemma kok_ext s s' : k_candidates s' = k_candidates s -> k_bond s' = k_bond s -> k_reserved s' = k_reserved s -> kok s -> kok s'.
Proof. intros H1 H2 H3 [A B C D]. constructor; rewrite ?H1, ?H2, ?H3; done. Qed.

Lemma map_perm l1 l2 : l1 ≡ₚ l2 -> map cd_who l1 ≡ₚ map cd_who l2.
Proof. apply Permutation_map. Qed.

(** Removing a candidate and returning its bond. *)
Record dropped (forget : bool) (who : N) (c : candidate) (s s' : collators) : Prop := Dropped {
  dr_find : find_candidate who (k_candidates s) = Some c;
  dr_candidates : k_candidates s' = remove_candidate who (k_candidates s);
  dr_holdings : forall x, holdings s' x = holdings s x;
  dr_last : k_last s' = if forget then delete who (k_last s) else k_last s;
  dr_rest : k_invulnerables s' = k_invulnerables s /\ k_desired s' = k_desired s /\ k_bond s' = k_bond s /\ k_keys s' = k_keys s /\
    k_validators s' = k_validators s /\ k_queued s' = k_queued s /\ k_authorities s' = k_authorities s /\ k_number s' = k_number s;
  dr_reserved : forall x, amount_in (k_reserved s') x = amount_in (k_reserved s) x - if who =? x then N.min (cd_bond c) (amount_in (k_reserved s) who) else 0
}.

Lemma unreserve_holdings who n s x : holdings (unreserve who n s) x = holdings s x.
Proof. unfold holdings. rewrite unreserve_free, unreserve_reserved. destruct (N.eqb_spec who x) as [->|]; lia. Qed.

Lemma drop_candidate_effect forget who s s' : drop_candidate forget who s = Some s' -> exists c, dropped forget who c s s'.
Proof.
  unfold drop_candidate. destruct (find_candidate who (k_candidates s)) as [c|] eqn:E; [|discriminate]. intros [= <-]. exists c.
  constructor; [done|by destruct forget| | | |].
  - intros x. rewrite <-(unreserve_holdings who (cd_bond c) s x). by destruct forget.
  - by destruct forget.
  - by destruct forget.
  - intros x. rewrite <-unreserve_reserved. by destruct forget.
Qed.
Lemma drop_candidate_none forget who s : drop_candidate forget who s = None <-> ~ stands s who.
Proof.
  rewrite stands_map, <-find_candidate_none. unfold drop_candidate. by destruct (find_candidate who (k_candidates s)).
Qed.

Lemma dropped_ok forget who c s s' : dropped forget who c s s' -> kok s -> kok s'.
Proof.
  intros [Hf Hc Hh Hl (_ & _ & Hb & _) Hr] [A B C D]. destruct (find_candidate_some _ _ _ Hf) as [Hw Hp]. constructor.
  - rewrite Hc. rewrite (map_perm _ _ Hp) in A. by inversion A.
  - rewrite Hc. by apply remove_candidate_sorted.
  - rewrite Hc, Hb. rewrite Hp in C. by inversion C.
  - intros x. rewrite Hr, Hc, D, (bonds_perm _ _ x Hp), bonds_cons, D, (bonds_perm _ _ who Hp), bonds_cons, Hw, N.eqb_refl.
    destruct (N.eqb_spec who x) as [->|]; [|lia].
    rewrite (bonds_none (remove_candidate x (k_candidates s))); [lia|]. rewrite (map_perm _ _ Hp) in A. cbn [map] in A. inversion A; subst. done.
Qed.
Lemma dropped_stands forget who c s s' x : dropped forget who c s s' -> kok s -> stands s' x <-> stands s x /\ x <> who.
Proof.
  intros [Hf Hc _ _ _ _] [A _ _ _]. destruct (find_candidate_some _ _ _ Hf) as [Hw Hp].
  rewrite !stands_map, Hc. rewrite (map_perm _ _ Hp) in *. cbn [map] in *. rewrite elem_of_cons. inversion A; subst. split; [|naive_solver].
  intros Hx. split; [by right|]. intros ->. done.
Qed.
Lemma dropped_eligible forget who c s s' : dropped forget who c s s' -> eligible s = eligible s' + 1.
Proof.
  intros [Hf Hc _ _ (Hi & _) _]. destruct (find_candidate_some _ _ _ Hf) as [_ Hp]. unfold eligible. rewrite Hi, Hc.
  rewrite (Permutation_length Hp). cbn [length]. lia.
Qed.

(** Throwing candidates out. *)
Lemma throw_out_fold out s : let s' := fold_left throw_out out s in
  (forall x, holdings s' x = holdings s x) /\ k_candidates s' = k_candidates s /\ k_bond s' = k_bond s /\
  k_invulnerables s' = k_invulnerables s /\ k_desired s' = k_desired s /\ k_keys s' = k_keys s /\
  k_validators s' = k_validators s /\ k_queued s' = k_queued s /\ k_authorities s' = k_authorities s /\ k_number s' = k_number s /\
  (forall w, w ∉ map cd_who out -> k_last s' !! w = k_last s !! w) /\
  (forall l, NoDup (map cd_who (out ++ l)) -> (forall w, amount_in (k_reserved s) w = bonds (out ++ l) w) ->
     forall w, amount_in (k_reserved s') w = bonds l w).
Proof.
  revert s. induction out as [|c out IH]; intros s; cbn [fold_left]; [split_and!; done|].
  destruct (IH (throw_out s c)) as (H1 & H2 & H3 & H4 & H5 & H6 & H7 & H8 & H9 & H10 & H11 & H12).
  assert (Hh : forall x, holdings (throw_out s c) x = holdings s x) by (intros x; apply (unreserve_holdings (cd_who c) (cd_bond c) s x)).
  split_and!; [intros x; by rewrite H1, Hh|exact H2|exact H3|exact H4|exact H5|exact H6|exact H7|exact H8|exact H9|exact H10| |].
  - intros w Hw. cbn [map] in Hw. apply not_elem_of_cons in Hw as [Hw1 Hw2]. rewrite H11 by done.
    change (k_last (throw_out s c)) with (delete (cd_who c) (k_last s)). by apply lookup_delete_ne.
  - intros l Hn Hb. cbn [app map] in Hn. inversion Hn as [|? ? Hni Hn']; subst. apply H12; [done|]. intros w.
    change (k_reserved (throw_out s c)) with (k_reserved (unreserve (cd_who c) (cd_bond c) s)). rewrite unreserve_reserved, !Hb.
    cbn [app]. rewrite !bonds_cons, N.eqb_refl. destruct (N.eqb_spec (cd_who c) w) as [<-|]; [|lia].
    rewrite (bonds_none (out ++ l)) by done. lia.
Qed.

(* ------------------------------------------------------------------ *)
(** * Calls *)

Ltac kill_call H :=
  repeat match type of H with
         | (if ?b then _ else _) = _ => destruct b eqn:?
         | match ?x with _ => _ end = _ => destruct x eqn:?
         end; try discriminate H.

(** What every call leaves as it is. *)
Lemma call_session e s o k s' : kcall_run e s o k = Some s' ->
  k_validators s' = k_validators s /\ k_queued s' = k_queued s /\ k_authorities s' = k_authorities s /\ k_number s' = k_number s.
Proof.
  intros H. destruct k; cbn [kcall_run] in H.
  - kill_call H; injection H as <-; done.
  - kill_call H; injection H as <-; done.
  - kill_call H; injection H as <-; [|done].
    match goal with |- context [fold_left throw_out ?l ?s] => destruct (throw_out_fold l s) as (_ & _ & _ & _ & _ & _ & H7 & H8 & H9 & H10 & _) end.
    done.
  - destruct o; try discriminate H. kill_call H. injection H as <-.
    match goal with Hr : reserve _ _ _ _ = Some _ |- _ => destruct (reserve_effect _ _ _ _ _ Hr) as (f & r & -> & _) end. done.
  - destruct o; try discriminate H. kill_call H. destruct (drop_candidate_effect _ _ _ _ H) as [c [_ _ _ _ (_ & _ & _ & _ & A & B & C & D) _]]. done.
  - kill_call H; injection H as <-. destruct (drop_candidate _ _ _) eqn:Hdr; [|done].
    match goal with Hd : drop_candidate _ _ _ = Some _ |- _ => destruct (drop_candidate_effect _ _ _ _ Hd) as [c' [_ _ _ _ (_ & _ & _ & _ & A & B & C & D) _]] end. done.
  - kill_call H; injection H as <-; done.
  - destruct o; try discriminate H. kill_call H; injection H as <-; [|done].
    match goal with Hr : reserve _ _ _ _ = Some _ |- _ => destruct (reserve_effect _ _ _ _ _ Hr) as (f & r & -> & _) end. done.
  - destruct o; try discriminate H. kill_call H. injection H as <-.
    match goal with Hr : reserve _ _ _ _ = Some _ |- _ => destruct (reserve_effect _ _ _ _ _ Hr) as (f & r & -> & _) end. done.
  - destruct o; try discriminate H. kill_call H; injection H as <-; done.
  - destruct o; try discriminate H. kill_call H; injection H as <-; done.
Qed.

Lemma with_funds_holdings f r s n who :
  n <= amount_in (k_free s) who ->
  (forall x, amount_in f x = amount_in (k_free s) x - if who =? x then n else 0) ->
  (forall x, amount_in r x = amount_in (k_reserved s) x + if who =? x then n else 0) ->
  forall x, holdings (with_funds f r s) x = holdings s x.
Proof.
  intros Hle Hf Hr x. unfold holdings. cbn [with_funds k_free k_reserved]. rewrite Hf, Hr. destruct (N.eqb_spec who x) as [->|]; lia.
Qed.

Lemma call_ok e s o k s' : kcall_run e s o k = Some s' -> kok s -> kok s' /\ forall x, holdings s' x = holdings s x.
Proof.
  intros H Hok. destruct k; cbn [kcall_run] in H.
  - kill_call H; injection H as <-; (split; [by apply (kok_ext s)|done]).
  - kill_call H; injection H as <-; (split; [by apply (kok_ext s)|done]).
  - destruct (collator_update_origin o); [|discriminate]. cbn [negb] in H. destruct (N.ltb_spec (k_bond s) n) as [Hlt|Hge].
    + pose proof (below_bond_split n (k_candidates s)) as Hs. destruct (below_bond n (k_candidates s)) as [out rest].
      destruct Hs as (Hl & Ho & Hr). injection H as <-. destruct Hok as [A B C D]. rewrite Hl in A, D.
      destruct (throw_out_fold out (with_bond n s)) as (H1 & _ & H3 & _ & _ & _ & _ & _ & _ & _ & _ & H12).
      split; [|intros x; exact (H1 x)]. constructor.
      * cbn [k_candidates with_candidates]. rewrite map_app in A. by apply NoDup_app in A as (_ & _ & A).
      * cbn [k_candidates with_candidates]. rewrite Hl in B. by apply sorted_app in B as (_ & B & _).
      * cbn [k_candidates k_bond with_candidates]. rewrite H3. cbn [k_bond with_bond]. exact (Hr B).
      * cbn [k_candidates k_reserved with_candidates]. exact (H12 rest A D).
    + injection H as <-. split; [|done]. destruct Hok as [A B C D]. constructor; [exact A|exact B| |exact D].
      cbn [k_bond with_bond k_candidates]. eapply Forall_impl; [exact C|]. intros c Hc. cbn beta in Hc. lia.
  - destruct o as [| |who| | | |]; try discriminate H. kill_call H. injection H as <-.
    match goal with Hr : reserve _ _ _ _ = Some _ |- _ => destruct (reserve_effect _ _ _ _ _ Hr) as (f & r & -> & Hle & Hf & Hr') end.
    assert (Hns : ~ stands s who) by (rewrite <-is_candidate_stands; congruence). rewrite stands_map in Hns.
    split; [|apply (with_funds_holdings f r s _ who Hle Hf Hr')]. destruct Hok as [A B C D]. constructor; cbn [k_candidates k_bond k_reserved with_candidates with_last with_funds].
    + cbn [map cd_who]. by constructor.
    + constructor; [done|]. eapply Forall_impl; [exact C|]. intros c Hc. exact Hc.
    + constructor; [cbn [cd_bond]; lia|done].
    + intros x. rewrite Hr', D, bonds_cons. cbn [cd_who cd_bond]. destruct (who =? x); lia.
  - destruct o; try discriminate H. kill_call H. destruct (drop_candidate_effect _ _ _ _ H) as [c Hd]. split; [by eapply dropped_ok|apply (dr_holdings _ _ _ _ _ Hd)].
  - kill_call H; injection H as <-. destruct (drop_candidate _ _ _) eqn:Hdr; [|split; [by apply (kok_ext s)|done]].
    match goal with Hd : drop_candidate _ _ _ = Some _ |- _ => destruct (drop_candidate_effect _ _ _ _ Hd) as [c' Hd'] end.
    split; [eapply dropped_ok; [exact Hd'|]; by apply (kok_ext s)|intros x; by rewrite (dr_holdings _ _ _ _ _ Hd' x)].
  - kill_call H; injection H as <-; (split; [by apply (kok_ext s)|done]).
  - destruct o as [| |who| | | |]; try discriminate H. destruct (N.ltb_spec n (k_bond s)) as [|Hn]; [discriminate|].
    destruct (find_candidate who (k_candidates s)) as [c|] eqn:Ef; [|discriminate]. destruct (find_candidate_some _ _ _ Ef) as [Hw Hp].
    assert (Hnew : insert_candidate (Candidate who n) (remove_candidate who (k_candidates s)) ≡ₚ Candidate who n :: remove_candidate who (k_candidates s))
      by apply insert_candidate_perm.
    destruct Hok as [A B C D].
    assert (Hnd : NoDup (who :: map cd_who (remove_candidate who (k_candidates s)))).
    { rewrite (map_perm _ _ Hp) in A. cbn [map] in A. by rewrite Hw in A. }
    assert (Hgen : forall s1, k_bond s1 = k_bond s -> (forall x, amount_in (k_reserved s1) x = (if who =? x then n else 0) + bonds (remove_candidate who (k_candidates s)) x) ->
              kok (with_candidates (insert_candidate (Candidate who n) (remove_candidate who (k_candidates s))) s1)).
    { intros s1 Hb Hr. constructor; cbn [k_candidates k_bond k_reserved with_candidates].
      - rewrite (map_perm _ _ Hnew). exact Hnd.
      - apply insert_candidate_sorted. by apply remove_candidate_sorted.
      - rewrite Hnew, Hb. constructor; [exact Hn|]. rewrite Hp in C. by inversion C.
      - intros x. rewrite (bonds_perm _ _ x Hnew), bonds_cons. cbn [cd_who cd_bond]. apply Hr. }
    assert (Hw0 : bonds (remove_candidate who (k_candidates s)) who = 0) by (inversion Hnd; subst; by apply bonds_none).
    assert (HD : forall x, amount_in (k_reserved s) x = (if who =? x then cd_bond c else 0) + bonds (remove_candidate who (k_candidates s)) x).
    { intros x. by rewrite D, (bonds_perm _ _ x Hp), bonds_cons, Hw. }
    destruct (N.ltb_spec (cd_bond c) n) as [Hup|Hnup].
    + destruct (reserve e who (n - cd_bond c) s) as [s1|] eqn:Er; [|discriminate]. injection H as <-.
      destruct (reserve_effect _ _ _ _ _ Er) as (f & r & -> & Hle & Hf & Hr'). split; [|intros x; apply (with_funds_holdings f r s _ who Hle Hf Hr' x)].
      apply Hgen; [done|]. intros x. cbn [k_reserved with_funds]. rewrite Hr', HD. destruct (who =? x); lia.
    + destruct (N.ltb_spec n (cd_bond c)) as [Hdown|]; [|discriminate]. destruct (_ <? _) eqn:?; [|discriminate]. injection H as <-.
      split; [|intros x; apply (unreserve_holdings who (cd_bond c - n) s x)]. apply Hgen; [done|]. intros x. rewrite unreserve_reserved, !HD, N.eqb_refl, Hw0.
      destruct (N.eqb_spec who x) as [<-|]; [rewrite Hw0|]; lia.
  - destruct o as [| |who| | | |]; try discriminate H. destruct (is_invulnerable s who); [discriminate|]. destruct (N.ltb_spec n (k_bond s)) as [|Hn]; [discriminate|].
    destruct (is_registered s who); [|discriminate]. cbn [negb] in H. destruct (is_candidate s who) eqn:Ens; [discriminate|].
    destruct (find_candidate target (k_candidates s)) as [c|] eqn:Ef; [|discriminate]. destruct (find_candidate_some _ _ _ Ef) as [Hw Hp].
    destruct (N.leb_spec n (cd_bond c)) as [|Hup]; [discriminate|]. destruct (reserve e who n s) as [s1|] eqn:Er; [|discriminate]. injection H as <-.
    destruct (reserve_effect _ _ _ _ _ Er) as (f & r & -> & Hle & Hf & Hr').
    assert (Hns : ~ stands s who) by (rewrite <-is_candidate_stands; congruence). rewrite stands_map, (map_perm _ _ Hp) in Hns. cbn [map] in Hns.
    rewrite Hw in Hns. apply not_elem_of_cons in Hns as [Hne Hns].
    pose proof (insert_candidate_perm (Candidate who n) (remove_candidate target (k_candidates s))) as Hnew.
    destruct Hok as [A B C D]. rewrite (map_perm _ _ Hp) in A. cbn [map] in A. rewrite Hw in A. inversion A as [|? ? A1 A2]; subst x l.
    split.
    + constructor; cbn [k_candidates k_bond with_candidates with_last].
      * rewrite (map_perm _ _ Hnew). cbn [map cd_who]. by constructor.
      * apply insert_candidate_sorted. by apply remove_candidate_sorted.
      * rewrite Hnew. constructor; [exact Hn|]. rewrite Hp in C. by inversion C.
      * intros x. rewrite (bonds_perm _ _ x Hnew), bonds_cons. cbn [cd_who cd_bond].
        change (k_reserved (with_candidates ?l (with_last ?m ?s1))) with (k_reserved s1).
        rewrite unreserve_reserved. cbn [k_reserved with_funds]. rewrite !Hr', !D, (bonds_perm _ _ x Hp), (bonds_perm _ _ target Hp), !bonds_cons, Hw, N.eqb_refl.
        assert (Ht : bonds (remove_candidate target (k_candidates s)) target = 0) by (by apply bonds_none). rewrite Ht.
        destruct (N.eqb_spec target x) as [<-|]; destruct (N.eqb_spec who target) as [|]; try congruence; [rewrite Ht; lia|].
        destruct (who =? x); lia.
    + intros x. transitivity (holdings (with_funds f r s) x); [|apply (with_funds_holdings f r s _ who Hle Hf Hr')].
      apply (unreserve_holdings target (cd_bond c) (with_funds f r s) x).
  - destruct o; try discriminate H. kill_call H; injection H as <-; (split; [by apply (kok_ext s)|done]).
  - destruct o; try discriminate H. kill_call H; injection H as <-; (split; [by apply (kok_ext s)|done]).
Qed.

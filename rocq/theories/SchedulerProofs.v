(** Proofs about the scheduler. *)
From Verif Require Import Base BlocksModel BlocksSpec SchedulerModel SchedulerSpec.
From stdpp Require Import gmap.
Open Scope N_scope.

(** ** Agendas *)
Definition one (P : stask -> bool) (t : stask) : nat := if P t then 1 else 0.

Lemma how_many_app P a b : how_many P (a ++ b) = (how_many P a + how_many P b)%nat.
Proof. induction a as [|[t|] a IH]; cbn [app how_many]; [reflexivity| |exact IH]. rewrite IH. lia. Qed.

Lemma how_many_take P a i t : a !! i = Some (Some t) -> how_many P a = (one P t + how_many P (<[i := None]> a))%nat.
Proof.
  revert i. induction a as [|x a IH]; intros [|i] H; try discriminate H.
  - injection H as ->. reflexivity.
  - cbn [lookup list_lookup] in H. change (<[S i := None]> (x :: a)) with (x :: <[i := None]> a). destruct x as [u|]; cbn [how_many]; rewrite (IH _ H); lia.
Qed.

Lemma how_many_fill P a i t : a !! i = Some None -> how_many P (<[i := Some t]> a) = (one P t + how_many P a)%nat.
Proof.
  revert i. induction a as [|x a IH]; intros [|i] H; try discriminate H.
  - injection H as ->. reflexivity.
  - cbn [lookup list_lookup] in H. change (<[S i := Some t]> (x :: a)) with (x :: <[i := Some t]> a). destruct x as [u|]; cbn [how_many]; rewrite (IH _ H); lia.
Qed.

Lemma trim_none a : trim a = [] -> forall P, how_many P a = 0%nat.
Proof.
  induction a as [|[t|] a IH]; cbn [trim how_many]; intros H P; [reflexivity|destruct (trim a); discriminate H|].
  destruct (trim a); [apply IH; reflexivity|discriminate H].
Qed.

Lemma how_many_trim P a : how_many P (trim a) = how_many P a.
Proof.
  induction a as [|[t|] a IH]; cbn [trim how_many]; [reflexivity| |].
  - assert (E : (match trim a with [] => Some t :: trim a | _ => Some t :: trim a end) = Some t :: trim a) by (destruct (trim a); reflexivity).
    destruct (trim a) as [|y b] eqn:Eb; cbn [how_many]; rewrite <- IH; reflexivity.
  - destruct (trim a) as [|y b] eqn:Eb; [symmetry; apply trim_none, Eb|]. cbn [how_many]. exact IH.
Qed.

Lemma trim_length a : (length (trim a) <= length a)%nat.
Proof. induction a as [|[t|] a IH]; cbn [trim length]; [lia| |]; destruct (trim a); cbn [length] in *; lia. Qed.

Lemma trim_stays a i t : a !! i = Some (Some t) -> trim a !! i = Some (Some t).
Proof.
  revert i. induction a as [|x a IH]; intros [|i] H; try discriminate H.
  - injection H as ->. cbn [trim]. destruct (trim a); reflexivity.
  - cbn [lookup list_lookup] in H. specialize (IH _ H). cbn [trim]. destruct x as [u|], (trim a) as [|y b]; try discriminate IH; exact IH.
Qed.

Lemma hole_some a i : hole a = Some i -> a !! i = Some None.
Proof.
  revert i. induction a as [|[t|] a IH]; cbn [hole]; intros i H; [discriminate H| |injection H as <-; reflexivity].
  destruct (hole a) as [j|] eqn:E; [|discriminate H]. injection H as <-. exact (IH j eq_refl).
Qed.

Lemma hole_none a : hole a = None -> how_many anything a = length a.
Proof.
  induction a as [|[t|] a IH]; cbn [hole how_many length]; intros H; [reflexivity| |discriminate H].
  destruct (hole a); [discriminate H|]. rewrite (IH eq_refl). reflexivity.
Qed.

Lemma how_many_length P a : (how_many P a <= length a)%nat.
Proof. induction a as [|[t|] a IH]; cbn [how_many length]; [lia|destruct (P t); lia|lia]. Qed.

Lemma push_spec a t b i : push a t = Some (b, i) -> (length a <= 50)%nat ->
  (length b <= 50)%nat /\ b !! i = Some (Some t) /\ (forall P, how_many P b = (one P t + how_many P a)%nat) /\
  (forall j u, a !! j = Some (Some u) -> j <> i /\ b !! j = Some (Some u)).
Proof.
  unfold push, max_scheduled. destruct (_ <? _)%nat eqn:E.
  - apply Nat.ltb_lt in E. intros [= <- <-] _. split_and!.
    + rewrite app_length. cbn [length]. lia.
    + rewrite lookup_app_r by lia. rewrite Nat.sub_diag. reflexivity.
    + intros P. rewrite how_many_app. cbn [how_many]. fold (one P t). lia.
    + intros j u H. pose proof (lookup_lt_Some _ _ _ H). split; [lia|]. rewrite lookup_app_l by lia. exact H.
  - destruct (hole a) as [j|] eqn:Eh; [|discriminate 1]. intros [= <- <-] Hl. apply hole_some in Eh. pose proof (lookup_lt_Some _ _ _ Eh). split_and!.
    + rewrite insert_length. exact Hl.
    + apply list_lookup_insert. lia.
    + intros P. apply how_many_fill, Eh.
    + intros k u Hk. assert (k <> j) by congruence. split; [done|]. rewrite list_lookup_insert_ne by congruence. exact Hk.
Qed.

Lemma push_none a t : (length a <= 50)%nat -> push a t = None <-> how_many anything a = 50%nat.
Proof.
  unfold push, max_scheduled. intros Hl. destruct (_ <? _)%nat eqn:E.
  - apply Nat.ltb_lt in E. pose proof (how_many_length anything a). split; [discriminate 1|lia].
  - apply Nat.ltb_ge in E. destruct (hole a) as [j|] eqn:Eh.
    + split; [discriminate 1|]. intros H. apply hole_some in Eh. pose proof (how_many_fill anything _ _ t Eh) as F.
      pose proof (how_many_length anything (<[j:=Some t]> a)) as G. rewrite insert_length in G. cbn in F. lia.
    + split; [|reflexivity]. intros _. rewrite (hole_none _ Eh). lia.
Qed.

(** ** Which agenda a state holds after a step *)
Lemma agenda_of_put w a s w' : agenda_of (put_agenda w a s) w' = if w' =? w then a else agenda_of s w'.
Proof.
  unfold put_agenda, agenda_of. cbn [sd_agenda sset_agenda]. destruct (N.eqb_spec w' w) as [->|Hn].
  - destruct a; [rewrite lookup_delete|rewrite lookup_insert]; reflexivity.
  - destruct a; [rewrite lookup_delete_ne|rewrite lookup_insert_ne]; congruence.
Qed.
Lemma agenda_of_set w a s w' : agenda_of (sset_agenda (<[w := a]> (sd_agenda s)) s) w' = if w' =? w then a else agenda_of s w'.
Proof.
  unfold agenda_of. cbn [sd_agenda sset_agenda]. destruct (N.eqb_spec w' w) as [->|Hn]; [by rewrite lookup_insert|by rewrite lookup_insert_ne].
Qed.
Lemma agenda_of_del w s w' : agenda_of (sset_agenda (delete w (sd_agenda s)) s) w' = if w' =? w then [] else agenda_of s w'.
Proof.
  unfold agenda_of. cbn [sd_agenda sset_agenda]. destruct (N.eqb_spec w' w) as [->|Hn]; [by rewrite lookup_delete|by rewrite lookup_delete_ne].
Qed.
Lemma agenda_of_forget n s : agenda_of (forget n s) = agenda_of s.
Proof. destruct n; reflexivity. Qed.
Lemma agenda_of_forget_name n s : sd_agenda (forget n s) = sd_agenda s /\ sd_now (forget n s) = sd_now s /\ sd_since (forget n s) = sd_since s /\ sd_log (forget n s) = sd_log s.
Proof. destruct n; repeat split; reflexivity. Qed.
Lemma forget_lookup n s k x : sd_lookup (forget n s) !! k = Some x -> sd_lookup s !! k = Some x /\ n <> Some k.
Proof.
  destruct n as [k'|]; cbn [forget sset_lookup sd_lookup]; [|by split].
  intros H. apply lookup_delete_Some in H as [Hn H]. split; [exact H|congruence].
Qed.

(** ** The invariant, with the agenda being worked on held apart *)
Definition view (o : option (N * list (option stask))) (s : sched) (w : N) : list (option stask) :=
  match o with Some (w', a) => if w =? w' then a else agenda_of s w | None => agenda_of s w end.
Definition books (V : N -> list (option stask)) (s : sched) : Prop :=
  forall P w, (carried_out P w s + how_many P (V w) + withdrawn_in_time P w s <= placed P w s)%nat /\
              (placed P w s <= carried_out P w s + how_many P (V w) + withdrawn P w s)%nat.
Definition names (V : N -> list (option stask)) (s : sched) : Prop :=
  forall k w i, sd_lookup s !! k = Some (w, i) -> exists t, V w !! i = Some (Some t) /\ sk_name t = Some k.
Definition due (s : sched) : Prop := forall at_ w t, In (ERan at_ w t) (sd_log s) -> w <= at_ /\ at_ <= sd_now s.
Record sinv (o : option (N * list (option stask))) (s : sched) : Prop := SInv {
  si_books : books (view o s) s;
  si_names : names (view o s) s;
  si_len : forall w, (length (view o s w) <= 50)%nat;
  si_due : due s;
  si_open : match o with Some (w, _) => w <= sd_now s | None => True end
}.

Lemma seen_log f ev s : seen f (slog ev s) = ((if f ev then 1 else 0) + seen f s)%nat.
Proof. unfold seen. cbn [slog sd_log List.filter]. destruct (f ev); reflexivity. Qed.
Lemma seen_eq f s s' : sd_log s' = sd_log s -> seen f s' = seen f s.
Proof. unfold seen. intros ->. reflexivity. Qed.

Lemma view_log o ev s : view o (slog ev s) = view o s.
Proof. destruct o as [[w a]|]; reflexivity. Qed.

Lemma sinv_start now : sinv None (s_start now).
Proof.
  split; [|intros k w i H|intros w|intros at_ w t H|exact I].
  - intros P w. unfold view, agenda_of. cbn [s_start sd_agenda]. rewrite lookup_empty. cbn. lia.
  - cbn in H. rewrite lookup_empty in H. discriminate H.
  - unfold view, agenda_of. cbn [s_start sd_agenda]. rewrite lookup_empty. cbn. lia.
  - destruct H.
Qed.

(** A step that only forgets names and takes tasks out keeps names in order. *)
Lemma sinv_place o s w t s' : sinv o s -> schedule s w t = Some s' -> sinv o s' /\ sd_now s' = sd_now s /\ sd_now s < w.
Proof.
  intros [B Nm L D O] H. unfold schedule in H.
  destruct (match sk_name t with Some _ => _ | None => _ end) eqn:En; [discriminate H|].
  destruct (_ <=? _) eqn:Ew; [discriminate H|]. apply N.leb_gt in Ew.
  destruct (push (agenda_of s w) t) as [[a i]|] eqn:Ep; [|discriminate H]. injection H as <-.
  assert (Hv : view o s w = agenda_of s w).
  { destruct o as [[w0 a0]|]; [|reflexivity]. cbn [view]. destruct (N.eqb_spec w w0); [subst; lia|reflexivity]. }
  pose proof (L w) as Lw. rewrite Hv in Lw. destruct (push_spec _ _ _ _ Ep Lw) as (Pl & Pi & Pc & Ps).
  set (s2 := match sk_name t with Some k => _ | None => _ end).
  assert (V : forall w', view o (slog (EPlaced w t) s2) w' = if w' =? w then a else view o s w').
  { intros w'. rewrite view_log. assert (Ha : forall x, agenda_of s2 x = if x =? w then a else agenda_of s x).
    { intros x. rewrite <- agenda_of_set. unfold s2. destruct (sk_name t); reflexivity. }
    destruct o as [[w0 a0]|]; cbn [view]; rewrite Ha; [|reflexivity].
    destruct (N.eqb_spec w' w0) as [->|]; [|reflexivity]. destruct (N.eqb_spec w0 w); [subst; lia|reflexivity]. }
  assert (Hl : sd_log s2 = sd_log s) by (unfold s2; destruct (sk_name t); reflexivity).
  assert (Hn : sd_now s2 = sd_now s) by (unfold s2; destruct (sk_name t); reflexivity).
  split; [|split; [exact Hn|exact Ew]]. split.
  - intros P w'. rewrite V. unfold carried_out, placed, withdrawn, withdrawn_in_time. rewrite !seen_log, !(seen_eq _ _ _ Hl).
    specialize (B P w'). unfold carried_out, placed, withdrawn, withdrawn_in_time in B.
    destruct (N.eqb_spec w' w) as [->|Hne].
    + rewrite N.eqb_refl, Pc. rewrite Hv in B. unfold one. cbn [andb]. destruct (P t); lia.
    + destruct (N.eqb_spec w w'); [congruence|]. cbn [andb]. lia.
  - intros k w' j H.
    assert (H' : (sk_name t = Some k /\ (w', j) = (w, i)) \/ sd_lookup s !! k = Some (w', j)).
    { unfold s2 in H. cbn [slog sd_lookup] in H. destruct (sk_name t) as [k'|]; [|right; exact H]. cbn [sset_lookup sd_lookup] in H.
      destruct (decide (k' = k)) as [->|Hk]; [rewrite lookup_insert in H; injection H as <- <-; left; done|rewrite lookup_insert_ne in H by exact Hk; right; exact H]. }
    destruct H' as [[Hk [= -> ->]]|H'].
    + exists t. rewrite V, N.eqb_refl. split; [exact Pi|exact Hk].
    + destruct (Nm _ _ _ H') as (u & Hu & Hk). exists u. rewrite V. destruct (N.eqb_spec w' w) as [->|]; [|done].
      rewrite Hv in Hu. split; [apply Ps, Hu|exact Hk].
  - intros w'. rewrite V. destruct (_ =? _); [exact Pl|apply L].
  - intros at_ w' u H. cbn [slog sd_log In] in H. destruct H as [H|H]; [discriminate H|]. rewrite Hl in H. change (sd_now (slog (EPlaced w t) s2)) with (sd_now s2). rewrite Hn. exact (D _ _ _ H).
  - change (sd_now (slog (EPlaced w t) s2)) with (sd_now s2). rewrite Hn. exact O.
Qed.

(** Taking a task out of its place and withdrawing it. *)
Lemma sinv_take o s w i t n : sinv o s -> agenda_of s w !! i = Some (Some t) -> n = sk_name t \/ (exists k, n = Some k /\ sd_lookup s !! k = Some (w, i)) ->
  sinv o (slog (ECancelled (sd_now s) w t) (put_agenda w (trim (<[i := None]> (agenda_of s w))) (forget n s))).
Proof.
  intros [B Nm L D O] Ht Hn. set (s1 := put_agenda _ _ _).
  assert (E : sd_lookup s1 = sd_lookup (forget n s) /\ sd_log s1 = sd_log s /\ sd_now s1 = sd_now s).
  { destruct (agenda_of_forget_name n s) as (_ & E2 & _ & E3). split_and!; [reflexivity|exact E3|exact E2]. }
  destruct E as (El & Hl & Hw).
  assert (V : forall w', view o (slog (ECancelled (sd_now s) w t) s1) w' = view o s w' /\ (w <> w' \/ w <= sd_now s) \/
     (w' = w /\ view o s w = agenda_of s w /\ view o (slog (ECancelled (sd_now s) w t) s1) w = trim (<[i := None]> (agenda_of s w)))).
  { intros w'. rewrite view_log. destruct o as [[w0 a0]|]; cbn [view]; unfold s1; rewrite !agenda_of_put, agenda_of_forget, ?N.eqb_refl.
    - destruct (N.eqb_spec w' w0) as [->|Hn0]; [left; split; [reflexivity|]; destruct (N.eq_dec w w0) as [->|]; [right; exact O|left; assumption]|]. destruct (N.eqb_spec w' w) as [->|]; [|left; split; [reflexivity|left; congruence]].
      right. destruct (N.eqb_spec w w0); [congruence|]. split_and!; reflexivity.
    - destruct (N.eqb_spec w' w) as [->|]; [right; split_and!; reflexivity|left; split; [reflexivity|left; congruence]]. }
  split.
  - intros P w'. unfold carried_out, placed, withdrawn, withdrawn_in_time. rewrite !seen_log, !(seen_eq _ _ _ Hl).
    specialize (B P w'). unfold carried_out, placed, withdrawn, withdrawn_in_time in B. destruct (V w') as [[-> Hc]|(-> & V0 & ->)].
    + destruct Hc as [Hc|Hc]; [destruct (N.eqb_spec w w'); [congruence|]; rewrite andb_false_r; cbn [andb]; lia|].
      destruct (N.eqb_spec w w') as [->|]; [|rewrite andb_false_r; cbn [andb]; lia]. rewrite (proj2 (N.ltb_ge _ _) Hc). cbn [andb]. destruct (P t); lia.
    + rewrite how_many_trim, N.eqb_refl, andb_true_r. cbn [andb]. rewrite V0, (how_many_take P _ _ _ Ht) in B. unfold one in B. destruct (sd_now s <? w), (P t); cbn [andb]; lia.
  - intros k w' j H. change (sd_lookup (slog (ECancelled (sd_now s) w t) s1)) with (sd_lookup s1) in H. rewrite El in H. apply forget_lookup in H as [H Hk].
    destruct (Nm _ _ _ H) as (u & Hu & Huk). exists u. split; [|exact Huk]. destruct (V w') as [[-> _]|(-> & V0 & ->)]; [exact Hu|].
    apply trim_stays. rewrite V0 in Hu. rewrite list_lookup_insert_ne; [exact Hu|]. intros ->. rewrite Ht in Hu. injection Hu as <-.
    destruct Hn as [->|(k' & -> & Hk')]; [congruence|]. destruct (Nm _ _ _ Hk') as (u & Hu & Huk'). rewrite V0, Ht in Hu. injection Hu as <-. congruence.
  - intros w'. destruct (V w') as [[-> _]|(-> & V0 & ->)]; [apply L|]. etransitivity; [apply trim_length|]. rewrite insert_length, <- V0. apply L.
  - intros at_ w' u H. cbn [slog sd_log In] in H. destruct H as [H|H]; [discriminate H|]. rewrite Hl in H. change (sd_now (slog (ECancelled (sd_now s) w t) s1)) with (sd_now s1). rewrite Hw. exact (D _ _ _ H).
  - change (sd_now (slog (ECancelled (sd_now s) w t) s1)) with (sd_now s1). rewrite Hw. exact O.
Qed.

(** Forgetting a name and tidying an agenda. *)
Lemma sinv_forget o s n : sinv o s -> sinv o (forget n s).
Proof.
  intros [B Nm L D O]. destruct (agenda_of_forget_name n s) as (E1 & E2 & E3 & E4).
  assert (V : view o (forget n s) = view o s) by (destruct o as [[w a]|]; destruct n; reflexivity).
  split; [| | | |].
  - intros P w. rewrite V. unfold carried_out, placed, withdrawn, withdrawn_in_time. rewrite !(seen_eq _ _ _ E4). apply B.
  - intros k w i H. rewrite V. apply forget_lookup in H as [H _]. exact (Nm _ _ _ H).
  - rewrite V. exact L.
  - intros at_ w t H. rewrite E4 in H. rewrite E2. exact (D _ _ _ H).
  - rewrite E2. exact O.
Qed.

Lemma sinv_tidy o s w a : sinv o s -> (forall P, how_many P a = how_many P (agenda_of s w)) -> (length a <= length (agenda_of s w))%nat ->
  (forall i t, agenda_of s w !! i = Some (Some t) -> a !! i = Some (Some t)) -> sinv o (put_agenda w a s).
Proof.
  intros [B Nm L D O] Hc Hl Hs.
  assert (V : forall w', view o (put_agenda w a s) w' = view o s w' \/ (w' = w /\ view o s w = agenda_of s w /\ view o (put_agenda w a s) w = a)).
  { intros w'. destruct o as [[w0 a0]|]; cbn [view]; rewrite !agenda_of_put, ?N.eqb_refl.
    - destruct (N.eqb_spec w' w0) as [->|]; [left; reflexivity|]. destruct (N.eqb_spec w' w) as [->|]; [|left; reflexivity].
      right. destruct (N.eqb_spec w w0); [congruence|]. split_and!; reflexivity.
    - destruct (N.eqb_spec w' w) as [->|]; [right; split_and!; reflexivity|left; reflexivity]. }
  split; [| | |exact D|exact O].
  - intros P w'. destruct (V w') as [->|(-> & V0 & ->)]; [apply B|]. rewrite Hc, <- V0. apply B.
  - intros k w' i H. destruct (Nm _ _ _ H) as (t & Ht & Hk). exists t. split; [|exact Hk]. destruct (V w') as [->|(-> & V0 & ->)]; [exact Ht|].
    apply Hs. rewrite <- V0. exact Ht.
  - intros w'. destruct (V w') as [->|(-> & V0 & ->)]; [apply L|]. etransitivity; [exact Hl|]. rewrite <- V0. apply L.
Qed.

Lemma insert_none_other {A} (a : list (option A)) i : match a !! i with Some (Some _) => False | _ => True end -> <[i := None]> a = a.
Proof.
  intros H. destruct (a !! i) as [[x|]|] eqn:E; [destruct H|apply list_insert_id, E|]. apply list_insert_ge, lookup_ge_None, E.
Qed.

Lemma sinv_act o s a : sinv o s -> sinv o (do_act s a) /\ sd_now (do_act s a) = sd_now s /\ sd_since (do_act s a) = sd_since s.
Proof.
  intros I. unfold do_act. destruct a as [w t|w i|k].
  - destruct (schedule s w t) as [s'|] eqn:E; [|done]. cbn [default]. destruct (sinv_place _ _ _ _ _ I E) as (H1 & H2 & _). split_and!; [exact H1|exact H2|].
    unfold schedule in E. destruct (match sk_name t with Some _ => _ | None => _ end); [discriminate E|]. destruct (_ <=? _); [discriminate E|].
    destruct (push _ _) as [[b i]|]; [|discriminate E]. injection E as <-. destruct (sk_name t); reflexivity.
  - unfold cancel_at. destruct (agenda_of s w !! i) as [[t|]|] eqn:E; try done. cbn [default]. split_and!.
    + apply sinv_take; [exact I|exact E|left; reflexivity].
    + destruct (agenda_of_forget_name (sk_name t) s) as (_ & E2 & _ & _). exact E2.
    + destruct (agenda_of_forget_name (sk_name t) s) as (_ & _ & E2 & _). exact E2.
  - unfold cancel_named. destruct (sd_lookup s !! k) as [[w i]|] eqn:Ek; [|done]. cbn [default]. split_and!.
    + destruct (agenda_of s w !! i) as [[t|]|] eqn:E.
      * apply sinv_take; [exact I|exact E|]. right. exists k. done.
      * rewrite insert_none_other by (rewrite E; exact Logic.I). apply sinv_tidy; [apply sinv_forget, I|..].
        -- intros P. rewrite agenda_of_forget. apply how_many_trim.
        -- rewrite agenda_of_forget. apply trim_length.
        -- rewrite agenda_of_forget. apply trim_stays.
      * rewrite insert_none_other by (rewrite E; exact Logic.I). apply sinv_tidy; [apply sinv_forget, I|..].
        -- intros P. rewrite agenda_of_forget. apply how_many_trim.
        -- rewrite agenda_of_forget. apply trim_length.
        -- rewrite agenda_of_forget. apply trim_stays.
    + destruct (agenda_of s w !! i) as [[t|]|]; reflexivity.
    + destruct (agenda_of s w !! i) as [[t|]|]; reflexivity.
Qed.

Lemma sinv_acts o l s : sinv o s -> sinv o (fold_left do_act l s) /\ sd_now (fold_left do_act l s) = sd_now s /\ sd_since (fold_left do_act l s) = sd_since s.
Proof.
  revert s. induction l as [|a l IH]; intros s I; cbn [fold_left]; [done|]. destruct (sinv_act _ _ a I) as (H1 & H2 & H3).
  destruct (IH _ H1) as (G1 & G2 & G3). split_and!; congruence || exact G1.
Qed.

(** ** Blocks *)
Lemma sinv_ran w a s i t : sinv (Some (w, a)) s -> a !! i = Some (Some t) ->
  sinv (Some (w, <[i := None]> a)) (slog (ERan (sd_now s) w t) (forget (sk_name t) s)).
Proof.
  intros I Ht. pose proof (sinv_forget _ _ (sk_name t) I) as [B Nm L D O]. destruct I as [_ _ _ _ O']. cbn in O, O'.
  destruct (agenda_of_forget_name (sk_name t) s) as (E1 & E2 & E3 & E4). set (s1 := forget _ s) in *.
  assert (V : forall w', view (Some (w, <[i := None]> a)) (slog (ERan (sd_now s) w t) s1) w' = if w' =? w then <[i := None]> a else view (Some (w, a)) s1 w').
  { intros w'. rewrite view_log. cbn [view]. destruct (_ =? _); reflexivity. }
  assert (Vw : view (Some (w, a)) s1 w = a) by (cbn [view]; rewrite N.eqb_refl; reflexivity).
  split.
  - intros P w'. unfold carried_out, placed, withdrawn, withdrawn_in_time. rewrite !seen_log, V. specialize (B P w'). unfold carried_out, placed, withdrawn, withdrawn_in_time in B.
    destruct (N.eqb_spec w' w) as [->|Hn].
    + rewrite Vw, (how_many_take P _ _ _ Ht) in B. rewrite N.eqb_refl. cbn [andb]. unfold one in B. destruct (P t); lia.
    + destruct (N.eqb_spec w w'); [congruence|]. cbn [andb]. lia.
  - intros k w' j H. change (sd_lookup (slog (ERan (sd_now s) w t) s1)) with (sd_lookup s1) in H. pose proof H as H0. apply forget_lookup in H as [_ Hk]. destruct (Nm _ _ _ H0) as (u & Hu & Huk). exists u. split; [|exact Huk]. rewrite V.
    destruct (N.eqb_spec w' w) as [->|Hn]; [|exact Hu]. rewrite Vw in Hu. rewrite list_lookup_insert_ne; [exact Hu|]. intros ->. rewrite Ht in Hu. injection Hu as <-. congruence.
  - intros w'. rewrite V. destruct (_ =? _); [rewrite insert_length, <- Vw|]; apply L.
  - intros at_ w' u H. cbn [slog sd_log In] in H. destruct H as [[= <- <- <-]|H]; [change (sd_now (slog (ERan (sd_now s) w t) s1)) with (sd_now s1); lia|]. exact (D _ _ _ H).
  - cbn [slog sd_now]. exact O.
Qed.

Lemma service_task_cases e s m first w t :
  let '(r, s', m') := service_task e s m first w t in
  match r with
  | Ran => s' = fold_left do_act (se_acts e (sk_what t)) (slog (ERan (sd_now s) w t) (forget (sk_name t) s))
  | _ => s' = forget (sk_name t) s /\ m' = meter m (se_task e t)
  end.
Proof. unfold service_task. destruct (negb _); [done|]. destruct (negb _); [destruct first; done|reflexivity]. Qed.

Lemma sinv_tasks e w order x :
  sinv (Some (w, lp_agenda x)) (lp_s x) ->
  sinv (Some (w, lp_agenda (service_tasks e w order x))) (lp_s (service_tasks e w order x)) /\
  sd_now (lp_s (service_tasks e w order x)) = sd_now (lp_s x) /\ sd_since (lp_s (service_tasks e w order x)) = sd_since (lp_s x).
Proof.
  revert x. induction order as [|i order IH]; intros x I; cbn [service_tasks]; [done|].
  destruct (lp_agenda x !! i) as [[t|]|] eqn:Et; [|apply IH, I|apply IH, I].
  destruct (negb _); [cbn [lp_agenda lp_s]; done|].
  pose proof (service_task_cases e (lp_s x) (lp_m x) (lp_ran x =? 0)%nat w t) as C. destruct (service_task _ _ _ _ _ _) as [[r s'] m']. destruct r.
  - subst s'. pose proof (sinv_ran _ _ _ _ _ I Et) as I1. destruct (sinv_acts _ (se_acts e (sk_what t)) _ I1) as (I2 & H2 & H3).
    destruct (agenda_of_forget_name (sk_name t) (lp_s x)) as (_ & E2 & E3 & _).
    destruct (IH (SLoop (<[i:=None]> (lp_agenda x)) (fold_left do_act (se_acts e (sk_what t)) (slog (ERan (sd_now (lp_s x)) w t) (forget (sk_name t) (lp_s x)))) m' (S (lp_ran x)) (lp_wait x) (lp_left x)) I2) as (G1 & G2 & G3). cbn [lp_s] in G2, G3.
    split_and!; [exact G1|rewrite G2, H2; exact E2|rewrite G3, H3; exact E3].
  - destruct C as [-> _]. destruct (agenda_of_forget_name (sk_name t) (lp_s x)) as (_ & E2 & E3 & _).
    destruct (IH (SLoop (lp_agenda x) (forget (sk_name t) (lp_s x)) m' (lp_ran x) (lp_wait x) true) (sinv_forget _ _ _ I)) as (G1 & G2 & G3). cbn [lp_s] in G2, G3. split_and!; [exact G1|congruence|congruence].
  - destruct C as [-> _]. destruct (agenda_of_forget_name (sk_name t) (lp_s x)) as (_ & E2 & E3 & _).
    destruct (IH (SLoop (lp_agenda x) (forget (sk_name t) (lp_s x)) m' (lp_ran x) true (lp_left x)) (sinv_forget _ _ _ I)) as (G1 & G2 & G3). cbn [lp_s] in G2, G3. split_and!; [exact G1|congruence|congruence].
Qed.

(** What the loop leaves where it was. *)
Lemma tasks_back e w order x i t : lp_agenda (service_tasks e w order x) !! i = Some (Some t) -> lp_agenda x !! i = Some (Some t).
Proof.
  revert x. induction order as [|j order IH]; intros x; cbn [service_tasks]; [done|].
  destruct (lp_agenda x !! j) as [[u|]|] eqn:Eu; [|apply IH|apply IH]. destruct (negb _); [done|].
  destruct (service_task _ _ _ _ _ _) as [[[] s'] m']; intros H; apply IH in H; cbn [lp_agenda] in H; try exact H.
  destruct (decide (j = i)) as [->|Hn]; [rewrite list_lookup_insert in H by (eapply lookup_lt_Some, Eu); discriminate H|].
  rewrite list_lookup_insert_ne in H by exact Hn. exact H.
Qed.
Lemma tasks_flags e w order x : let y := service_tasks e w order x in
  (lp_wait x = true -> lp_wait y = true) /\ (lp_left x = true -> lp_left y = true) /\ (lp_ran x <= lp_ran y)%nat.
Proof.
  revert x. induction order as [|j order IH]; intros x; cbn [service_tasks]; [done|].
  destruct (lp_agenda x !! j) as [[u|]|]; [|apply IH|apply IH]. destruct (negb _); [done|].
  destruct (service_task _ _ _ _ _ _) as [[[] s'] m']; cbv zeta;
    [destruct (IH (SLoop (<[j:=None]> (lp_agenda x)) s' m' (S (lp_ran x)) (lp_wait x) (lp_left x))) as (H1 & H2 & H3)
    |destruct (IH (SLoop (lp_agenda x) s' m' (lp_ran x) (lp_wait x) true)) as (H1 & H2 & H3)
    |destruct (IH (SLoop (lp_agenda x) s' m' (lp_ran x) true (lp_left x))) as (H1 & H2 & H3)];
    cbn [lp_wait lp_left lp_ran] in *; split_and!; auto; lia.
Qed.
Lemma tasks_kept e w order x i t : let y := service_tasks e w order x in
  In i order -> lp_agenda y !! i = Some (Some t) -> lp_wait y || lp_left y = true.
Proof.
  revert x. induction order as [|j order IH]; intros x; cbv zeta; cbn [service_tasks]; [intros []|]. intros Hi Hy.
  destruct (lp_agenda x !! j) as [[u|]|] eqn:Eu.
  - destruct (negb _); [reflexivity|]. destruct (service_task _ _ _ _ _ _) as [[[] s'] m'].
    + destruct Hi as [->|Hi]; [|exact (IH _ Hi Hy)]. apply tasks_back in Hy. cbn [lp_agenda] in Hy.
      rewrite list_lookup_insert in Hy by (eapply lookup_lt_Some, Eu). discriminate Hy.
    + destruct (tasks_flags e w order (SLoop (lp_agenda x) s' m' (lp_ran x) (lp_wait x) true)) as (_ & -> & _); [apply orb_true_r|reflexivity].
    + destruct (tasks_flags e w order (SLoop (lp_agenda x) s' m' (lp_ran x) true (lp_left x))) as (-> & _); reflexivity.
  - destruct Hi as [->|Hi]; [|exact (IH _ Hi Hy)]. apply tasks_back in Hy. congruence.
  - destruct Hi as [->|Hi]; [|exact (IH _ Hi Hy)]. apply tasks_back in Hy. congruence.
Qed.

(** The order has all of them. *)
Lemma insert_by_perm p l : Permutation (insert_by p l) (p :: l).
Proof. induction l as [|q l IH]; cbn [insert_by]; [reflexivity|]. destruct (_ <? _); [reflexivity|]. rewrite IH. apply perm_swap. Qed.
Lemma ordered_perm a : Permutation (ordered a) (fst <$> places 0 a).
Proof.
  unfold ordered. assert (H : forall l acc, Permutation (fold_left (fun l p => insert_by p l) l acc) (acc ++ l)).
  { intros l. induction l as [|p l IH]; intros acc; cbn [fold_left]; [rewrite app_nil_r; reflexivity|]. rewrite IH, insert_by_perm. cbn [app]. apply Permutation_middle. }
  rewrite H. reflexivity.
Qed.
Lemma places_spec a k i : In i (fst <$> places k a) <-> exists j t, a !! j = Some (Some t) /\ i = (k + j)%nat.
Proof.
  revert k. induction a as [|[u|] a IH]; intros k; cbn [places fmap list_fmap].
  - split; [intros []|intros (j & t & H & _); discriminate H].
  - cbn [In]. change (list_fmap _ _ fst (places (S k) a)) with (fst <$> places (S k) a). rewrite (IH (S k)). split.
    + intros [<-|(j & t & H & ->)]; [exists 0%nat, u; split; [reflexivity|cbn; lia]|exists (S j), t; split; [exact H|lia]].
    + intros ([|j] & t & H & ->); [left; cbn; lia|right; exists j, t; split; [exact H|lia]].
  - rewrite (IH (S k)). split.
    + intros (j & t & H & ->); exists (S j), t; split; [exact H|lia].
    + intros ([|j] & t & H & ->); [discriminate H|exists j, t; split; [exact H|lia]].
Qed.
Lemma ordered_in a i t : a !! i = Some (Some t) -> In i (ordered a).
Proof. intros H. apply (Permutation_in i (Permutation_sym (ordered_perm a))). apply places_spec. exists i, t. split; [exact H|lia]. Qed.
Lemma ordered_length a : length (ordered a) = how_many anything a.
Proof.
  rewrite (Permutation_length (ordered_perm a)), fmap_length. generalize 0%nat. induction a as [|[u|] a IH]; intros k; cbn [places how_many length]; [reflexivity| |apply IH].
  rewrite IH. reflexivity.
Qed.

Lemma how_many_0 a P : (forall i t, a !! i <> Some (Some t)) -> how_many P a = 0%nat.
Proof.
  induction a as [|[u|] a IH]; intros H; [reflexivity|destruct (H 0%nat u); reflexivity|]. cbn [how_many]. apply IH. intros i t. exact (H (S i) t).
Qed.

Lemma sinv_agenda e s m ran w : sinv None s -> w <= sd_now s ->
  let '(s', m', ran', c) := service_agenda e s m ran w in sinv None s' /\ sd_now s' = sd_now s /\ sd_since s' = sd_since s.
Proof.
  intros I Hw. unfold service_agenda. set (a := agenda_of s w). set (x0 := SLoop a s _ ran false false).
  assert (I0 : sinv (Some (w, lp_agenda x0)) (lp_s x0)).
  { destruct I as [B Nm L D O]. cbn [lp_agenda lp_s x0].
    assert (V : forall w', view (Some (w, a)) s w' = view None s w') by (intros w'; cbn [view]; destruct (N.eqb_spec w' w) as [->|]; reflexivity).
    split; [intros P w'|intros k w' i H|intros w'|exact D|exact Hw]; rewrite ?V; [apply B| |apply L]. destruct (Nm _ _ _ H) as (t & Ht & Hk). exists t. rewrite ?V. done. }
  destruct (sinv_tasks e w (ordered a) x0 I0) as ([B Nm L D O] & H2 & H3).
  pose proof (fun i t => tasks_kept e w (ordered a) x0 i t) as K. pose proof (fun i t => tasks_back e w (ordered a) x0 i t) as Bk. cbv zeta in K.
  set (y := service_tasks e w (ordered a) x0) in *. split; [|split; [exact H2|exact H3]].
  destruct (lp_wait y || lp_left y) eqn:Ef.
  - assert (V : forall w', agenda_of (sset_agenda (<[w := lp_agenda y]> (sd_agenda (lp_s y))) (lp_s y)) w' = view (Some (w, lp_agenda y)) (lp_s y) w') by (intros w'; rewrite agenda_of_set; reflexivity).
    split; [intros P w'|intros k w' i H|intros w'|exact D|exact Logic.I]; cbn [view]; rewrite ?V; [apply B|exact (Nm _ _ _ H)|apply L].
  - assert (Z : forall i t, lp_agenda y !! i <> Some (Some t)).
    { intros i t Hi. assert (false = true); [|discriminate]. apply (K i t); [|exact Hi]. apply ordered_in with t. exact (Bk _ _ Hi). }
    assert (V : forall w', agenda_of (sset_agenda (delete w (sd_agenda (lp_s y))) (lp_s y)) w' = if w' =? w then [] else view (Some (w, lp_agenda y)) (lp_s y) w').
    { intros w'. rewrite agenda_of_del. cbn [view]. destruct (_ =? _); reflexivity. }
    assert (Vw : view (Some (w, lp_agenda y)) (lp_s y) w = lp_agenda y) by (cbn [view]; rewrite N.eqb_refl; reflexivity).
    split; [intros P w'|intros k w' i H|intros w'|exact D|exact Logic.I]; cbn [view]; rewrite ?V.
    + specialize (B P w'). destruct (N.eqb_spec w' w) as [->|]; [|exact B]. rewrite Vw, (how_many_0 _ _ Z) in B. exact B.
    + destruct (Nm _ _ _ H) as (t & Ht & Hk). destruct (N.eqb_spec w' w) as [->|]; [rewrite Vw in Ht; destruct (Z _ _ Ht)|]. exists t. done.
    + destruct (_ =? _); [cbn; lia|apply L].
Qed.

Lemma sinv_since o s x : sinv o s -> sinv o (sset_since x s).
Proof. intros [B Nm L D O]. split; assumption. Qed.

Lemma sinv_walk e n s m ran inc w : sinv None s -> ((0 < n)%nat -> w + N.of_nat n <= sd_now s + 1) ->
  sinv None (walk e s m ran inc w n) /\ sd_now (walk e s m ran inc w n) = sd_now s.
Proof.
  revert s m ran inc w. induction n as [|n IH]; intros s m ran inc w I Hn; cbn [walk].
  - destruct (_ <=? _); split; try done. apply sinv_since, I.
  - destruct (fits _ _); [|destruct (_ <=? _); split; try done; apply sinv_since, I].
    pose proof (sinv_agenda e s m ran w I ltac:(lia)) as H. destruct (service_agenda e s m ran w) as [[[s' m'] ran'] c]. destruct H as (I' & H2 & _).
    destruct (IH s' m' ran' (if c then inc else N.min inc w) (w + 1) I' ltac:(lia)) as [G1 G2]. split; [exact G1|congruence].
Qed.

Lemma sinv_block e s : sinv None s -> sinv None (next_block e s) /\ sd_now (next_block e s) = sd_now s + 1.
Proof.
  intros I. assert (I1 : sinv None (sset_now (sd_now s + 1) s)).
  { destruct I as [B Nm L D O]. split; [exact B|exact Nm|exact L| |exact O]. intros at_ w t H. specialize (D _ _ _ H). cbn [sset_now sd_now]. lia. }
  unfold next_block. destruct (negb _); [done|]. cbv zeta. apply (sinv_walk e _ (sset_since None (sset_now (sd_now s + 1) s))); [apply sinv_since, I1|].
  cbn [sset_since sset_now sd_now sd_since]. lia.
Qed.

Lemma sinv_run l s : sinv None s -> sinv None (srun s l).
Proof.
  revert s. induction l as [|x l IH]; intros s I; [exact I|]. apply IH. destruct x as [a|e]; [apply sinv_act, I|apply sinv_block, I].
Qed.
Lemma sinv_reachable s : s_reachable s -> sinv None s.
Proof. intros (now & l & ->). apply sinv_run, sinv_start. Qed.

(** ** At most fifty *)
Lemma at_most_fifty : forall s w, s_reachable s -> (waiting anything w s <= 50)%nat.
Proof. intros s w R. destruct (sinv_reachable s R) as [_ _ L _ _]. pose proof (how_many_length anything (agenda_of s w)). specialize (L w). cbn [view] in L. unfold waiting. lia. Qed.

Lemma accepted : forall s w t, s_reachable s -> sd_now s < w -> (waiting anything w s < 50)%nat ->
  (forall w' i t', stands s w' i t' -> sk_name t' = sk_name t -> sk_name t = None) ->
  exists s', schedule s w t = Some s' /\ forall P, waiting P w s' = ((if P t then 1 else 0) + waiting P w s)%nat.
Proof.
  intros s w t R Hw Hc Hn. destruct (sinv_reachable s R) as [_ Nm L _ _]. unfold schedule.
  assert (E : match sk_name t with Some k => match sd_lookup s !! k with Some _ => true | None => false end | None => false end = false).
  { destruct (sk_name t) as [k|] eqn:Ek; [|reflexivity]. destruct (sd_lookup s !! k) as [[w' i]|] eqn:El; [|reflexivity].
    destruct (Nm _ _ _ El) as (t' & Ht & Hk). specialize (Hn w' i t' Ht Hk). discriminate Hn. }
  rewrite E. rewrite (proj2 (N.leb_gt _ _) Hw). pose proof (L w) as Lw. cbn [view] in Lw. pose proof (push_none (agenda_of s w) t Lw) as Hp. unfold waiting in Hc.
  destruct (push _ _) as [[a i]|] eqn:Ep; [|destruct Hp as [Hp _]; specialize (Hp eq_refl); lia].
  destruct (push_spec _ _ _ _ Ep Lw) as (_ & _ & Pc & _). eexists. split; [reflexivity|]. intros P. unfold waiting.
  replace (agenda_of _ w) with a; [rewrite Pc; reflexivity|].
  transitivity (if w =? w then a else agenda_of s w); [rewrite N.eqb_refl; reflexivity|]. rewrite <- agenda_of_set. destruct (sk_name t); reflexivity.
Qed.

Lemma refused : forall s w t, s_reachable s -> w <= sd_now s \/ waiting anything w s = 50%nat -> schedule s w t = None.
Proof.
  intros s w t R H. destruct (sinv_reachable s R) as [_ _ L _ _]. specialize (L w). cbn [view] in L. unfold schedule.
  destruct (match sk_name t with Some _ => _ | None => _ end); [reflexivity|]. destruct (N.leb_spec w (sd_now s)) as [|Hw]; [reflexivity|].
  destruct H as [H|H]; [lia|]. rewrite (proj2 (push_none _ t L) H). reflexivity.
Qed.

(** ** Carried out once, not early, not lost *)
Lemma never_twice : forall s w P, s_reachable s -> (carried_out P w s + waiting P w s + withdrawn_in_time P w s <= placed P w s)%nat.
Proof. intros s w P R. destruct (sinv_reachable s R) as [B _ _ _ _]. apply (B P w). Qed.
Lemma never_lost : forall s w P, s_reachable s -> (placed P w s <= carried_out P w s + waiting P w s + withdrawn P w s)%nat.
Proof. intros s w P R. destruct (sinv_reachable s R) as [B _ _ _ _]. apply (B P w). Qed.
Lemma never_early : forall s at_ w t, s_reachable s -> In (ERan at_ w t) (sd_log s) -> w <= at_.
Proof. intros s at_ w t R H. destruct (sinv_reachable s R) as [_ _ _ D _]. apply (D _ _ _ H). Qed.
Lemma as_scheduled : forall s at_ w t, s_reachable s -> In (ERan at_ w t) (sd_log s) -> In (EPlaced w t) (sd_log s).
Proof.
  intros s at_ w t R H. pose proof (never_twice s w (fun t' => bool_decide (sk_name t' = sk_name t) && (sk_prio t' =? sk_prio t) && (sk_what t' =? sk_what t)) R) as T.
  set (P := fun t' => _) in T.
  assert (Pt : forall u, P u = true <-> u = t).
  { intros [n p x]. destruct t as [n' p' x']. unfold P. cbn. rewrite !andb_true_iff, bool_decide_eq_true, !N.eqb_eq. split; [intros [[-> ->] ->]; reflexivity|intros [= -> -> ->]; done]. }
  assert (C : (0 < carried_out P w s)%nat).
  { unfold carried_out, seen. assert (In (ERan at_ w t) (List.filter (fun ev => match ev with ERan _ w' t0 => (w' =? w) && P t0 | _ => false end) (sd_log s))) as G.
    { apply filter_In. split; [exact H|]. cbv beta iota. rewrite N.eqb_refl. apply Pt. reflexivity. }
    destruct (List.filter _ _); [destruct G|cbn; lia]. }
  assert (Q : (0 < placed P w s)%nat) by lia. unfold placed, seen in Q.
  destruct (List.filter _ (sd_log s)) as [|ev l] eqn:E; [cbn in Q; lia|].
  assert (G : In ev (ev :: l)) by (left; reflexivity). rewrite <- E in G. apply filter_In in G as [G1 G2].
  destruct ev as [w' u| |]; try discriminate G2. apply andb_true_iff in G2 as [G2 G3]. apply N.eqb_eq in G2 as ->. apply Pt in G3 as ->. exact G1.
Qed.

(** ** What is seen stays seen *)
Lemma forget_log n s : sd_log (forget n s) = sd_log s. Proof. destruct n; reflexivity. Qed.
Lemma act_log s a ev : In ev (sd_log s) -> In ev (sd_log (do_act s a)).
Proof.
  intros H. unfold do_act. destruct a as [w t|w i|k].
  - unfold schedule. destruct (match sk_name t with Some _ => _ | None => _ end); [exact H|]. destruct (_ <=? _); [exact H|].
    destruct (push _ _) as [[b i]|]; [|exact H]. right. destruct (sk_name t); exact H.
  - unfold cancel_at. destruct (agenda_of s w !! i) as [[t|]|]; try exact H. right. change (In ev (sd_log (forget (sk_name t) s))). rewrite forget_log. exact H.
  - unfold cancel_named. destruct (sd_lookup s !! k) as [[w i]|]; [|exact H]. cbn [default]. destruct (agenda_of s w !! i) as [[t|]|]; try right; exact H.
Qed.
Lemma acts_log l s ev : In ev (sd_log s) -> In ev (sd_log (fold_left do_act l s)).
Proof. revert s. induction l as [|a l IH]; intros s H; [exact H|]. apply IH, act_log, H. Qed.
Lemma tasks_log e w order x ev : In ev (sd_log (lp_s x)) -> In ev (sd_log (lp_s (service_tasks e w order x))).
Proof.
  revert x. induction order as [|i order IH]; intros x H; cbn [service_tasks]; [exact H|].
  destruct (lp_agenda x !! i) as [[t|]|]; [|apply IH, H|apply IH, H]. destruct (negb _); [exact H|].
  pose proof (service_task_cases e (lp_s x) (lp_m x) (lp_ran x =? 0)%nat w t) as C. destruct (service_task _ _ _ _ _ _) as [[[] s'] m']; apply IH; cbn [lp_s].
  - subst s'. apply acts_log. right. rewrite forget_log. exact H.
  - destruct C as [-> _]. rewrite forget_log. exact H.
  - destruct C as [-> _]. rewrite forget_log. exact H.
Qed.
Lemma agenda_log e s m ran w ev : In ev (sd_log s) -> In ev (sd_log (fst (fst (fst (service_agenda e s m ran w))))).
Proof. intros H. apply tasks_log. exact H. Qed.
Lemma walk_log e n s m ran inc w ev : In ev (sd_log s) -> In ev (sd_log (walk e s m ran inc w n)).
Proof.
  revert s m ran inc w. induction n as [|n IH]; intros s m ran inc w H; cbn [walk]; [destruct (_ <=? _); exact H|].
  destruct (fits _ _); [|destruct (_ <=? _); exact H]. pose proof (agenda_log e s m ran w ev H) as G.
  destruct (service_agenda _ _ _ _ _) as [[[s' m'] ran'] c]. apply IH, G.
Qed.
Lemma block_log e s ev : In ev (sd_log s) -> In ev (sd_log (next_block e s)).
Proof. intros H. unfold next_block. destruct (negb _); [exact H|]. cbv zeta. apply walk_log, H. Qed.
Lemma run_log l s ev : In ev (sd_log s) -> In ev (sd_log (srun s l)).
Proof. revert s. induction l as [|[a|e] l IH]; intros s H; [exact H| |]; apply IH; [apply act_log, H|apply block_log, H]. Qed.

(** ** What nobody withdraws stands until it is carried out *)
Lemma act_stands o s a w i t : sinv o s -> view o s w = agenda_of s w -> spares w i t a -> stands s w i t -> stands (do_act s a) w i t.
Proof.
  intros I Hv Hs H. unfold stands in *. destruct I as [_ Nm L _ _]. unfold do_act. destruct a as [w' t'|w' j|k]; cbn [spares] in Hs.
  - destruct (schedule s w' t') as [s'|] eqn:E; [|exact H]. cbn [default]. unfold schedule in E.
    destruct (match sk_name t' with Some _ => _ | None => _ end); [discriminate E|]. destruct (_ <=? _); [discriminate E|].
    destruct (push _ _) as [[b j]|] eqn:Ep; [|discriminate E]. injection E as <-.
    match goal with |- agenda_of ?x w !! i = _ => assert (A : agenda_of x w = if w =? w' then b else agenda_of s w) end.
    { rewrite <- agenda_of_set. destruct (sk_name t'); reflexivity. }
    rewrite A. destruct (N.eqb_spec w w') as [->|]; [|exact H]. pose proof (L w') as Lw. rewrite Hv in Lw. destruct (push_spec _ _ _ _ Ep Lw) as (_ & _ & _ & Ps). apply Ps, H.
  - unfold cancel_at. destruct (agenda_of s w' !! j) as [[u|]|] eqn:E; try exact H. cbn [default].
    match goal with |- agenda_of ?x w !! i = _ => assert (A : agenda_of x w = if w =? w' then trim (<[j := None]> (agenda_of s w')) else agenda_of s w) end.
    { rewrite <- (agenda_of_forget (sk_name u) s). rewrite <- agenda_of_put. reflexivity. }
    rewrite A. destruct (N.eqb_spec w w') as [->|]; [|exact H]. apply trim_stays. rewrite list_lookup_insert_ne; [exact H|congruence].
  - unfold cancel_named. destruct (sd_lookup s !! k) as [[w' j]|] eqn:Ek; [|exact H]. cbn [default].
    match goal with |- agenda_of ?x w !! i = _ => assert (A : agenda_of x w = if w =? w' then trim (<[j := None]> (agenda_of s w')) else agenda_of s w) end.
    { rewrite <- (agenda_of_forget (Some k) s), <- agenda_of_put. destruct (agenda_of _ w' !! j) as [[u|]|]; reflexivity. }
    rewrite A. destruct (N.eqb_spec w w') as [->|]; [|exact H]. apply trim_stays. rewrite list_lookup_insert_ne; [exact H|].
    intros ->. destruct (Nm _ _ _ Ek) as (u & Hu & Hk). rewrite Hv, H in Hu. injection Hu as <-. congruence.
Qed.

Lemma how_many_none P a i : (how_many P (<[i := None]> a) <= how_many P a)%nat.
Proof.
  revert i. induction a as [|x a IH]; intros [|i]; try (cbn; lia).
  - change (<[0%nat := None]> (x :: a)) with (None :: a). destruct x; cbn [how_many]; lia.
  - change (<[S i := None]> (x :: a)) with (x :: <[i := None]> a). specialize (IH i). destruct x; cbn [how_many]; lia.
Qed.
Lemma act_fewer s a w : w <= sd_now s -> (how_many anything (agenda_of (do_act s a) w) <= how_many anything (agenda_of s w))%nat.
Proof.
  intros Hw. unfold do_act. destruct a as [w' t|w' i|k].
  - destruct (schedule s w' t) as [s'|] eqn:E; [|reflexivity]. cbn [default]. unfold schedule in E.
    destruct (match sk_name t with Some _ => _ | None => _ end); [discriminate E|]. destruct (N.leb_spec w' (sd_now s)) as [|Hl]; [discriminate E|].
    destruct (push _ _) as [[b j]|]; [|discriminate E]. injection E as <-.
    match goal with |- (how_many _ (agenda_of ?x w) <= _)%nat => assert (A : agenda_of x w = if w =? w' then b else agenda_of s w) end.
    { rewrite <- agenda_of_set. destruct (sk_name t); reflexivity. }
    rewrite A. destruct (N.eqb_spec w w'); [lia|reflexivity].
  - unfold cancel_at. destruct (agenda_of s w' !! i) as [[u|]|]; try reflexivity. cbn [default].
    match goal with |- (how_many _ (agenda_of ?x w) <= _)%nat => assert (A : agenda_of x w = if w =? w' then trim (<[i := None]> (agenda_of s w')) else agenda_of s w) end.
    { rewrite <- (agenda_of_forget (sk_name u) s). rewrite <- agenda_of_put. reflexivity. }
    rewrite A. destruct (N.eqb_spec w w') as [->|]; [|reflexivity]. rewrite how_many_trim. apply how_many_none.
  - unfold cancel_named. destruct (sd_lookup s !! k) as [[w' j]|]; [|reflexivity]. cbn [default].
    match goal with |- (how_many _ (agenda_of ?x w) <= _)%nat => assert (A : agenda_of x w = if w =? w' then trim (<[j := None]> (agenda_of s w')) else agenda_of s w) end.
    { rewrite <- (agenda_of_forget (Some k) s), <- agenda_of_put. destruct (agenda_of _ w' !! j) as [[u|]|]; reflexivity. }
    rewrite A. destruct (N.eqb_spec w w') as [->|]; [|reflexivity]. rewrite how_many_trim. apply how_many_none.
Qed.

(** Work on other agendas leaves the task where it is. *)
Definition keeps (o : option (N * list (option stask))) (w : N) (i : nat) (t : stask) (c : nat) (s : sched) : Prop :=
  sinv o s /\ stands s w i t /\ (how_many anything (agenda_of s w) <= c)%nat /\ w <= sd_now s.
Definition apart (o : option (N * list (option stask))) (w : N) : Prop := match o with Some (w2, _) => w <> w2 | None => True end.
Lemma apart_view o w s : apart o w -> view o s w = agenda_of s w.
Proof. destruct o as [[w2 a]|]; cbn [apart view]; [|reflexivity]. destruct (N.eqb_spec w w2); [done|reflexivity]. Qed.

Lemma acts_keeps o w i t c l s : apart o w -> Forall (spares w i t) l -> keeps o w i t c s -> keeps o w i t c (fold_left do_act l s).
Proof.
  intros Ha Hl. revert s. induction Hl as [|a l Hs Hl IH]; intros s (I & H1 & H2 & H3); [done|]. apply IH. destruct (sinv_act _ _ a I) as (I' & E & _). split_and!.
  - exact I'.
  - exact (act_stands _ _ _ _ _ _ I (apart_view _ _ _ Ha) Hs H1).
  - pose proof (act_fewer s a w H3). lia.
  - rewrite E. exact H3.
Qed.
Lemma forget_keeps o w i t c s n : keeps o w i t c s -> keeps o w i t c (forget n s).
Proof.
  intros (I & H1 & H2 & H3). destruct (agenda_of_forget_name n s) as (_ & E & _ & _). split_and!; [apply sinv_forget, I| | |rewrite E; exact H3].
  - unfold stands. rewrite agenda_of_forget. exact H1.
  - rewrite agenda_of_forget. exact H2.
Qed.
Lemma tasks_keeps e w i t c w2 order x : w <> w2 -> (forall k a, In a (se_acts e k) -> spares w i t a) ->
  keeps (Some (w2, lp_agenda x)) w i t c (lp_s x) ->
  keeps (Some (w2, lp_agenda (service_tasks e w2 order x))) w i t c (lp_s (service_tasks e w2 order x)).
Proof.
  intros Hw Hs. revert x. induction order as [|j order IH]; intros x K; cbn [service_tasks]; [exact K|].
  destruct (lp_agenda x !! j) as [[u|]|] eqn:Eu; [|apply IH, K|apply IH, K]. destruct (negb _); [exact K|].
  pose proof (service_task_cases e (lp_s x) (lp_m x) (lp_ran x =? 0)%nat w2 u) as C. destruct (service_task _ _ _ _ _ _) as [[[] s'] m']; apply IH; cbn [lp_s lp_agenda].
  - subst s'. apply acts_keeps; [exact Hw|apply List.Forall_forall; intros a Ha; exact (Hs _ _ Ha)|].
    pose proof (forget_keeps _ _ _ _ _ _ (sk_name u) K) as (_ & H1 & H2 & H3). destruct K as (I & _). split_and!; [apply sinv_ran; assumption|exact H1|exact H2|exact H3].
  - destruct C as [-> _]. apply forget_keeps, K.
  - destruct C as [-> _]. apply forget_keeps, K.
Qed.
Lemma agenda_keeps e w i t c s m ran w2 : w < w2 -> w2 <= sd_now s -> (forall k a, In a (se_acts e k) -> spares w i t a) -> keeps None w i t c s ->
  let '(s', m', ran', b) := service_agenda e s m ran w2 in keeps None w i t c s' /\ sd_now s' = sd_now s.
Proof.
  intros Hw Hn Hs K. pose proof K as (I & H1 & H2 & H3). pose proof (sinv_agenda e s m ran w2 I Hn) as S. unfold service_agenda in *. destruct S as (S1 & S2 & _).
  split; [|exact S2]. set (x0 := SLoop _ _ _ ran false false) in *.
  assert (K0 : keeps (Some (w2, lp_agenda x0)) w i t c (lp_s x0)).
  { split_and!; [|exact H1|exact H2|exact H3]. destruct I as [B Nm L D O]. cbn [lp_agenda lp_s x0].
    assert (V : forall w', view (Some (w2, agenda_of s w2)) s w' = view None s w') by (intros w'; cbn [view]; destruct (N.eqb_spec w' w2) as [->|]; reflexivity).
    split; [intros P w'|intros k w' j H|intros w'|exact D|exact Hn]; rewrite ?V; [apply B| |apply L]. destruct (Nm _ _ _ H) as (u & Hu & Hk). exists u. rewrite ?V. done. }
  destruct (tasks_keeps e w i t c w2 (ordered (agenda_of s w2)) x0 ltac:(lia) Hs K0) as (_ & G1 & G2 & G3). set (y := service_tasks _ _ _ _) in *.
  assert (A : forall b : bool, agenda_of (sset_agenda (if b then <[w2 := lp_agenda y]> (sd_agenda (lp_s y)) else delete w2 (sd_agenda (lp_s y))) (lp_s y)) w = agenda_of (lp_s y) w).
  { intros []; [rewrite agenda_of_set|rewrite agenda_of_del]; destruct (N.eqb_spec w w2); lia || reflexivity. }
  split_and!; [exact S1| | |].
  - unfold stands. rewrite A. exact G1.
  - rewrite A. exact G2.
  - exact G3.
Qed.
Lemma walk_keeps e w i t c n s m ran w2 : w < w2 -> ((0 < n)%nat -> w2 + N.of_nat n <= sd_now s + 1) -> (forall k a, In a (se_acts e k) -> spares w i t a) -> keeps None w i t c s ->
  let s' := walk e s m ran w w2 n in keeps None w i t c s' /\ sd_since s' = Some w.
Proof.
  cbv zeta. revert s m ran w2. induction n as [|n IH]; intros s m ran w2 Hw Hn Hs K; cbn [walk].
  - rewrite N.min_l by lia. destruct K as (I & H1 & H2 & H3). rewrite (proj2 (N.leb_le _ _) H3). split; [|reflexivity]. split_and!; [apply sinv_since, I|exact H1|exact H2|exact H3].
  - destruct (fits _ _).
    + pose proof (agenda_keeps e w i t c s m ran w2 Hw ltac:(lia) Hs K) as H. destruct (service_agenda e s m ran w2) as [[[s' m'] ran'] b]. destruct H as [K' E].
      assert (M : (if b then w else N.min w w2) = w) by (destruct b; lia). rewrite M. apply IH; [lia|lia|exact Hs|exact K'].
    + rewrite N.min_l by lia. destruct K as (I & H1 & H2 & H3). rewrite (proj2 (N.leb_le _ _) H3). split; [|reflexivity]. split_and!; [apply sinv_since, I|exact H1|exact H2|exact H3].
Qed.

(** ** A task that fits goes when it is its turn *)
Lemma inside_trans a b c : within a b -> within b c -> within a c.
Proof. unfold within. lia. Qed.
Lemma inside_fits m w : within (wadd m w) (W (2 * 10 ^ 12 * 80 / 100) (5 * 1024 * 1024 * 80 / 100)) -> fits m w = true.
Proof.
  unfold within, fits, any_gt. change scheduler_limit with (W (2 * 10 ^ 12 * 80 / 100) (5 * 1024 * 1024 * 80 / 100)). cbn [w_time w_proof].
  generalize (2 * 10 ^ 12 * 80 / 100), (5 * 1024 * 1024 * 80 / 100). intros x y [H1 H2]. apply negb_true_iff, orb_false_iff. split; apply N.ltb_ge; assumption.
Qed.
Lemma meter_inside m w b c : within m b -> within w c -> within (meter m w) (wadd b c).
Proof. unfold meter, within. destruct (fits m w); unfold wadd; cbn [w_time w_proof]; lia. Qed.

Lemma tasks_stay e w order x i t : lp_agenda x !! i = Some (Some t) ->
  let y := service_tasks e w order x in lp_agenda y !! i = Some (Some t) \/ In (ERan (sd_now (lp_s x)) w t) (sd_log (lp_s y)).
Proof.
  cbv zeta. intros Ht. assert (G : forall y, sinv (Some (w, lp_agenda y)) (lp_s y) -> True) by done. clear G.
  cut (forall n x, sd_now (lp_s x) = n -> lp_agenda x !! i = Some (Some t) ->
    lp_agenda (service_tasks e w order x) !! i = Some (Some t) \/ In (ERan n w t) (sd_log (lp_s (service_tasks e w order x)))); [intros H; apply H; [reflexivity|exact Ht]|].
  clear x Ht. intros n. induction order as [|j order IH]; intros x En Ht; cbn [service_tasks]; [left; exact Ht|].
  destruct (lp_agenda x !! j) as [[u|]|] eqn:Eu; [|apply IH; assumption|apply IH; assumption]. destruct (negb _); [left; exact Ht|].
  pose proof (service_task_cases e (lp_s x) (lp_m x) (lp_ran x =? 0)%nat w u) as C. destruct (service_task _ _ _ _ _ _) as [[[] s'] m'].
  - subst s'. destruct (decide (j = i)) as [->|Hn].
    + rewrite Ht in Eu. injection Eu as <-. right. apply tasks_log. cbn [lp_s]. apply acts_log. left. congruence.
    + apply IH; cbn [lp_s lp_agenda]; [|rewrite list_lookup_insert_ne by exact Hn; exact Ht].
      assert (N0 : forall l s, sd_now (fold_left do_act l s) = sd_now s).
      { intros l. induction l as [|a l IHl]; intros s; [reflexivity|]. cbn [fold_left]. rewrite IHl. unfold do_act. destruct a as [w' t'|w' i'|k].
        - unfold schedule. destruct (match sk_name t' with Some _ => _ | None => _ end); [reflexivity|]. destruct (_ <=? _); [reflexivity|].
          destruct (push _ _) as [[b q]|]; [|reflexivity]. destruct (sk_name t'); reflexivity.
        - unfold cancel_at. destruct (agenda_of s w' !! i') as [[v|]|]; try reflexivity. cbn [default]. destruct (sk_name v); reflexivity.
        - unfold cancel_named. destruct (sd_lookup s !! k) as [[w' q]|]; [|reflexivity]. cbn [default]. destruct (agenda_of s w' !! q) as [[v|]|]; reflexivity. }
      rewrite N0. cbn [slog sd_now]. destruct (agenda_of_forget_name (sk_name u) (lp_s x)) as (_ & E & _ & _). congruence.
  - destruct C as [-> _]. apply IH; [|exact Ht]. cbn [lp_s]. destruct (agenda_of_forget_name (sk_name u) (lp_s x)) as (_ & E & _ & _). congruence.
  - destruct C as [-> _]. apply IH; [|exact Ht]. cbn [lp_s]. destruct (agenda_of_forget_name (sk_name u) (lp_s x)) as (_ & E & _ & _). congruence.
Qed.
Lemma tasks_count e w order x : let y := service_tasks e w order x in
  (how_many anything (lp_agenda y) + lp_ran y = how_many anything (lp_agenda x) + lp_ran x)%nat.
Proof.
  cbv zeta. revert x. induction order as [|j order IH]; intros x; cbn [service_tasks]; [reflexivity|].
  destruct (lp_agenda x !! j) as [[u|]|] eqn:Eu; [|apply IH|apply IH]. destruct (negb _); [reflexivity|].
  destruct (service_task _ _ _ _ _ _) as [[[] s'] m']; rewrite IH; cbn [lp_agenda lp_ran]; [|reflexivity|reflexivity].
  rewrite (how_many_take anything _ _ _ Eu). cbn [one anything]. lia.
Qed.

Definition room (e : senv) (t : stask) (base ov : weight) : Prop :=
  se_known e (sk_what t) = true /\ (forall t', within (se_task e t') ov) /\
  within (wadd base (wadd (times 50 ov) (wadd (se_exec e) (se_weight e (sk_what t))))) (W (2 * 10 ^ 12 * 80 / 100) (5 * 1024 * 1024 * 80 / 100)).

Lemma tasks_turn e w order i t base ov : room e t base ov -> forall x k,
  lp_agenda x !! i = Some (Some t) -> In i order -> N.of_nat (length order) + k <= 50 ->
  (lp_ran x = 0%nat -> within (lp_m x) (wadd base (times k ov))) -> sinv (Some (w, lp_agenda x)) (lp_s x) ->
  let y := service_tasks e w order x in
  In (ERan (sd_now (lp_s x)) w t) (sd_log (lp_s y)) \/ (lp_agenda y !! i = Some (Some t) /\ lp_wait y = true /\ (0 < lp_ran y)%nat).
Proof.
  intros (Rk & Ro & Rr). cbv zeta. induction order as [|j order IH]; intros x k Ht Hi Hk Hm I; [destruct Hi|]. cbn [length] in Hk.
  assert (F : lp_ran x = 0%nat -> forall t', fits (lp_m x) (se_task e t') = true).
  { intros H t'. apply inside_fits. specialize (Hm H). specialize (Ro t'). unfold within, wadd, times in *. cbn [w_time w_proof] in *.
    revert Rr. generalize (2 * 10 ^ 12 * 80 / 100), (5 * 1024 * 1024 * 80 / 100). intros p q Rr. nia. }
  cbn [service_tasks]. destruct (lp_agenda x !! j) as [[u|]|] eqn:Eu.
  - destruct (fits (lp_m x) (se_task e u)) eqn:Ef; cbn [negb].
    2: { right. split_and!; [exact Ht|reflexivity|]. cbn [lp_ran]. destruct (lp_ran x) eqn:E0; [rewrite (F eq_refl) in Ef; discriminate Ef|lia]. }
    pose proof (service_task_cases e (lp_s x) (lp_m x) (lp_ran x =? 0)%nat w u) as C.
    destruct (decide (j = i)) as [->|Hn].
    + rewrite Ht in Eu. injection Eu as <-. unfold service_task in *. rewrite Rk in *. cbn [negb] in *.
      destruct (fits (meter (lp_m x) (se_task e t)) (wadd (se_exec e) (se_weight e (sk_what t)))) eqn:Eg; cbn [negb] in *.
      * left. apply tasks_log. cbn [lp_s]. apply acts_log. left. reflexivity.
      * destruct (lp_ran x) as [|r] eqn:E0; cbn [Nat.eqb] in *.
        -- exfalso. assert (fits (meter (lp_m x) (se_task e t)) (wadd (se_exec e) (se_weight e (sk_what t))) = true) as E1; [|congruence].
           apply inside_fits. pose proof (meter_inside _ _ _ _ (Hm eq_refl) (Ro t)) as Mi. unfold within, wadd, times in *. cbn [w_time w_proof] in *.
           revert Rr. generalize (2 * 10 ^ 12 * 80 / 100), (5 * 1024 * 1024 * 80 / 100). intros p q Rr. nia.
        -- set (x1 := SLoop _ _ _ _ _ _). destruct (tasks_flags e w order x1) as (Fw & _ & Fr).
           destruct (tasks_stay e w order x1 i t Ht) as [S|S]; [right; split_and!; [exact S|apply Fw; reflexivity|cbn [lp_ran x1] in Fr; lia]|left].
           cbn [lp_s x1] in S. destruct (agenda_of_forget_name (sk_name t) (lp_s x)) as (_ & E & _ & _). rewrite E in S. exact S.
    + assert (Hi' : In i order) by (destruct Hi; [congruence|assumption]).
      destruct (service_task _ _ _ _ _ _) as [[[] s'] m'] eqn:Es.
      * subst s'. pose proof (sinv_ran _ _ _ _ _ I Eu) as I1. destruct (sinv_acts _ (se_acts e (sk_what u)) _ I1) as (I2 & H2 & _).
        set (x1 := SLoop _ _ _ _ _ _). specialize (IH x1 k). cbn [x1 lp_agenda lp_s lp_ran lp_m] in IH.
        rewrite list_lookup_insert_ne in IH by exact Hn. rewrite H2 in IH. cbn [slog sd_now] in IH.
        destruct (agenda_of_forget_name (sk_name u) (lp_s x)) as (_ & E & _ & _). rewrite E in IH. apply IH; [exact Ht|exact Hi'|lia|discriminate|exact I2].
      * destruct C as [-> ->]. set (x1 := SLoop _ _ _ _ _ _). specialize (IH x1 (k + 1)). cbn [x1 lp_agenda lp_s lp_ran lp_m] in IH.
        destruct (agenda_of_forget_name (sk_name u) (lp_s x)) as (_ & E & _ & _). rewrite E in IH. apply IH; [exact Ht|exact Hi'|lia| |apply sinv_forget, I].
        intros H. pose proof (meter_inside _ _ _ _ (Hm H) (Ro u)) as Mi. eapply inside_trans; [exact Mi|]. unfold within, wadd, times. cbn [w_time w_proof]. lia.
      * destruct C as [-> ->]. set (x1 := SLoop _ _ _ _ _ _). specialize (IH x1 (k + 1)). cbn [x1 lp_agenda lp_s lp_ran lp_m] in IH.
        destruct (agenda_of_forget_name (sk_name u) (lp_s x)) as (_ & E & _ & _). rewrite E in IH. apply IH; [exact Ht|exact Hi'|lia| |apply sinv_forget, I].
        intros H. pose proof (meter_inside _ _ _ _ (Hm H) (Ro u)) as Mi. eapply inside_trans; [exact Mi|]. unfold within, wadd, times. cbn [w_time w_proof]. lia.
  - assert (Hi' : In i order) by (destruct Hi; [congruence|assumption]). apply (IH x k); [exact Ht|exact Hi'|lia|exact Hm|exact I].
  - assert (Hi' : In i order) by (destruct Hi; [congruence|assumption]). apply (IH x k); [exact Ht|exact Hi'|lia|exact Hm|exact I].
Qed.

Lemma block_turn e s w i t : sinv None s -> oldest s = w -> w <= sd_now s + 1 -> stands s w i t -> can_run t e -> (forall k a, In a (se_acts e k) -> spares w i t a) ->
  In (ERan (sd_now s + 1) w t) (sd_log (next_block e s)) \/
  (sd_since (next_block e s) = Some w /\ exists c, (c < waiting anything w s)%nat /\ keeps None w i t c (next_block e s)).
Proof.
  intros I Ho Hw Ht (Rk & ov & Ro & Ra & Rr) Hs.
  assert (I1 : sinv None (sset_now (sd_now s + 1) s)).
  { destruct I as [B Nm L D O]. split; [exact B|exact Nm|exact L| |exact O]. intros at_ w' t' H. specialize (D _ _ _ H). cbn [sset_now sd_now]. lia. }
  assert (F1 : fits (W 0 0) (se_walk e) = true).
  { apply inside_fits. unfold within, wadd, times in *. cbn [w_time w_proof] in *. revert Rr. generalize (2 * 10 ^ 12 * 80 / 100), (5 * 1024 * 1024 * 80 / 100). intros p q Rr. lia. }
  assert (M1 : meter (W 0 0) (se_walk e) = se_walk e) by (unfold meter; rewrite F1; destruct (se_walk e); reflexivity).
  assert (F2 : fits (se_walk e) (se_agenda e max_scheduled) = true).
  { apply inside_fits. unfold max_scheduled. unfold within, wadd, times in *. cbn [w_time w_proof] in *. revert Rr. generalize (2 * 10 ^ 12 * 80 / 100), (5 * 1024 * 1024 * 80 / 100). intros p q Rr. lia. }
  unfold next_block. rewrite F1. cbn [negb]. cbv zeta. rewrite M1.
  assert (Hd : default (sd_now s + 1) (sd_since (sset_now (sd_now s + 1) s)) = w) by exact Ho. rewrite Hd.
  set (s1 := sset_since None (sset_now (sd_now s + 1) s)).
  replace (N.to_nat (sd_now s + 1 + 1 - w)) with (S (N.to_nat (sd_now s + 1 - w))) by lia. cbn [walk]. rewrite F2.
  assert (I2 : sinv None s1) by (apply sinv_since, I1).
  assert (Hn : sd_now s1 = sd_now s + 1) by reflexivity.
  assert (Hl : (length (ordered (agenda_of s1 w)) <= 50)%nat).
  { rewrite ordered_length. pose proof (how_many_length anything (agenda_of s1 w)). pose proof (si_len _ _ I2 w) as L. cbn [view] in L. lia. }
  pose proof (sinv_agenda e s1 (se_walk e) 0 w I2 ltac:(lia)) as S.
  unfold service_agenda in *. set (x0 := SLoop (agenda_of s1 w) s1 _ 0 false false) in *. destruct S as (S1 & S2 & _).
  assert (I0 : sinv (Some (w, lp_agenda x0)) (lp_s x0)).
  { pose proof I2 as [B Nm L D O]. cbn [lp_agenda lp_s x0].
    assert (V : forall w', view (Some (w, agenda_of s1 w)) s1 w' = view None s1 w') by (intros w'; cbn [view]; destruct (N.eqb_spec w' w) as [->|]; reflexivity).
    split; [intros P w'|intros k w' j H|intros w'|exact D|rewrite Hn; lia]; rewrite ?V; [apply B| |apply L]. destruct (Nm _ _ _ H) as (u & Hu & Hk). exists u. rewrite ?V. done. }
  destruct (tasks_turn e w (ordered (agenda_of s1 w)) i t (wadd (se_walk e) (se_agenda e 50)) ov) with (x := x0) (k := 0) as [T|(T1 & T2 & T3)].
  - split_and!; [exact Rk|exact Ro|exact Rr].
  - exact Ht.
  - apply ordered_in with t. exact Ht.
  - lia.
  - intros _. cbn [lp_m x0]. eapply inside_trans; [apply (meter_inside _ _ (se_walk e) (se_agenda e 50)); [unfold within; lia|apply Ra, Hl]|]. unfold within, wadd, times. cbn [w_time w_proof]. lia.
  - exact I0.
  - left. apply walk_log. exact T.
  - right. pose proof (tasks_count e w (ordered (agenda_of s1 w)) x0) as C. cbv zeta in C. set (y := service_tasks _ _ _ _) in *. rewrite T2 in *. cbn [orb negb] in *.
    rewrite N.min_r by lia. set (s2 := sset_agenda _ _) in *. cbn [x0 lp_agenda lp_ran] in C.
    assert (A : agenda_of s2 w = lp_agenda y) by (unfold s2; rewrite agenda_of_set, N.eqb_refl; reflexivity).
    assert (K : keeps None w i t (how_many anything (lp_agenda y)) s2).
    { split_and!; [exact S1|unfold stands; rewrite A; exact T1|rewrite A; reflexivity|rewrite S2, Hn; exact Hw]. }
    destruct (walk_keeps e w i t _ (N.to_nat (sd_now s + 1 - w)) s2 (lp_m y) (lp_ran y) (w + 1) ltac:(lia) ltac:(rewrite S2, Hn; lia) Hs K) as [K' E]. split; [exact E|].
    exists (how_many anything (lp_agenda y)). split; [|exact K']. unfold waiting. change (agenda_of s w) with (agenda_of s1 w). lia.
Qed.

Lemma keeps_turn l s w i t c : keeps None w i t c s -> sd_since s = Some w -> Forall (spared w i t) l -> Forall (can_run_in t) l -> (c <= blocks l)%nat ->
  exists at_, In (ERan at_ w t) (sd_log (srun s l)).
Proof.
  intros K E Hs Hc. revert s c K E. induction l as [|x l IH]; intros s c K E Hb.
  - destruct K as (_ & H1 & H2 & _). cbn in Hb. rewrite (how_many_take anything _ _ _ H1) in H2. cbn in H2. lia.
  - inversion Hs as [|? ? Hx Hs']; subst. inversion Hc as [|? ? Cx Hc']; subst. cbn [srun fold_left]. destruct x as [a|e]; cbn [spared can_run_in do_sstep] in *.
    + apply (IH Hs' Hc' _ c).
      * exact (acts_keeps None w i t c [a] s Logic.I (proj2 (Forall_singleton _ _) Hx) K).
      * destruct K as (I & _). destruct (sinv_act _ _ a I) as (_ & _ & E'). congruence.
      * exact Hb.
    + pose proof K as (I & H1 & H2 & H3). destruct (block_turn e s w i t I) as [T|(T1 & c' & Tc & T2)].
      * unfold oldest. rewrite E. reflexivity.
      * lia.
      * exact H1.
      * exact Cx.
      * exact Hx.
      * exists (sd_now s + 1). apply (run_log l (next_block e s)), T.
      * apply (IH Hs' Hc' _ c' T2 T1). unfold waiting in Tc. unfold blocks in *. cbn in Hb. lia.
Qed.

Lemma since_act s a : sd_since (do_act s a) = sd_since s /\ sd_now (do_act s a) = sd_now s.
Proof.
  unfold do_act. destruct a as [w t|w i|k].
  - unfold schedule. destruct (match sk_name t with Some _ => _ | None => _ end); [done|]. destruct (_ <=? _); [done|]. destruct (push _ _) as [[b q]|]; [|done]. destruct (sk_name t); done.
  - unfold cancel_at. destruct (agenda_of s w !! i) as [[v|]|]; try done. cbn [default]. destruct (sk_name v); done.
  - unfold cancel_named. destruct (sd_lookup s !! k) as [[w q]|]; [|done]. cbn [default]. destruct (agenda_of s w !! q) as [[v|]|]; done.
Qed.
Lemma since_walk e n s m ran inc w x : sinv None s -> ((0 < n)%nat -> w + N.of_nat n <= sd_now s + 1) -> sd_since s = None -> sd_since (walk e s m ran inc w n) = Some x -> x <= sd_now s.
Proof.
  revert s m ran inc w. induction n as [|n IH]; intros s m ran inc w I Hn E; cbn [walk].
  - destruct (N.leb_spec (N.min inc w) (sd_now s)); [intros [= <-]; assumption|congruence].
  - destruct (fits _ _); [|destruct (N.leb_spec (N.min inc w) (sd_now s)); [intros [= <-]; assumption|congruence]].
    pose proof (sinv_agenda e s m ran w I ltac:(lia)) as H. destruct (service_agenda e s m ran w) as [[[s' m'] ran'] c]. destruct H as (I' & H2 & H3). intros G.
    rewrite <- H2. apply (IH s' m' ran' (if c then inc else N.min inc w) (w + 1) I' ltac:(lia) ltac:(congruence) G).
Qed.
Lemma sinv_now s : sinv None s -> sinv None (sset_now (sd_now s + 1) s).
Proof. intros [B Nm L D O]. split; [exact B|exact Nm|exact L| |exact O]. intros at_ w t H. specialize (D _ _ _ H). cbn [sset_now sd_now]. lia. Qed.
Lemma since_past : forall s w, s_reachable s -> sd_since s = Some w -> w <= sd_now s.
Proof.
  intros s w (now & l & ->). revert w.
  cut (forall s, sinv None s -> (forall w, sd_since s = Some w -> w <= sd_now s) -> forall w, sd_since (srun s l) = Some w -> w <= sd_now (srun s l)).
  { intros H. apply H; [apply sinv_start|discriminate]. }
  induction l as [|x l IH]; intros s I H; [exact H|]. cbn [srun fold_left]. destruct x as [a|e]; cbn [do_sstep].
  - apply IH; [apply sinv_act, I|]. destruct (since_act s a) as [-> ->]. exact H.
  - destruct (sinv_block e s I) as [I' En]. apply IH; [exact I'|]. rewrite En. intros w. unfold next_block. destruct (negb _); [intros G; specialize (H _ G); lia|]. cbv zeta. intros G.
    apply since_walk in G; [exact G|apply sinv_since, sinv_now, I| |reflexivity]. cbn [sset_since sset_now sd_now sd_since]. lia.
Qed.

Lemma in_turn : forall s e l i t, s_reachable s -> stands s (oldest s) i t ->
  Forall (spared (oldest s) i t) (SNext e :: l) -> Forall (can_run_in t) (SNext e :: l) -> (waiting anything (oldest s) s <= blocks (SNext e :: l))%nat ->
  exists at_, In (ERan at_ (oldest s) t) (sd_log (srun s (SNext e :: l))).
Proof.
  intros s e l i t R Ht Hs Hc Hb. inversion Hs as [|? ? Hx Hs']; subst. inversion Hc as [|? ? Cx Hc']; subst. cbn [spared can_run_in] in *.
  destruct (block_turn e s (oldest s) i t (sinv_reachable s R)) as [T|(T1 & c & Tc & T2)].
  - reflexivity.
  - unfold oldest. destruct (sd_since s) as [w|] eqn:E; cbn; [pose proof (since_past s w R E)|]; lia.
  - exact Ht.
  - exact Cx.
  - exact Hx.
  - eexists. apply (run_log l (next_block e s)), T.
  - apply (keeps_turn l _ _ _ _ c T2 T1 Hs' Hc'). unfold blocks in *. cbn in Hb. lia.
Qed.

(** ** Where it goes wrong *)
(** Calls take more than half of what the scheduler may use if [heavy]; call 1 withdraws the task named (1, 5) if [acts]. *)
Definition cheap (heavy : bool) (acts : bool) : senv :=
  SEnv (fun _ => true) (fun c => if heavy then W 1000000000000 1000 else W 1000 10) (fun c => if heavy then W 1000000000000 1000 else W 1000 10)
       (fun c => if acts && (c =? 1) then [SCancelNamed (1, 5)] else []) (W 1000 1000) (fun _ => W 1000 1000) (fun _ => W 1000 1000) (W 1000 1000).
Definition two_due : sched := srun (s_start 10) [SAct (SPlace 11 (STask None 10 1)); SAct (SPlace 11 (STask (Some (1, 5)) 63 2))].
Lemma two_due_reachable : s_reachable two_due.
Proof. eexists _, _. reflexivity. Qed.
Lemma block_reachable s e : s_reachable s -> s_reachable (next_block e s).
Proof. intros (now & l & ->). exists now, (l ++ [SNext e]). unfold srun. rewrite fold_left_app. reflexivity. Qed.

Lemma withdrawn_yet_run : exists s t, s_reachable s /\ exists l, sd_log s = ERan 11 11 t :: ECancelled 11 11 t :: l /\ placed (fun u => sk_what u =? sk_what t) 11 s = 1%nat.
Proof.
  exists (next_block (cheap false true) two_due), (STask (Some (1, 5)) 63 2). split; [apply block_reachable, two_due_reachable|]. eexists. split; vm_compute; reflexivity.
Qed.
Lemma not_by_name : exists s w i t k, s_reachable s /\ stands s w i t /\ sk_name t = Some k /\ cancel_named s k = None.
Proof.
  exists (next_block (cheap true false) two_due), 11, 1%nat, (STask (Some (1, 5)) 63 2), (1, 5). split; [apply block_reachable, two_due_reachable|]. split_and!; vm_compute; reflexivity.
Qed.
Lemma cheap_runs heavy acts t : can_run t (cheap heavy acts).
Proof.
  split; [reflexivity|]. exists (W 1000 1000). split_and!.
  - intros t'. split; vm_compute; discriminate.
  - intros n _. split; vm_compute; discriminate.
  - destruct heavy; split; vm_compute; discriminate.
Qed.
Lemma comes_late : exists s i t e, s_reachable s /\ oldest s = sd_now s + 1 /\ stands s (sd_now s + 1) i t /\ can_run t e /\
  forall at_ w, ~ In (ERan at_ w t) (sd_log (next_block e s)).
Proof.
  exists two_due, 1%nat, (STask (Some (1, 5)) 63 2), (cheap true false). split; [exact two_due_reachable|]. split; [vm_compute; reflexivity|]. split; [vm_compute; reflexivity|]. split; [apply cheap_runs|].
  intros at_ w H. assert (E : sd_log (next_block (cheap true false) two_due) = [ERan 11 11 (STask None 10 1); EPlaced 11 (STask (Some (1, 5)) 63 2); EPlaced 11 (STask None 10 1)]) by (vm_compute; reflexivity).
  rewrite E in H. cbn [In] in H. destruct H as [H|[H|[H|H]]]; try discriminate H. exact H.
Qed.
Lemma in_time : forall s w P, s_reachable s -> withdrawn_in_time P w s = placed P w s -> carried_out P w s = 0%nat /\ waiting P w s = 0%nat.
Proof. intros s w P R H. pose proof (never_twice s w P R). lia. Qed.

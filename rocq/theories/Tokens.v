(** Proofs on assets (C183 to C186). *)
From stdpp Require Import gmap.
From Coq Require Import Lia.
From Verif Require Import Base RuntimeModel TokensModel TokensSpec.
Open Scope N_scope.

(* ------------------------------------------------------------------ *)
(** * What the pieces do *)

Lemma acc_put id a o s id' b : t_accounts (put_account id a o s) !! (id', b) = if (id =? id') && (a =? b) then o else t_accounts s !! (id', b).
Proof.
  unfold put_account. cbn [t_accounts]. destruct (N.eqb_spec id id') as [->|Hi]; [destruct (N.eqb_spec a b) as [->|Ha]|]; cbn [andb].
  - apply lookup_partial_alter.
  - apply lookup_partial_alter_ne. congruence.
  - apply lookup_partial_alter_ne. congruence.
Qed.
Lemma acc_credit id a n s id' b : t_accounts (credit id a n s) !! (id', b) =
  if (id =? id') && (a =? b) then Some (match t_accounts s !! (id, a) with Some c => TAccount (tc_balance c + n) (tc_closed c) | None => TAccount n TOpen end)
  else t_accounts s !! (id', b).
Proof. unfold credit. apply acc_put. Qed.
Lemma has_credit id a n s id' b : has (credit id a n s) id' b = has s id' b + if (id =? id') && (a =? b) then n else 0.
Proof.
  unfold has. rewrite acc_credit. destruct (N.eqb_spec id id') as [->|Hi]; [destruct (N.eqb_spec a b) as [->|Ha]|]; cbn [andb]; try lia.
  destruct (t_accounts s !! (id', b)) as [c|]; cbn; lia.
Qed.
Lemma acc_debit d id a n s id' b : 0 < n -> t_accounts (debit d id a n s) !! (id', b) =
  if (id =? id') && (a =? b) then
    match t_accounts s !! (id, a) with Some c => if tc_balance c - n <? ta_min d then None else Some (TAccount (tc_balance c - n) (tc_closed c)) | None => None end
  else t_accounts s !! (id', b).
Proof.
  intros Hn. unfold debit. destruct (N.eqb_spec n 0) as [->|_]; [lia|].
  destruct (t_accounts s !! (id, a)) as [c|] eqn:E; [apply acc_put|].
  destruct (N.eqb_spec id id') as [->|Hi]; [destruct (N.eqb_spec a b) as [->|Ha]|]; cbn [andb]; [exact E|reflexivity|reflexivity].
Qed.

Record debits (d : tasset) (id a n : N) (keep best : bool) (s : tst) (m : N) (c : taccount) : Prop := Debits {
  b_acc : t_accounts s !! (id, a) = Some c;
  b_live : ta_status d = TLive;
  b_open : tc_closed c = TOpen;
  b_max : m <= tc_balance c;
  b_rest : m = 0 \/ m = tc_balance c \/ ta_min d <= tc_balance c - m;
  b_asked : exists q, q <= n /\ (best = false -> q = n) /\ (m = q \/ (q < m /\ m = tc_balance c /\ m < q + ta_min d /\ keep = false));
  b_lock : forall f, t_locked s !! (id, a) = Some f -> m = 0 \/ f + ta_min d <= tc_balance c - m
}.
Lemma prep_does d id a n keep best s m : prep_debit d id a n keep best s = Some m -> exists c, debits d id a n keep best s m c.
Proof.
  unfold prep_debit. intros H. destruct (reducible d id a keep s) as [r|] eqn:R; [|discriminate H].
  unfold reducible in R. destruct (ta_status d) eqn:Es; try discriminate R. destruct (t_accounts s !! (id, a)) as [c|] eqn:Ec; [|discriminate R].
  destruct (tc_closed c) eqn:Eo; try discriminate R. exists c.
  destruct (N.ltb_spec (N.min r n) n) as [Hb|Hb].
  - destruct best; cbn [negb andb] in H; [|discriminate H].
    destruct (N.eqb_spec (N.min r n) 0) as [Hz|Hz].
    + injection H as <-. split; try assumption; try lia.
      exists 0. split_and!; [lia|discriminate|left; reflexivity].
    + injection R as R.
      destruct (N.ltb_spec (tc_balance c - N.min r n) (ta_min d)) as [Hd|Hd].
      * destruct keep; [discriminate H|]. injection H as <-. split; try assumption.
        -- destruct (t_locked s !! (id, a)); lia.
        -- right. left. destruct (t_locked s !! (id, a)); lia.
        -- exists (N.min r n). split_and!; [lia|discriminate|]. destruct (t_locked s !! (id, a)); destruct (decide (tc_balance c - N.min r n = 0)); [left|right|left|right]; lia || (split_and!; lia || reflexivity).
        -- intros f Hf. rewrite Hf in R. lia.
      * injection H as <-. split; try assumption.
        -- destruct (t_locked s !! (id, a)); destruct keep; lia.
        -- right. right. exact Hd.
        -- exists (N.min r n). split_and!; [lia|discriminate|left; reflexivity].
        -- intros f Hf. rewrite Hf in R. right. lia.
  - rewrite andb_false_r in H. assert (Hm : N.min r n = n) by lia. rewrite Hm in H.
    destruct (N.eqb_spec n 0) as [Hz|Hz].
    + injection H as <-. split; try assumption; try lia.
      exists 0. split_and!; [lia|intros; lia|left; reflexivity].
    + injection R as R.
      destruct (N.ltb_spec (tc_balance c - n) (ta_min d)) as [Hd|Hd].
      * destruct keep; [discriminate H|]. injection H as <-. split; try assumption.
        -- destruct (t_locked s !! (id, a)); lia.
        -- right. left. destruct (t_locked s !! (id, a)); lia.
        -- exists n. split_and!; [lia|reflexivity|]. destruct (t_locked s !! (id, a)); destruct (decide (tc_balance c - n = 0)); [left|right|left|right]; lia || (split_and!; lia || reflexivity).
        -- intros f Hf. rewrite Hf in R. lia.
      * injection H as <-. split; try assumption.
        -- destruct (t_locked s !! (id, a)); destruct keep; lia.
        -- right. right. exact Hd.
        -- exists n. split_and!; [lia|reflexivity|left; reflexivity].
        -- intros f Hf. rewrite Hf in R. right. lia.
Qed.

(** Taking what was worked out, after other accounts changed. *)
Lemma has_debit d id a n keep best s m c s' id' b : debits d id a n keep best s m c -> t_accounts s' !! (id, a) = Some c ->
  has (debit d id a m s') id' b = has s' id' b - if (id =? id') && (a =? b) then m else 0.
Proof.
  intros D E. destruct (decide (m = 0)) as [->|Hm].
  { unfold debit. cbn. destruct ((id =? id') && (a =? b)); lia. }
  unfold has. rewrite acc_debit by lia. destruct (N.eqb_spec id id') as [<-|Hi]; [destruct (N.eqb_spec a b) as [<-|Ha]|]; cbn [andb]; try lia.
  rewrite E. destruct (b_rest _ _ _ _ _ _ _ _ _ D) as [H|[H|H]]; [lia| |].
  - destruct (N.ltb_spec (tc_balance c - m) (ta_min d)); cbn; lia.
  - destruct (N.ltb_spec (tc_balance c - m) (ta_min d)); cbn; lia.
Qed.

Lemma transfer_does id from to n need keep ok s s' : transfer id from to n need keep ok s = Some s' ->
  (n = 0 /\ s' = s) \/
  exists d m c, 0 < n /\ t_assets s !! id = Some d /\ debits d id from n keep false s m c /\ can_increase d id to m ok s = true /\
    (forall x, need = Some x -> x = ta_admin d) /\ ((from = to /\ s' = s) \/ (from <> to /\ s' = debit d id from m (credit id to m s))).
Proof.
  unfold transfer. intros H. destruct (N.eqb_spec n 0) as [->|Hn]; [left; injection H as <-; split; reflexivity|right].
  destruct (t_assets s !! id) as [d|] eqn:Ed; [|discriminate H]. destruct (prep_debit d id from n keep false s) as [m|] eqn:Ep; [|discriminate H].
  destruct (prep_does _ _ _ _ _ _ _ _ Ep) as (c & D). destruct (can_increase d id to m ok s) eqn:Ei; [|discriminate H].
  exists d, m, c. split; [lia|]. split; [reflexivity|]. split; [exact D|]. split; [exact Ei|]. split.
  - intros x ->. cbn in H. destruct (N.eqb_spec x (ta_admin d)); [assumption|discriminate H].
  - destruct (match need with Some x => x =? ta_admin d | None => true end); [|discriminate H]. cbn in H.
    destruct (N.eqb_spec from to) as [->|Hf]; injection H as <-; [left|right]; split; auto.
Qed.

Lemma has_same s s' : t_accounts s' = t_accounts s -> forall id a, has s' id a = has s id a.
Proof. intros E id a. unfold has. rewrite E. reflexivity. Qed.
Lemma moved id from to m n keep d c s : debits d id from n keep false s m c -> from <> to ->
  forall id' b, has (debit d id from m (credit id to m s)) id' b = has s id' b + (if (id =? id') && (to =? b) then m else 0) - (if (id =? id') && (from =? b) then m else 0).
Proof.
  intros D Hf id' b. rewrite (has_debit _ _ _ _ _ _ _ _ _ _ _ _ D).
  - rewrite has_credit. reflexivity.
  - rewrite acc_credit. replace ((id =? id) && (to =? from)) with false; [exact (b_acc _ _ _ _ _ _ _ _ _ D)|].
    rewrite N.eqb_refl. destruct (N.eqb_spec to from); [congruence|reflexivity].
Qed.

Lemma fold_drop id l : forall s, let s' := fold_left (fun s' a => put_account id a None s') l s in
  t_assets s' = t_assets s /\ t_approvals s' = t_approvals s /\ t_locked s' = t_locked s /\ t_free s' = t_free s /\ t_reserved s' = t_reserved s /\
  forall id' b, t_accounts s' !! (id', b) = if bool_decide (id' = id /\ b ∈ l) then None else t_accounts s !! (id', b).
Proof.
  induction l as [|a l IH]; intros s; cbn [fold_left].
  - split_and!; try reflexivity. intros id' b. rewrite bool_decide_eq_false_2; [reflexivity|]. intros [_ H]. apply elem_of_nil in H. exact H.
  - destruct (IH (put_account id a None s)) as (H1 & H2 & H3 & H4 & H5 & H6). split_and!; try assumption.
    intros id' b. rewrite H6, acc_put. destruct (decide (id' = id /\ b ∈ l)) as [Hd|Hd].
    + rewrite bool_decide_eq_true_2 by exact Hd. rewrite bool_decide_eq_true_2; [reflexivity|]. destruct Hd. split; [assumption|]. apply elem_of_cons. auto.
    + rewrite bool_decide_eq_false_2 by exact Hd. destruct (N.eqb_spec id id') as [->|Hi]; [destruct (N.eqb_spec a b) as [->|Ha]|]; cbn [andb].
      * rewrite bool_decide_eq_true_2; [reflexivity|]. split; [reflexivity|]. apply elem_of_cons. auto.
      * rewrite bool_decide_eq_false_2; [reflexivity|]. intros [_ H]. apply elem_of_cons in H as [H|H]; [congruence|]. apply Hd. auto.
      * rewrite bool_decide_eq_false_2; [reflexivity|]. intros [H _]. congruence.
Qed.
Lemma cancel_keeps id a d s s' : cancel id a d s = Some s' -> t_assets s' = t_assets s /\ t_accounts s' = t_accounts s /\ t_locked s' = t_locked s.
Proof. unfold cancel. intros H. destruct (t_approvals s !! (id, a, d)); [|discriminate H]. injection H as <-. split_and!; reflexivity. Qed.
Lemma fold_approvals id l : forall s, let s' := fold_left (destroy_approval id) l s in
  t_assets s' = t_assets s /\ t_accounts s' = t_accounts s /\ t_locked s' = t_locked s.
Proof.
  induction l as [|k l IH]; intros s; cbn [fold_left]; [split_and!; reflexivity|].
  destruct (IH (destroy_approval id s k)) as (H1 & H2 & H3). cbv zeta in *. rewrite H1, H2, H3. unfold destroy_approval.
  destruct (cancel id (fst k) (snd k) s) as [s'|] eqn:E; cbn; [exact (cancel_keeps _ _ _ _ _ E)|split_and!; reflexivity].
Qed.
Lemma approve_keeps id a d n ok s s' : approve id a d n ok s = Some s' -> t_assets s' = t_assets s /\ t_accounts s' = t_accounts s /\ t_locked s' = t_locked s.
Proof.
  unfold approve, treserve. intros H.
  repeat match type of H with context [if ?b then _ else _] => destruct b; try discriminate H end; injection H as <-; split_and!; reflexivity.
Qed.
Lemma close_does id a x s s' : close id a x s = Some s' ->
  t_assets s' = t_assets s /\ t_approvals s' = t_approvals s /\ t_locked s' = t_locked s /\ t_free s' = t_free s /\ t_reserved s' = t_reserved s /\ forall id' b, has s' id' b = has s id' b.
Proof.
  unfold close. intros H. destruct (t_accounts s !! (id, a)) as [c|] eqn:E; [|discriminate H]. injection H as <-. split_and!; try reflexivity.
  intros id' b. unfold has. rewrite acc_put. destruct (N.eqb_spec id id') as [->|Hi]; [destruct (N.eqb_spec a b) as [->|Ha]|]; cbn [andb]; try reflexivity.
  rewrite E. reflexivity.
Qed.
Lemma if_some b r s' : if_ b r = Some s' -> b = true /\ r = Some s'.
Proof. unfold if_. intros H. destruct b; [split; [reflexivity|exact H]|discriminate H]. Qed.

(** What a transfer within an approval is. *)
Lemma approved_does id a d to n ok s s' : transfer_approved id a d to n ok s = Some s' ->
  exists p s1, t_approvals s !! (id, a, d) = Some p /\ n <= ap_amount p /\ transfer id a to n None false ok s = Some s1 /\
    ((ap_amount p = n /\ s' = put_approval id a d None (tunreserve a (ap_deposit p) s1)) \/
     (n < ap_amount p /\ s' = put_approval id a d (Some (Approval (ap_amount p - n) (ap_deposit p))) s1)).
Proof.
  unfold transfer_approved. intros H. destruct (t_approvals s !! (id, a, d)) as [p|] eqn:Ep; [|discriminate H].
  destruct (N.leb_spec n (ap_amount p)) as [Hn|Hn]; [|discriminate H]. destruct (transfer id a to n None false ok s) as [s1|] eqn:Et; [|discriminate H].
  exists p, s1. split; [reflexivity|]. split; [exact Hn|]. split; [reflexivity|].
  destruct (N.eqb_spec (ap_amount p - n) 0); injection H as <-; [left|right]; split; try reflexivity; lia.
Qed.

(* ------------------------------------------------------------------ *)
(** * C183 *)

Lemma debits_leave d id a n keep s m c : t_assets s !! id = Some d -> debits d id a n keep false s m c ->
  leaves s id a n m /\ (keep = true -> m = n).
Proof.
  intros Ed D. destruct (b_asked _ _ _ _ _ _ _ _ _ D) as (q & _ & Hq & Hm). specialize (Hq eq_refl). subst q.
  unfold leaves, has, least. rewrite Ed, (b_acc _ _ _ _ _ _ _ _ _ D). split; [|intros ->; destruct Hm as [H|(_ & _ & _ & H)]; [exact H|discriminate H]].
  destruct Hm as [->|(H1 & H2 & H3 & _)]; [left; reflexivity|right; split_and!; assumption].
Qed.
Lemma transfer_takes id from to n need keep ok s s' id' b : transfer id from to n need keep ok s = Some s' ->
  has s' id' b < has s id' b ->
  id' = id /\ b = from /\ from <> to /\ leaves s id from n (has s id from - has s' id from) /\ (keep = true -> has s id from - has s' id from = n) /\
  (forall x, need = Some x -> is_admin s id x) /\ (forall f, t_locked s !! (id, from) = Some f -> f <= has s' id from) /\
  has s' id to = has s id to + (has s id from - has s' id from) /\
  (forall id0 b0, (id0, b0) <> (id, from) -> (id0, b0) <> (id, to) -> has s' id0 b0 = has s id0 b0).
Proof.
  intros H L. destruct (transfer_does _ _ _ _ _ _ _ _ _ H) as [[_ ->]|(d & m & c & Hn & Ed & D & _ & Hx & [[_ ->]|[Hf ->]])]; [lia|lia|].
  pose proof (moved _ _ to _ _ _ _ _ _ D Hf) as M. destruct (debits_leave _ _ _ _ _ _ _ _ Ed D) as [D1 D2].
  assert (Hc : has s id from = tc_balance c) by (unfold has; rewrite (b_acc _ _ _ _ _ _ _ _ _ D); reflexivity).
  pose proof (b_max _ _ _ _ _ _ _ _ _ D) as B.
  pose proof (M id from) as M1. pose proof (M id to) as M2. rewrite !N.eqb_refl in M1, M2. cbn [andb] in M1, M2.
  destruct (N.eqb_spec to from) as [E|_]; [congruence|]. destruct (N.eqb_spec from to) as [E|_]; [congruence|].
  assert (Hl : has s id from - has (debit d id from m (credit id to m s)) id from = m) by lia.
  rewrite M in L. destruct (N.eqb_spec id id') as [<-|Hi]; [|cbn [andb] in L; lia]. cbn [andb] in L.
  destruct (N.eqb_spec from b) as [<-|Hb]; [|lia]. rewrite Hl. split; [reflexivity|]. split; [reflexivity|]. split; [exact Hf|]. split; [exact D1|]. split; [exact D2|].
  split; [intros x E; exists d; split; [exact Ed|symmetry; exact (Hx x E)]|]. split; [|split; [lia|]].
  - intros f Ef. destruct (b_lock _ _ _ _ _ _ _ _ _ D f Ef) as [H0|H0]; [|lia]. unfold leaves in D1. lia.
  - intros id0 b0 H1 H2. rewrite M. destruct (N.eqb_spec id id0) as [<-|Hi]; cbn [andb]; [|lia].
    destruct (N.eqb_spec to b0) as [<-|Ht]; [congruence|]. destruct (N.eqb_spec from b0) as [<-|Ht']; [congruence|]. lia.
Qed.
(** Burning and taking. *)
Lemma debit_takes d id a n best s m c s1 id' b : t_assets s !! id = Some d -> debits d id a n false best s m c -> t_accounts s1 = t_accounts s ->
  has (debit d id a m s1) id' b < has s id' b ->
  id' = id /\ b = a /\ has s id a - has (debit d id a m s1) id a = m /\ (exists q, q <= n /\ (best = false -> q = n) /\ leaves s id a q m) /\
  (forall f, t_locked s !! (id, a) = Some f -> f <= has (debit d id a m s1) id a).
Proof.
  intros Ed D E1 L. assert (Ha : t_accounts s1 !! (id, a) = Some c) by (rewrite E1; exact (b_acc _ _ _ _ _ _ _ _ _ D)).
  pose proof (fun i b => has_debit _ _ _ _ _ _ _ _ _ _ i b D Ha) as M. pose proof (b_max _ _ _ _ _ _ _ _ _ D) as B.
  assert (Hc : has s id a = tc_balance c) by (unfold has; rewrite (b_acc _ _ _ _ _ _ _ _ _ D); reflexivity).
  pose proof (M id a) as M1. rewrite !N.eqb_refl in M1. cbn [andb] in M1. rewrite (has_same _ _ E1) in M1.
  rewrite M, (has_same _ _ E1) in L. destruct (N.eqb_spec id id') as [<-|Hi]; [|cbn [andb] in L; lia]. cbn [andb] in L.
  destruct (N.eqb_spec a b) as [<-|Hb]; [|lia]. split; [reflexivity|]. split; [reflexivity|]. split; [lia|]. split.
  - destruct (b_asked _ _ _ _ _ _ _ _ _ D) as (q & Hq & Hb & Hm). exists q. split; [exact Hq|]. split; [exact Hb|]. unfold leaves, least. rewrite Ed, Hc.
    destruct Hm as [->|(H1 & H2 & H3 & _)]; [left; reflexivity|right; split_and!; assumption].
  - intros f Ef. destruct (b_lock _ _ _ _ _ _ _ _ _ D f Ef) as [H0|H0]; lia.
Qed.

Lemma give_more id a n s s1 id' b : t_accounts s1 = t_accounts s -> has s id' b <= has (credit id a n s1) id' b.
Proof. intros E. rewrite has_credit, (has_same _ _ E). lia. Qed.

Lemma only_so s x id a : has (tstep_run s x) id a < has s id a ->
  may_take s x id a (has s id a - has (tstep_run s x) id a) /\
  ((exists o ok l, x = TCall ok o (KDestroyAccounts id l)) \/ forall f, t_locked s !! (id, a) = Some f -> f <= has (tstep_run s x) id a).
Proof.
  intros L. unfold tstep_run in *. destruct (tstep_try s x) as [s'|] eqn:E; [|cbn in L; lia]. change (default s (Some s')) with s' in *.
  destruct x as [ok o k|id' b n|id' b n|id' b n|b n|b n]; cbn [tstep_try] in E.
  - unfold tcall_run in E.
    destruct k; destruct o as [b|]; try discriminate E;
      try (destruct (t_assets s !! id0) as [d|] eqn:Ed; [|discriminate E]);
      try (apply if_some in E as [B E]).
    all: try (injection E as <-; cbv [has put_asset put_account t_accounts] in L; lia).
    + destruct (transfer_takes _ _ _ _ _ _ _ _ _ _ _ E L) as (-> & -> & H1 & H2 & H3 & H4 & H5 & _). split; [|right; exact H5]. cbn. split_and!; auto.
    + destruct (transfer_takes _ _ _ _ _ _ _ _ _ _ _ E L) as (-> & -> & H1 & H2 & H3 & H4 & H5 & _). split; [|right; exact H5]. cbn. split_and!; auto.
    + destruct (n =? 0); [injection E as <-; lia|]. apply if_some in E as [B2 E]. injection E as <-. pose proof (give_more id0 to n s (put_asset id0 (set_supply d (ta_supply d + n)) s) id a eq_refl). lia.
    + destruct (N.eqb_spec n 0) as [->|Hn]; [injection E as <-; lia|]. destruct (prep_debit d id0 from n false true s) as [m|] eqn:Ep; [|discriminate E].
      apply if_some in E as [B2 E]. injection E as <-. apply N.eqb_eq in B2. destruct (prep_does _ _ _ _ _ _ _ _ Ep) as (c & D).
      destruct (debit_takes _ _ _ _ _ _ _ _ (put_asset id0 (set_supply d (ta_supply d - m)) s) _ _ Ed D eq_refl L) as (-> & -> & H1 & (q & Hq & _ & Hl) & H3). split; [|right; exact H3].
      cbn. rewrite H1. split_and!; auto; [exists d; auto|exists q; auto].
    + destruct (approve_keeps _ _ _ _ _ _ _ E) as (_ & H & _). rewrite (has_same _ _ H) in L. lia.
    + destruct (approved_does _ _ _ _ _ _ _ _ E) as (p & s1 & Ep & Hp & Et & Hs).
      assert (Ea : t_accounts s' = t_accounts s1) by (destruct Hs as [[_ ->]|[_ ->]]; reflexivity).
      rewrite (has_same _ _ Ea) in L |- *. destruct (transfer_takes _ _ _ _ _ _ _ _ _ _ _ Et L) as (-> & -> & H1 & H2 & H3 & H4 & H5 & _). split; [|right; exact H5].
      cbn. split_and!; auto. unfold approved. rewrite Ep. exact Hp.
    + destruct (cancel_keeps _ _ _ _ _ E) as (_ & H & _). rewrite (has_same _ _ H) in L. lia.
    + destruct (cancel_keeps _ _ _ _ _ E) as (_ & H & _). rewrite (has_same _ _ H) in L. lia.
    + destruct (cancel_keeps _ _ _ _ _ E) as (_ & H & _). rewrite (has_same _ _ H) in L. lia.
    + destruct (close_does _ _ _ _ _ E) as (_ & _ & _ & _ & _ & H). rewrite H in L. lia.
    + destruct (close_does _ _ _ _ _ E) as (_ & _ & _ & _ & _ & H). rewrite H in L. lia.
    + destruct (close_does _ _ _ _ _ E) as (_ & _ & _ & _ & _ & H). rewrite H in L. lia.
    + destruct (t_assets s !! id0); [discriminate E|]. apply if_some in E as [_ E]. injection E as <-. cbv [has put_asset t_accounts] in L. lia.
    + injection E as <-. destruct (fold_drop id0 l s) as (_ & _ & _ & _ & _ & H). cbv zeta in H. unfold has in L |- *. rewrite H in L |- *.
      destruct (decide (id = id0 /\ a ∈ l)) as [[-> Hl]|Hd]; [|rewrite bool_decide_eq_false_2 in L by exact Hd; lia].
      rewrite bool_decide_eq_true_2 by (split; [reflexivity|exact Hl]). split; [|left; eauto]. cbn. split_and!; auto.
      * exists d. split; [exact Ed|]. unfold is_destroying in B. destruct (ta_status d); try discriminate B. reflexivity.
      * unfold has. lia.
    + injection E as <-. destruct (fold_approvals id0 l s) as (_ & H & _). cbv zeta in H. rewrite (has_same _ _ H) in L. lia.
  - destruct (t_assets s !! id') as [d|]; [|discriminate E]. apply if_some in E as [_ E]. injection E as <-.
    pose proof (give_more id' b n s (put_asset id' (set_supply d (ta_supply d + n)) s) id a eq_refl). lia.
  - destruct (t_assets s !! id') as [d|] eqn:Ed; [|discriminate E]. destruct (prep_debit d id' b n false false s) as [m|] eqn:Ep; [|discriminate E]. injection E as <-.
    destruct (prep_does _ _ _ _ _ _ _ _ Ep) as (c & D).
    destruct (debit_takes _ _ _ _ _ _ _ _ (put_asset id' (set_supply d (ta_supply d - m)) s) _ _ Ed D eq_refl L) as (-> & -> & H1 & (q & Hq & Hb & Hl) & H3). split; [|right; exact H3].
    cbn. rewrite H1. rewrite (Hb eq_refl) in Hl. auto.
  - injection E as <-. cbv [has t_accounts] in L. lia.
  - injection E as <-. cbv [has put_native t_accounts] in L. lia.
  - apply if_some in E as [_ E]. injection E as <-. cbv [has put_native t_accounts] in L. lia.
Qed.

(** What is moved arrives. *)
Lemma arrives s x id from to : moves x = Some (id, from, to) -> let s' := tstep_run s x in
  (from <> to -> has s id to <= has s' id to /\ has s' id from + has s' id to = has s id from + has s id to) /\
  (forall id' b, (id', b) <> (id, from) -> (id', b) <> (id, to) -> has s' id' b = has s id' b) /\ (from = to -> has s' id to = has s id to).
Proof.
  intros Hm. cbv zeta. unfold tstep_run. destruct (tstep_try s x) as [s'|] eqn:E; [|cbn; split_and!; auto; lia]. change (default s (Some s')) with s' in *.
  assert (exists n need keep ok s1, transfer id from to n need keep ok s = Some s1 /\ t_accounts s' = t_accounts s1) as (n & need & keep & ok & s1 & Et & Ea).
  { destruct x as [ok o k| | | | |]; try discriminate Hm. destruct o as [b|]; [|discriminate Hm]. destruct k; try discriminate Hm; injection Hm as <- <- <-; cbn in E.
    - eauto 10.
    - eauto 10.
    - destruct (t_assets s !! id0); [|discriminate E]. apply if_some in E as [_ E]. destruct (approved_does _ _ _ _ _ _ _ _ E) as (p & s1 & _ & _ & Et & Hs).
      exists n, None, false, ok, s1. split; [exact Et|]. destruct Hs as [[_ ->]|[_ ->]]; reflexivity. }
  assert (Hh : forall i b, has s' i b = has s1 i b) by (exact (has_same _ _ Ea)).
  destruct (transfer_does _ _ _ _ _ _ _ _ _ Et) as [[_ ->]|(d & m & c & Hn & Ed & D & _ & Hx & [[Hf ->]|[Hf ->]])].
  - split_and!; intros; rewrite ?Hh; try reflexivity; split; reflexivity.
  - split_and!; intros; rewrite ?Hh; try reflexivity; contradiction.
  - pose proof (moved _ _ to _ _ _ _ _ _ D Hf) as M. pose proof (b_max _ _ _ _ _ _ _ _ _ D) as B.
    assert (Hc : has s id from = tc_balance c) by (unfold has; rewrite (b_acc _ _ _ _ _ _ _ _ _ D); reflexivity).
    split_and!; [intros _| |congruence].
    + rewrite !Hh, !M, !N.eqb_refl. cbn [andb]. destruct (N.eqb_spec to from); [congruence|]. destruct (N.eqb_spec from to); [congruence|]. lia.
    + intros id' b H1 H2. rewrite Hh, M. destruct (N.eqb_spec id id') as [<-|Hi]; cbn [andb]; [|lia].
      destruct (N.eqb_spec to b) as [<-|Ht]; [congruence|]. destruct (N.eqb_spec from b) as [<-|Ht']; [congruence|]. lia.
Qed.

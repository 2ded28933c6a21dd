(** Proofs on the native token (C187 to C189). *)
From stdpp Require Import gmap.
From Coq Require Import Lia.
From Verif Require Import Base RuntimeModel TokensApproved NativeModel NativeSpec.
Open Scope N_scope.
Notation ED := EXISTENTIAL_DEPOSIT.

Lemma ed_pos : 0 < ED.
Proof. vm_compute. reflexivity. Qed.
Local Opaque EXISTENTIAL_DEPOSIT.
Lemma free_get s a : free_of s a = ba_free (bget s a).
Proof. unfold free_of, bget. destruct (b_accs s !! a); reflexivity. Qed.
Lemma aside_get s a : aside_of s a = ba_res (bget s a).
Proof. unfold aside_of, bget. destruct (b_accs s !! a); reflexivity. Qed.
Lemma frozen_get s a : frozen_of s a = ba_frozen (bget s a).
Proof. unfold frozen_of, bget. destruct (b_accs s !! a); reflexivity. Qed.
Lemma total_get s a : total_of s a = ba_free (bget s a) + ba_res (bget s a).
Proof. unfold total_of. rewrite free_get, aside_get. reflexivity. Qed.
Lemma get_same s s' a : b_accs s' !! a = b_accs s !! a -> bget s' a = bget s a.
Proof. unfold bget. intros ->. reflexivity. Qed.

(** What writing an account does. *)
Record puts (o : borac) (a : N) (c : bacc) (s s' : bst) : Prop := Puts {
  p_other : forall b, b <> a -> b_accs s' !! b = b_accs s !! b;
  p_die : ED <= ba_free (bget s a) -> ba_free c < ED -> can_die o a c = true;
  p_here : (b_accs s' = <[a := c]> (b_accs s) /\ b_issued s' = b_issued s /\ (ED <= ba_free c \/ 0 < ba_res c)) \/
           (b_accs s' = delete a (b_accs s) /\ b_issued s' = b_issued s - ba_free c /\ ba_free c < ED /\ ba_res c = 0)
}.
Lemma bput_does o a c s s' : bput o a c s = Some s' -> puts o a c s s'.
Proof.
  unfold bput. intros H. destruct (negb (consumes (bget s a)) && consumes c && negb ((ED <=? ba_free c) || bo_elsewhere o a)); [discriminate H|].
  destruct ((ED <=? ba_free (bget s a)) && negb (ED <=? ba_free c) && negb (can_die o a c)) eqn:B; [discriminate H|].
  assert (D : ED <= ba_free (bget s a) -> ba_free c < ED -> can_die o a c = true).
  { intros H1 H2. destruct (N.leb_spec ED (ba_free (bget s a))); [|lia]. destruct (N.leb_spec ED (ba_free c)); [lia|]. cbn in B. apply negb_false_iff in B. exact B. }
  destruct (N.leb_spec ED (ba_free c)) as [L|L]; cbn [negb andb] in H.
  - injection H as <-. constructor; [intros b Hb; cbn; rewrite lookup_insert_ne by congruence; reflexivity|exact D|left; cbn; auto].
  - destruct (N.eqb_spec (ba_res c) 0) as [R|R]; injection H as <-; (constructor; [|exact D|]).
    + intros b Hb. cbn. rewrite lookup_delete_ne by congruence. reflexivity.
    + right. cbn. auto.
    + intros b Hb. cbn. rewrite lookup_insert_ne by congruence. reflexivity.
    + left. cbn. split_and!; [reflexivity|reflexivity|right; lia].
Qed.
Lemma put_get o a c s s' b : puts o a c s s' -> bget s' b = if b =? a then (if (ba_free c <? ED) && (ba_res c =? 0) then BAcc 0 0 0 else c) else bget s b.
Proof.
  intros P. destruct (N.eqb_spec b a) as [->|Hb]; [|apply get_same; exact (p_other _ _ _ _ _ P b Hb)]. unfold bget.
  destruct (p_here _ _ _ _ _ P) as [(E & _ & H)|(E & _ & H1 & H2)]; rewrite E.
  - rewrite lookup_insert. cbn. destruct (N.ltb_spec (ba_free c) ED); [|reflexivity]. destruct (N.eqb_spec (ba_res c) 0); [lia|reflexivity].
  - rewrite lookup_delete. destruct (N.ltb_spec (ba_free c) ED); [|lia]. rewrite H2. reflexivity.
Qed.
(** What an account has in all after it is written. *)
Lemma put_total o a c s s' b : puts o a c s s' ->
  (b <> a /\ total_of s' b = total_of s b) \/ (b = a /\ total_of s' a = ba_free c + ba_res c /\ free_of s' a = ba_free c) \/ (b = a /\ total_of s' a = 0 /\ ba_free c < ED /\ ba_res c = 0 /\ free_of s' a = 0).
Proof.
  intros P. rewrite !total_get, !free_get, !(put_get _ _ _ _ _ _ P). rewrite N.eqb_refl. destruct (N.eqb_spec b a) as [->|Hb]; [right|left; auto].
  destruct (N.ltb_spec (ba_free c) ED) as [L|L]; [destruct (N.eqb_spec (ba_res c) 0) as [R|R]|]; cbn [andb]; cbn; auto. right. auto.
Qed.

(* ------------------------------------------------------------------ *)
(** * What always holds *)

Definition weigh (k : N) (c : bacc) : N := ba_free c + ba_res c.
Definition sum (s : bst) : N := msum weigh (b_accs s).
Lemma old_total s a : oval weigh a (b_accs s !! a) = total_of s a.
Proof. unfold total_of, free_of, aside_of. destruct (b_accs s !! a); reflexivity. Qed.
Lemma sum_ge s a : total_of s a <= sum s.
Proof. pose proof (msum_delete weigh (b_accs s) a) as M. rewrite old_total in M. unfold sum. lia. Qed.
Lemma put_sum o a c s s' k : puts o a c s s' -> b_issued s + total_of s a = sum s + ba_free c + ba_res c + k -> b_issued s' = sum s' + k.
Proof.
  intros P H. pose proof (sum_ge s a) as G. unfold sum in *. destruct (p_here _ _ _ _ _ P) as [(E & Ei & _)|(E & Ei & _ & R)]; rewrite E, Ei.
  - pose proof (msum_alter weigh (b_accs s) a (Some c)) as M. rewrite old_total in M. cbn [oval] in M. change (weigh a c) with (ba_free c + ba_res c) in M.
    change (partial_alter (fun _ => Some c) a (b_accs s)) with (<[a := c]> (b_accs s)) in M. lia.
  - pose proof (msum_delete weigh (b_accs s) a) as M. rewrite old_total in M. lia.
Qed.

Definition tidy (s : bst) : Prop := forall a c, b_accs s !! a = Some c -> ED <= ba_free c \/ 0 < ba_res c.
Lemma put_tidy o a c s s' : puts o a c s s' -> tidy s -> tidy s'.
Proof.
  intros P T b q. destruct (decide (b = a)) as [->|Hb]; [|rewrite (p_other _ _ _ _ _ P b Hb); apply T].
  destruct (p_here _ _ _ _ _ P) as [(E & _ & H)|(E & _)]; rewrite E; [rewrite lookup_insert; intros Hq; injection Hq as <-; exact H|rewrite lookup_delete; discriminate].
Qed.
Lemma tidy_get s a : tidy s -> ba_res (bget s a) = 0 -> ba_free (bget s a) = 0 \/ ED <= ba_free (bget s a).
Proof. intros T. unfold bget. destruct (b_accs s !! a) as [c|] eqn:E; cbn; [|auto]. destruct (T a c E); lia. Qed.

(** What a transfer does. *)
Lemma btransfer_does o from to n keep s s' : btransfer o from to n keep s = Some s' ->
  s' = s /\ (n = 0 \/ from = to) \/
  (from <> to /\ 0 < n /\ n <= ba_free (bget s from) /\ ba_frozen (bget s from) <= ba_free (bget s from) - n + ba_res (bget s from) /\
   (keep = true -> ED <= ba_free (bget s from) - n) /\ n <= b_issued s /\
   exists s1, puts o from (sub_free n (bget s from)) s s1 /\ puts o to (add_free n (bget s to)) s1 s' /\ ED <= ba_free (bget s to) + n).
Proof.
  unfold btransfer. intros H. destruct (N.eqb_spec n 0) as [->|Hn]; [injection H as <-; auto|].
  destruct (can_withdraw o from n keep s) eqn:W; [|discriminate H]. destruct (can_deposit to n s) eqn:D; [|discriminate H]. cbn [andb] in H.
  destruct (N.eqb_spec from to) as [->|Hf]; [injection H as <-; auto|]. right.
  destruct (N.leb_spec n (breducible o from keep s)) as [R|R]; [|discriminate H].
  destruct (bput o from (sub_free n (bget s from)) s) as [s1|] eqn:E1; [|discriminate H].
  unfold can_withdraw in W. apply andb_true_iff in W as [W W5]. apply andb_true_iff in W as [W W4]. apply andb_true_iff in W as [W W3]. apply andb_true_iff in W as [W1 W2].
  apply N.leb_le in W1, W2, W5. unfold can_deposit in D. apply andb_true_iff in D as [_ D]. apply N.leb_le in D.
  split; [exact Hf|]. split; [lia|]. split; [exact W2|]. split; [exact W5|]. split; [intros ->; unfold breducible in R; cbn [orb] in R; lia|]. split; [exact W1|].
  exists s1. apply bput_does in E1. split; [exact E1|]. apply bput_does in H. rewrite (get_same s s1 to) in H by (apply (p_other _ _ _ _ _ E1); congruence). auto.
Qed.
Lemma burn_does o a n keep s s' : bburn o a n keep s = Some s' -> n <= b_issued s /\ n <= ba_free (bget s a) /\
  (0 < n -> ba_frozen (bget s a) <= ba_free (bget s a) - n + ba_res (bget s a) /\ (keep = true -> ED <= ba_free (bget s a) - n)) /\
  puts o a (sub_free n (bget s a)) (issue (b_issued s - n) s) s'.
Proof.
  unfold bburn. intros H. destruct (N.leb_spec n (breducible o a keep s)) as [R|R]; [|discriminate H]. destruct (N.leb_spec n (b_issued s)) as [I|I]; [|discriminate H]. cbn [andb] in H.
  apply bput_does in H. unfold breducible in R. split; [exact I|]. split; [lia|]. split; [|exact H]. intros Hn. split.
  - destruct (keep || _); lia.
  - intros ->. cbn [orb] in R. lia.
Qed.

Definition balanced (s : bst) : Prop := b_issued s = sum s.
Lemma transfer_balanced o from to n keep s s' : btransfer o from to n keep s = Some s' -> balanced s -> balanced s'.
Proof.
  intros H B. destruct (btransfer_does _ _ _ _ _ _ _ H) as [[-> _]|(Hf & Hn & Hl & _ & _ & _ & s1 & P1 & P2 & _)]; [exact B|].
  unfold balanced in *.
  assert (T1 : total_of s1 to = total_of s to) by (destruct (put_total _ _ _ _ _ to P1) as [[_ T]|[[-> _]|[-> _]]]; [exact T|congruence|congruence]).
  assert (S1 : b_issued s1 = sum s1 + n) by (apply (put_sum _ _ _ _ _ n P1); rewrite total_get; cbn; lia).
  assert (S2 : b_issued s' = sum s' + 0) by (apply (put_sum _ _ _ _ _ 0 P2); rewrite T1, total_get; cbn; lia). lia.
Qed.
Lemma sum_issue n s : sum (issue n s) = sum s.
Proof. reflexivity. Qed.
Lemma total_issue n s a : total_of (issue n s) a = total_of s a.
Proof. reflexivity. Qed.
Lemma get_issue n s a : bget (issue n s) a = bget s a.
Proof. reflexivity. Qed.

(** What a step does, but for transfers and burning. *)
Lemma step_balanced s x s' : bstep_try s x = Some s' -> ~ sets_issuance x -> balanced s -> balanced s'.
Proof.
  intros H Ns B. destruct x as [o x]. unfold bstep_try in H. cbn [fst snd] in H.
  assert (Burn : forall a n keep, bburn o a n keep s = Some s' -> balanced s').
  { intros a n keep Hb. destruct (burn_does _ _ _ _ _ _ Hb) as (Hi & Hf & _ & P). unfold balanced. rewrite (put_sum _ _ _ _ _ 0 P); [lia|]. rewrite total_issue, sum_issue, total_get. unfold balanced in B. cbn. lia. }
  assert (Rel : forall a n, brelease o a n s = Some s' -> balanced s').
  { intros a n Hb. apply bput_does in Hb. unfold balanced. rewrite (put_sum _ _ _ _ _ 0 Hb); [lia|]. rewrite total_get. unfold balanced in B. cbn. lia. }
  destruct x as [by_ k|a n|a n keep|a n|a n|a n|a n].
  - destruct k; destruct by_ as [a'|]; try discriminate H; cbn in H.
    + exact (transfer_balanced _ _ _ _ _ _ _ H B).
    + exact (transfer_balanced _ _ _ _ _ _ _ H B).
    + exact (Burn _ _ _ H).
    + exact (transfer_balanced _ _ _ _ _ _ _ H B).
    + exact (Rel _ _ H).
    + apply bput_does in H. unfold balanced. rewrite (put_sum _ _ _ _ _ 0 H); [lia|]. pose proof (sum_ge s a) as G. rewrite total_issue, sum_issue. rewrite total_get in *. unfold balanced in B. cbn. lia.
    + exfalso. apply Ns. exists n. reflexivity.
  - destruct ((0 <? n) && can_deposit a n s && (b_issued s + n <=? u128_max)); [|discriminate H]. apply bput_does in H. unfold balanced. rewrite (put_sum _ _ _ _ _ 0 H); [lia|].
    rewrite total_issue, sum_issue, total_get. unfold balanced in B. cbn. lia.
  - exact (Burn _ _ _ H).
  - destruct (N.leb_spec (n + (if bo_elsewhere o a then 0 else ED)) (ba_free (bget s a))) as [L|L]; [|discriminate H]. apply bput_does in H. unfold balanced. rewrite (put_sum _ _ _ _ _ 0 H); [lia|].
    rewrite total_get. unfold balanced in B. cbn. lia.
  - exact (Rel _ _ H).
  - apply bput_does in H. unfold balanced. rewrite (put_sum _ _ _ _ _ 0 H); [lia|]. pose proof (sum_ge s a) as G. rewrite total_issue, sum_issue. rewrite total_get in *. unfold balanced in B. cbn. lia.
  - apply bput_does in H. unfold balanced. rewrite (put_sum _ _ _ _ _ 0 H); [lia|]. rewrite total_get. unfold balanced in B. cbn. lia.
Qed.
Lemma step_tidy s x s' : bstep_try s x = Some s' -> tidy s -> tidy s'.
Proof.
  intros H T. destruct x as [o x]. unfold bstep_try in H. cbn [fst snd] in H.
  assert (Tr : forall from to n keep, btransfer o from to n keep s = Some s' -> tidy s').
  { intros from to n keep Hb. destruct (btransfer_does _ _ _ _ _ _ _ Hb) as [[-> _]|(_ & _ & _ & _ & _ & _ & s1 & P1 & P2 & _)]; [exact T|]. exact (put_tidy _ _ _ _ _ P2 (put_tidy _ _ _ _ _ P1 T)). }
  assert (Burn : forall a n keep, bburn o a n keep s = Some s' -> tidy s') by (intros a n keep Hb; destruct (burn_does _ _ _ _ _ _ Hb) as (_ & _ & _ & P); exact (put_tidy _ _ _ _ _ P T)).
  destruct x as [by_ k|a n|a n keep|a n|a n|a n|a n].
  - destruct k; destruct by_ as [a'|]; try discriminate H; cbn in H; try (eapply Tr; exact H); try (eapply Burn; exact H); try (injection H as <-; exact T); apply bput_does in H; exact (put_tidy _ _ _ _ _ H T).
  - destruct ((0 <? n) && can_deposit a n s && (b_issued s + n <=? u128_max)); [|discriminate H]. apply bput_does in H. exact (put_tidy _ _ _ _ _ H T).
  - eapply Burn; exact H.
  - destruct (_ <=? _); [|discriminate H]. apply bput_does in H. exact (put_tidy _ _ _ _ _ H T).
  - apply bput_does in H. exact (put_tidy _ _ _ _ _ H T).
  - apply bput_does in H. exact (put_tidy _ _ _ _ _ H T).
  - apply bput_does in H. exact (put_tidy _ _ _ _ _ H T).
Qed.
Lemma tidy_end l : tidy (b_end l).
Proof.
  assert (H : forall l s, tidy s -> tidy (brun s l)).
  { clear. induction l as [|x l IH]; intros s R; [exact R|]. apply (IH (bstep_run s x)). unfold bstep_run. destruct (bstep_try s x) as [s'|] eqn:E; [exact (step_tidy s x s' E R)|exact R]. }
  apply (H l b_start). intros a c Hc. cbn in Hc. rewrite lookup_empty in Hc. discriminate Hc.
Qed.
Lemma balanced_end l : Forall (fun x => ~ sets_issuance x) l -> balanced (b_end l).
Proof.
  assert (H : forall l s, Forall (fun x => ~ sets_issuance x) l -> balanced s -> balanced (brun s l)).
  { clear. induction l as [|x l IH]; intros s F R; [exact R|]. apply Forall_cons in F as [F1 F2]. apply (IH (bstep_run s x) F2). unfold bstep_run. destruct (bstep_try s x) as [s'|] eqn:E; [exact (step_balanced s x s' E F1 R)|exact R]. }
  intros F. apply (H l b_start F). reflexivity.
Qed.
Lemma issued_exact l hs : Forall (fun x => ~ sets_issuance x) l -> NoDup hs -> (forall a, a ∈ hs <-> is_account (b_end l) a) ->
  issued (b_end l) = foldr (fun a z => total_of (b_end l) a + z) 0 hs.
Proof.
  intros F ND Hh. unfold issued. rewrite (balanced_end l F). unfold sum. rewrite (msum_list weigh (fun _ => True) hs); [|exact ND| | |intros k; left; exact I].
  - clear. induction hs as [|a hs IH]; [reflexivity|]. cbn [foldr]. rewrite IH. f_equal. apply old_total.
  - intros k. rewrite Hh. unfold is_account. tauto.
  - intros k v Hn. exfalso. apply Hn. exact I.
Qed.
Lemma tidy_account l a : is_account (b_end l) a -> ED <= free_of (b_end l) a \/ 0 < aside_of (b_end l) a.
Proof. unfold is_account, free_of, aside_of. pose proof (tidy_end l a) as T. destruct (b_accs (b_end l) !! a) as [c|]; [intros _; exact (T c eq_refl)|congruence]. Qed.

(* ------------------------------------------------------------------ *)
(** * Who can take *)

Lemma die_frozen o a c : can_die o a c = true -> bo_elsewhere o a = true \/ ba_frozen c = 0.
Proof.
  unfold can_die, consumes. intros H. apply orb_true_iff in H as [H|H]; [auto|right]. apply andb_true_iff in H as [H _]. apply negb_true_iff in H. apply negb_false_iff in H. apply andb_true_iff in H as [_ H]. apply N.eqb_eq in H. exact H.
Qed.
(** Paying [n] from what is free. *)
Lemma pays o a n s s1 : tidy s -> n <= ba_free (bget s a) -> puts o a (sub_free n (bget s a)) s s1 ->
  let m := total_of s a - total_of s1 a in
  (m = n \/ (total_of s1 a = 0 /\ n < m /\ m < n + ED)) /\ (ED <= ba_free (bget s a) - n -> m = n /\ ED <= free_of s1 a) /\ total_of s1 a <= total_of s a /\
  (0 < n -> ba_frozen (bget s a) <= ba_free (bget s a) - n + ba_res (bget s a) -> frozen_of s a <= total_of s1 a \/ (frozen_of s a < ED /\ bo_elsewhere o a = true /\ total_of s1 a = 0)).
Proof.
  intros T Hn P. cbv zeta. rewrite (total_get s a), frozen_get. destruct (put_total _ _ _ _ _ a P) as [[Hx _]|[(_ & Ht & Hfr)|(_ & Ht & Hl & Hr & Hfr)]]; [congruence| |]; rewrite Ht; cbn [sub_free ba_free ba_res] in *.
  - split_and!; [left; lia|intros H; split; [lia|rewrite Hfr; exact H]|lia|intros _ H; left; exact H].
  - split_and!; [|lia|lia|].
    + destruct (N.eq_dec (ba_free (bget s a) - n) 0); [left; lia|right; lia].
    + intros Hp Hz. destruct (tidy_get s a T Hr) as [Hz'|Hz']; [lia|]. pose proof (p_die _ _ _ _ _ P Hz' Hl) as D. apply die_frozen in D as [D|D]; [right; split_and!; [lia|exact D|reflexivity]|left; cbn in D; lia].
Qed.
Lemma puts_issue o a c k s s1 : puts o a c (issue k s) s1 -> puts o a c s (Bst (b_accs s1) (match b_accs s1 !! a with Some _ => b_issued s | None => b_issued s - ba_free c end)).
Proof.
  intros P. destruct (p_here _ _ _ _ _ P) as [(E & Ei & H)|(E & Ei & H)].
  - constructor; [exact (p_other _ _ _ _ _ P)|exact (p_die _ _ _ _ _ P)|]. left. cbn in *. rewrite E, lookup_insert. auto.
  - constructor; [exact (p_other _ _ _ _ _ P)|exact (p_die _ _ _ _ _ P)|]. right. cbn in *. rewrite E, lookup_delete. auto.
Qed.
Lemma burn_pays o a n keep s s' : tidy s -> bburn o a n keep s = Some s' ->
  let m := total_of s a - total_of s' a in
  (m = n \/ (total_of s' a = 0 /\ n < m /\ m < n + ED)) /\ (0 < n -> keep = true -> m = n /\ ED <= free_of s' a) /\ total_of s' a <= total_of s a /\
  (0 < n -> frozen_of s a <= total_of s' a \/ (frozen_of s a < ED /\ bo_elsewhere o a = true /\ total_of s' a = 0)).
Proof.
  intros T H. destruct (burn_does _ _ _ _ _ _ H) as (_ & Hf & Hk & P). pose proof (pays o a n s _ T Hf (puts_issue _ _ _ _ _ _ P)) as (A & B & C & D). cbv zeta.
  change (total_of (Bst (b_accs s') ?k) a) with (total_of s' a) in *. change (free_of (Bst (b_accs s') ?k) a) with (free_of s' a) in *.
  split_and!; [exact A| |exact C|].
  - intros Hn Hq. apply B. exact (proj2 (Hk Hn) Hq).
  - intros Hn. apply D; [exact Hn|]. exact (proj1 (Hk Hn)).
Qed.
Lemma transfer_pays o from to n keep s s' : tidy s -> btransfer o from to n keep s = Some s' -> from <> to -> 0 < n ->
  let m := total_of s from - total_of s' from in
  (m = n \/ (total_of s' from = 0 /\ n < m /\ m < n + ED)) /\ (keep = true -> m = n /\ ED <= free_of s' from) /\ total_of s' from <= total_of s from /\
  (frozen_of s from <= total_of s' from \/ (frozen_of s from < ED /\ bo_elsewhere o from = true /\ total_of s' from = 0)) /\
  free_of s' to = free_of s to + n /\ aside_of s' to = aside_of s to /\ (forall b, b <> from -> b <> to -> total_of s' b = total_of s b) /\
  (total_of s from <= b_issued s -> b_issued s' + (m - n) = b_issued s).
Proof.
  intros T H Hf Hn. destruct (btransfer_does _ _ _ _ _ _ _ H) as [[-> [Hz|Hz]]|(_ & _ & Hl & Hfr & Hk & Hi & s1 & P1 & P2 & Hd)]; [lia|congruence|].
  pose proof (pays o from n s s1 T Hl P1) as (A & B & C & D). cbv zeta in *.
  assert (G : forall b, b <> to -> bget s' b = bget s1 b) by (intros b Hb; apply get_same; exact (p_other _ _ _ _ _ P2 b Hb)).
  assert (E1 : total_of s' from = total_of s1 from) by (rewrite !total_get, (G from Hf); reflexivity).
  assert (E2 : free_of s' from = free_of s1 from) by (rewrite !free_get, (G from Hf); reflexivity).
  assert (G2 : bget s' to = add_free n (bget s to)).
  { rewrite (put_get _ _ _ _ _ _ P2), N.eqb_refl. cbn [add_free ba_free ba_res]. destruct (N.ltb_spec (ba_free (bget s to) + n) ED); [lia|reflexivity]. }
  rewrite !E1, E2. split_and!.
  - exact A.
  - intros Hq. apply B. exact (Hk Hq).
  - exact C.
  - exact (D Hn Hfr).
  - rewrite !free_get, G2. reflexivity.
  - rewrite !aside_get, G2. reflexivity.
  - intros b Hb Hb2. rewrite !total_get, (G b Hb2), (put_get _ _ _ _ _ _ P1). destruct (N.eqb_spec b from); [congruence|reflexivity].
  - intros Hb. destruct (p_here _ _ _ _ _ P2) as [(_ & Ei & _)|(_ & _ & Hx & _)]; [|cbn in Hx; lia]. rewrite Ei. rewrite total_get in Hb. rewrite (total_get s from), (total_get s1 from), (put_get _ _ _ _ _ _ P1), N.eqb_refl.
    destruct (p_here _ _ _ _ _ P1) as [(Ea & Ei1 & Hs)|(Ea & Ei1 & Hlt & Hr)]; rewrite Ei1; cbn [sub_free ba_free ba_res] in *.
    + destruct (N.ltb_spec (ba_free (bget s from) - n) ED); [destruct (N.eqb_spec (ba_res (bget s from)) 0); [lia|]|]; cbn [andb sub_free ba_free ba_res]; lia.
    + destruct (N.ltb_spec (ba_free (bget s from) - n) ED); [|lia]. rewrite Hr. cbn. lia.
Qed.

Lemma release_pays o a n s s' b : tidy s -> brelease o a n s = Some s' -> total_of s' b < total_of s b -> a = b /\ total_of s' b = 0 /\ total_of s b - total_of s' b < ED.
Proof.
  intros T H L. apply bput_does in H. rewrite (total_get s b) in *. destruct (put_total _ _ _ _ _ b H) as [[_ Ht]|[(-> & Ht & _)|(-> & Ht & Hl & Hr & _)]]; rewrite Ht in *; cbn [ba_free ba_res] in *.
  - rewrite total_get in L. lia.
  - lia.
  - split_and!; [reflexivity|reflexivity|lia].
Qed.
Lemma native_only_so l x a : let s := b_end l in total_of (bstep_run s x) a < total_of s a -> may_cost s x a (total_of s a - total_of (bstep_run s x) a).
Proof.
  cbv zeta. pose proof (tidy_end l) as T. set (s := b_end l) in *. clearbody s. intros L.
  unfold may_cost. cbv zeta. unfold costs. unfold bstep_run in *. destruct (bstep_try s x) as [s'|] eqn:H; [|change (default s None) with s in L; lia]. change (default s (Some s')) with s' in *.
  destruct x as [o x]. unfold bstep_try in H. cbn [fst snd] in *.
  assert (Tr : forall from to n keep, btransfer o from to n keep s = Some s' -> from = a /\ a <> to /\ 0 < n).
  { intros from to n keep Hb. destruct (N.eq_dec n 0) as [->|Hn]; [destruct (btransfer_does _ _ _ _ _ _ _ Hb) as [[-> _]|(_ & Hz & _)]; lia|].
    destruct (N.eq_dec from to) as [->|Hf]; [destruct (btransfer_does _ _ _ _ _ _ _ Hb) as [[-> _]|(Hz & _)]; [lia|congruence]|].
    destruct (transfer_pays _ _ _ _ _ _ _ T Hb Hf ltac:(lia)) as (_ & _ & _ & _ & Hto & Hta & Ho & _).
    destruct (N.eq_dec a from) as [->|Ha]; [split_and!; [reflexivity|exact Hf|lia]|]. exfalso. destruct (N.eq_dec a to) as [->|Ha2]; [unfold total_of in L; lia|]. rewrite (Ho a Ha Ha2) in L. lia. }
  assert (Bu : forall b n keep, bburn o b n keep s = Some s' -> b = a).
  { intros b n keep Hb. destruct (N.eq_dec b a) as [->|Hn]; [reflexivity|exfalso]. destruct (burn_does _ _ _ _ _ _ Hb) as (_ & _ & _ & P). destruct (put_total _ _ _ _ _ a P) as [[_ Ht]|[(Hx & _)|(Hx & _)]]; [|congruence|congruence].
    rewrite Ht, total_issue in L. lia. }
  destruct x as [by_ k|b n|b n keep|b n|b n|b n|b n].
  - destruct k as [to n keep|to keep|n keep|from to n|b n|b n|n]; destruct by_ as [b'|]; try discriminate H; cbn in H.
    + destruct (Tr _ _ _ _ H) as (-> & Hf & Hn). destruct (transfer_pays _ _ _ _ _ _ _ T H Hf Hn) as (A & B & _). split_and!; [reflexivity|exact Hf|exact A|intros Hk; exact (proj1 (B Hk))].
    + destruct (Tr _ _ _ _ H) as (-> & Hf & Hn). destruct (transfer_pays _ _ _ _ _ _ _ T H Hf Hn) as (A & B & _). split_and!; [reflexivity|exact Hf|intros Hk; exact (proj2 (B Hk))].
    + pose proof (Bu _ _ _ H) as ->. destruct (burn_pays _ _ _ _ _ _ T H) as (A & B & _). split_and!; [reflexivity|exact A|]. intros Hk. destruct (N.eq_dec n 0) as [->|Hn]; [|exact (proj1 (B ltac:(lia) Hk))].
      destruct A as [A|(A1 & A2 & A3)]; [exact A|]. exfalso. destruct (burn_does _ _ _ _ _ _ H) as (_ & _ & _ & P).
      destruct (put_total _ _ _ _ _ a P) as [[Hx _]|[(_ & Ht & _)|(_ & Ht & Hl & Hr & _)]]; [congruence| |]; rewrite total_get in *; cbn [sub_free ba_free ba_res] in *; [lia|].
      destruct (tidy_get s a T Hr); lia.
    + destruct (Tr _ _ _ _ H) as (-> & Hf & Hn). destruct (transfer_pays _ _ _ _ _ _ _ T H Hf Hn) as (A & B & _). split_and!; [reflexivity|exact Hf|exact A].
    + exact (release_pays _ _ _ _ _ _ T H L).
    + apply bput_does in H. destruct (put_total _ _ _ _ _ a H) as [[_ Ht]|[(-> & _)|(-> & _)]]; [|reflexivity|reflexivity]. rewrite Ht, total_issue in L. lia.
    + injection H as <-. rewrite total_issue in L. lia.
  - destruct ((0 <? n) && can_deposit b n s && (b_issued s + n <=? u128_max)) eqn:G; [|discriminate H]. apply bput_does in H. apply andb_true_iff in G as [G _]. apply andb_true_iff in G as [_ G]. unfold can_deposit in G. apply andb_true_iff in G as [_ G]. apply N.leb_le in G.
    rewrite (total_get s a) in L. destruct (put_total _ _ _ _ _ a H) as [[_ Ht]|[(-> & Ht & _)|(-> & Ht & Hl & _)]]; rewrite Ht in L; cbn [add_free ba_free ba_res] in *; rewrite ?total_issue, ?total_get in L; lia.
  - pose proof (Bu _ _ _ H) as ->. destruct (burn_pays _ _ _ _ _ _ T H) as (A & B & _). split_and!; [reflexivity|exact A|]. intros Hk. destruct (N.eq_dec n 0) as [->|Hn]; [|exact (proj1 (B ltac:(lia) Hk))].
    destruct A as [A|(A1 & A2 & A3)]; [exact A|]. exfalso. destruct (burn_does _ _ _ _ _ _ H) as (_ & _ & _ & P).
    destruct (put_total _ _ _ _ _ a P) as [[Hx _]|[(_ & Ht & _)|(_ & Ht & Hl & Hr & _)]]; [congruence| |]; rewrite total_get in *; cbn [sub_free ba_free ba_res] in *; [lia|].
    destruct (tidy_get s a T Hr); lia.
  - destruct (N.leb_spec (n + (if bo_elsewhere o b then 0 else ED)) (ba_free (bget s b))) as [G|G]; [|discriminate H]. apply bput_does in H. rewrite (total_get s a) in L.
    destruct (put_total _ _ _ _ _ a H) as [[_ Ht]|[(-> & Ht & _)|(-> & Ht & Hl & Hr & _)]]; rewrite Ht in L; cbn [ba_free ba_res] in *; rewrite ?total_get in L; try lia.
    assert (Hb : ba_res (bget s b) = 0) by lia. destruct (tidy_get s b T Hb); lia.
  - exact (release_pays _ _ _ _ _ _ T H L).
  - apply bput_does in H. rewrite (total_get s a) in *. destruct (put_total _ _ _ _ _ a H) as [[_ Ht]|[(-> & Ht & _)|(-> & Ht & Hl & Hr & _)]]; rewrite Ht in *; cbn [ba_free ba_res] in *; rewrite ?total_issue, ?total_get in L; [lia| |].
    + split; [reflexivity|]. left. lia.
    + split; [reflexivity|]. destruct (N.le_gt_cases (ba_free (bget s b) + ba_res (bget s b)) n); [left; lia|right; split; [reflexivity|lia]].
  - apply bput_does in H. rewrite (total_get s a) in *. destruct (put_total _ _ _ _ _ a H) as [[_ Ht]|[(-> & Ht & _)|(-> & Ht & Hl & Hr & _)]]; rewrite Ht in *; cbn [ba_free ba_res] in *; rewrite ?total_get in L; try lia.
    destruct (tidy_get s b T Hr); lia.
Qed.
Lemma native_frozen l x a : let s := b_end l in uses_free x -> total_of (bstep_run s x) a < total_of s a ->
  frozen_of s a <= total_of (bstep_run s x) a \/ (frozen_of s a < ED /\ ~ alone x a /\ total_of (bstep_run s x) a = 0).
Proof.
  cbv zeta. intros U L. pose proof (native_only_so l x a L) as M. pose proof (tidy_end l) as T. set (s := b_end l) in *. clearbody s.
  unfold bstep_run in *. destruct (bstep_try s x) as [s'|] eqn:H; [|change (default s None) with s in L; lia]. change (default s (Some s')) with s' in *.
  destruct x as [o x]. unfold bstep_try, may_cost, uses_free, alone in *. cbv zeta in M. cbn [fst snd] in *.
  assert (Fin : frozen_of s a <= total_of s' a \/ (frozen_of s a < ED /\ bo_elsewhere o a = true /\ total_of s' a = 0) -> frozen_of s a <= total_of s' a \/ (frozen_of s a < ED /\ bo_elsewhere o a <> false /\ total_of s' a = 0)).
  { intros [Hx|(H1 & H2 & H3)]; [auto|right; split_and!; [exact H1|congruence|exact H3]]. }
  assert (Tr : forall to n keep, btransfer o a to n keep s = Some s' -> a <> to -> frozen_of s a <= total_of s' a \/ (frozen_of s a < ED /\ bo_elsewhere o a = true /\ total_of s' a = 0)).
  { intros to n keep Hb Hf. destruct (N.eq_dec n 0) as [->|Hn]; [destruct (btransfer_does _ _ _ _ _ _ _ Hb) as [[-> _]|(_ & Hz & _)]; lia|]. destruct (transfer_pays _ _ _ _ _ _ _ T Hb Hf ltac:(lia)) as (_ & _ & _ & D & _). exact D. }
  assert (Bu : forall n keep, bburn o a n keep s = Some s' -> frozen_of s a <= total_of s' a \/ (frozen_of s a < ED /\ bo_elsewhere o a = true /\ total_of s' a = 0)).
  { intros n keep Hb. destruct (burn_pays _ _ _ _ _ _ T Hb) as (A & _ & _ & D). destruct (N.eq_dec n 0) as [->|Hn]; [|exact (D ltac:(lia))]. exfalso.
    destruct A as [A|(A1 & A2 & A3)]; [lia|]. destruct (burn_does _ _ _ _ _ _ Hb) as (_ & _ & _ & P).
    destruct (put_total _ _ _ _ _ a P) as [[Hx _]|[(_ & Ht & _)|(_ & Ht & Hl & Hr & _)]]; [congruence| |]; rewrite total_get in *; cbn [sub_free ba_free ba_res] in *; [lia|]. destruct (tidy_get s a T Hr); lia. }
  destruct x as [by_ k|b n|b n keep|b n|b n|b n|b n]; try contradiction U.
  - destruct k as [to n keep|to keep|n keep|from to n|b n|b n|n]; destruct by_ as [b'|]; try contradiction U; try contradiction M; try discriminate H; cbn in H; apply Fin.
    + destruct M as (-> & Hf & _). exact (Tr _ _ _ H Hf).
    + destruct M as (-> & Hf & _). exact (Tr _ _ _ H Hf).
    + destruct M as (-> & _). exact (Bu _ _ H).
    + destruct M as (-> & Hf & _). exact (Tr _ _ _ H Hf).
  - apply Fin. destruct M as (-> & _). exact (Bu _ _ H).
Qed.
Lemma native_arrives l x from to n : let s := b_end l in let s' := bstep_run s x in sends s x = Some (from, to, n) -> succeeds s x -> from <> to ->
  free_of s' to = free_of s to + n /\ aside_of s' to = aside_of s to /\ (forall b, b <> from -> b <> to -> total_of s' b = total_of s b).
Proof.
  cbv zeta. pose proof (tidy_end l) as T. set (s := b_end l) in *. clearbody s. intros Hs (s' & H) Hf. unfold bstep_run. rewrite H. change (default s (Some s')) with s'.
  assert (exists keep, btransfer (fst x) from to n keep s = Some s') as (keep & Hb).
  { destruct x as [o x]. unfold sends, bstep_try in *. cbn [fst snd] in *. destruct x as [by_ k| | | | | |]; try discriminate Hs. destruct k; destruct by_; try discriminate Hs; injection Hs as <- <- <-; cbn in H; eauto. }
  destruct (N.eq_dec n 0) as [->|Hn].
  - destruct (btransfer_does _ _ _ _ _ _ _ Hb) as [[-> _]|(_ & Hz & _)]; [|lia]. split_and!; [lia|reflexivity|reflexivity].
  - destruct (transfer_pays _ _ _ _ _ _ _ T Hb Hf ltac:(lia)) as (_ & _ & _ & _ & A & B & C & _). auto.
Qed.

(* ------------------------------------------------------------------ *)
(** * What can be used *)

Lemma keeps_alive l x a : let s := b_end l in ED <= free_of s a ->
  (exists to n, snd x = BCall (Some a) (BTransfer to n true)) \/ (exists to, snd x = BCall (Some a) (BTransferAll to true)) \/ (exists n, snd x = BCall (Some a) (BBurn n true)) ->
  ED <= free_of (bstep_run s x) a.
Proof.
  cbv zeta. pose proof (tidy_end l) as T. set (s := b_end l) in *. clearbody s. intros He Hx. unfold bstep_run. destruct (bstep_try s x) as [s'|] eqn:H; [|exact He]. change (default s (Some s')) with s'.
  assert (Tr : forall to n, btransfer (fst x) a to n true s = Some s' -> ED <= free_of s' a).
  { intros to n Hb. destruct (N.eq_dec n 0) as [->|Hn]; [destruct (btransfer_does _ _ _ _ _ _ _ Hb) as [[-> _]|(_ & Hz & _)]; [exact He|lia]|].
    destruct (N.eq_dec a to) as [->|Hf]; [destruct (btransfer_does _ _ _ _ _ _ _ Hb) as [[-> _]|(Hz & _)]; [exact He|congruence]|].
    destruct (transfer_pays _ _ _ _ _ _ _ T Hb Hf ltac:(lia)) as (_ & B & _). exact (proj2 (B eq_refl)). }
  destruct x as [o x]. unfold bstep_try in H. cbn [fst snd] in *. destruct Hx as [(to & n & ->)|[(to & ->)|(n & ->)]]; cbn in H.
  - exact (Tr _ _ H).
  - exact (Tr _ _ H).
  - destruct (N.eq_dec n 0) as [->|Hn].
    + destruct (burn_does _ _ _ _ _ _ H) as (_ & _ & _ & P). rewrite free_get in He. destruct (put_total _ _ _ _ _ a P) as [[Hq _]|[(_ & _ & Hq)|(_ & _ & Hq & _)]]; [congruence|rewrite Hq; cbn; lia|cbn in Hq; lia].
    + destruct (burn_pays _ _ _ _ _ _ T H) as (_ & B & _). exact (proj2 (B ltac:(lia) eq_refl)).
Qed.
Lemma put_some o a c s : (consumes c = true -> consumes (bget s a) = true \/ ED <= ba_free c) -> (ED <= ba_free c \/ can_die o a c = true) -> exists s', bput o a c s = Some s'.
Proof.
  intros Hc Hd. unfold bput. destruct (N.leb_spec ED (ba_free c)) as [L|L]; cbn [negb orb andb].
  - rewrite !andb_false_r. cbn. eauto.
  - destruct Hd as [Hd|Hd]; [lia|]. rewrite Hd. cbn [negb]. rewrite !andb_false_r. destruct (consumes c) eqn:E; [|rewrite andb_false_r; cbn; destruct (ba_res c =? 0); eauto].
    destruct (Hc eq_refl) as [Hq|Hq]; [|lia]. rewrite Hq. cbn. destruct (ba_res c =? 0); eauto.
Qed.
Lemma native_usable l x a to n keep : let s := b_end l in Forall (fun y => ~ sets_issuance y) l -> snd x = BCall (Some a) (BTransfer to n keep) ->
  n + ED <= free_of s a \/ (n <= free_of s a /\ keep = false /\ aside_of s a = 0 /\ frozen_of s a = 0 /\ unused x a) -> n + frozen_of s a <= total_of s a ->
  ED <= free_of s to + n -> free_of s to + n <= u128_max -> succeeds s x.
Proof.
  cbv zeta. intros F Hx Hf Hz Hd Hm. pose proof (balanced_end l F) as B. set (s := b_end l) in *. clearbody s. pose proof (sum_ge s a) as G. unfold balanced in B.
  rewrite total_get, frozen_get in *. rewrite !free_get, aside_get in *. destruct x as [o x]. unfold unused in Hf. cbn [fst snd] in *. subst x. unfold succeeds. cbn [bstep_try bcall_run fst snd]. unfold btransfer.
  destruct (N.eqb_spec n 0) as [->|Hn]; [eauto|].
  assert (D : ED <= ba_free (bget s a) - n \/ (keep = false /\ can_die o a (bget s a) = true /\ consumes (bget s a) = false)).
  { destruct Hf as [Hf|(Hf & Hk & Ha & Hfr & Hu)]; [left; lia|right]. assert (Hc : consumes (bget s a) = false) by (unfold consumes; rewrite Ha, Hfr; reflexivity). split_and!; [exact Hk| |exact Hc]. unfold can_die. rewrite Hc, Hu. apply orb_true_r. }
  assert (Hle : n <= ba_free (bget s a)) by (destruct Hf as [Hf|(Hf & _)]; lia).
  assert (R : forall k, (k = true -> keep = true) -> n <= breducible o a k s).
  { intros k Hk. unfold breducible. destruct D as [D|(Dk & Dc & _)]; [destruct (k || _); lia|]. rewrite Dc. cbn [negb]. rewrite andb_false_r, orb_false_r. destruct k; [specialize (Hk eq_refl); congruence|]. lia. }
  assert (W : can_withdraw o a n keep s = true).
  { unfold can_withdraw. rewrite (proj2 (N.leb_le n (b_issued s))) by lia. rewrite (proj2 (N.leb_le n _)) by exact Hle. rewrite (proj2 (N.leb_le n _)) by (apply R; discriminate). cbn [andb].
    apply andb_true_iff. split; [|apply N.leb_le; lia]. destruct (N.ltb_spec (ba_free (bget s a) - n) ED) as [Hlt|Hlt]; [|reflexivity]. destruct D as [D|(Dk & Dc & _)]; [lia|]. rewrite Dc, Dk. reflexivity. }
  rewrite W. assert (Dp : can_deposit to n s = true) by (unfold can_deposit; apply andb_true_iff; split; apply N.leb_le; lia). rewrite Dp. cbn [andb].
  destruct (N.eqb_spec a to) as [->|Hat]; [eauto|]. rewrite (proj2 (N.leb_le n _)) by (apply R; auto).
  destruct (put_some o a (sub_free n (bget s a)) s) as (s1 & E1).
  { intros Hc. left. exact Hc. }
  { destruct D as [D|(_ & Dc & _)]; [left; exact D|right; exact Dc]. }
  rewrite E1. apply bput_does in E1. rewrite (get_same s s1 to) by (apply (p_other _ _ _ _ _ E1); congruence).
  apply put_some; [intros _; right; exact Hd|left; exact Hd].
Qed.
(** Transfers lose dust at most. *)
Lemma native_issued l x from to n : let s := b_end l in let s' := bstep_run s x in Forall (fun y => ~ sets_issuance y) l -> sends s x = Some (from, to, n) ->
  issued s' <= issued s /\ issued s < issued s' + ED /\ (issued s' = issued s \/ total_of s' from = 0).
Proof.
  cbv zeta. pose proof (tidy_end l) as T. intros F Hs. pose proof (balanced_end l F) as B. set (s := b_end l) in *. clearbody s. pose proof ed_pos as Ep. unfold issued, bstep_run. destruct (bstep_try s x) as [s'|] eqn:H; [|change (default s None) with s; lia]. change (default s (Some s')) with s'.
  assert (exists keep, btransfer (fst x) from to n keep s = Some s') as (keep & Hb).
  { destruct x as [o x]. unfold sends, bstep_try in *. cbn [fst snd] in *. destruct x as [by_ k| | | | | |]; try discriminate Hs. destruct k; destruct by_; try discriminate Hs; injection Hs as <- <- <-; cbn in H; eauto. }
  destruct (N.eq_dec n 0) as [->|Hn]; [destruct (btransfer_does _ _ _ _ _ _ _ Hb) as [[-> _]|(_ & Hz & _)]; lia|].
  destruct (N.eq_dec from to) as [->|Hf]; [destruct (btransfer_does _ _ _ _ _ _ _ Hb) as [[-> _]|(Hz & _)]; [lia|congruence]|].
  destruct (transfer_pays _ _ _ _ _ _ _ T Hb Hf ltac:(lia)) as (A & _ & C & _ & _ & _ & _ & E). pose proof (sum_ge s from) as G. unfold balanced in B. specialize (E ltac:(lia)). cbv zeta in *.
  destruct A as [A|(A1 & A2 & A3)]; [lia|]. split_and!; [lia|lia|right; exact A1].
Qed.
(** [transfer_all]. *)
Lemma native_all l x a to keep : let s := b_end l in let s' := bstep_run s x in snd x = BCall (Some a) (BTransferAll to keep) -> succeeds s x -> a <> to ->
  frozen_of s a <= aside_of s a -> ED <= free_of s a ->
  (keep = true -> total_of s' a = aside_of s a + ED /\ free_of s' to = free_of s to + free_of s a - ED) /\
  (keep = false -> aside_of s a = 0 -> unused x a -> total_of s' a = 0 /\ free_of s' to = free_of s to + free_of s a).
Proof.
  cbv zeta. intros Hx Hs Hat Hz He. pose proof (tidy_end l) as T. pose proof ed_pos as Ep. destruct (native_arrives l x a to (breducible (fst x) a keep (b_end l)) ltac:(unfold sends; rewrite Hx; reflexivity) Hs Hat) as (A & _).
  destruct Hs as (s' & H). unfold bstep_run in *. rewrite H in *. change (default (b_end l) (Some s')) with s' in *. set (s := b_end l) in *. clearbody s.
  assert (Hb : btransfer (fst x) a to (breducible (fst x) a keep s) keep s = Some s') by (unfold bstep_try in H; rewrite Hx in H; exact H).
  rewrite A. set (n := breducible (fst x) a keep s) in *.
  assert (Hn : (keep = true -> n = free_of s a - ED) /\ (keep = false -> aside_of s a = 0 -> unused x a -> n = free_of s a)).
  { subst n. unfold breducible, unused. rewrite frozen_get, aside_get, free_get in *. split.
    - intros ->. cbn [orb]. lia.
    - intros -> Ha Hu. rewrite Ha in *. unfold can_die, consumes. rewrite Ha, Hu. rewrite (proj2 (N.eqb_eq (ba_frozen (bget s a)) 0)) by lia. cbn. rewrite orb_true_r, andb_false_r. lia. }
  destruct Hn as [Hk Hf]. split.
  - intros K. specialize (Hk K). split; [|lia]. destruct (N.eq_dec n 0) as [Hn0|Hn0].
    + rewrite Hn0 in *. destruct (btransfer_does _ _ _ _ _ _ _ Hb) as [[-> _]|(_ & Hq & _)]; [|lia]. unfold total_of. lia.
    + destruct (transfer_pays _ _ _ _ _ _ _ T Hb Hat ltac:(lia)) as (P & B & _). destruct (B K) as [B1 B2]. unfold total_of in *. lia.
  - intros K Ha Hu. specialize (Hf K Ha Hu). split; [|lia].
    destruct (transfer_pays _ _ _ _ _ _ _ T Hb Hat ltac:(lia)) as (P & _). unfold total_of in *. lia.
Qed.
Lemma native_gains l x a : let s := b_end l in total_of s a < total_of (bstep_run s x) a -> may_gain x a (total_of (bstep_run s x) a - total_of s a).
Proof.
  cbv zeta. pose proof (tidy_end l) as T. set (s := b_end l) in *. clearbody s. intros L.
  unfold may_gain. unfold bstep_run in *. destruct (bstep_try s x) as [s'|] eqn:H; [|change (default s None) with s in L; lia]. change (default s (Some s')) with s' in *.
  destruct x as [o x]. unfold bstep_try in H. cbn [fst snd] in *.
  assert (Tr : forall from to n keep, btransfer o from to n keep s = Some s' -> to = a /\ from <> a /\ total_of s' a - total_of s a = n).
  { intros from to n keep Hb. destruct (N.eq_dec n 0) as [->|Hn]; [destruct (btransfer_does _ _ _ _ _ _ _ Hb) as [[-> _]|(_ & Hz & _)]; lia|].
    destruct (N.eq_dec from to) as [->|Hf]; [destruct (btransfer_does _ _ _ _ _ _ _ Hb) as [[-> _]|(Hz & _)]; [lia|congruence]|].
    destruct (transfer_pays _ _ _ _ _ _ _ T Hb Hf ltac:(lia)) as (_ & _ & Hle & _ & Hto & Hta & Ho & _).
    destruct (N.eq_dec a from) as [->|Ha]; [lia|]. destruct (N.eq_dec a to) as [->|Ha2]; [split_and!; [reflexivity|exact Hf|unfold total_of; lia]|]. rewrite (Ho a Ha Ha2) in L. lia. }
  assert (Bu : forall b n keep, bburn o b n keep s = Some s' -> False).
  { intros b n keep Hb. destruct (burn_does _ _ _ _ _ _ Hb) as (_ & _ & _ & P). rewrite (total_get s a) in L.
    destruct (put_total _ _ _ _ _ a P) as [[_ Ht]|[(-> & Ht & _)|(-> & Ht & _)]]; rewrite Ht in L; cbn [sub_free ba_free ba_res] in L; rewrite ?total_issue, ?total_get in L; lia. }
  assert (Re : forall b n, brelease o b n s = Some s' -> False).
  { intros b n Hb. apply bput_does in Hb. rewrite (total_get s a) in L.
    destruct (put_total _ _ _ _ _ a Hb) as [[_ Ht]|[(-> & Ht & _)|(-> & Ht & _)]]; rewrite Ht in L; cbn [ba_free ba_res] in L; rewrite ?total_get in L; lia. }
  destruct x as [by_ k|b n|b n keep|b n|b n|b n|b n].
  - destruct k as [to n keep|to keep|n keep|from to n|b n|b n|n]; destruct by_ as [b'|]; try discriminate H; cbn in H.
    + exact (Tr _ _ _ _ H).
    + destruct (Tr _ _ _ _ H) as (A & B & _). auto.
    + exact (Bu _ _ _ H).
    + exact (Tr _ _ _ _ H).
    + exact (Re _ _ H).
    + apply bput_does in H. destruct (put_total _ _ _ _ _ a H) as [[_ Ht]|[(-> & _)|(-> & _)]]; [|reflexivity|reflexivity]. rewrite Ht, total_issue in L. lia.
    + injection H as <-. rewrite total_issue in L. lia.
  - destruct ((0 <? n) && can_deposit b n s && (b_issued s + n <=? u128_max)); [|discriminate H]. apply bput_does in H.
    rewrite (total_get s a) in *. destruct (put_total _ _ _ _ _ a H) as [[_ Ht]|[(-> & Ht & _)|(-> & Ht & _)]]; rewrite Ht in *; cbn [add_free ba_free ba_res] in *; rewrite ?total_issue, ?total_get in *; [lia| |lia].
    split; [reflexivity|lia].
  - exact (Bu _ _ _ H).
  - destruct (N.leb_spec (n + (if bo_elsewhere o b then 0 else ED)) (ba_free (bget s b))) as [G|G]; [|discriminate H]. apply bput_does in H. rewrite (total_get s a) in L.
    destruct (put_total _ _ _ _ _ a H) as [[_ Ht]|[(-> & Ht & _)|(-> & Ht & _)]]; rewrite Ht in L; cbn [ba_free ba_res] in *; rewrite ?total_get in L; lia.
  - exact (Re _ _ H).
  - apply bput_does in H. rewrite (total_get s a) in L. destruct (put_total _ _ _ _ _ a H) as [[_ Ht]|[(-> & Ht & _)|(-> & Ht & _)]]; rewrite Ht in L; cbn [ba_free ba_res] in *; rewrite ?total_issue, ?total_get in L; lia.
  - apply bput_does in H. rewrite (total_get s a) in L. destruct (put_total _ _ _ _ _ a H) as [[_ Ht]|[(-> & Ht & _)|(-> & Ht & _)]]; rewrite Ht in L; cbn [ba_free ba_res] in *; rewrite ?total_get in L; lia.
Qed.

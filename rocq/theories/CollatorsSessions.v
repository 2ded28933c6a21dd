(** Proofs about collators: sessions, histories, and the property lemmas. *)
From stdpp Require Import gmap sorting.
From Verif Require Import Base XcmTypes OriginTypes XcmConfigModel TimeModel CollatorsModel CollatorsSpec CollatorsProofs.
Open Scope N_scope.
Local Opaque period kick_threshold.

(* ------------------------------------------------------------------ *)
(** * Removal of idle candidates *)

(** What removals of candidates leave alone, and what they do. *)
Record thinned (s s' : collators) : Prop := Thinned {
  th_ok : kok s -> kok s';
  th_holdings : forall x, holdings s' x = holdings s x;
  th_rest : k_invulnerables s' = k_invulnerables s /\ k_desired s' = k_desired s /\ k_bond s' = k_bond s /\ k_keys s' = k_keys s /\
    k_validators s' = k_validators s /\ k_queued s' = k_queued s /\ k_authorities s' = k_authorities s /\ k_number s' = k_number s;
  th_stands : kok s -> forall x, stands s' x -> stands s x;
  th_last : kok s -> forall x, stands s' x -> k_last s' !! x = k_last s !! x;
  th_eligible : eligible s' <= eligible s
}.

Lemma thinned_refl s : thinned s s.
Proof. by constructor. Qed.
Lemma thinned_trans s1 s2 s3 : thinned s1 s2 -> thinned s2 s3 -> thinned s1 s3.
Proof.
  intros [A1 B1 C1 D1 E1 F1] [A2 B2 C2 D2 E2 F2]. constructor; [auto| | | | |lia].
  - intros x. by rewrite B2.
  - destruct C1 as (-> & -> & -> & -> & -> & -> & -> & ->) in C2. exact C2.
  - intros Hk x Hx. auto.
  - intros Hk x Hx. rewrite E2; auto.
Qed.
Lemma dropped_thinned forget who c s s' : dropped forget who c s s' -> thinned s s'.
Proof.
  intros Hd. constructor; [apply (dropped_ok _ _ _ _ _ Hd)|apply (dr_holdings _ _ _ _ _ Hd)|apply (dr_rest _ _ _ _ _ Hd)| | |].
  - intros Hk x. rewrite (dropped_stands _ _ _ _ _ x Hd Hk). tauto.
  - intros Hk x. rewrite (dropped_stands _ _ _ _ _ x Hd Hk). intros [_ Hne]. rewrite (dr_last _ _ _ _ _ Hd). destruct forget; [|done].
    by apply lookup_delete_ne.
  - rewrite (dropped_eligible _ _ _ _ _ Hd). lia.
Qed.

Definition idle (s : collators) (who : N) : Prop := default 0 (k_last s !! who) + 3600 <= k_number s.

(** One candidate's turn. *)
Lemma kick_cases s who :
  (kick s who = s /\ (stands s who -> is_invulnerable s who = false /\ (eligible s <= 1 \/ ~ idle s who))) \/
  (exists forget c, dropped forget who c s (kick s who) /\
     (is_invulnerable s who = true \/ (is_invulnerable s who = false /\ 1 < eligible s /\ idle s who))).
Proof.
  unfold kick, idle. rewrite kick_is. unfold min_eligible. destruct (is_invulnerable s who) eqn:Ei.
  - destruct (drop_candidate false who s) as [s'|] eqn:Ed.
    + right. destruct (drop_candidate_effect _ _ _ _ Ed) as [c Hd]. exists false, c. auto.
    + left. split; [done|]. intros Hs. by apply drop_candidate_none in Ed.
  - destruct (N.leb_spec (eligible s) 1) as [He|He]; cbn [orb]; [left; auto|].
    destruct (N.leb_spec 3600 (k_number s - default 0 (k_last s !! who))) as [Hl|Hl]; cbn [negb].
    + destruct (drop_candidate true who s) as [s'|] eqn:Ed.
      * right. destruct (drop_candidate_effect _ _ _ _ Ed) as [c Hd]. exists true, c. split; [done|]. right. split_and!; [done|done|lia].
      * left. split; [done|]. intros Hs. by apply drop_candidate_none in Ed.
    + left. split; [done|]. intros _. split; [done|]. right. lia.
Qed.

Lemma kick_thinned s who : thinned s (kick s who).
Proof.
  destruct (kick_cases s who) as [[-> _]|(f & c & Hd & _)]; [apply thinned_refl|by eapply dropped_thinned].
Qed.
Lemma kick_fold_thinned l s : thinned s (fold_left kick l s).
Proof.
  revert s. induction l as [|w l IH]; intros s; cbn [fold_left]; [apply thinned_refl|].
  eapply thinned_trans; [apply (kick_thinned s w)|apply IH].
Qed.

Lemma stands_dec s who : stands s who \/ ~ stands s who.
Proof. rewrite <-is_candidate_stands. destruct (is_candidate s who); [by left|by right]. Qed.

(** Nobody is removed without reason. *)
Lemma kick_reason l s who : kok s -> stands s who -> ~ stands (fold_left kick l s) who ->
  is_invulnerable s who = true \/ (1 < eligible s /\ idle s who).
Proof.
  revert s. induction l as [|w l IH]; intros s Hk Hs Hn; cbn [fold_left] in Hn; [done|].
  destruct (stands_dec (kick s w) who) as [Hs'|Hs'].
  - pose proof (kick_thinned s w) as Ht. destruct (IH _ (th_ok _ _ Ht Hk) Hs' Hn) as [Hi|[He Hi]].
    + left. unfold is_invulnerable in *. by destruct (th_rest _ _ Ht) as (<- & _).
    + right. split; [pose proof (th_eligible _ _ Ht); lia|]. unfold idle in *. rewrite (th_last _ _ Ht Hk _ Hs') in Hi.
      by destruct (th_rest _ _ Ht) as (_ & _ & _ & _ & _ & _ & _ & <-).
  - destruct (kick_cases s w) as [[He _]|(f & c & Hd & Hr)]; [by rewrite He in Hs'|].
    rewrite (dropped_stands _ _ _ _ _ who Hd Hk) in Hs'. destruct (decide (who = w)) as [->|]; [|tauto]. tauto.
Qed.

(** As long as somebody was eligible, somebody stays so. *)
Lemma kick_keeps_one l s : 1 <= eligible s -> 1 <= eligible (fold_left kick l s).
Proof.
  revert s. induction l as [|w l IH]; intros s He; cbn [fold_left]; [done|]. apply IH.
  destruct (kick_cases s w) as [[-> _]|(f & c & Hd & [Hi|(_ & Hgt & _)])]; [done| |].
  - destruct (dr_rest _ _ _ _ _ Hd) as (Hinv & _). unfold is_invulnerable in Hi. unfold eligible. rewrite Hinv.
    destruct (k_invulnerables s); [discriminate|cbn [length]; lia].
  - rewrite (dropped_eligible _ _ _ _ _ Hd) in Hgt. lia.
Qed.

(* ------------------------------------------------------------------ *)
(** * Blocks *)

(** The state in which the session may end: the block is counted and its author noted. *)
Definition noted (s : collators) (slot : N) : collators :=
  let s := with_number (k_number s + 1) s in
  match block_author s slot with Some who => with_last (<[who := k_number s]> (k_last s)) s | None => s end.

Lemma noted_same s slot : k_invulnerables (noted s slot) = k_invulnerables s /\ k_candidates (noted s slot) = k_candidates s /\
  k_desired (noted s slot) = k_desired s /\ k_bond (noted s slot) = k_bond s /\ k_keys (noted s slot) = k_keys s /\
  k_validators (noted s slot) = k_validators s /\ k_queued (noted s slot) = k_queued s /\ k_authorities (noted s slot) = k_authorities s /\
  k_free (noted s slot) = k_free s /\ k_reserved (noted s slot) = k_reserved s /\ k_number (noted s slot) = k_number s + 1.
Proof. unfold noted. destruct (block_author _ slot); by split_and!. Qed.
Lemma noted_last s slot who : k_last (noted s slot) !! who = if decide (block_author s slot = Some who) then Some (k_number s + 1) else k_last s !! who.
Proof.
  unfold noted. change (block_author (with_number (k_number s + 1) s) slot) with (block_author s slot).
  destruct (block_author s slot) as [w|]; cbn [k_last with_last with_number k_number].
  - destruct (decide (Some w = Some who)) as [[= ->]|Hne]; [by rewrite lookup_insert|]. rewrite lookup_insert_ne; [done|congruence].
  - by destruct (decide _).
Qed.
Lemma noted_ok s slot : kok s -> kok (noted s slot).
Proof. destruct (noted_same s slot) as (_ & H1 & _ & H2 & _ & _ & _ & _ & _ & H3 & _). by apply (kok_ext s). Qed.
Lemma noted_holdings s slot x : holdings (noted s slot) x = holdings s x.
Proof. unfold holdings. destruct (noted_same s slot) as (_ & _ & _ & _ & _ & _ & _ & _ & -> & -> & _). done. Qed.
Lemma noted_eligible s slot : eligible (noted s slot) = eligible s.
Proof. unfold eligible. destruct (noted_same s slot) as (-> & -> & _). done. Qed.
Lemma noted_stands s slot x : stands (noted s slot) x <-> stands s x.
Proof. unfold stands. destruct (noted_same s slot) as (_ & -> & _). done. Qed.

Lemma begin_block_noted s slot : begin_block s slot = if (k_number s + 1) mod 3600 =? 0 then rotate (noted s slot) else noted s slot.
Proof.
  unfold begin_block. fold (noted s slot). rewrite offset_is, period_is. destruct (noted_same s slot) as (_ & _ & _ & _ & _ & _ & _ & _ & _ & _ & Hn).
  change (match block_author (with_number (k_number s + 1) s) slot with
          | Some who => with_last (<[who:=k_number (with_number (k_number s + 1) s)]> (k_last (with_number (k_number s + 1) s))) (with_number (k_number s + 1) s)
          | None => with_number (k_number s + 1) s end) with (noted s slot).
  rewrite Hn, N.sub_0_r. destruct (N.leb_spec 0 (k_number s + 1)); [reflexivity|lia].
Qed.

Lemma rotate_fields s : let s' := kick_stale s in
  k_invulnerables (rotate s) = k_invulnerables s' /\ k_candidates (rotate s) = k_candidates s' /\ k_last (rotate s) = k_last s' /\
  k_desired (rotate s) = k_desired s' /\ k_bond (rotate s) = k_bond s' /\ k_keys (rotate s) = k_keys s' /\
  k_free (rotate s) = k_free s' /\ k_reserved (rotate s) = k_reserved s' /\ k_number (rotate s) = k_number s' /\
  k_validators (rotate s) = map fst (k_queued s) /\ k_queued (rotate s) = amalgamate s' (assemble s') /\
  k_authorities (rotate s) = change_authorities (k_authorities s) (map snd (k_queued s)).
Proof. by split_and!. Qed.
Lemma rotate_ok s : kok s -> kok (rotate s).
Proof.
  intros H. destruct (rotate_fields s) as (_ & H1 & _ & _ & H2 & _ & _ & H3 & _). apply (kok_ext (kick_stale s)); [done..|].
  by apply (th_ok _ _ (kick_fold_thinned _ s)).
Qed.
Lemma rotate_holdings s x : holdings (rotate s) x = holdings s x.
Proof.
  transitivity (holdings (kick_stale s) x); [|apply (th_holdings _ _ (kick_fold_thinned _ s))].
  unfold holdings. destruct (rotate_fields s) as (_ & _ & _ & _ & _ & _ & -> & -> & _). done.
Qed.

(* ------------------------------------------------------------------ *)
(** * Steps *)

Lemma step_ok s x : kok s -> kok (kstep_run s x).
Proof.
  intros H. destruct x as [e o k|slot|who n]; cbn [kstep_run].
  - destruct (kcall_run e s o k) as [s'|] eqn:E; [|done]. by destruct (call_ok _ _ _ _ _ E H).
  - rewrite begin_block_noted. pose proof (noted_ok s slot H). destruct (_ =? 0); [by apply rotate_ok|done].
  - by apply (kok_ext s).
Qed.
Lemma step_holdings s x who : kok s -> (forall n, x <> KFree who n) -> holdings (kstep_run s x) who = holdings s who.
Proof.
  intros Hk Hx. destruct x as [e o k|slot|w n]; cbn [kstep_run].
  - destruct (kcall_run e s o k) as [s'|] eqn:E; [|done]. by destruct (call_ok _ _ _ _ _ E Hk) as [_ ->].
  - rewrite begin_block_noted. destruct (_ =? 0); rewrite ?rotate_holdings; apply noted_holdings.
  - unfold holdings. cbn [with_funds k_free k_reserved]. rewrite amount_insert. destruct (N.eqb_spec w who) as [->|]; [|done].
    by destruct (Hx n).
Qed.
Lemma step_number s x : k_number (kstep_run s x) = k_number s + blocks [x].
Proof.
  destruct x as [e o k|slot|w n]; cbn [kstep_run blocks].
  - destruct (kcall_run e s o k) as [s'|] eqn:E; [|lia]. destruct (call_session _ _ _ _ _ E) as (_ & _ & _ & ->). lia.
  - rewrite begin_block_noted. destruct (noted_same s slot) as (_ & _ & _ & _ & _ & _ & _ & _ & _ & _ & Hn).
    destruct (_ =? 0); [|rewrite Hn; lia]. destruct (rotate_fields (noted s slot)) as (_ & _ & _ & _ & _ & _ & _ & _ & -> & _).
    destruct (th_rest _ _ (kick_fold_thinned (map cd_who (k_candidates (noted s slot))) (noted s slot))) as (_ & _ & _ & _ & _ & _ & _ & H).
    unfold kick_stale. rewrite H, Hn. lia.
  - cbn. lia.
Qed.

Lemma krun_app s l1 l2 : krun s (l1 ++ l2) = krun (krun s l1) l2.
Proof. apply fold_left_app. Qed.
Lemma krun_cons s x l : krun s (x :: l) = krun (kstep_run s x) l.
Proof. reflexivity. Qed.
Lemma blocks_app l1 l2 : blocks (l1 ++ l2) = blocks l1 + blocks l2.
Proof. induction l1 as [|[] l1 IH]; cbn [app blocks]; rewrite ?IH; lia. Qed.
Lemma blocks_cons x l : blocks (x :: l) = blocks [x] + blocks l.
Proof. apply (blocks_app [x] l). Qed.
Lemma krun_number s l : k_number (krun s l) = k_number s + blocks l.
Proof.
  revert s. induction l as [|x l IH]; intros s; [cbn; lia|]. rewrite krun_cons, IH, step_number, (blocks_cons x l). lia.
Qed.
Lemma krun_ok s l : kok s -> kok (krun s l).
Proof. revert s. induction l as [|x l IH]; intros s H; [done|]. rewrite krun_cons. apply IH. by apply step_ok. Qed.

(** Between sessions nobody's turn changes. *)
Lemma step_session s x : (forall slot, x = KBlock slot -> (k_number s + 1) mod 3600 <> 0) ->
  k_validators (kstep_run s x) = k_validators s /\ k_queued (kstep_run s x) = k_queued s /\ k_authorities (kstep_run s x) = k_authorities s.
Proof.
  intros Hx. destruct x as [e o k|slot|w n]; cbn [kstep_run].
  - destruct (kcall_run e s o k) as [s'|] eqn:E; [|done]. destruct (call_session _ _ _ _ _ E) as (A & B & C & _). done.
  - rewrite begin_block_noted. specialize (Hx slot eq_refl). destruct (N.eqb_spec ((k_number s + 1) mod 3600) 0); [done|].
    destruct (noted_same s slot) as (_ & _ & _ & _ & _ & A & B & C & _). done.
  - done.
Qed.

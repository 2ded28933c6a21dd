(** Tallies against recorded votes, along histories. *)
From stdpp Require Import gmap.
From Verif Require Import Base XcmTypes OriginTypes AccountsModel CommunitiesModel CommunitiesSpec CommunitiesProofs.
Open Scope N_scope.

(** What a vote call does, as the two moves it is made of. *)
Definition vote_moves (e : cenv) (s : cstate) (who m p : N) (v : vote) (s' : cstate) : Prop :=
  exists g t s1,
    check_membership s who m = Some g /\ 0 < vote_weight v /\ vote_fits v (method_of s g) /\
    ((c_votes s !! (p, m) = None /\ s1 = s) \/
     (exists t0 v0 w0, c_votes s !! (p, m) = Some (v0, w0) /\ c_polls s !! p = Some (Ongoing t0 g) /\
        s1 = vote_removed s g m p t0 v0 w0 (method_of s g))) /\
    c_polls s1 !! p = Some (Ongoing t g) /\
    add_lock e (set_votes (<[(p, m) := (v, who)]> (c_votes s1)) s1) who p v =
      COk (lock_added (set_votes (<[(p, m) := (v, who)]> (c_votes s1)) s1) who p v) /\
    s' = vote_recorded s1 g who m p t v.
Definition remove_moves (s : cstate) (who m p : N) (s' : cstate) : Prop :=
  exists g t v voter, check_membership s who m = Some g /\
    c_polls s !! p = Some (Ongoing t g) /\ c_votes s !! (p, m) = Some (v, voter) /\
    s' = vote_removed s g m p t v voter (method_of s g).
Definition unlock_moves (s : cstate) (who p : N) (s' : cstate) : Prop :=
  exists v, c_locks s !! (who, p) = Some v /\ (forall t g, c_polls s !! p <> Some (Ongoing t g)) /\ s' = lock_removed s who p v.

Inductive step_kind (s : cstate) (x : cstep) (s' : cstate) : Prop :=
| SKSame : same_voting_state s s' -> step_kind s x s'
| SKVote e who m p v : x = StCall e (OSigned who) (CVote m p v) -> vote_moves e s who m p v s' -> step_kind s x s'
| SKRemove e who m p : x = StCall e (OSigned who) (CRemoveVote m p) -> remove_moves s who m p s' -> step_kind s x s'
| SKUnlock e who p : x = StCall e (OSigned who) (CUnlock p) -> unlock_moves s who p s' -> step_kind s x s'
| SKOpen p g : c_polls s !! p = None -> s' = set_polls (<[p := Ongoing empty_tally g]> (c_polls s)) s -> step_kind s x s'
| SKEnd p y : c_polls s !! p = Some y -> s' = set_polls (<[p := Completed]> (c_polls s)) s -> step_kind s x s'.

Lemma register_same c e s admin id d s' :
  register c e s admin id d = COk s' -> same_voting_state s s' /\ c_method s' = c_method s /\ c_members s' = c_members s.
Proof.
  unfold register. intros H. cinv H. injection H as <-.
  assert (same_voting_state s a1 /\ c_method a1 = c_method s /\ c_members a1 = c_members s) as (Hs & E1 & E2).
  { destruct d as [[[n f] t]|]; [|injection H2 as <-; done].
    unfold transfer in H2. cinv H2. injection H2 as <-. done. }
  destruct Hs as (? & ? & ? & ?). split_and!; try done.
Qed.

Lemma register_assets c e s admin id d s' : register c e s admin id d = COk s' -> c_assets s' = c_assets s.
Proof.
  unfold register. intros H. cinv H. injection H as <-.
  assert (c_assets a1 = c_assets s) as E1; [|done].
  destruct d as [[[n f] t]|]; [|injection H2 as <-; done].
  unfold transfer in H2. cinv H2. injection H2 as <-. done.
Qed.

Lemma step_kind_of c s x : step_kind s x (cstep_run c s x).
Proof.
  destruct x as [e o k|e admin id d|p g|p|id st|m y|a n|a y]; cbn.
  - unfold cdispatch. destruct (ccall_run c e s o k) as [[s' evs]|er] eqn:E; [|by apply SKSame].
    destruct k; cbn in E.
    + unfold call_create in E. cinv E. injection E as <- <-. apply SKSame. by apply register_same in H0 as [? _].
    + unfold call_set_admin in E. cinv E. injection E as <- <-. by apply SKSame.
    + unfold call_add_member in E. cinv E. injection E as <- <-. unfold assign in H2. cinv H2. injection H2 as <-. by apply SKSame.
    + unfold call_remove_member in E. cinv E. injection E as <- <-. unfold release in H2. cinv H2. injection H2 as <-. by apply SKSame.
    + unfold call_promote in E. cinv E. injection E as <- <-. unfold set_rank in H1. cinv H1. injection H1 as <-. by apply SKSame.
    + unfold call_demote in E. cinv E. injection E as <- <-. unfold set_rank in H1. cinv H1. injection H1 as <-. by apply SKSame.
    + apply call_set_method_ok in E as (A & w & _ & -> & _). by apply SKSame.
    + apply call_vote_ok in E as (who & g & t & s1 & -> & Hc & Hw & Hf & -> & Hs1 & Hp & Hl & ->).
      eapply SKVote; [done|]. unfold vote_moves. eauto 15.
    + apply call_remove_vote_ok in E as (who & g & t & v & voter & -> & Hc & -> & Hp & Hv & ->).
      eapply SKRemove; [done|]. unfold remove_moves. eauto 15.
    + apply call_unlock_ok in E as (who & v & -> & -> & Hl & Hp & ->). eapply SKUnlock; [done|]. unfold unlock_moves. eauto.
  - destruct (register c e s admin id d) eqn:E; [|by apply SKSame]. apply SKSame. by apply register_same in E as [? _].
  - destruct (c_polls s !! p) eqn:E; [by apply SKSame | by eapply SKOpen].
  - destruct (c_polls s !! p) eqn:E; [by eapply SKEnd | by apply SKSame].
  - apply SKSame. unfold force_state. by destruct (c_info s !! id).
  - by apply SKSame.
  - by apply SKSame.
  - by apply SKSame.
Qed.

(* ------------------------------------------------------------------ *)
(** * Votes are only recorded for polls that exist *)

Definition votes_known (s : cstate) : Prop := forall p m x, c_votes s !! (p, m) = Some x -> c_polls s !! p <> None.

Lemma votes_known_step c s x : votes_known s -> votes_known (cstep_run c s x).
Proof.
  intros HK. destruct (step_kind_of c s x) as [Hs|e who m p v _ Hv|e who m p _ Hv|e who p _ Hv|p g Hp ->|p y Hp ->].
  - destruct Hs as (E1 & _ & _ & E4). unfold votes_known. rewrite E1, E4. exact HK.
  - destruct Hv as (g & t & s1 & _ & _ & _ & Hs1 & Hp & _ & ->).
    assert (votes_known s1) as HK1.
    { destruct Hs1 as [[_ ->]|(t0 & v0 & w0 & Hv0 & Hp0 & ->)]; [done|].
      destruct (vote_removed_fields s g m p t0 v0 w0 (method_of s g)) as (_ & EV & EP & _).
      intros q m' y Hy. rewrite EV in Hy. rewrite EP. apply lookup_delete_Some in Hy as [_ Hy].
      destruct (decide (q = p)) as [->|]; [by rewrite lookup_insert|]. rewrite lookup_insert_ne by done. by eapply HK. }
    destruct (vote_recorded_fields s1 g who m p t v) as (_ & EV & EP & _).
    intros q m' y Hy. rewrite EV in Hy. rewrite EP.
    destruct (decide (q = p)) as [->|]; [by rewrite lookup_insert|]. rewrite lookup_insert_ne by done.
    apply lookup_insert_Some in Hy as [[[= -> ->] _]|[_ Hy]]; [done|]. by eapply HK1.
  - destruct Hv as (g & t & v & voter & _ & Hp & Hv & ->).
    destruct (vote_removed_fields s g m p t v voter (method_of s g)) as (_ & EV & EP & _).
    intros q m' y Hy. rewrite EV in Hy. rewrite EP. apply lookup_delete_Some in Hy as [_ Hy].
    destruct (decide (q = p)) as [->|]; [by rewrite lookup_insert|]. rewrite lookup_insert_ne by done. by eapply HK.
  - destruct Hv as (v & _ & _ & ->). destruct (lock_removed_fields s who p v) as (_ & _ & _ & E4 & E5 & _).
    unfold votes_known. rewrite E4, E5. exact HK.
  - intros q m' y Hy. cbn in *. destruct (decide (q = p)) as [->|]; [by rewrite lookup_insert|].
    rewrite lookup_insert_ne by done. by eapply HK.
  - intros q m' y' Hy. cbn in *. destruct (decide (q = p)) as [->|]; [by rewrite lookup_insert|].
    rewrite lookup_insert_ne by done. by eapply HK.
Qed.
Lemma votes_known_empty : votes_known c_empty.
Proof. intros p m x H. cbn in H. by rewrite lookup_empty in H. Qed.

(* ------------------------------------------------------------------ *)
(** * Tallies *)

Lemma same_registry_factor s s' g m : same_registry s s' -> factor s' g m = factor s g m.
Proof. intros (_ & _ & E1 & E2 & _). unfold factor. by rewrite E1, E2. Qed.
Lemma same_registry_method s s' g : same_registry s s' -> method_of s' g = method_of s g.
Proof. intros (_ & _ & E1 & _). unfold method_of. by rewrite E1. Qed.

Lemma product_weight k v : k * put_in v <= u32_max -> wrap32 (k * vote_weight v) = k * put_in v.
Proof.
  intros H. destruct (N.eq_dec k 0) as [->|Hk]; [done|].
  assert (put_in v <= u32_max) by nia. rewrite weight_put_in by done.
  unfold wrap32, u32_max in *. rewrite N.mod_small by lia. done.
Qed.

(** One aspect of a tally: a number kept per poll, the sum of [f] over recorded votes. *)
Lemma sums_removed s g m p t v w dm q (f : N -> vote -> N) :
  c_votes s !! (p, m) = Some (v, w) ->
  vote_sum s q f = (if p =? q then f m v else 0) + vote_sum (vote_removed s g m p t v w dm) q f.
Proof.
  intros Hv. rewrite !vote_sum_vsum. destruct (vote_removed_fields s g m p t v w dm) as (_ & -> & _). by eapply vsum_delete.
Qed.
Lemma sums_recorded s g who m p t v q (f : N -> vote -> N) :
  c_votes s !! (p, m) = None ->
  vote_sum (vote_recorded s g who m p t v) q f = (if p =? q then f m v else 0) + vote_sum s q f.
Proof.
  intros Hv. rewrite !vote_sum_vsum. destruct (vote_recorded_fields s g who m p t v) as (_ & -> & _). by rewrite vsum_insert.
Qed.
Lemma vote_sum_ext s s' p f h :
  c_votes s' = c_votes s -> (forall m v w, c_votes s !! (p, m) = Some (v, w) -> f m v = h m v) -> vote_sum s' p f = vote_sum s p h.
Proof. intros E H. rewrite !vote_sum_vsum, E. by apply vsum_ext. Qed.

Lemma aye_sum_registry s s' p g f :
  same_registry s s' ->
  aye_sum s' p g = vote_sum s' p (fun m v => if says_aye v then factor s g m * put_in v else 0) /\
  nay_sum s' p g = vote_sum s' p (fun m v => if says_aye v then 0 else factor s g m * put_in v) /\ f = f :> N.
Proof.
  intros Hr. split_and!; [| |done]; apply vote_sum_ext; try done; intros m v w _; by rewrite (same_registry_factor s s').
Qed.

Definition all_right (s : cstate) : Prop := forall p, tally_right s p.

Lemma all_right_removed s g m p t v w :
  all_right s -> sums_fit s -> c_polls s !! p = Some (Ongoing t g) -> c_votes s !! (p, m) = Some (v, w) ->
  all_right (vote_removed s g m p t v w (method_of s g)).
Proof.
  intros HR HF Hp Hv q t' g' Hq. set (s' := vote_removed s g m p t v w (method_of s g)) in *.
  destruct (vote_removed_fields s g m p t v w (method_of s g)) as (Hr & EV & EP & _). fold s' in Hr, EV, EP.
  destruct (aye_sum_registry s s' q g' 0 Hr) as (-> & -> & _). unfold bare_sum.
  pose proof (fun f => sums_removed s g m p t v w (method_of s g) q f Hv) as HS. fold s' in HS.
  rewrite EP in Hq. apply lookup_insert_Some in Hq as [[<- [= <- <-]]|[Hne Hq]].
  - destruct (HR p t g Hp) as (Ha & Hn & Hb). destruct (HF p t g Hp) as (Fa & Fn & Fb).
    unfold aye_sum, nay_sum, bare_sum in *.
    rewrite HS, N.eqb_refl in Ha, Hn, Hb. rewrite HS, N.eqb_refl in Fa, Fn, Fb.
    rewrite factor_multiplier. cbv beta in *. rewrite (says_aye_say v) in *. unfold remove_vote_tally.
    destruct (vote_say v) eqn:Hsay; rewrite ?Hsay in *; cbn [ayes nays bare_ayes].
    + rewrite product_weight by lia. rewrite weight_put_in by lia. split_and!; lia.
    + rewrite product_weight by lia. split_and!; lia.
  - destruct (HR q t' g' Hq) as (Ha & Hn & Hb). unfold aye_sum, nay_sum, bare_sum in *.
    rewrite HS in Ha, Hn, Hb. apply N.eqb_neq in Hne. rewrite Hne in Ha, Hn, Hb. cbn in Ha, Hn, Hb. done.
Qed.

Lemma all_right_recorded s g who m p t v :
  all_right s -> sums_fit (vote_recorded s g who m p t v) -> c_polls s !! p = Some (Ongoing t g) -> c_votes s !! (p, m) = None ->
  all_right (vote_recorded s g who m p t v).
Proof.
  intros HR HF Hp Hv q t' g' Hq. set (s' := vote_recorded s g who m p t v) in *.
  destruct (vote_recorded_fields s g who m p t v) as (Hr & EV & EP & _). fold s' in Hr, EV, EP.
  specialize (HF q t' g' Hq). destruct HF as (Fa & Fn & Fb).
  destruct (aye_sum_registry s s' q g' 0 Hr) as (E1 & E2 & _). rewrite E1 in *. rewrite E2 in *. clear E1 E2. unfold bare_sum in *.
  pose proof (fun f => sums_recorded s g who m p t v q f Hv) as HS. fold s' in HS. rewrite !HS in *.
  rewrite EP in Hq. apply lookup_insert_Some in Hq as [[<- [= <- <-]]|[Hne Hq]].
  - destruct (HR p t g Hp) as (Ha & Hn & Hb). unfold aye_sum, nay_sum, bare_sum in *. rewrite N.eqb_refl in *.
    rewrite factor_multiplier. cbv beta in *. rewrite (says_aye_say v) in *. unfold add_vote.
    destruct (vote_say v) eqn:Hsay; rewrite ?Hsay in *; cbn [ayes nays bare_ayes].
    + rewrite product_weight by lia. rewrite weight_put_in by lia. unfold sat32. split_and!; lia.
    + rewrite product_weight by lia. unfold sat32. split_and!; lia.
  - destruct (HR q t' g' Hq) as (Ha & Hn & Hb). unfold aye_sum, nay_sum, bare_sum in *.
    apply N.eqb_neq in Hne. rewrite Hne in *. cbn. done.
Qed.

Definition tally_ctx (c : cconfig) (s : cstate) (x : cstep) : Prop :=
  factors_kept c s x /\ sums_fit (cstep_run c s x).

Lemma all_right_step c s x :
  votes_known s -> all_right s -> sums_fit s -> tally_ctx c s x -> all_right (cstep_run c s x).
Proof.
  intros HK HR HF [Hk HF']. pose proof (step_kind_of c s x) as HS.
  revert Hk HF'. unfold factors_kept. generalize dependent (cstep_run c s x). intros s' HS Hk HF'.
  destruct HS as [Hs|e who m p v _ Hv|e who m p _ Hv|e who p _ Hv|p g Hp ->|p y Hp ->].
  - destruct Hs as (E1 & _ & _ & E4). intros p t g Hp. rewrite E4 in Hp.
    destruct (HR p t g Hp) as (-> & -> & ->). unfold aye_sum, nay_sum, bare_sum.
    split_and!; symmetry; apply vote_sum_ext; try done; intros m v w Hv; by rewrite (Hk _ _ _ _ _ _ Hv Hp).
  - destruct Hv as (g & t & s1 & _ & _ & _ & Hs1 & Hp & _ & ->).
    destruct Hs1 as [[Hv ->]|(t0 & v0 & w0 & Hv0 & Hp0 & ->)].
    + by apply all_right_recorded.
    + apply all_right_recorded; try done; [by apply all_right_removed|].
      destruct (vote_removed_fields s g m p t0 v0 w0 (method_of s g)) as (_ & -> & _). apply lookup_delete.
  - destruct Hv as (g & t & v & voter & _ & Hp & Hv & ->). by apply all_right_removed.
  - destruct Hv as (v & _ & _ & ->). destruct (lock_removed_fields s who p v) as (_ & _ & E3 & E4 & E5 & E6 & _).
    intros q t g Hq. rewrite E5 in Hq. destruct (HR q t g Hq) as (-> & -> & ->).
    unfold aye_sum, nay_sum, bare_sum. split_and!; symmetry; apply vote_sum_ext; try done; intros m v' w _;
      unfold factor; by rewrite E3, E6.
  - intros q t g' Hq. cbn in Hq. apply lookup_insert_Some in Hq as [[<- [= <- <-]]|[Hne Hq]].
    + assert (forall m, c_votes s !! (p, m) = None) as Hn.
      { intros m. destruct (c_votes s !! (p, m)) eqn:E; [|done]. by apply HK in E. }
      unfold aye_sum, nay_sum, bare_sum. rewrite !vote_sum_vsum. cbn. rewrite !vsum_none by done. done.
    + exact (HR q t g' Hq).
  - intros q t g' Hq. cbn in Hq. apply lookup_insert_Some in Hq as [[<- [=]]|[Hne Hq]]. exact (HR q t g' Hq).
Qed.

Lemma sums_fit_empty : sums_fit c_empty.
Proof. intros p t g H. cbn in H. by rewrite lookup_empty in H. Qed.

Lemma tally_history c l :
  all_along c (tally_ctx c) c_empty l -> all_right (crun c c_empty l).
Proof.
  intros H.
  assert (votes_known (crun c c_empty l) /\ all_right (crun c c_empty l) /\ sums_fit (crun c c_empty l)) as (_ & ? & _); [|done].
  apply (history_invariant c (tally_ctx c) (fun s => votes_known s /\ all_right s /\ sums_fit s)); [| |done].
  - split_and!; [apply votes_known_empty | | apply sums_fit_empty]. intros p t g Hp. cbn in Hp. by rewrite lookup_empty in Hp.
  - intros s x (HK & HR & HF) Hx. split_and!; [by apply votes_known_step | by apply all_right_step | apply Hx].
Qed.

(* ------------------------------------------------------------------ *)
(** * The support count, whatever happens to ranks and methods *)

Definition bare_right (s : cstate) : Prop :=
  forall p t g, c_polls s !! p = Some (Ongoing t g) -> bare_ayes t = bare_sum s p.

Lemma bare_right_removed s g m p t v w dm :
  bare_right s -> bare_fits s -> c_polls s !! p = Some (Ongoing t g) -> c_votes s !! (p, m) = Some (v, w) ->
  bare_right (vote_removed s g m p t v w dm).
Proof.
  intros HR HF Hp Hv q t' g' Hq. set (s' := vote_removed s g m p t v w dm) in *.
  destruct (vote_removed_fields s g m p t v w dm) as (Hr & EV & EP & _). fold s' in Hr, EV, EP.
  unfold bare_sum. pose proof (fun f => sums_removed s g m p t v w dm q f Hv) as HS. fold s' in HS.
  rewrite EP in Hq. apply lookup_insert_Some in Hq as [[<- [= <- <-]]|[Hne Hq]].
  - pose proof (HR p t g Hp) as Hb. pose proof (HF p t g Hp) as Fb. unfold bare_sum in *.
    rewrite HS, N.eqb_refl in Hb, Fb. cbv beta in *. rewrite (says_aye_say v) in *. unfold remove_vote_tally.
    destruct (vote_say v) eqn:Hsay; rewrite ?Hsay in *; cbn [ayes nays bare_ayes]; [rewrite weight_put_in by lia|]; lia.
  - pose proof (HR q t' g' Hq) as Hb. unfold bare_sum in *.
    rewrite HS in Hb. apply N.eqb_neq in Hne. rewrite Hne in Hb. cbn in Hb. done.
Qed.
Lemma bare_right_recorded s g who m p t v :
  bare_right s -> bare_fits (vote_recorded s g who m p t v) -> c_polls s !! p = Some (Ongoing t g) -> c_votes s !! (p, m) = None ->
  bare_right (vote_recorded s g who m p t v).
Proof.
  intros HR HF Hp Hv q t' g' Hq. set (s' := vote_recorded s g who m p t v) in *.
  destruct (vote_recorded_fields s g who m p t v) as (Hr & EV & EP & _). fold s' in Hr, EV, EP.
  pose proof (HF q t' g' Hq) as Fb. unfold bare_sum in *.
  pose proof (fun f => sums_recorded s g who m p t v q f Hv) as HS. fold s' in HS. rewrite !HS in *.
  rewrite EP in Hq. apply lookup_insert_Some in Hq as [[<- [= <- <-]]|[Hne Hq]].
  - pose proof (HR p t g Hp) as Hb. unfold bare_sum in *. rewrite N.eqb_refl in *.
    cbv beta in *. rewrite (says_aye_say v) in *. unfold add_vote.
    destruct (vote_say v) eqn:Hsay; rewrite ?Hsay in *; cbn [ayes nays bare_ayes]; [rewrite weight_put_in by lia; unfold sat32|]; lia.
  - pose proof (HR q t' g' Hq) as Hb. unfold bare_sum in *. apply N.eqb_neq in Hne. rewrite Hne in *. cbn. done.
Qed.

Lemma bare_right_step c s x :
  votes_known s -> bare_right s -> bare_fits s -> bare_fits (cstep_run c s x) -> bare_right (cstep_run c s x).
Proof.
  intros HK HR HF HF'. pose proof (step_kind_of c s x) as HS.
  generalize dependent (cstep_run c s x). intros s' HF' HS.
  destruct HS as [Hs|e who m p v _ Hv|e who m p _ Hv|e who p _ Hv|p g Hp ->|p y Hp ->].
  - destruct Hs as (E1 & _ & _ & E4). intros p t g Hp. rewrite E4 in Hp.
    rewrite (HR p t g Hp). unfold bare_sum. symmetry. by apply vote_sum_ext.
  - destruct Hv as (g & t & s1 & _ & _ & _ & Hs1 & Hp & _ & ->).
    destruct Hs1 as [[Hv ->]|(t0 & v0 & w0 & Hv0 & Hp0 & ->)].
    + by apply bare_right_recorded.
    + apply bare_right_recorded; try done; [by apply bare_right_removed|].
      destruct (vote_removed_fields s g m p t0 v0 w0 (method_of s g)) as (_ & -> & _). apply lookup_delete.
  - destruct Hv as (g & t & v & voter & _ & Hp & Hv & ->). by apply bare_right_removed.
  - destruct Hv as (v & _ & _ & ->). destruct (lock_removed_fields s who p v) as (_ & _ & E3 & E4 & E5 & E6 & _).
    intros q t g Hq. rewrite E5 in Hq. rewrite (HR q t g Hq). unfold bare_sum. symmetry. by apply vote_sum_ext.
  - intros q t g' Hq. cbn in Hq. apply lookup_insert_Some in Hq as [[<- [= <- <-]]|[Hne Hq]].
    + assert (forall m, c_votes s !! (p, m) = None) as Hn.
      { intros m. destruct (c_votes s !! (p, m)) eqn:E; [|done]. by apply HK in E. }
      unfold bare_sum. rewrite vote_sum_vsum. cbn. by rewrite vsum_none by done.
    + exact (HR q t g' Hq).
  - intros q t g' Hq. cbn in Hq. apply lookup_insert_Some in Hq as [[<- [=]]|[Hne Hq]]. exact (HR q t g' Hq).
Qed.

Lemma bare_history c l :
  all_along c (fun s x => bare_fits (cstep_run c s x)) c_empty l -> bare_right (crun c c_empty l).
Proof.
  intros H.
  assert (votes_known (crun c c_empty l) /\ bare_right (crun c c_empty l) /\ bare_fits (crun c c_empty l)) as (_ & ? & _); [|done].
  apply (history_invariant c (fun s x => bare_fits (cstep_run c s x)) (fun s => votes_known s /\ bare_right s /\ bare_fits s)); [| |done].
  - split_and!; [apply votes_known_empty | |]; intros p t g Hp; cbn in Hp; by rewrite lookup_empty in Hp.
  - intros s x (HK & HR & HF) Hx. split_and!; [by apply votes_known_step | by apply bare_right_step | apply Hx].
Qed.

(* ------------------------------------------------------------------ *)
(** * Re-voting *)

Lemma add_vote_with t k v :
  tally_within (tally_plus t k v) -> add_vote t (vote_say v) (wrap32 (k * vote_weight v)) (vote_weight v) = tally_plus t k v.
Proof.
  unfold tally_within, tally_plus, add_vote. rewrite says_aye_say. destruct (vote_say v); cbn; intros (Ha & Hn & Hb).
  - rewrite product_weight by lia. rewrite weight_put_in by lia. unfold sat32. f_equal; lia.
  - rewrite product_weight by lia. unfold sat32. f_equal; lia.
Qed.
Lemma remove_vote_with t k v :
  tally_within (tally_plus t k v) ->
  remove_vote_tally (tally_plus t k v) (vote_say v) (wrap32 (k * vote_weight v)) (vote_weight v) = t.
Proof.
  unfold tally_within, tally_plus, remove_vote_tally. rewrite says_aye_say. destruct t, (vote_say v); cbn; intros (Ha & Hn & Hb).
  - rewrite product_weight by lia. rewrite weight_put_in by lia. f_equal; lia.
  - rewrite product_weight by lia. f_equal; lia.
Qed.

(** One successful vote by membership [m] in poll [p], where its earlier vote is on top of [t]. *)
Lemma vote_once e s who m p v s' evs t g :
  call_vote e s (OSigned who) m p v = COk (s', evs) ->
  ((c_votes s !! (p, m) = None /\ c_polls s !! p = Some (Ongoing t g)) \/
   exists v0 w0, c_votes s !! (p, m) = Some (v0, w0) /\ tally_within (tally_plus t (factor s g m) v0) /\
     c_polls s !! p = Some (Ongoing (tally_plus t (factor s g m) v0) g)) ->
  tally_within (tally_plus t (factor s g m) v) ->
  c_polls s' = <[p := Ongoing (tally_plus t (factor s g m) v) g]> (c_polls s) /\
  c_votes s' = <[(p, m) := (v, who)]> (c_votes s) /\ same_registry s s'.
Proof.
  intros H Hs Hf. apply call_vote_ok in H as (who' & g' & t' & s1 & [= <-] & Hc & Hw & Hfit & -> & Hs1 & Hp & _ & ->).
  destruct Hs1 as [[Hv ->]|(t0 & v0 & w0 & Hv & Hp0 & ->)].
  - destruct Hs as [[_ Hp']|(v0 & w0 & Hv0 & _)]; [|congruence].
    rewrite Hp in Hp'. injection Hp' as -> ->.
    destruct (vote_recorded_fields s g who m p t v) as (Hr & EV & EP & _).
    rewrite EV, EP. rewrite factor_multiplier, add_vote_with by done. done.
  - destruct Hs as [[Hn _]|(v0' & w0' & Hv' & Hf0 & Hp')]; [congruence|].
    rewrite Hv in Hv'. injection Hv' as <- <-. rewrite Hp0 in Hp'. injection Hp' as -> ->.
    set (s1 := vote_removed _ _ _ _ _ _ _ _) in *.
    destruct (vote_removed_fields s g m p (tally_plus t (factor s g m) v0) v0 w0 (method_of s g)) as (Hr1 & EV1 & EP1 & _).
    fold s1 in Hr1, EV1, EP1.
    rewrite factor_multiplier, remove_vote_with in EP1 by done.
    rewrite EP1, lookup_insert in Hp. injection Hp as <-.
    destruct (vote_recorded_fields s1 g who m p t v) as (Hr & EV & EP & _).
    rewrite EV, EP, EV1, EP1. rewrite factor_multiplier, (same_registry_factor _ _ _ _ Hr1), add_vote_with by done.
    rewrite insert_insert, insert_delete_insert. split_and!; try done.
    unfold same_registry in *. intuition congruence.
Qed.

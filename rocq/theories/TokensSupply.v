(** Proofs on the supply of assets and who decides about them (C185, C186). *)
From stdpp Require Import gmap.
From Coq Require Import Lia.
From Verif Require Import Base RuntimeModel TokensModel TokensSpec Tokens TokensApproved.
Open Scope N_scope.

(* ------------------------------------------------------------------ *)
(** * What happens to an asset *)

Inductive asset_change (s : tst) (x : tstep) (id : N) : option tasset -> Prop :=
| ac_create ok b min : x = TCall ok None (KForceCreate id b min) -> t_assets s !! id = None -> 0 < min -> asset_change s x id (Some (TAsset b b b b TLive min 0))
| ac_force ok b i m f min (fr : bool) d : x = TCall ok None (KForceStatus id b i m f min fr) -> t_assets s !! id = Some d -> is_destroying d = false ->
    asset_change s x id (Some (TAsset b i m f (if fr then TFrozen else TLive) min (ta_supply d)))
| ac_owner ok a b d : x = TCall ok (Some a) (KTransferOwnership id b) -> t_assets s !! id = Some d -> is_live d = true -> a = ta_owner d ->
    asset_change s x id (Some (TAsset b (ta_issuer d) (ta_admin d) (ta_freezer d) (ta_status d) (ta_min d) (ta_supply d)))
| ac_team ok a i m f d : x = TCall ok (Some a) (KSetTeam id i m f) -> t_assets s !! id = Some d -> is_live d = true -> a = ta_owner d ->
    asset_change s x id (Some (TAsset (ta_owner d) i m f (ta_status d) (ta_min d) (ta_supply d)))
| ac_freeze ok a d : x = TCall ok (Some a) (KFreezeAsset id) -> t_assets s !! id = Some d -> is_live d = true -> a = ta_freezer d -> asset_change s x id (Some (set_status d TFrozen))
| ac_thaw ok a d : x = TCall ok (Some a) (KThawAsset id) -> t_assets s !! id = Some d -> ta_status d = TFrozen -> a = ta_admin d -> asset_change s x id (Some (set_status d TLive))
| ac_start ok o d : x = TCall ok o (KStartDestroy id) -> t_assets s !! id = Some d -> (o = None \/ o = Some (ta_owner d)) -> asset_change s x id (Some (set_status d TDestroying))
| ac_finish ok a d : x = TCall ok (Some a) (KFinishDestroy id) -> t_assets s !! id = Some d -> is_destroying d = true ->
    (forall b, t_accounts s !! (id, b) = None) -> (forall b e, t_approvals s !! (id, b, e) = None) -> asset_change s x id None
| ac_mint ok a to n d : x = TCall ok (Some a) (KMint id to n) -> t_assets s !! id = Some d -> is_live d = true -> a = ta_issuer d -> asset_change s x id (Some (set_supply d (ta_supply d + n)))
| ac_burn ok a from n m d : x = TCall ok (Some a) (KBurn id from n) -> t_assets s !! id = Some d -> is_live d = true -> a = ta_admin d -> asset_change s x id (Some (set_supply d (ta_supply d - m)))
| ac_give a n d : x = TGive id a n -> t_assets s !! id = Some d -> asset_change s x id (Some (set_supply d (ta_supply d + n)))
| ac_take a n m d : x = TTake id a n -> t_assets s !! id = Some d -> asset_change s x id (Some (set_supply d (ta_supply d - m))).

Lemma put_change s s' x id0 d' : t_assets s' = <[id0 := d']> (t_assets s) -> asset_change s x id0 (Some d') ->
  forall id, t_assets s' !! id = t_assets s !! id \/ asset_change s x id (t_assets s' !! id).
Proof.
  intros E A id. rewrite E. destruct (decide (id = id0)) as [->|Hn]; [right; rewrite lookup_insert; exact A|left; rewrite lookup_insert_ne by congruence; reflexivity].
Qed.

Lemma asset_effects s x s' : tstep_try s x = Some s' -> forall id, t_assets s' !! id = t_assets s !! id \/ asset_change s x id (t_assets s' !! id).
Proof.
  intros E. destruct x as [ok o k|id' b n|id' b n|id' b n|b n|b n]; cbn [tstep_try] in E.
  - unfold tcall_run in E.
    destruct k; destruct o as [b|]; try discriminate E;
      try (destruct (t_assets s !! id) as [d|] eqn:Ed; [|discriminate E]);
      try (apply if_some in E as [B E]).
    + destruct (transfer_keeps _ _ _ _ _ _ _ _ _ E) as (_ & H & _). intros i. left. rewrite H. reflexivity.
    + destruct (transfer_keeps _ _ _ _ _ _ _ _ _ E) as (_ & H & _). intros i. left. rewrite H. reflexivity.
    + destruct (n =? 0); [injection E as <-; auto|]. apply if_some in E as [B2 E]. injection E as <-. apply andb_true_iff in B2 as [B2 _]. apply andb_true_iff in B2 as [B2 _]. apply N.eqb_eq in B2.
      eapply put_change; [reflexivity|]. eapply ac_mint; eauto.
    + destruct (n =? 0); [injection E as <-; auto|]. destruct (prep_debit d id from n false true s) as [m|]; [|discriminate E]. apply if_some in E as [B2 E]. injection E as <-. apply N.eqb_eq in B2.
      destruct (debit_keeps d id from m (put_asset id (set_supply d (ta_supply d - m)) s)) as (_ & H). eapply put_change; [exact H|]. eapply ac_burn; eauto.
    + destruct (approve_keeps _ _ _ _ _ _ _ E) as (H & _). intros i. left. rewrite H. reflexivity.
    + destruct (approved_does _ _ _ _ _ _ _ _ E) as (p & s1 & _ & _ & Et & Hs). destruct (transfer_keeps _ _ _ _ _ _ _ _ _ Et) as (_ & H & _).
      intros i. left. destruct Hs as [[_ ->]|[_ ->]]; cbn; rewrite H; reflexivity.
    + destruct (cancel_keeps _ _ _ _ _ E) as (H & _). intros i. left. rewrite H. reflexivity.
    + destruct (cancel_keeps _ _ _ _ _ E) as (H & _). intros i. left. rewrite H. reflexivity.
    + destruct (cancel_keeps _ _ _ _ _ E) as (H & _). intros i. left. rewrite H. reflexivity.
    + injection E as <-. apply andb_true_iff in B as [B1 B2]. apply N.eqb_eq in B2. eapply put_change; [reflexivity|]. eapply ac_owner; eauto.
    + injection E as <-. apply andb_true_iff in B as [B1 B2]. apply N.eqb_eq in B2. eapply put_change; [reflexivity|]. eapply ac_team; eauto.
    + destruct (close_does _ _ _ _ _ E) as (H & _). intros i. left. rewrite H. reflexivity.
    + destruct (close_does _ _ _ _ _ E) as (H & _). intros i. left. rewrite H. reflexivity.
    + destruct (close_does _ _ _ _ _ E) as (H & _). intros i. left. rewrite H. reflexivity.
    + injection E as <-. apply andb_true_iff in B as [B1 B2]. apply N.eqb_eq in B2. eapply put_change; [reflexivity|]. eapply ac_freeze; eauto.
    + injection E as <-. apply andb_true_iff in B as [B1 B2]. apply andb_true_iff in B1 as [B0 B1]. apply N.eqb_eq in B2. eapply put_change; [reflexivity|]. eapply ac_thaw; eauto.
      unfold is_live, is_destroying in *. destruct (ta_status d); [discriminate B0|reflexivity|discriminate B1].
    + destruct (t_assets s !! id) eqn:Ed; [discriminate E|]. apply if_some in E as [B E]. injection E as <-. apply N.ltb_lt in B. eapply put_change; [reflexivity|]. eapply ac_create; eauto.
    + injection E as <-. apply negb_true_iff in B. eapply put_change; [reflexivity|]. eapply ac_force; eauto.
    + injection E as <-. apply N.eqb_eq in B. eapply put_change; [reflexivity|]. eapply ac_start; eauto. right. congruence.
    + injection E as <-. eapply put_change; [reflexivity|]. eapply ac_start; eauto.
    + injection E as <-. destruct (fold_drop id l s) as (H & _). intros i. left. rewrite H. reflexivity.
    + injection E as <-. destruct (fold_approvals id l s) as (H & _). intros i. left. rewrite H. reflexivity.
    + injection E as <-. apply andb_true_iff in B as [B B3]. apply andb_true_iff in B as [B1 B2]. apply bool_decide_eq_true in B2, B3. cbn [t_assets]. intros i.
      destruct (decide (i = id)) as [->|Hn]; [|left; rewrite lookup_delete_ne by congruence; reflexivity]. right. rewrite lookup_delete. eapply ac_finish; eauto.
      * intros e. destruct (t_accounts s !! (id, e)) eqn:Ea; [|reflexivity]. exfalso. exact (B2 _ _ Ea eq_refl).
      * intros e f. destruct (t_approvals s !! (id, e, f)) eqn:Ea; [|reflexivity]. exfalso. exact (B3 _ _ Ea eq_refl).
  - destruct (t_assets s !! id') as [d|] eqn:Ed; [|discriminate E]. apply if_some in E as [_ E]. injection E as <-. eapply put_change; [reflexivity|]. eapply ac_give; eauto.
  - destruct (t_assets s !! id') as [d|] eqn:Ed; [|discriminate E]. destruct (prep_debit d id' b n false false s) as [m|]; [|discriminate E]. injection E as <-.
    destruct (debit_keeps d id' b m (put_asset id' (set_supply d (ta_supply d - m)) s)) as (_ & H). eapply put_change; [exact H|]. eapply ac_take; eauto.
  - injection E as <-. intros i. left. reflexivity.
  - injection E as <-. intros i. left. reflexivity.
  - apply if_some in E as [_ E]. injection E as <-. intros i. left. reflexivity.
Qed.

(* ------------------------------------------------------------------ *)
(** * Who decides *)

Lemma terms_by s x id : terms (tstep_run s x) id <> terms s id ->
  exists ok,
    (~ exists_asset s id /\ exists b min, 0 < min /\ x = TCall ok None (KForceCreate id b min) /\ terms (tstep_run s x) id = Some (b, b, b, b, min)) \/
    (exists_asset s id /\ exists b i m f min fr, x = TCall ok None (KForceStatus id b i m f min fr) /\ terms (tstep_run s x) id = Some (b, i, m, f, min)) \/
    (exists a o i m f min, is_owner s id a /\ in_state s id TLive /\ terms s id = Some (o, i, m, f, min) /\
      ((exists b, x = TCall ok (Some a) (KTransferOwnership id b) /\ terms (tstep_run s x) id = Some (b, i, m, f, min)) \/
       (exists i' m' f', x = TCall ok (Some a) (KSetTeam id i' m' f') /\ terms (tstep_run s x) id = Some (o, i', m', f', min)))) \/
    (exists a, x = TCall ok (Some a) (KFinishDestroy id) /\ in_state s id TDestroying /\ ~ exists_asset (tstep_run s x) id /\
      (forall b, ~ holds_account s id b) /\ (forall b d, ~ is_delegate s id b d)).
Proof.
  unfold tstep_run. destruct (tstep_try s x) as [s'|] eqn:E; [|intros H; contradiction]. change (default s (Some s')) with s'. intros Hne.
  destruct (asset_effects _ _ _ E id) as [H|H]; [unfold terms in Hne; rewrite H in Hne; contradiction|].
  unfold terms in *. remember (t_assets s' !! id) as r eqn:Er.
  destruct H as [ok b min Hx Hs Hm|ok b i m f min fr d Hx Hs Hd|ok a b d Hx Hs Hl Ha|ok a i m f d Hx Hs Hl Ha|ok a d Hx Hs Hl Ha|ok a d Hx Hs Hl Ha|ok o d Hx Hs Ho|ok a d Hx Hs Hd Hac Hap|ok a to n d Hx Hs Hl Ha|ok a from n m d Hx Hs Hl Ha|a n d Hx Hs|a n m d Hx Hs];
    try (rewrite Hs in Hne; cbn in Hne; contradiction).
  - exists ok. left. split; [unfold exists_asset; congruence|]. exists b, min. auto.
  - exists ok. right. left. split; [unfold exists_asset; congruence|]. exists b, i, m, f, min, fr. auto.
  - exists ok. right. right. left. exists a. do 5 eexists. split; [exists d; auto|]. split; [exists d; split; [exact Hs|exact (live_state d Hl)]|]. rewrite Hs. cbn. split; [reflexivity|]. left. exists b. auto.
  - exists ok. right. right. left. exists a. do 5 eexists. split; [exists d; auto|]. split; [exists d; split; [exact Hs|exact (live_state d Hl)]|]. rewrite Hs. cbn. split; [reflexivity|]. right. exists i, m, f. auto.
  - exists ok. right. right. right. exists a. split; [exact Hx|]. split; [exists d; split; [exact Hs|exact (destroying_state d Hd)]|]. split; [unfold exists_asset; congruence|].
    split; [intros b Hb; exact (Hb (Hac b))|intros b e Hb; exact (Hb (Hap b e))].
Qed.
Lemma destroyed_by s x id : in_state (tstep_run s x) id TDestroying -> ~ in_state s id TDestroying ->
  exists ok o, x = TCall ok o (KStartDestroy id) /\ (o = None \/ exists a, o = Some a /\ is_owner s id a).
Proof.
  unfold tstep_run. destruct (tstep_try s x) as [s'|] eqn:E; [|intros H Hn; contradiction]. change (default s (Some s')) with s'. intros (d' & Hd' & Hst) Hne.
  destruct (asset_effects _ _ _ E id) as [H|H]; [exfalso; apply Hne; exists d'; split; [congruence|exact Hst]|].
  rewrite Hd' in H. remember (Some d') as r eqn:Er.
  destruct H as [ok b min Hx Hs Hm|ok b i m f min fr d Hx Hs Hd|ok a b d Hx Hs Hl Ha|ok a i m f d Hx Hs Hl Ha|ok a d Hx Hs Hl Ha|ok a d Hx Hs Hl Ha|ok o d Hx Hs Ho|ok a d Hx Hs Hd Hac Hap|ok a to n d Hx Hs Hl Ha|ok a from n m d Hx Hs Hl Ha|a n d Hx Hs|a n m d Hx Hs];
    ((injection Er as <-) || discriminate Er); cbn in Hst; try discriminate Hst; try (exfalso; apply Hne; exists d; auto; fail).
  - destruct fr; discriminate Hst.
  - exists ok, o. split; [exact Hx|]. destruct Ho as [-> | ->]; [left; reflexivity|right]. exists (ta_owner d). split; [reflexivity|]. exists d. auto.
Qed.
Lemma supply_by s x id : supply (tstep_run s x) id <> supply s id ->
  (exists ok a to n, x = TCall ok (Some a) (KMint id to n) /\ is_issuer s id a /\ supply (tstep_run s x) id = supply s id + n) \/
  (exists ok a from n, x = TCall ok (Some a) (KBurn id from n) /\ is_admin s id a /\ supply (tstep_run s x) id < supply s id) \/
  (exists a n, x = TGive id a n \/ x = TTake id a n) \/
  (exists ok a, x = TCall ok (Some a) (KFinishDestroy id) /\ in_state s id TDestroying).
Proof.
  unfold tstep_run. destruct (tstep_try s x) as [s'|] eqn:E; [|intros H; contradiction]. change (default s (Some s')) with s'. intros Hne.
  destruct (asset_effects _ _ _ E id) as [H|H]; [unfold supply in Hne; rewrite H in Hne; contradiction|].
  unfold supply in *. remember (t_assets s' !! id) as r eqn:Er.
  destruct H as [ok b min Hx Hs Hm|ok b i m f min fr d Hx Hs Hd|ok a b d Hx Hs Hl Ha|ok a i m f d Hx Hs Hl Ha|ok a d Hx Hs Hl Ha|ok a d Hx Hs Hl Ha|ok o d Hx Hs Ho|ok a d Hx Hs Hd Hac Hap|ok a to n d Hx Hs Hl Ha|ok a from n m d Hx Hs Hl Ha|a n d Hx Hs|a n m d Hx Hs];
    try (rewrite Hs in Hne; cbn in Hne; contradiction).
  - right. right. right. exists ok, a. split; [exact Hx|]. exists d. split; [exact Hs|exact (destroying_state d Hd)].
  - left. exists ok, a, to, n. split; [exact Hx|]. split; [exists d; auto|]. rewrite Hs. reflexivity.
  - right. left. exists ok, a, from, n. split; [exact Hx|]. split; [exists d; auto|]. rewrite Hs in *. cbn in *. lia.
  - right. right. left. eauto.
  - right. right. left. eauto.
Qed.

(* ------------------------------------------------------------------ *)
(** * Deposits while an asset is frozen *)

Lemma appr_fold_other id l k : k.1.1 <> id -> forall s, t_approvals (fold_left (destroy_approval id) l s) !! k = t_approvals s !! k.
Proof.
  intros Hk. induction l as [|j l IH]; intros s; cbn [fold_left]; [reflexivity|]. rewrite IH. unfold destroy_approval.
  destruct (cancel id (fst j) (snd j) s) as [s'|] eqn:E; [|reflexivity]. change (default s (Some s')) with s'. unfold cancel in E. destruct (t_approvals s !! (id, fst j, snd j)); [|discriminate E]. injection E as <-.
  rewrite appr_put, bool_decide_eq_false_2; [reflexivity|]. intros ->. apply Hk. reflexivity.
Qed.
Lemma frozen_step s x id a d : in_state s id TFrozen -> of_others s id x ->
  t_approvals (tstep_run s x) !! (id, a, d) = t_approvals s !! (id, a, d) /\ in_state (tstep_run s x) id TFrozen /\ terms (tstep_run s x) id = terms s id \/ t_approvals s !! (id, a, d) = None.
Proof.
  intros (e & Ee & Es) Ho. unfold tstep_run. destruct (tstep_try s x) as [s'|] eqn:E; [|left; split_and!; try reflexivity; exists e; auto]. change (default s (Some s')) with s'.
  destruct (t_approvals s !! (id, a, d)) as [p|] eqn:Ep; [left|right; reflexivity]. split.
  - destruct (effects _ _ _ E) as [H1 _ _ _|ok i b f n -> (e' & Ee' & Es') H|ok i b f to n -> (e' & Ee' & Es') H|ok o i b f k -> (e' & Ee' & Es') Hk H|ok b i l -> (e' & Ee' & Es') ->].
    + rewrite H1. exact Ep.
    + destruct (approve_does _ _ _ _ _ _ _ H) as (_ & Hp & _). rewrite Hp, bool_decide_eq_false_2; [exact Ep|]. intros Hk. injection Hk as -> -> ->. congruence.
    + destruct (approved_does _ _ _ _ _ _ _ _ H) as (q & s1 & _ & _ & Et & Hs). destruct (transfer_keeps _ _ _ _ _ _ _ _ _ Et) as ((H1 & _) & _).
      assert (Hn : (id, a, d) <> (i, b, f)) by (intros Hk; injection Hk as -> -> ->; congruence).
      destruct Hs as [[_ ->]|[_ ->]]; rewrite appr_put, bool_decide_eq_false_2 by exact Hn; cbn [tunreserve put_native t_approvals]; rewrite H1; exact Ep.
    + assert (Hn : (id, a, d) <> (i, b, f)) by (intros Hq; injection Hq as -> -> ->; congruence). unfold cancel in H. destruct (t_approvals s !! (i, b, f)); [|discriminate H]. injection H as <-.
      rewrite appr_put, bool_decide_eq_false_2 by exact Hn. exact Ep.
    + rewrite appr_fold_other; [exact Ep|]. cbn. intros ->. congruence.
  - destruct (asset_effects _ _ _ E id) as [H|H]; [unfold terms, in_state; rewrite H; split; [exists e; auto|reflexivity]|].
    unfold terms, in_state. remember (t_assets s' !! id) as r eqn:Er.
    destruct H as [ok b min Hx Hs Hm|ok b i m f min fr e' Hx Hs Hd|ok b c e' Hx Hs Hl Ha|ok b i m f e' Hx Hs Hl Ha|ok b e' Hx Hs Hl Ha|ok b e' Hx Hs Hl Ha|ok o e' Hx Hs Hw|ok b e' Hx Hs Hd Hac Hap|ok b to n e' Hx Hs Hl Ha|ok b from n m e' Hx Hs Hl Ha|b n e' Hx Hs|b n m e' Hx Hs].
    + congruence.
    + destruct (Ho None) as (b' & Hb & _); [rewrite Hx; eexists _, _; reflexivity|discriminate Hb].
    + rewrite Ee in Hs. injection Hs as <-. unfold is_live in Hl. rewrite Es in Hl. discriminate Hl.
    + rewrite Ee in Hs. injection Hs as <-. unfold is_live in Hl. rewrite Es in Hl. discriminate Hl.
    + rewrite Ee in Hs. injection Hs as <-. unfold is_live in Hl. rewrite Es in Hl. discriminate Hl.
    + destruct (Ho (Some b)) as (b' & Hb & _ & Hn); [rewrite Hx; eexists _, _; reflexivity|]. injection Hb as <-. exfalso. apply Hn. exists e'. auto.
    + destruct (Ho o) as (b' & Hb & Hn & _); [rewrite Hx; eexists _, _; reflexivity|]. destruct Hw as [Hw|Hw]; [congruence|]. exfalso. apply Hn. exists e'. split; [exact Hs|congruence].
    + rewrite Ee in Hs. injection Hs as <-. unfold is_destroying in Hd. rewrite Es in Hd. discriminate Hd.
    + rewrite Ee in Hs. injection Hs as <-. unfold is_live in Hl. rewrite Es in Hl. discriminate Hl.
    + rewrite Ee in Hs. injection Hs as <-. unfold is_live in Hl. rewrite Es in Hl. discriminate Hl.
    + rewrite Ee in Hs. injection Hs as <-. split; [exists (set_supply e (ta_supply e + n)); auto|rewrite Ee; reflexivity].
    + rewrite Ee in Hs. injection Hs as <-. split; [exists (set_supply e (ta_supply e - m)); auto|rewrite Ee; reflexivity].
Qed.
Lemma roles_same s s' id : terms s' id = terms s id -> (forall a, is_owner s' id a <-> is_owner s id a) /\ (forall a, is_admin s' id a <-> is_admin s id a).
Proof.
  unfold terms, is_owner, is_admin. intros H. destruct (t_assets s' !! id) as [d'|], (t_assets s !! id) as [d|]; cbn in H; try discriminate H.
  - injection H as H1 H2 H3 H4 H5. split; intros a; (split; intros (e & Ee & Ha); injection Ee as <-; eexists; (split; [reflexivity|]); congruence).
  - split; intros a; split; intros (e & Ee & _); discriminate Ee.
Qed.
Lemma frozen_run id a d : forall l s, in_state s id TFrozen -> t_approvals s !! (id, a, d) <> None -> Forall (of_others s id) l ->
  t_approvals (trun s l) !! (id, a, d) = t_approvals s !! (id, a, d).
Proof.
  induction l as [|x l IH]; intros s Hf Hp F; [reflexivity|]. apply Forall_cons in F as [F1 F2]. change (trun s (x :: l)) with (trun (tstep_run s x) l).
  destruct (frozen_step s x id a d Hf F1) as [(H1 & H2 & H3)|H]; [|contradiction]. destruct (roles_same _ _ _ H3) as [R1 R2].
  rewrite IH; [exact H1|exact H2|rewrite H1; exact Hp|]. eapply Forall_impl; [exact F2|]. intros y Hy o Ho. destruct (Hy o Ho) as (b & -> & N1 & N2). exists b. rewrite R1, R2. auto.
Qed.
Lemma stuck l l' id a d : in_state (t_end l) id TFrozen -> is_delegate (t_end l) id a d -> Forall (of_others (t_end l) id) l' ->
  is_delegate (t_end (l ++ l')) id a d /\ approval_deposit <= put_down (t_end (l ++ l')) a.
Proof.
  intros Hf Hd F. assert (H : is_delegate (t_end (l ++ l')) id a d).
  { unfold is_delegate, t_end, trun. rewrite fold_left_app. change (fold_left tstep_run l t_start) with (t_end l). fold (trun (t_end l) l'). rewrite (frozen_run id a d l' (t_end l) Hf Hd F). exact Hd. }
  split; [exact H|]. pose proof (ainv_end (l ++ l')) as I. unfold is_delegate in H. destruct (t_approvals (t_end (l ++ l')) !! (id, a, d)) as [p|] eqn:Ep; [|congruence].
  pose proof (due_le _ _ _ _ _ I Ep) as L. rewrite (proj1 I _ _ Ep) in L. exact L.
Qed.

(** There is no approval without the asset. *)
Definition rooted (s : tst) : Prop := forall id a d, t_approvals s !! (id, a, d) <> None -> t_assets s !! id <> None.
Lemma rooted_step s x s' : rooted s -> tstep_try s x = Some s' -> rooted s'.
Proof.
  intros R E id a d Hd. assert (Ha : t_assets s !! id <> None).
  { destruct (effects _ _ _ E) as [H1 _ _ _|ok i b f n -> (e' & Ee' & Es') H|ok i b f to n -> (e' & Ee' & Es') H|ok o i b f k -> (e' & Ee' & Es') Hk H|ok b i l -> (e' & Ee' & Es') ->].
    - rewrite H1 in Hd. exact (R _ _ _ Hd).
    - destruct (approve_does _ _ _ _ _ _ _ H) as (_ & Hp & _). rewrite Hp in Hd. destruct (decide ((id, a, d) = (i, b, f))) as [Hk|Hk]; [injection Hk as -> -> ->; congruence|].
      rewrite bool_decide_eq_false_2 in Hd by exact Hk. exact (R _ _ _ Hd).
    - destruct (decide (id = i)) as [->|Hi]; [congruence|]. destruct (approved_does _ _ _ _ _ _ _ _ H) as (q & s1 & _ & _ & Et & Hs). destruct (transfer_keeps _ _ _ _ _ _ _ _ _ Et) as ((H1 & _) & _).
      apply (R id a d). rewrite <- H1. destruct Hs as [[_ ->]|[_ ->]]; rewrite appr_put, bool_decide_eq_false_2 in Hd by congruence; exact Hd.
    - destruct (decide (id = i)) as [->|Hi]; [congruence|]. unfold cancel in H. destruct (t_approvals s !! (i, b, f)); [|discriminate H]. injection H as <-.
      apply (R id a d). rewrite appr_put, bool_decide_eq_false_2 in Hd by congruence. exact Hd.
    - destruct (decide (id = i)) as [->|Hi]; [congruence|]. apply (R id a d). rewrite appr_fold_other in Hd by exact Hi. exact Hd. }
  destruct (asset_effects _ _ _ E id) as [H|H]; [congruence|]. intros Hn. rewrite Hn in H. inversion H as [| | | | | | |ok b e Hx Hs Hde Hac Hap| | | |]. subst x.
  apply Hd. destruct (effects _ _ _ E) as [H1 _ _ _|ok' i c f n Hq _ _|ok' i c f to n Hq _ _|ok' o i c f k Hq _ [[_ Hk]|[Hk _]] _|ok' c i l Hq _ _]; try discriminate Hq.
  - rewrite H1. apply Hap.
  - injection Hq as _ _ Hq. rewrite Hk in Hq. discriminate Hq.
  - injection Hq as _ _ Hq. rewrite Hk in Hq. discriminate Hq.
Qed.
Lemma rooted_end l id a d : is_delegate (t_end l) id a d -> exists_asset (t_end l) id.
Proof.
  assert (H : forall l s, rooted s -> rooted (trun s l)).
  { clear. induction l as [|x l IH]; intros s R; [exact R|]. apply (IH (tstep_run s x)). unfold tstep_run. destruct (tstep_try s x) as [s'|] eqn:E; [exact (rooted_step s x s' R E)|exact R]. }
  unfold is_delegate, exists_asset, t_end. apply (H l t_start). intros i b e He. cbn in He. rewrite lookup_empty in He. congruence.
Qed.

(* ------------------------------------------------------------------ *)
(** * Supply *)

Lemma held_put id a o s id' : held id' (put_account id a o s) + (if id =? id' then has s id a else 0) = held id' s + (if id =? id' then match o with Some c => tc_balance c | None => 0 end else 0).
Proof.
  unfold held, put_account. cbn [t_accounts]. pose proof (msum_alter (in_asset id') (t_accounts s) (id, a) o) as M.
  replace (oval (in_asset id') (id, a) (t_accounts s !! (id, a))) with (if id =? id' then has s id a else 0) in M.
  2:{ unfold has. destruct (t_accounts s !! (id, a)); unfold oval, in_asset; cbn; destruct (id =? id'); reflexivity. }
  replace (oval (in_asset id') (id, a) o) with (if id =? id' then match o with Some c => tc_balance c | None => 0 end else 0) in M; [exact M|].
  destruct o; unfold oval, in_asset; cbn; destruct (id =? id'); reflexivity.
Qed.
Lemma held_credit id a n s id' : held id' (credit id a n s) = held id' s + if id =? id' then n else 0.
Proof.
  unfold credit. pose proof (held_put id a (Some (match t_accounts s !! (id, a) with Some c => TAccount (tc_balance c + n) (tc_closed c) | None => TAccount n TOpen end)) s id') as H.
  unfold has in H. destruct (t_accounts s !! (id, a)) as [c|]; cbn [tc_balance] in H; destruct (id =? id'); lia.
Qed.
Lemma held_debit d id a n keep best s m c s' id' : debits d id a n keep best s m c -> t_accounts s' !! (id, a) = Some c ->
  held id' (debit d id a m s') + (if id =? id' then m else 0) = held id' s'.
Proof.
  intros D E. unfold debit. destruct (N.eqb_spec m 0) as [->|Hm]; [destruct (id =? id'); lia|]. rewrite E.
  pose proof (held_put id a (if tc_balance c - m <? ta_min d then None else Some (TAccount (tc_balance c - m) (tc_closed c))) s' id') as H.
  pose proof (b_max _ _ _ _ _ _ _ _ _ D) as B. unfold has in H. rewrite E in H.
  destruct (b_rest _ _ _ _ _ _ _ _ _ D) as [Hr|[Hr|Hr]]; [lia| |]; destruct (N.ltb_spec (tc_balance c - m) (ta_min d)); cbn [tc_balance] in H; destruct (id =? id'); lia.
Qed.
Lemma held_ge s id a c : t_accounts s !! (id, a) = Some c -> tc_balance c <= held id s.
Proof. intros E. pose proof (msum_ge (in_asset id) (t_accounts s) _ _ E) as G. unfold in_asset in G at 1. cbn in G. rewrite N.eqb_refl in G. exact G. Qed.
Lemma held_same s s' id : t_accounts s' = t_accounts s -> held id s' = held id s.
Proof. intros E. unfold held. rewrite E. reflexivity. Qed.
Lemma held_drop id l id' : id <> id' -> forall s, held id' (fold_left (fun s' a => put_account id a None s') l s) = held id' s.
Proof.
  intros Hn. induction l as [|a l IH]; intros s; cbn [fold_left]; [reflexivity|]. rewrite IH. pose proof (held_put id a None s id') as H. destruct (N.eqb_spec id id'); [contradiction|]. lia.
Qed.

Definition backed (s : tst) : Prop := forall id, match t_assets s !! id with Some d => is_destroying d = false -> ta_supply d = held id s | None => held id s = 0 end.
Lemma backed_same s s' : t_assets s' = t_assets s -> (forall id, held id s' = held id s) -> backed s -> backed s'.
Proof. intros E H B id. rewrite E. specialize (B id). destruct (t_assets s !! id); rewrite H; exact B. Qed.
Lemma backed_put s s' id0 d' : t_assets s' = <[id0 := d']> (t_assets s) -> (forall id, id <> id0 -> held id s' = held id s) ->
  (is_destroying d' = false -> ta_supply d' = held id0 s') -> backed s -> backed s'.
Proof.
  intros E H B0 B id. rewrite E. destruct (decide (id = id0)) as [->|Hn]; [rewrite lookup_insert; exact B0|]. rewrite lookup_insert_ne by congruence. specialize (B id).
  destruct (t_assets s !! id); rewrite (H id Hn); exact B.
Qed.
Lemma transfer_held id from to n need keep ok s s' : transfer id from to n need keep ok s = Some s' -> forall i, held i s' = held i s.
Proof.
  intros H i. destruct (transfer_does _ _ _ _ _ _ _ _ _ H) as [[_ ->]|(d & m & c & _ & _ & D & _ & _ & [[_ ->]|[Hf ->]])]; try reflexivity.
  pose proof (held_debit _ _ _ _ _ _ _ _ _ (credit id to m s) i D) as M. rewrite held_credit in M.
  assert (E : t_accounts (credit id to m s) !! (id, from) = Some c).
  { rewrite acc_credit. rewrite N.eqb_refl. destruct (N.eqb_spec to from); [congruence|]. exact (b_acc _ _ _ _ _ _ _ _ _ D). }
  specialize (M E). destruct (id =? i); lia.
Qed.
Lemma close_held id a x s s' : close id a x s = Some s' -> forall i, held i s' = held i s.
Proof.
  unfold close. intros H i. destruct (t_accounts s !! (id, a)) as [c|] eqn:E; [|discriminate H]. injection H as <-.
  pose proof (held_put id a (Some (TAccount (tc_balance c) x)) s i) as M. unfold has in M. rewrite E in M. cbn in M. destruct (id =? i); lia.
Qed.

Lemma backed_step s x s' : backed s -> tstep_try s x = Some s' -> backed s'.
Proof.
  intros Bk E. destruct x as [ok o k|id' b n|id' b n|id' b n|b n|b n]; cbn [tstep_try] in E.
  - unfold tcall_run in E.
    destruct k; destruct o as [b|]; try discriminate E;
      try (destruct (t_assets s !! id) as [d|] eqn:Ed; [|discriminate E]);
      try (apply if_some in E as [B E]); try pose proof (Bk id) as Bi; try rewrite Ed in Bi.
    + destruct (transfer_keeps _ _ _ _ _ _ _ _ _ E) as (_ & H & _). exact (backed_same _ _ H (transfer_held _ _ _ _ _ _ _ _ _ E) Bk).
    + destruct (transfer_keeps _ _ _ _ _ _ _ _ _ E) as (_ & H & _). exact (backed_same _ _ H (transfer_held _ _ _ _ _ _ _ _ _ E) Bk).
    + destruct (n =? 0); [injection E as <-; exact Bk|]. apply if_some in E as [B2 E]. injection E as <-.
      eapply backed_put; [reflexivity| | |exact Bk].
      * intros i Hi. rewrite held_credit. destruct (N.eqb_spec id i); [congruence|]. rewrite N.add_0_r. reflexivity.
      * intros Hd. rewrite held_credit, N.eqb_refl. cbn [set_supply ta_supply]. rewrite (Bi Hd). reflexivity.
    + destruct (n =? 0); [injection E as <-; exact Bk|]. destruct (prep_debit d id from n false true s) as [m|] eqn:Ep; [|discriminate E]. apply if_some in E as [B2 E]. injection E as <-.
      destruct (prep_does _ _ _ _ _ _ _ _ Ep) as (c & D). destruct (debit_keeps d id from m (put_asset id (set_supply d (ta_supply d - m)) s)) as (_ & H).
      pose proof (fun i => held_debit _ _ _ _ _ _ _ _ _ (put_asset id (set_supply d (ta_supply d - m)) s) i D (b_acc _ _ _ _ _ _ _ _ _ D)) as M.
      eapply backed_put; [exact H| | |exact Bk].
      * intros i Hi. specialize (M i). destruct (N.eqb_spec id i); [congruence|]. change (held i (put_asset _ _ s)) with (held i s) in M. lia.
      * intros Hd. specialize (M id). rewrite N.eqb_refl in M. change (held id (put_asset _ _ s)) with (held id s) in M. transitivity (held id s - m); [cbn [set_supply ta_supply]; rewrite (Bi Hd); reflexivity|lia].
    + destruct (approve_keeps _ _ _ _ _ _ _ E) as (H & H2 & _). exact (backed_same _ _ H (fun i => held_same _ _ i H2) Bk).
    + destruct (approved_does _ _ _ _ _ _ _ _ E) as (p & s1 & _ & _ & Et & Hs). destruct (transfer_keeps _ _ _ _ _ _ _ _ _ Et) as (_ & H & _).
      pose proof (transfer_held _ _ _ _ _ _ _ _ _ Et) as Hh. pose proof (backed_same _ _ H Hh Bk) as B1. destruct Hs as [[_ ->]|[_ ->]]; exact B1.
    + destruct (cancel_keeps _ _ _ _ _ E) as (H & H2 & _). exact (backed_same _ _ H (fun i => held_same _ _ i H2) Bk).
    + destruct (cancel_keeps _ _ _ _ _ E) as (H & H2 & _). exact (backed_same _ _ H (fun i => held_same _ _ i H2) Bk).
    + destruct (cancel_keeps _ _ _ _ _ E) as (H & H2 & _). exact (backed_same _ _ H (fun i => held_same _ _ i H2) Bk).
    + injection E as <-. eapply backed_put; [reflexivity|reflexivity|exact Bi|exact Bk].
    + injection E as <-. eapply backed_put; [reflexivity|reflexivity|exact Bi|exact Bk].
    + destruct (close_does _ _ _ _ _ E) as (H & _). exact (backed_same _ _ H (close_held _ _ _ _ _ E) Bk).
    + destruct (close_does _ _ _ _ _ E) as (H & _). exact (backed_same _ _ H (close_held _ _ _ _ _ E) Bk).
    + destruct (close_does _ _ _ _ _ E) as (H & _). exact (backed_same _ _ H (close_held _ _ _ _ _ E) Bk).
    + injection E as <-. apply andb_true_iff in B as [B1 _]. eapply backed_put; [reflexivity|reflexivity| |exact Bk]. intros _. apply Bi. unfold is_destroying. rewrite (live_state d B1). reflexivity.
    + injection E as <-. apply andb_true_iff in B as [B1 _]. apply andb_true_iff in B1 as [_ B1]. apply negb_true_iff in B1. eapply backed_put; [reflexivity|reflexivity| |exact Bk]. intros _. exact (Bi B1).
    + destruct (t_assets s !! id) eqn:Ed; [discriminate E|]. apply if_some in E as [B E]. injection E as <-. eapply backed_put; [reflexivity|reflexivity| |exact Bk]. intros _. cbn. rewrite (held_same s) by reflexivity. lia.
    + injection E as <-. apply negb_true_iff in B. eapply backed_put; [reflexivity|reflexivity| |exact Bk]. intros _. exact (Bi B).
    + injection E as <-. eapply backed_put; [reflexivity|reflexivity| |exact Bk]. intros Hd. discriminate Hd.
    + injection E as <-. eapply backed_put; [reflexivity|reflexivity| |exact Bk]. intros Hd. discriminate Hd.
    + injection E as <-. destruct (fold_drop id l s) as (H & _). intros i. cbv zeta in H. rewrite H. destruct (decide (i = id)) as [->|Hn].
      * rewrite Ed. intros Hd. congruence.
      * rewrite held_drop by congruence. exact (Bk i).
    + injection E as <-. destruct (fold_approvals id l s) as (H & H2 & _). exact (backed_same _ _ H (fun i => held_same _ _ i H2) Bk).
    + injection E as <-. apply andb_true_iff in B as [B B3]. apply andb_true_iff in B as [B1 B2]. apply bool_decide_eq_true in B2. intros i. cbn [t_assets].
      rewrite (held_same s) by reflexivity. destruct (decide (i = id)) as [->|Hn]; [rewrite lookup_delete|rewrite lookup_delete_ne by congruence; exact (Bk i)].
      apply msum_zero. intros k c Hk. unfold in_asset. destruct (N.eqb_spec k.1 id) as [He|]; [|reflexivity]. exfalso. exact (B2 k c Hk He).
  - destruct (t_assets s !! id') as [d|] eqn:Ed; [|discriminate E]. apply if_some in E as [_ E]. injection E as <-. pose proof (Bk id') as Bi. rewrite Ed in Bi.
    eapply backed_put; [reflexivity| | |exact Bk].
    + intros i Hi. rewrite held_credit. destruct (N.eqb_spec id' i); [congruence|]. rewrite N.add_0_r. reflexivity.
    + intros Hd. rewrite held_credit, N.eqb_refl. cbn [set_supply ta_supply]. rewrite (Bi Hd). reflexivity.
  - destruct (t_assets s !! id') as [d|] eqn:Ed; [|discriminate E]. destruct (prep_debit d id' b n false false s) as [m|] eqn:Ep; [|discriminate E]. injection E as <-. pose proof (Bk id') as Bi. rewrite Ed in Bi.
    destruct (prep_does _ _ _ _ _ _ _ _ Ep) as (c & D). destruct (debit_keeps d id' b m (put_asset id' (set_supply d (ta_supply d - m)) s)) as (_ & H).
    pose proof (fun i => held_debit _ _ _ _ _ _ _ _ _ (put_asset id' (set_supply d (ta_supply d - m)) s) i D (b_acc _ _ _ _ _ _ _ _ _ D)) as M.
    eapply backed_put; [exact H| | |exact Bk].
    + intros i Hi. specialize (M i). destruct (N.eqb_spec id' i); [congruence|]. change (held i (put_asset _ _ s)) with (held i s) in M. lia.
    + intros Hd. specialize (M id'). rewrite N.eqb_refl in M. change (held id' (put_asset _ _ s)) with (held id' s) in M. transitivity (held id' s - m); [cbn [set_supply ta_supply]; rewrite (Bi Hd); reflexivity|lia].
  - injection E as <-. exact Bk.
  - injection E as <-. exact Bk.
  - apply if_some in E as [_ E]. injection E as <-. exact Bk.
Qed.
Lemma backed_end l : backed (t_end l).
Proof.
  assert (H : forall l s, backed s -> backed (trun s l)).
  { clear. induction l as [|x l IH]; intros s R; [exact R|]. apply (IH (tstep_run s x)). unfold tstep_run. destruct (tstep_try s x) as [s'|] eqn:E; [exact (backed_step s x s' R E)|exact R]. }
  apply (H l t_start). intros id. cbn. rewrite lookup_empty. reflexivity.
Qed.
Lemma supply_exact l id hs : exists_asset (t_end l) id -> ~ in_state (t_end l) id TDestroying -> NoDup hs -> (forall a, a ∈ hs <-> holds_account (t_end l) id a) ->
  supply (t_end l) id = foldr (fun a z => has (t_end l) id a + z) 0 hs.
Proof.
  intros He Hd ND Hh. pose proof (backed_end l id) as B. unfold exists_asset in He. unfold supply. destruct (t_assets (t_end l) !! id) as [d|] eqn:Ed; [|congruence].
  rewrite B by (destruct (is_destroying d) eqn:Ei; [exfalso; apply Hd; exists d; split; [exact Ed|exact (destroying_state d Ei)]|reflexivity]).
  unfold held. rewrite (msum_list (in_asset id) (fun k => k.1 = id) (map (fun a => (id, a)) hs)).
  - clear. induction hs as [|a hs IH]; [reflexivity|]. cbn [map foldr]. rewrite IH. f_equal. unfold has, oval, in_asset. cbn. rewrite N.eqb_refl. destruct (t_accounts (t_end l) !! (id, a)); reflexivity.
  - apply NoDup_ListNoDup. apply NoDup_ListNoDup in ND. apply FinFun.Injective_map_NoDup; [|exact ND]. intros u v Hq. congruence.
  - intros [i a]. cbn [fst snd]. split.
    + intros Hq. apply elem_of_list_In, in_map_iff in Hq as (u & Hq & Hin). injection Hq as <- <-. split; [|reflexivity]. apply Hh. apply elem_of_list_In. exact Hin.
    + intros [H1 ->]. apply elem_of_list_In, in_map_iff. exists a. split; [reflexivity|]. apply elem_of_list_In. apply Hh. exact H1.
  - intros k v Hn. unfold in_asset. destruct (N.eqb_spec k.1 id); [contradiction|reflexivity].
  - intros k. destruct (N.eq_dec k.1 id); [left|right]; assumption.
Qed.

(* ------------------------------------------------------------------ *)
(** * What is approved can be used, in histories *)

Lemma locked_step s x s' : tstep_try s x = Some s' -> t_locked s' = t_locked s \/ exists id a n, x = TLock id a n.
Proof.
  intros E. destruct x as [ok o k|id' b n|id' b n|id' b n|b n|b n]; cbn [tstep_try] in E; [left|left|left|right; eauto|left|left].
  - unfold tcall_run in E.
    assert (T : forall id from to n need keep s1, transfer id from to n need keep ok s = Some s1 -> t_locked s1 = t_locked s).
    { intros id from to n need keep s1 H. destruct (transfer_does _ _ _ _ _ _ _ _ _ H) as [[_ ->]|(d & m & c & _ & _ & _ & _ & _ & [[_ ->]|[_ ->]])]; try reflexivity.
      unfold debit. destruct (m =? 0); [reflexivity|]. destruct (t_accounts (credit id to m s) !! (id, from)); reflexivity. }
    destruct k; destruct o as [b|]; try discriminate E;
      try (destruct (t_assets s !! id) as [d|] eqn:Ed; [|discriminate E]);
      try (apply if_some in E as [B E]); try (injection E as <-; reflexivity); try (eapply T; exact E); try (eapply cancel_keeps; exact E); try (unfold close in E; destruct (t_accounts s !! (id, who)); [injection E as <-; reflexivity|discriminate E]).
    + destruct (n =? 0); [injection E as <-; reflexivity|]. apply if_some in E as [_ E]. injection E as <-. reflexivity.
    + destruct (n =? 0); [injection E as <-; reflexivity|]. destruct (prep_debit d id from n false true s) as [m|]; [|discriminate E]. apply if_some in E as [_ E]. injection E as <-.
      unfold debit. destruct (m =? 0); [reflexivity|]. destruct (t_accounts _ !! (id, from)); reflexivity.
    + eapply approve_keeps. exact E.
    + destruct (approved_does _ _ _ _ _ _ _ _ E) as (p & s1 & _ & _ & Et & Hs). rewrite <- (T _ _ _ _ _ _ _ Et). destruct Hs as [[_ ->]|[_ ->]]; reflexivity.
    + destruct (t_assets s !! id); [discriminate E|]. apply if_some in E as [_ E]. injection E as <-. reflexivity.
    + injection E as <-. destruct (fold_drop id l s) as (_ & _ & H & _). exact H.
    + injection E as <-. destruct (fold_approvals id l s) as (_ & _ & H). exact H.
  - destruct (t_assets s !! id'); [|discriminate E]. apply if_some in E as [_ E]. injection E as <-. reflexivity.
  - destruct (t_assets s !! id') as [d|]; [|discriminate E]. destruct (prep_debit d id' b n false false s) as [m|]; [|discriminate E]. injection E as <-.
    unfold debit. destruct (m =? 0); [reflexivity|]. destruct (t_accounts _ !! (id', b)); reflexivity.
  - injection E as <-. reflexivity.
  - apply if_some in E as [_ E]. injection E as <-. reflexivity.
Qed.
Lemma locked_end l k v : t_locked (t_end l) !! k = Some v -> 0 < v.
Proof.
  assert (H : forall l s, (forall k v, t_locked s !! k = Some v -> 0 < v) -> forall k v, t_locked (trun s l) !! k = Some v -> 0 < v).
  { clear. induction l as [|x l IH]; intros s R; [exact R|]. apply (IH (tstep_run s x)). unfold tstep_run. destruct (tstep_try s x) as [s'|] eqn:E; [|exact R]. change (default s (Some s')) with s'.
    destruct (locked_step _ _ _ E) as [H|(id & a & n & ->)]; [rewrite H; exact R|]. cbn in E. injection E as <-. cbn [t_locked]. intros k v. destruct (N.eqb_spec n 0) as [->|Hn].
    - intros H. apply lookup_delete_Some in H as [_ H]. exact (R k v H).
    - intros H. apply lookup_insert_Some in H as [[_ <-]|[_ H]]; [lia|exact (R k v H)]. }
  apply (H l t_start). intros q w Hq. cbn in Hq. rewrite lookup_empty in Hq. discriminate Hq.
Qed.
Lemma usable l ok id a d to n : let s := t_end l in
  in_state s id TLive -> account_state s id a = Some TOpen -> frozen_of s id a = 0 -> n <= has s id a ->
  is_delegate s id a d -> n <= approved s id a d ->
  (account_state s id to = Some TOpen \/ account_state s id to = Some TNoOut) -> has s id to + has s id a <= u128_max ->
  goes_through s (TCall ok (Some d) (KTransferApproved id a to n)).
Proof.
  cbv zeta. unfold account_state. intros (e & Ee & Es) Ea El Hn Hd Ha Et Hu. unfold has in Hn, Hu.
  destruct (t_accounts (t_end l) !! (id, a)) as [c|] eqn:Ec; [|discriminate Ea]. injection Ea as Eo.
  destruct (t_accounts (t_end l) !! (id, to)) as [c'|] eqn:Ec'; [|destruct Et as [Et|Et]; discriminate Et].
  apply (can_use (t_end l) ok id a d to n c e); try assumption.
  - unfold frozen_of in El. destruct (t_locked (t_end l) !! (id, a)) as [v|] eqn:Ev; [|reflexivity]. pose proof (locked_end l _ _ Ev). cbn in El. lia.
  - pose proof (backed_end l id) as B. rewrite Ee in B. rewrite B by (unfold is_destroying; rewrite Es; reflexivity). exact (held_ge _ _ _ _ Ec).
  - intros m H1 H2. unfold can_increase. rewrite Es, Ec'. cbn in Et. destruct (tc_closed c') eqn:Ecc; [apply N.leb_le; lia|apply N.leb_le; lia|destruct Et as [Et|Et]; discriminate Et].
Qed.

(* ------------------------------------------------------------------ *)
(** * Who closes *)

Lemma frozen_by s x id : in_state s id TLive -> in_state (tstep_run s x) id TFrozen ->
  exists ok, (exists a, x = TCall ok (Some a) (KFreezeAsset id) /\ is_freezer s id a) \/ (exists b i m f min, x = TCall ok None (KForceStatus id b i m f min true)).
Proof.
  unfold tstep_run. intros (e & Ee & Es). destruct (tstep_try s x) as [s'|] eqn:E; [|intros (e' & He & Hs); change (default s None) with s in He; congruence]. change (default s (Some s')) with s'. intros (d' & Hd' & Hst).
  destruct (asset_effects _ _ _ E id) as [H|H]; [congruence|].
  rewrite Hd' in H. remember (Some d') as r eqn:Er.
  destruct H as [ok b min Hx Hs Hm|ok b i m f min fr d Hx Hs Hd|ok a b d Hx Hs Hl Ha|ok a i m f d Hx Hs Hl Ha|ok a d Hx Hs Hl Ha|ok a d Hx Hs Hl Ha|ok o d Hx Hs Ho|ok a d Hx Hs Hd Hac Hap|ok a to n d Hx Hs Hl Ha|ok a from n m d Hx Hs Hl Ha|a n d Hx Hs|a n m d Hx Hs];
    ((injection Er as <-) || discriminate Er); cbn in Hst; try discriminate Hst; try congruence.
  - exists ok. right. destruct fr; [|discriminate Hst]. exists b, i, m, f, min. exact Hx.
  - exists ok. left. exists a. split; [exact Hx|]. exists d. auto.
Qed.
Lemma thawed_by s x id : in_state s id TFrozen -> in_state (tstep_run s x) id TLive ->
  exists ok, (exists a, x = TCall ok (Some a) (KThawAsset id) /\ is_admin s id a) \/ (exists b i m f min, x = TCall ok None (KForceStatus id b i m f min false)).
Proof.
  unfold tstep_run. intros (e & Ee & Es). destruct (tstep_try s x) as [s'|] eqn:E; [|intros (e' & He & Hs); change (default s None) with s in He; congruence]. change (default s (Some s')) with s'. intros (d' & Hd' & Hst).
  destruct (asset_effects _ _ _ E id) as [H|H]; [congruence|].
  rewrite Hd' in H. remember (Some d') as r eqn:Er.
  destruct H as [ok b min Hx Hs Hm|ok b i m f min fr d Hx Hs Hd|ok a b d Hx Hs Hl Ha|ok a i m f d Hx Hs Hl Ha|ok a d Hx Hs Hl Ha|ok a d Hx Hs Hl Ha|ok o d Hx Hs Ho|ok a d Hx Hs Hd Hac Hap|ok a to n d Hx Hs Hl Ha|ok a from n m d Hx Hs Hl Ha|a n d Hx Hs|a n m d Hx Hs];
    ((injection Er as <-) || discriminate Er); cbn in Hst; try discriminate Hst; try congruence.
  - exists ok. right. destruct fr; [discriminate Hst|]. exists b, i, m, f, min. exact Hx.
  - exists ok. left. exists a. split; [exact Hx|]. exists d. auto.
Qed.
Lemma only_frozen s x id a : has (tstep_run s x) id a < has s id a ->
  may_take s x id a (has s id a - has (tstep_run s x) id a) /\
  ((exists o ok l, x = TCall ok o (KDestroyAccounts id l)) \/ frozen_of s id a <= has (tstep_run s x) id a).
Proof.
  intros H. destruct (only_so s x id a H) as [H1 [H2|H2]]; [auto|]. split; [exact H1|right]. unfold frozen_of. destruct (t_locked s !! (id, a)) as [f|]; [exact (H2 f eq_refl)|]. cbn. lia.
Qed.

(* ------------------------------------------------------------------ *)
(** * Who closes accounts, and who ends approvals *)

Lemma credit_state id a n s k c : t_accounts s !! k = Some c -> exists c1, t_accounts (credit id a n s) !! k = Some c1 /\ tc_closed c1 = tc_closed c.
Proof.
  intros E. destruct k as [i b]. rewrite acc_credit. destruct (N.eqb_spec id i) as [->|]; [destruct (N.eqb_spec a b) as [->|]|]; cbn [andb]; [|exists c; auto|exists c; auto]. rewrite E. eexists. split; reflexivity.
Qed.
Lemma debit_state d id a n s k c c' : t_accounts s !! k = Some c -> t_accounts (debit d id a n s) !! k = Some c' -> tc_closed c' = tc_closed c.
Proof.
  intros E E'. destruct k as [i b]. unfold debit in E'. destruct (n =? 0); [congruence|]. destruct (t_accounts s !! (id, a)) as [q|] eqn:Eq; [|congruence].
  rewrite acc_put in E'. destruct (N.eqb_spec id i) as [->|]; [destruct (N.eqb_spec a b) as [->|]|]; cbn [andb] in E'; try congruence.
  rewrite Eq in E. injection E as ->. destruct (tc_balance c - n <? ta_min d); [discriminate E'|]. injection E' as <-. reflexivity.
Qed.
Lemma transfer_state id from to n need keep ok s s' k c c' : transfer id from to n need keep ok s = Some s' -> t_accounts s !! k = Some c -> t_accounts s' !! k = Some c' -> tc_closed c' = tc_closed c.
Proof.
  intros H E E'. destruct (transfer_does _ _ _ _ _ _ _ _ _ H) as [[_ ->]|(d & m & q & _ & _ & _ & _ & _ & [[_ ->]|[_ ->]])]; try congruence.
  destruct (credit_state id to m s k c E) as (c1 & E1 & <-). exact (debit_state _ _ _ _ _ _ _ _ E1 E').
Qed.
Lemma close_state id b x s s' i a : close id b x s = Some s' -> account_state s' i a <> account_state s i a -> i = id /\ a = b /\ account_state s' i a = Some x.
Proof.
  unfold close, account_state. intros H. destruct (t_accounts s !! (id, b)) as [c|] eqn:E; [|discriminate H]. injection H as <-. rewrite acc_put.
  destruct (N.eqb_spec id i) as [->|]; [destruct (N.eqb_spec b a) as [->|]|]; cbn [andb]; intros Hne; try congruence. auto.
Qed.
Lemma closed_by s x id a c c' : account_state s id a = Some c -> account_state (tstep_run s x) id a = Some c' -> c <> c' -> exists ok b,
  (x = TCall ok (Some b) (KFreeze id a) /\ is_freezer s id b /\ c' = TNoOut) \/ (x = TCall ok (Some b) (KBlock id a) /\ is_freezer s id b /\ c' = TNoInOut) \/
  (x = TCall ok (Some b) (KThaw id a) /\ is_admin s id b /\ c' = TOpen).
Proof.
  unfold tstep_run. destruct (tstep_try s x) as [s'|] eqn:E; [|intros H1 H2; change (default s None) with s in H2; congruence]. change (default s (Some s')) with s'. intros H1 H2 Hne.
  assert (Hst : (forall q q', t_accounts s !! (id, a) = Some q -> t_accounts s' !! (id, a) = Some q' -> tc_closed q' = tc_closed q) -> False).
  { intros K. unfold account_state in H1, H2. destruct (t_accounts s !! (id, a)) as [q|]; [|discriminate H1]. destruct (t_accounts s' !! (id, a)) as [q'|]; [|discriminate H2].
    cbn in H1, H2. specialize (K q q' eq_refl eq_refl). congruence. }
  assert (Hsame : t_accounts s' = t_accounts s -> False) by (intros K; apply Hst; intros q q' Hq Hq'; congruence).
  assert (Hd : account_state s' id a <> account_state s id a) by congruence.
  destruct x as [ok o k|id' b n|id' b n|id' b n|b n|b n]; cbn [tstep_try] in E.
  - unfold tcall_run in E.
    destruct k as [i to n keep|i from to n|i to n|i from n|i e n|i w to n|i e|i w e|i w|i u v w|i w|i w|i w|i|i|i w mn|i w u v y mn fr|i|i l|i l|i]; destruct o as [b|]; try discriminate E;
      try (destruct (t_assets s !! i) as [d|] eqn:Ed; [|discriminate E]);
      try (apply if_some in E as [B E]); try (exfalso; apply Hst; intros q q'; eapply transfer_state; exact E);
      try (injection E as <-; exfalso; apply Hsame; reflexivity);
      try (exfalso; apply Hsame; eapply cancel_keeps; exact E).
    + destruct (n =? 0); [injection E as <-; exfalso; apply Hsame; reflexivity|]. apply if_some in E as [_ E]. injection E as <-. exfalso. apply Hst. intros q q' Hq Hq'.
      destruct (credit_state i to n (put_asset i (set_supply d (ta_supply d + n)) s) (id, a) q Hq) as (c1 & E1 & E2). congruence.
    + destruct (n =? 0); [injection E as <-; exfalso; apply Hsame; reflexivity|]. destruct (prep_debit d i from n false true s) as [m|]; [|discriminate E]. apply if_some in E as [_ E]. injection E as <-.
      exfalso. apply Hst. intros q q' Hq Hq'. exact (debit_state _ _ _ _ (put_asset _ _ s) _ _ _ Hq Hq').
    + exfalso. apply Hsame. eapply approve_keeps. exact E.
    + exfalso. apply Hst. intros q q' Hq Hq'. destruct (approved_does _ _ _ _ _ _ _ _ E) as (p & s1 & _ & _ & Et & Hs). eapply transfer_state; [exact Et|exact Hq|]. rewrite <- Hq'. destruct Hs as [[_ ->]|[_ ->]]; reflexivity.
    + apply andb_true_iff in B as [_ B]. apply N.eqb_eq in B. destruct (close_state _ _ _ _ _ _ _ E Hd) as (-> & -> & Hc). exists ok, b. left. split; [reflexivity|]. split; [exists d; auto|congruence].
    + apply andb_true_iff in B as [_ B]. apply N.eqb_eq in B. destruct (close_state _ _ _ _ _ _ _ E Hd) as (-> & -> & Hc). exists ok, b. right. right. split; [reflexivity|]. split; [exists d; auto|congruence].
    + apply andb_true_iff in B as [_ B]. apply N.eqb_eq in B. destruct (close_state _ _ _ _ _ _ _ E Hd) as (-> & -> & Hc). exists ok, b. right. left. split; [reflexivity|]. split; [exists d; auto|congruence].
    + destruct (t_assets s !! i); [discriminate E|]. apply if_some in E as [_ E]. injection E as <-. exfalso. apply Hsame. reflexivity.
    + injection E as <-. exfalso. apply Hst. intros q q' Hq Hq'. destruct (fold_drop i l s) as (_ & _ & _ & _ & _ & H). cbv zeta in H. rewrite H in Hq'. destruct (bool_decide _); congruence.
    + injection E as <-. exfalso. apply Hsame. apply fold_approvals.
  - destruct (t_assets s !! id') as [d|]; [|discriminate E]. apply if_some in E as [_ E]. injection E as <-. exfalso. apply Hst. intros q q' Hq Hq'.
    destruct (credit_state id' b n (put_asset id' (set_supply d (ta_supply d + n)) s) (id, a) q Hq) as (c1 & E1 & E2). congruence.
  - destruct (t_assets s !! id') as [d|]; [|discriminate E]. destruct (prep_debit d id' b n false false s) as [m|]; [|discriminate E]. injection E as <-.
    exfalso. apply Hst. intros q q' Hq Hq'. exact (debit_state _ _ _ _ (put_asset _ _ s) _ _ _ Hq Hq').
  - injection E as <-. exfalso. apply Hsame. reflexivity.
  - injection E as <-. exfalso. apply Hsame. reflexivity.
  - apply if_some in E as [_ E]. injection E as <-. exfalso. apply Hsame. reflexivity.
Qed.

Lemma approved_fold_in id l a d : (a, d) ∉ l -> forall s, t_approvals (fold_left (destroy_approval id) l s) !! (id, a, d) = t_approvals s !! (id, a, d).
Proof.
  induction l as [|j l IH]; intros Hn s; cbn [fold_left]; [reflexivity|]. apply not_elem_of_cons in Hn as [Hj Hn]. rewrite (IH Hn). unfold destroy_approval.
  destruct (cancel id (fst j) (snd j) s) as [s'|] eqn:E; [|reflexivity]. change (default s (Some s')) with s'. unfold cancel in E. destruct (t_approvals s !! (id, fst j, snd j)); [|discriminate E]. injection E as <-.
  rewrite appr_put, bool_decide_eq_false_2; [reflexivity|]. intros Hk. injection Hk as -> ->. apply Hj. destruct j; reflexivity.
Qed.
Lemma ended_by s x id a d : approved s id a d <= u128_max -> approved (tstep_run s x) id a d < approved s id a d -> exists ok,
  x = TCall ok (Some a) (KCancelApproval id d) \/
  (exists o, x = TCall ok o (KForceCancelApproval id a d) /\ (o = None \/ exists b, o = Some b /\ is_admin s id b)) \/
  (exists to n, x = TCall ok (Some d) (KTransferApproved id a to n) /\ approved (tstep_run s x) id a d + n = approved s id a d) \/
  (exists b l, x = TCall ok (Some b) (KDestroyApprovals id l) /\ (a, d) ∈ l /\ in_state s id TDestroying).
Proof.
  intros U. unfold tstep_run. destruct (tstep_try s x) as [s'|] eqn:E; [|change (default s None) with s; lia]. change (default s (Some s')) with s'. unfold approved. intros L.
  destruct (effects _ _ _ E) as [H1 _ _ _|ok i b f n -> _ H|ok i b f to n -> _ H|ok o i b f k -> _ Hk H|ok b i l -> Hs ->].
  - rewrite H1 in L. lia.
  - destruct (approve_does _ _ _ _ _ _ _ H) as (_ & Hp & _). rewrite Hp in L. destruct (decide ((id, a, d) = (i, b, f))) as [Hk|Hk].
    + exfalso. injection Hk as -> -> ->. rewrite bool_decide_eq_true_2 in L by reflexivity. cbn [ap_amount] in L. unfold approved in U.
      destruct (t_approvals s !! (i, b, f)) as [p|] eqn:Ep; [|lia]. change (default (Approval 0 0) (Some p)) with p in L. lia.
    + rewrite bool_decide_eq_false_2 in L by exact Hk. lia.
  - destruct (approved_does _ _ _ _ _ _ _ _ H) as (p & s1 & Hp & Hn & Et & Hs). destruct (transfer_keeps _ _ _ _ _ _ _ _ _ Et) as ((H1 & _) & _).
    destruct (decide ((id, a, d) = (i, b, f))) as [Hk|Hk].
    + injection Hk as -> -> ->. exists ok. right. right. left. exists to, n. split; [reflexivity|]. rewrite Hp.
      destruct Hs as [[Hz ->]|[Hz ->]]; rewrite appr_put, bool_decide_eq_true_2 by reflexivity; cbn; lia.
    + exfalso. destruct Hs as [[_ ->]|[_ ->]]; rewrite appr_put, bool_decide_eq_false_2 in L by exact Hk; cbn [tunreserve put_native t_approvals] in L; rewrite H1 in L; lia.
  - destruct (decide ((id, a, d) = (i, b, f))) as [Hq|Hq].
    + injection Hq as -> -> ->. exists ok. destruct Hk as [[-> ->]|[-> Hk]]; [left; reflexivity|right; left; eauto].
    + exfalso. unfold cancel in H. destruct (t_approvals s !! (i, b, f)); [|discriminate H]. injection H as <-. rewrite appr_put, bool_decide_eq_false_2 in L by exact Hq. cbn [tunreserve put_native t_approvals] in L. lia.
  - destruct (decide (id = i)) as [->|Hi]; [|rewrite appr_fold_other in L by exact Hi; lia]. exists ok. right. right. right. exists b, l. split; [reflexivity|]. split; [|exact Hs].
    destruct (decide ((a, d) ∈ l)) as [Hin|Hin]; [exact Hin|]. rewrite (approved_fold_in i l a d Hin) in L. lia.
Qed.

Lemma amount_step s x id a d : approved s id a d <= u128_max -> approved (tstep_run s x) id a d <= u128_max.
Proof.
  intros U. unfold tstep_run. destruct (tstep_try s x) as [s'|] eqn:E; [|exact U]. change (default s (Some s')) with s'.
  destruct (effects _ _ _ E) as [H1 _ _ H3|ok i b f n -> _ H|ok i b f to n -> _ H|ok o i b f k -> _ Hk H|ok b i l -> Hs ->].
  - unfold approved in *. rewrite H1. exact U.
  - destruct (approve_does _ _ _ _ _ _ _ H) as (_ & Hp & _). unfold approved in *. rewrite Hp. destruct (bool_decide _); [cbn [ap_amount]; lia|exact U].
  - pose proof (budget_step s _ s' id a d E) as B. cbn [allows] in B. lia.
  - pose proof (budget_step s _ s' id a d E) as B. destruct Hk as [[-> ->]|[-> _]]; cbn [allows] in B; [|destruct o; cbn [allows] in B]; lia.
  - pose proof (approved_fold i l id a d s). lia.
Qed.
Lemma ended l x id a d : approved (tstep_run (t_end l) x) id a d < approved (t_end l) id a d -> exists ok,
  x = TCall ok (Some a) (KCancelApproval id d) \/
  (exists o, x = TCall ok o (KForceCancelApproval id a d) /\ (o = None \/ exists b, o = Some b /\ is_admin (t_end l) id b)) \/
  (exists to n, x = TCall ok (Some d) (KTransferApproved id a to n) /\ approved (tstep_run (t_end l) x) id a d + n = approved (t_end l) id a d) \/
  (exists b l', x = TCall ok (Some b) (KDestroyApprovals id l') /\ (a, d) ∈ l' /\ in_state (t_end l) id TDestroying).
Proof.
  apply ended_by. assert (H : forall l s, approved s id a d <= u128_max -> approved (trun s l) id a d <= u128_max).
  { clear. induction l as [|y l IH]; intros s R; [exact R|]. exact (IH (tstep_run s y) (amount_step s y id a d R)). }
  apply (H l t_start). unfold approved. change (t_approvals t_start) with (∅ : gmap (N * N * N) approval). rewrite lookup_empty. apply N.le_0_l.
Qed.

(** Closed accounts do not pay, nor do any of a frozen asset. *)
Lemma prep_open d id a n keep best s m : t_assets s !! id = Some d -> prep_debit d id a n keep best s = Some m -> in_state s id TLive /\ account_state s id a = Some TOpen.
Proof.
  intros Ed H. unfold prep_debit in H. destruct (reducible d id a keep s) as [r|] eqn:R; [|discriminate H]. unfold reducible in R.
  destruct (ta_status d) eqn:Es; try discriminate R. unfold account_state. destruct (t_accounts s !! (id, a)) as [c|]; [|discriminate R]. cbn. destruct (tc_closed c); try discriminate R.
  split; [exists d; auto|reflexivity].
Qed.
Lemma transfer_open id from to n need keep ok s s' : transfer id from to n need keep ok s = Some s' -> s' = s \/ (in_state s id TLive /\ account_state s id from = Some TOpen).
Proof.
  unfold transfer. intros H. destruct (n =? 0); [injection H as <-; auto|]. destruct (t_assets s !! id) as [d|] eqn:Ed; [|discriminate H].
  destruct (prep_debit d id from n keep false s) as [m|] eqn:Ep; [|discriminate H]. right. exact (prep_open _ _ _ _ _ _ _ _ Ed Ep).
Qed.
Lemma closed_pays s x id a : has (tstep_run s x) id a < has s id a -> (exists o ok l, x = TCall ok o (KDestroyAccounts id l)) \/ (in_state s id TLive /\ account_state s id a = Some TOpen).
Proof.
  intros L. destruct (only_so s x id a L) as [M _]. unfold tstep_run in L. destruct (tstep_try s x) as [s'|] eqn:E; [|change (default s None) with s in L; lia]. change (default s (Some s')) with s' in *.
  destruct x as [ok o k|id' b n|id' b n|id' b n|b n|b n]; try contradiction M; cbn [tstep_try] in E.
  - destruct o as [b|]; [|destruct k; contradiction M]. destruct k; try contradiction M; unfold tcall_run in E.
    + destruct M as (-> & -> & _). destruct (transfer_open _ _ _ _ _ _ _ _ _ E) as [->|H]; [lia|auto].
    + destruct M as (-> & -> & _). destruct (transfer_open _ _ _ _ _ _ _ _ _ E) as [->|H]; [lia|auto].
    + destruct M as (-> & -> & _). destruct (t_assets s !! id) as [d|] eqn:Ed; [|discriminate E]. apply if_some in E as [_ E]. destruct (n =? 0); [injection E as <-; lia|].
      destruct (prep_debit d id a n false true s) as [m|] eqn:Ep; [|discriminate E]. right. exact (prep_open _ _ _ _ _ _ _ _ Ed Ep).
    + destruct M as (-> & -> & _). destruct (t_assets s !! id) as [d|] eqn:Ed; [|discriminate E]. apply if_some in E as [_ E]. destruct (approved_does _ _ _ _ _ _ _ _ E) as (p & s1 & _ & _ & Et & Hs).
      destruct (transfer_open _ _ _ _ _ _ _ _ _ Et) as [->|H]; [|auto]. exfalso. rewrite (has_same s s') in L; [lia|]. destruct Hs as [[_ ->]|[_ ->]]; reflexivity.
    + destruct M as (-> & _). left. eauto.
  - destruct M as (-> & -> & _). destruct (t_assets s !! id) as [d|] eqn:Ed; [|discriminate E]. destruct (prep_debit d id a n false false s) as [m|] eqn:Ep; [|discriminate E]. right. exact (prep_open _ _ _ _ _ _ _ _ Ed Ep).
Qed.

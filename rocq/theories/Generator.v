(** Proofs about GeneratorModel.v. *)
From stdpp Require Import prelude strings.
From Verif Require Import Base GeneratorModel.
Open Scope string_scope.

Lemma append_assoc (a b c : string) : (a ++ b) ++ c = a ++ b ++ c.
Proof. induction a as [|x a IH]; [reflexivity | exact (f_equal (String x) IH)]. Qed.
Lemma append_nil_r (a : string) : a ++ "" = a.
Proof. induction a as [|x a IH]; [reflexivity | exact (f_equal (String x) IH)]. Qed.
Lemma eqb_true (a b : string) : String.eqb a b = true <-> a = b.
Proof. apply String.eqb_eq. Qed.

Lemma ends_with_iff s suffix : ends_with s suffix = true <-> exists p, s = p ++ suffix.
Proof.
  induction s as [|x s IH]; cbn [ends_with]; rewrite orb_true_iff, eqb_true.
  - split.
    + intros [<-|H]; [exists ""; reflexivity | discriminate H].
    + intros [p H]. left. destruct p; [exact H | discriminate H].
  - rewrite IH. split.
    + intros [<-|[p ->]]; [exists ""; reflexivity | exists (String x p); reflexivity].
    + intros [[|y p] H]; [left; exact H|]. injection H as -> ->. right. eauto.
Qed.

Lemma listing_app len n c keys : listing len n c keys = c ++ listing len n "" keys.
Proof.
  revert n c. induction keys as [|k r IH]; intros n c; cbn [listing].
  - symmetry. apply append_nil_r.
  - rewrite IH, (IH _ ("" ++ _)), !append_assoc. reflexivity.
Qed.
Lemma listing_joined keys : forall n len, len = (n + length keys)%nat -> listing len n "" keys = String.concat ", " keys.
Proof.
  induction keys as [|k r IH]; intros n len E; [reflexivity|]. cbn [listing]. cbn in E. rewrite listing_app, (IH (S n) len) by lia.
  destruct r as [|k2 r].
  - replace (S n <? len)%nat with false by (symmetry; apply Nat.ltb_ge; cbn in E; lia). cbn. rewrite !append_nil_r. reflexivity.
  - replace (S n <? len)%nat with true by (symmetry; apply Nat.ltb_lt; cbn in E; lia).
    change (String.concat ", " (k :: k2 :: r)) with (k ++ ", " ++ String.concat ", " (k2 :: r)). rewrite !append_assoc. reflexivity.
Qed.

Lemma generated keys spec chain raw : keys ≡ₚ map fst supported_chains ->
  ((chain = "kreivo" \/ chain = "live") -> generate keys spec chain raw = spec Live raw) /\
  ((chain = "kreivo-local" \/ chain = "local") -> generate keys spec chain raw = spec Local raw) /\
  (forall p, chain = p ++ ".json" -> generate keys spec chain raw = spec (File chain) raw) /\
  (chain <> "kreivo" -> chain <> "live" -> chain <> "kreivo-local" -> chain <> "local" -> (forall p, chain <> p ++ ".json") ->
   generate keys spec chain raw = inr ("Unknown chain, only supported: " ++ String.concat ", " keys ++ " or a json file")).
Proof.
  intros P. split_and!.
  - intros [-> | ->]; reflexivity.
  - intros [-> | ->]; reflexivity.
  - intros p E. assert (H : ends_with chain ".json" = true) by (apply ends_with_iff; eauto). unfold generate. cbn [find_chain supported_chains].
    destruct (String.eqb_spec "kreivo" chain) as [<-|]; [discriminate H|]. destruct (String.eqb_spec "live" chain) as [<-|]; [discriminate H|].
    destruct (String.eqb_spec "kreivo-local" chain) as [<-|]; [discriminate H|]. destruct (String.eqb_spec "local" chain) as [<-|]; [discriminate H|].
    rewrite H. reflexivity.
  - intros H1 H2 H3 H4 H5. unfold generate. cbn [find_chain supported_chains].
    destruct (String.eqb_spec "kreivo" chain) as [<-|]; [contradiction|]. destruct (String.eqb_spec "live" chain) as [<-|]; [contradiction|].
    destruct (String.eqb_spec "kreivo-local" chain) as [<-|]; [contradiction|]. destruct (String.eqb_spec "local" chain) as [<-|]; [contradiction|].
    destruct (ends_with chain ".json") eqn:E; [apply ends_with_iff in E as [p E]; destruct (H5 p E)|].
    rewrite (listing_joined keys 0); [reflexivity|]. apply Permutation_length in P. rewrite P, map_length. reflexivity.
Qed.

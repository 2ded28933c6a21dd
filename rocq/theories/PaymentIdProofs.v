(** Proofs about payment ids. *)
From Verif Require Import Base BaseProofs PaymentIdModel Base58Proofs.
From Verif Require Import PaymentIdSpec.

Lemma pid_as_ref_bytes p : pid_wf p -> is_bytes (pid_as_ref p).
Proof.
  intros (H0 & H1 & H2 & H3). unfold pid_as_ref.
  repeat (apply Forall_app; split); try apply le_bytes_is_bytes.
  repeat constructor; done.
Qed.

Lemma pid_as_ref_length p : length (pid_as_ref p) = 8%nat.
Proof. done. Qed.

Lemma pid_to_u64_bound p : pid_wf p -> pid_to_u64 p < 18446744073709551616.
Proof.
  intros Hp. unfold pid_to_u64. pose proof (le_val_bound _ (pid_as_ref_bytes p Hp)) as H.
  rewrite pid_as_ref_length in H. exact H.
Qed.

Lemma is_bytes_cons b l : is_bytes (b :: l) <-> b < 256 /\ is_bytes l.
Proof. unfold is_bytes. rewrite Forall_cons. done. Qed.

Lemma bytes8_destruct (l : list N) : length l = 8%nat ->
  exists b0 b1 b2 b3 b4 b5 b6 b7, l = [b0; b1; b2; b3; b4; b5; b6; b7].
Proof.
  intros Hl. do 8 (destruct l as [|? l]; [discriminate Hl|]). destruct l; [|discriminate Hl].
  do 8 eexists. reflexivity.
Qed.

Lemma le_bytes2_val a b : a < 256 -> b < 256 -> le_bytes 2 (le_val [a; b]) = [a; b].
Proof. intros. apply (le_bytes_val [a; b]). repeat constructor; done. Qed.
Lemma le_bytes4_val a b c d : a < 256 -> b < 256 -> c < 256 -> d < 256 ->
  le_bytes 4 (le_val [a; b; c; d]) = [a; b; c; d].
Proof. intros. apply (le_bytes_val [a; b; c; d]). repeat constructor; done. Qed.

Lemma pid_from_u64_spec v :
  exists b0 b1 b2 b3 b4 b5 b6 b7,
    le_bytes 8 v = [b0; b1; b2; b3; b4; b5; b6; b7] /\ is_bytes [b0; b1; b2; b3; b4; b5; b6; b7] /\
    pid_from_u64 v = PaymentId b0 b1 (le_val [b2; b3]) (le_val [b4; b5; b6; b7]).
Proof.
  destruct (bytes8_destruct (le_bytes 8 v) (le_bytes_length 8 v)) as (b0&b1&b2&b3&b4&b5&b6&b7&E).
  exists b0, b1, b2, b3, b4, b5, b6, b7. split; [done|]. split.
  - rewrite <- E. apply le_bytes_is_bytes.
  - unfold pid_from_u64. rewrite E. done.
Qed.

Lemma pid_as_ref_from_u64 v : pid_as_ref (pid_from_u64 v) = le_bytes 8 v.
Proof.
  destruct (pid_from_u64_spec v) as (b0&b1&b2&b3&b4&b5&b6&b7&E&Hb&->).
  rewrite E. rewrite !is_bytes_cons in Hb. destruct Hb as (?&?&?&?&?&?&?&?&_).
  unfold pid_as_ref. cbn [pid_prefix0 pid_prefix1 pid_index pid_block].
  rewrite le_bytes2_val, le_bytes4_val by done. done.
Qed.

Lemma pid_from_u64_wf v : pid_wf (pid_from_u64 v).
Proof.
  destruct (pid_from_u64_spec v) as (b0&b1&b2&b3&b4&b5&b6&b7&E&Hb&->).
  rewrite !is_bytes_cons in Hb. destruct Hb as (?&?&?&?&?&?&?&?&_).
  unfold pid_wf. cbn [pid_prefix0 pid_prefix1 pid_index pid_block le_val]. lia.
Qed.

Lemma pid_u64_roundtrip v : v < 18446744073709551616 -> pid_to_u64 (pid_from_u64 v) = v.
Proof. intros Hv. unfold pid_to_u64. rewrite pid_as_ref_from_u64. by apply le_val_bytes. Qed.

Lemma pid_as_ref_inj p q : pid_wf p -> pid_wf q -> pid_as_ref p = pid_as_ref q -> p = q.
Proof.
  intros (_ & _ & Hi & Hb) (_ & _ & Hi' & Hb'). destruct p as [p0 p1 i b], q as [q0 q1 j c].
  unfold pid_as_ref. cbn [pid_prefix0 pid_prefix1 pid_index pid_block] in *.
  intros E. apply app_inj_1 in E as [E0 Ei]; [|done]. injection E0 as -> ->.
  apply app_inj_1 in Ei as [E2 E4]; [|done].
  apply (le_bytes_inj 2) in E2; [|done|done]. apply (le_bytes_inj 4) in E4; [|done|done].
  by subst.
Qed.

Lemma pid_to_u64_inj p q : pid_wf p -> pid_wf q -> pid_to_u64 p = pid_to_u64 q -> p = q.
Proof.
  intros Hp Hq E. apply pid_as_ref_inj; [done|done|].
  apply le_val_inj; [by apply pid_as_ref_bytes|by apply pid_as_ref_bytes|done|done].
Qed.

Lemma pid_roundtrip p : pid_wf p -> pid_from_u64 (pid_to_u64 p) = p.
Proof.
  intros Hp. apply pid_to_u64_inj; [apply pid_from_u64_wf|done|].
  apply pid_u64_roundtrip. by apply pid_to_u64_bound.
Qed.

(** ** SCALE *)

Lemma pid_encode_length p : length (pid_encode p) = 8%nat.
Proof. apply le_bytes_length. Qed.

Lemma pid_encode_as_ref p : pid_wf p -> pid_encode p = pid_as_ref p.
Proof.
  intros Hp. unfold pid_encode, pid_to_u64.
  pose proof (le_bytes_val _ (pid_as_ref_bytes p Hp)) as H. rewrite pid_as_ref_length in H. exact H.
Qed.

Lemma pid_decode_encode p rest : pid_wf p -> pid_decode (pid_encode p ++ rest) = Some (p, rest).
Proof.
  intros Hp. unfold pid_decode.
  assert ((length (pid_encode p ++ rest) <? 8)%nat = false) as ->.
  { apply Nat.ltb_ge. rewrite app_length, pid_encode_length. lia. }
  rewrite (take_app_alt (pid_encode p) rest 8), (drop_app_alt (pid_encode p) rest 8)
    by (by rewrite pid_encode_length).
  do 2 f_equal. unfold pid_encode. rewrite le_val_bytes by (by apply pid_to_u64_bound).
  by apply pid_roundtrip.
Qed.

Lemma pid_encode_decode input p rest :
  is_bytes input -> pid_decode input = Some (p, rest) ->
  pid_wf p /\ input = pid_encode p ++ rest.
Proof.
  intros Hb. unfold pid_decode. case_match eqn:Hl; [done|]. intros [= <- <-].
  apply Nat.ltb_ge in Hl. split; [apply pid_from_u64_wf|].
  assert (is_bytes (take 8 input)) as Ht by (by apply Forall_take).
  assert (length (take 8 input) = 8%nat) as Hlt by (rewrite take_length; lia).
  pose proof (le_val_bound _ Ht) as Hv. rewrite Hlt in Hv.
  unfold pid_encode. rewrite pid_u64_roundtrip by exact Hv.
  pose proof (le_bytes_val _ Ht) as E. rewrite Hlt in E. rewrite E.
  by rewrite take_drop.
Qed.

Lemma pid_decode_none input : pid_decode input = None <-> (length input < 8)%nat.
Proof. unfold pid_decode. destruct (length input <? 8)%nat eqn:E; [|split; [done|]]; apply Nat.ltb_lt in E || apply Nat.ltb_ge in E; [done|lia]. Qed.

(** ** Text *)

Lemma alphabet_length : length alphabet = 58%nat.
Proof. done. Qed.

Lemma alpha_all :
  forallb (fun d => match alpha_decode (alpha_encode (N.of_nat d)) with Some e => e =? N.of_nat d | None => false end
                    && (alpha_encode (N.of_nat d) <? 128) && negb (alpha_encode (N.of_nat d) =? dash))
          (seq 0 58) = true.
Proof. vm_compute. done. Qed.

Lemma alpha_spec d : d < 58 ->
  alpha_decode (alpha_encode d) = Some d /\ alpha_encode d < 128 /\ alpha_encode d <> dash.
Proof.
  intros Hd. pose proof alpha_all as H. rewrite forallb_forall in H.
  specialize (H (N.to_nat d)). rewrite N2Nat.id in H.
  assert (In (N.to_nat d) (seq 0 58)) as Hin by (apply in_seq; lia).
  specialize (H Hin).
  destruct (alpha_decode (alpha_encode d)) as [e|]; [|done].
  rewrite !andb_true_iff, negb_true_iff, N.eqb_eq, N.ltb_lt, N.eqb_neq in H.
  destruct H as [[-> ?] ?]. done.
Qed.

Lemma index_of_spec c l d : index_of c l = Some d -> d < N.of_nat (length l) /\ nth (N.to_nat d) l 0 = c.
Proof.
  revert d. induction l as [|x l IH]; intros d; cbn [index_of]; [done|].
  destruct (x =? c) eqn:E.
  - intros [= <-]. cbn. split; [lia|lia].
  - destruct (index_of c l) as [e|]; cbn [option_map]; [|done]. intros [= <-].
    destruct (IH e eq_refl) as [Hl Hn]. cbn [length]. split; [lia|].
    rewrite N2Nat.inj_succ. done.
Qed.

Lemma alpha_decode_spec c d : alpha_decode c = Some d -> d < 58 /\ alpha_encode d = c.
Proof. intros H. apply index_of_spec in H. rewrite alphabet_length in H. exact H. Qed.

Lemma alpha_decode_all_encode ds :
  digits 58 ds -> alpha_decode_all (map alpha_encode ds) = Some ds.
Proof.
  induction 1 as [|d ds Hd Hds IH]; cbn [map alpha_decode_all]; [done|].
  rewrite (proj1 (alpha_spec d Hd)), IH. done.
Qed.

Lemma alpha_decode_all_spec s ds :
  alpha_decode_all s = Some ds -> digits 58 ds /\ map alpha_encode ds = s.
Proof.
  revert ds. induction s as [|c s IH]; intros ds; cbn [alpha_decode_all].
  - intros [= <-]. split; [constructor|done].
  - destruct (alpha_decode c) as [d|] eqn:Ed; [|done].
    destruct (alpha_decode_all s) as [ds'|]; [|done].
    intros [= <-]. destruct (IH ds' eq_refl) as [Hd Hm].
    apply alpha_decode_spec in Ed as [Hlt He]. split; [by constructor|].
    cbn [map]. by rewrite He, Hm.
Qed.

Lemma is_ascii_encoded ds : digits 58 ds -> is_ascii (map alpha_encode ds) = true.
Proof.
  induction 1 as [|d ds Hd Hds IH]; [done|].
  destruct (alpha_spec d Hd) as (_ & Ha & _). unfold is_ascii in *. cbn [map forallb].
  rewrite IH, (proj2 (N.ltb_lt _ _) Ha). done.
Qed.

Lemma digits_encode_no_dash ds : digits 58 ds -> dash ∉ map alpha_encode ds.
Proof.
  induction 1 as [|d ds Hd Hds IH]; cbn [map]; [apply not_elem_of_nil|].
  apply not_elem_of_cons. split; [|done].
  destruct (alpha_spec d Hd) as (_ & _ & Ha). congruence.
Qed.

Lemma split_once_none s : split_once s = None <-> dash ∉ s.
Proof.
  induction s as [|c s IH]; cbn [split_once]; [split; [intros _; apply not_elem_of_nil|done]|].
  rewrite not_elem_of_cons. destruct (c =? dash) eqn:E.
  - split; [done|]. intros [H _]. apply N.eqb_eq in E. congruence.
  - apply N.eqb_neq in E. destruct (split_once s) as [[p1 p2]|].
    + split; [done|]. intros [_ H]. apply IH in H. done.
    + split; [|done]. intros _. split; [congruence|]. by apply IH.
Qed.

Lemma split_once_some s p1 p2 : split_once s = Some (p1, p2) <-> s = p1 ++ dash :: p2 /\ dash ∉ p1.
Proof.
  revert p1. induction s as [|c s IH]; intros p1; cbn [split_once].
  - split; [done|]. intros [E _]. by destruct p1.
  - destruct (c =? dash) eqn:E.
    + apply N.eqb_eq in E. subst c. split.
      * intros [= <- <-]. split; [done|]. apply not_elem_of_nil.
      * intros [E Hn]. destruct p1 as [|x p1]; cbn [app] in E.
        { by injection E as ->. }
        injection E as <- E2. exfalso. apply Hn. apply elem_of_list_here.
    + apply N.eqb_neq in E. destruct (split_once s) as [[q1 q2]|] eqn:Es.
      * split.
        { intros [= <- <-]. destruct (proj1 (IH q1) eq_refl) as [-> Hn]. split; [done|].
          apply not_elem_of_cons. split; [congruence|done]. }
        { intros [Ec Hn]. destruct p1 as [|x p1]; cbn in Ec; injection Ec as E1 E2; [congruence|].
          subst x. apply not_elem_of_cons in Hn as [_ Hn].
          pose proof (proj2 (IH p1) (conj E2 Hn)) as H. congruence. }
      * split; [done|]. intros [Ec Hn]. destruct p1 as [|x p1]; cbn in Ec; injection Ec as E1 E2; [congruence|].
        apply not_elem_of_cons in Hn as [_ Hn].
        pose proof (proj2 (IH p1) (conj E2 Hn)) as H. congruence.
Qed.

(** The base-58 digits of a payment id. *)
Lemma bs58_encode_len8 input :
  is_bytes input -> length input = 8%nat ->
  exists ds, b_conv 256 58 12 input = Some ds /\ digits 58 ds /\ (8 <= length ds <= 11)%nat.
Proof.
  intros Hb Hl.
  set (z := leading_zeros input).
  assert (z <= 8)%nat as Hz.
  { unfold z. rewrite <- Hl. clear. induction input as [|v l IH]; cbn [leading_zeros length]; [lia|].
    destruct (v =? 0); lia. }
  pose proof (leading_zeros_split input) as Hsplit. fold z in Hsplit.
  pose proof (leading_zeros_drop input) as Hhead. fold z in Hhead.
  set (tl := drop z input) in *.
  assert (length tl = 8 - z)%nat as Htl by (unfold tl; rewrite drop_length; lia).
  assert (is_bytes tl) as Htb by (by apply Forall_drop).
  assert (canon 256 (reverse tl)) as Hc by (apply nonzero_head_canon; [lia|exact Htb|done]).
  assert (bval 256 (reverse tl) = bfold 256 0 input) as Hv.
  { rewrite Hsplit, bfold_replicate0, <- bfold_reverse, reverse_involutive. done. }
  assert (bfold 256 0 input < 256 ^ N.of_nat (8 - z)) as Hub.
  { rewrite <- Hv, <- Htl, <- (reverse_length tl). apply bval_bound; [lia|apply Hc]. }
  assert (z = 8%nat \/ (z < 8)%nat /\ 256 ^ N.of_nat (7 - z) <= bfold 256 0 input) as Hlb.
  { destruct (decide (z = 8%nat)) as [|Hne]; [by left|right]. split; [lia|].
    destruct Hc as [_ [E|Hc]].
    - apply (f_equal length) in E. rewrite reverse_length in E. cbn in E. lia.
    - rewrite <- Hv. rewrite reverse_length, Htl in Hc.
      replace (pred (8 - z)) with (7 - z)%nat in Hc by lia. exact Hc. }
  assert (256 ^ N.of_nat (8 - z) <= 58 ^ N.of_nat (11 - z) /\ 58 ^ N.of_nat (7 - z) <= 256 ^ N.of_nat (7 - z)) as [Hp1 Hp2].
  { clear - Hz. do 9 (destruct z as [|z]; [vm_compute; split; congruence|]). lia. }
  destruct (b_conv_ok 256 58 12 input) as [out E]; [lia|lia|fold z; lia| |].
  { fold z. eapply N.lt_le_trans; [exact Hub|]. eapply N.le_trans; [exact Hp1|].
    apply N.pow_le_mono_r; lia. }
  destruct (b_conv_sound 256 58 12 input out ltac:(lia) ltac:(lia) E) as (ds & Eo & [Hd Hcd] & Hvd & _).
  fold z in Eo. exists out. split; [done|]. split.
  - rewrite Eo. apply Forall_app. split; [|by apply Forall_reverse].
    apply Forall_replicate. lia.
  - rewrite Eo, app_length, replicate_length, reverse_length.
    assert (length ds <= 11 - z)%nat.
    { destruct Hcd as [->|Hcd]; [cbn; lia|].
      destruct (decide (length ds <= 11 - z)%nat) as [|Hgt]; [done|exfalso].
      assert (58 ^ N.of_nat (11 - z) <= 58 ^ N.of_nat (pred (length ds))) by (apply N.pow_le_mono_r; lia).
      lia. }
    assert (8 - z <= length ds)%nat.
    { destruct Hlb as [Hz8|[Hz8 Hlb]]; [lia|].
      destruct (decide (8 - z <= length ds)%nat) as [|Hgt]; [done|exfalso].
      pose proof (bval_bound 58 ds ltac:(lia) Hd) as Hb58.
      assert (58 ^ N.of_nat (length ds) <= 58 ^ N.of_nat (7 - z)) by (apply N.pow_le_mono_r; lia).
      lia. }
    lia.
Qed.

Lemma bs58_roundtrip_len8 input ds :
  is_bytes input -> length input = 8%nat -> b_conv 256 58 12 input = Some ds ->
  b_conv 58 256 8 ds = Some input.
Proof.
  intros Hb Hl E. eapply (b_conv_roundtrip 256 58); [lia|lia|exact Hb|lia|exact E].
Qed.

Lemma pid_display_spec p : pid_wf p ->
  exists txt,
    pid_display false p = Val txt /\
    pid_display true p = Val (take 5 txt ++ dash :: drop 5 txt) /\
    (8 <= length txt <= 11)%nat /\ Forall (fun c => c ∈ alphabet) txt /\ dash ∉ txt /\
    is_ascii txt = true /\ bs58_decode 8 txt = Some (pid_as_ref p).
Proof.
  intros Hp. pose proof (pid_as_ref_bytes p Hp) as Hb.
  destruct (bs58_encode_len8 _ Hb (pid_as_ref_length p)) as (ds & E & Hd & Hlen).
  pose proof (bs58_roundtrip_len8 _ _ Hb (pid_as_ref_length p) E) as Er.
  exists (map alpha_encode ds).
  assert (bs58_encode 12 (pid_as_ref p) = Some (map alpha_encode ds)) as Ee.
  { unfold bs58_encode. rewrite E. done. }
  unfold pid_display. rewrite Ee, (is_ascii_encoded _ Hd). cbn [negb].
  assert ((length (map alpha_encode ds) <? 5)%nat = false) as ->.
  { apply Nat.ltb_ge. rewrite map_length. lia. }
  cbn [app]. rewrite take_drop, map_length.
  split; [done|]. split; [done|]. split; [done|]. split.
  - clear - Hd. induction Hd as [|d ds Hd Hds IH]; cbn [map]; constructor; [|done].
    unfold alpha_encode. apply elem_of_list_In, nth_In. rewrite alphabet_length. lia.
  - split; [by apply digits_encode_no_dash|]. split; [done|].
    unfold bs58_decode. by rewrite (alpha_decode_all_encode _ Hd).
Qed.

Lemma parse_plain_full txt p :
  pid_wf p -> bs58_decode 8 txt = Some (pid_as_ref p) -> parse_plain txt = Val p.
Proof.
  intros Hp E. unfold parse_plain. rewrite E, pid_as_ref_length. cbn [Nat.sub replicate].
  rewrite app_nil_r. f_equal. by apply pid_roundtrip.
Qed.

Lemma pid_parse_display alt p txt :
  pid_wf p -> pid_display alt p = Val txt -> pid_parse txt = Val p.
Proof.
  intros Hp E. destruct (pid_display_spec p Hp) as (t & E1 & E2 & Hlen & _ & Hnd & Hasc & Hdec).
  destruct alt.
  - rewrite E2 in E. injection E as <-. unfold pid_parse.
    rewrite (proj2 (split_once_some _ (take 5 t) (drop 5 t))).
    + rewrite take_length, drop_length.
      assert ((12 <? 5 `min` length t + (length t - 5))%nat = false) as -> by (apply Nat.ltb_ge; lia).
      rewrite take_drop, Hasc. by apply parse_plain_full.
    + split; [done|]. intros Hin. apply Hnd. rewrite <- (take_drop 5 t). apply elem_of_app. by left.
  - rewrite E1 in E. injection E as <-. unfold pid_parse.
    rewrite (proj2 (split_once_none t) Hnd). by apply parse_plain_full.
Qed.

(** ** Panics and canonicity *)

Lemma parse_plain_no_panic s : parse_plain s <> Panic.
Proof. unfold parse_plain. by destruct (bs58_decode 8 s). Qed.

Lemma pid_parse_panic_iff s :
  pid_parse s = Panic <-> dash ∈ s /\ (13 < length s)%nat.
Proof.
  unfold pid_parse. destruct (split_once s) as [[p1 p2]|] eqn:E.
  - apply split_once_some in E as [-> Hn].
    rewrite app_length. cbn [length].
    destruct (12 <? length p1 + length p2)%nat eqn:Hlt.
    + apply Nat.ltb_lt in Hlt. split; [|done]. intros _. split; [|lia].
      apply elem_of_app. right. apply elem_of_list_here.
    + apply Nat.ltb_ge in Hlt. split.
      * case_match; [|done]. intros Hp. by apply parse_plain_no_panic in Hp.
      * intros [_ H]. lia.
  - split; [intros H; by apply parse_plain_no_panic in H|].
    intros [H _]. apply split_once_none in E. done.
Qed.

(** [bs58_decode] of a text whose decoding fills all 8 bytes is inverted by printing. *)
Lemma bs58_decode_encode s w :
  bs58_decode 8 s = Some w -> (length s <= 12)%nat -> bs58_encode 12 w = Some s.
Proof.
  unfold bs58_decode, bs58_encode. destruct (alpha_decode_all s) as [ds|] eqn:Es; [|done].
  destruct (alpha_decode_all_spec _ _ Es) as [Hd Hm]. intros E Hl.
  rewrite (b_conv_roundtrip 58 256 8 12 ds w); [|lia|lia|exact Hd| |exact E].
  - cbn [option_map]. by rewrite Hm.
  - rewrite <- (map_length alpha_encode ds), Hm. done.
Qed.

Lemma bs58_decode_bytes s w : bs58_decode 8 s = Some w -> is_bytes w /\ (length w <= 8)%nat.
Proof.
  unfold bs58_decode. destruct (alpha_decode_all s) as [ds|]; [|done]. intros E.
  destruct (b_conv_sound 58 256 _ _ _ ltac:(lia) ltac:(lia) E) as (r & -> & [Hd _] & _ & Hl).
  split; [|done]. apply Forall_app. split; [apply Forall_replicate; unfold is_byte; lia|by apply Forall_reverse].
Qed.

Lemma bs58_encode_bytes8_length w s : is_bytes w -> length w = 8%nat -> bs58_decode 8 s = Some w -> (8 <= length s <= 11)%nat.
Proof.
  intros Hb Hl E. unfold bs58_decode in E. destruct (alpha_decode_all s) as [ds|] eqn:Es; [|done].
  destruct (alpha_decode_all_spec _ _ Es) as [Hd Hm].
  assert (b_conv 256 58 (length ds) w = Some ds) as E2.
  { eapply (b_conv_roundtrip 58 256); [lia|lia|exact Hd|lia|exact E]. }
  destruct (bs58_encode_len8 w Hb Hl) as (ds' & E3 & Hd' & Hlen).
  (* both conversions of [w] give the same digits *)
  destruct (b_conv_sound 256 58 _ _ _ ltac:(lia) ltac:(lia) E2) as (r & Er & Hcr & Hvr & _).
  destruct (b_conv_sound 256 58 _ _ _ ltac:(lia) ltac:(lia) E3) as (r' & Er' & Hcr' & Hvr' & _).
  assert (r = r') as <- by (apply (canon_unique 58); [lia|done|done|congruence]).
  assert (ds = ds') as <- by congruence.
  rewrite <- Hm, map_length. done.
Qed.

Lemma le_bytes8_from w : is_bytes w -> length w = 8%nat -> pid_as_ref (pid_from_u64 (le_val w)) = w.
Proof.
  intros Hb Hl. rewrite pid_as_ref_from_u64. pose proof (le_bytes_val w Hb) as H. rewrite Hl in H. exact H.
Qed.

(** A dash-free text that decodes to all 8 bytes is exactly what the id prints as. *)
Lemma parse_plain_canonical s w :
  bs58_decode 8 s = Some w -> length w = 8%nat ->
  exists p, pid_wf p /\ parse_plain s = Val p /\ pid_display false p = Val s.
Proof.
  intros E Hl. destruct (bs58_decode_bytes _ _ E) as [Hb _].
  exists (pid_from_u64 (le_val w)).
  pose proof (le_bytes8_from w Hb Hl) as Hw.
  assert (pid_wf (pid_from_u64 (le_val w))) as Hwf by apply pid_from_u64_wf.
  split; [done|].
  assert (parse_plain s = Val (pid_from_u64 (le_val w))) as Hp.
  { apply parse_plain_full; [done|]. by rewrite Hw. }
  split; [done|].
  destruct (pid_display_spec _ Hwf) as (t & E1 & _ & Hlen & _ & _ & _ & Hdec).
  rewrite Hw in Hdec. rewrite E1. f_equal.
  pose proof (bs58_encode_bytes8_length w s Hb Hl E).
  pose proof (bs58_decode_encode _ _ Hdec ltac:(lia)) as H1.
  pose proof (bs58_decode_encode _ _ E ltac:(lia)) as H2. congruence.
Qed.

(** ** Uniqueness of generated ids *)

Lemma pid_from_parts_val block idx extra p :
  pid_from_parts block idx extra = Val p ->
  pid_block p = block /\ pid_index p = idx mod 65536.
Proof. unfold pid_from_parts, wrap16. destruct extra as [|b0 [|b1 l]]; [done|done|]. by intros [= <-]. Qed.

Lemma kreivo_next_id_parts block idx ben p :
  kreivo_next_id block (Some idx) ben = Val (Some p) ->
  pid_block p = block /\ pid_index p = idx mod 65536.
Proof.
  unfold kreivo_next_id. destruct (pid_from_parts block idx ben) as [q| |] eqn:E; [|done|done].
  intros [= <-]. by eapply pid_from_parts_val.
Qed.

Lemma kreivo_next_id_unique b1 i1 ben1 b2 i2 ben2 p :
  i1 < 65536 -> i2 < 65536 ->
  kreivo_next_id b1 (Some i1) ben1 = Val (Some p) -> kreivo_next_id b2 (Some i2) ben2 = Val (Some p) ->
  b1 = b2 /\ i1 = i2.
Proof.
  intros H1 H2 E1 E2. apply kreivo_next_id_parts in E1 as [Eb1 Ei1]. apply kreivo_next_id_parts in E2 as [Eb2 Ei2].
  rewrite N.mod_small in Ei1, Ei2 by done. split; congruence.
Qed.

Lemma kreivo_next_id_total block idx ben :
  block < 4294967296 -> is_bytes ben -> length ben = 32%nat ->
  exists p, kreivo_next_id block (Some idx) ben = Val (Some p) /\ pid_wf p.
Proof.
  intros Hb Hben Hl. destruct ben as [|b0 [|b1 l]]; [done|done|].
  eexists. split; [reflexivity|]. rewrite !is_bytes_cons in Hben. unfold pid_wf, wrap16. cbn.
  split; [apply Hben|]. split; [apply Hben|]. split; [apply N.mod_lt; lia|done].
Qed.

(** ** Statements used by PropsPaymentId *)

Lemma pid_u64_bijection :
  (forall p, pid_wf p -> pid_to_u64 p <= u64_max /\ pid_from_u64 (pid_to_u64 p) = p) /\
  (forall v, v <= u64_max -> pid_wf (pid_from_u64 v) /\ pid_to_u64 (pid_from_u64 v) = v) /\
  (forall p q, pid_wf p -> pid_wf q -> (pid_to_u64 p = pid_to_u64 q <-> p = q)).
Proof.
  unfold u64_max. split; [|split].
  - intros p Hp. split; [pose proof (pid_to_u64_bound p Hp); lia|by apply pid_roundtrip].
  - intros v Hv. split; [apply pid_from_u64_wf|apply pid_u64_roundtrip; lia].
  - intros p q Hp Hq. split; [by apply pid_to_u64_inj|congruence].
Qed.

Lemma C01_case_holds : pid_wf (PaymentId 2 5 5 1234567) /\ pid_to_u64 (PaymentId 2 5 5 1234567) = 5302424890049794.
Proof. vm_compute. done. Qed.

Lemma pid_scale_codec :
  (forall p, pid_wf p -> length (pid_encode p) = 8%nat /\
     forall rest, pid_decode (pid_encode p ++ rest) = Some (p, rest)) /\
  (forall input p rest, is_bytes input -> pid_decode input = Some (p, rest) ->
     pid_wf p /\ input = pid_encode p ++ rest) /\
  (forall input, pid_decode input = None <-> (length input < 8)%nat).
Proof.
  split; [|split].
  - intros p Hp. split; [apply pid_encode_length|]. intros rest. by apply pid_decode_encode.
  - apply pid_encode_decode.
  - apply pid_decode_none.
Qed.

Lemma C02_case_holds : pid_decode [2; 5; 5; 0; 135; 214; 18; 0; 77] = Some (PaymentId 2 5 5 1234567, [77]).
Proof. vm_compute. done. Qed.

Lemma C03_case_holds :
  pid_display true (PaymentId 2 5 5 1234567) = Val [76;98;78;118;83;45;78;116;86;81;115] /\
  pid_display false (pid_from_u64 u64_max) = Val [106;112;88;67;90;101;100;71;102;86;81].
Proof. vm_compute. done. Qed.

Lemma pid_parse_panics : exists s, Forall (fun c => c < 128) s /\ pid_parse s = Panic.
Proof.
  exists (dash :: replicate 13 49). split; [|vm_compute; done].
  repeat constructor.
Qed.

Lemma pid_text_not_canonical :
  exists s t p, s <> t /\ 45 ∉ s /\ 45 ∉ t /\ pid_parse s = Val p /\ pid_parse t = Val p /\ pid_display false p <> Val s.
Proof.
  (* "2" decodes to [1]; "5R" decodes to [1; 0]; both are zero padded to the same 8 bytes. *)
  exists [50], [53; 82], (pid_from_u64 1).
  split; [done|]. split; [|split]; [| |vm_compute; done].
  - rewrite elem_of_list_singleton. done.
  - rewrite !not_elem_of_cons. split; [done|]. split; [done|apply not_elem_of_nil].
Qed.

Lemma pid_text_canonical : forall s w,
  45 ∉ s -> bs58_decode 8 s = Some w -> length w = 8%nat ->
  exists p, pid_wf p /\ pid_parse s = Val p /\ pid_display false p = Val s.
Proof.
  intros s w Hn E Hl. destruct (parse_plain_canonical s w E Hl) as (p & Hw & Hp & Hd).
  exists p. split; [done|]. split; [|done]. unfold pid_parse.
  by rewrite (proj2 (split_once_none s) Hn).
Qed.

Lemma C05_case_holds : exists w, bs58_decode 8 [76;98;78;118;83;78;116;86;81;115] = Some w /\ length w = 8%nat.
Proof. eexists. vm_compute. done. Qed.

Lemma kreivo_next_id_collides : exists b i1 i2 ben p,
  i1 <> i2 /\ i1 <= u32_max /\ i2 <= u32_max /\ length ben = 32%nat /\
  kreivo_next_id b (Some i1) ben = Val (Some p) /\ kreivo_next_id b (Some i2) ben = Val (Some p).
Proof.
  exists 7, 2, 65538, (replicate 32 9), (PaymentId 9 9 2 7).
  repeat split; vm_compute; congruence.
Qed.

Lemma kreivo_next_id_unique_full :
  (forall b1 i1 ben1 b2 i2 ben2 p, i1 <= u16_max -> i2 <= u16_max ->
    kreivo_next_id b1 (Some i1) ben1 = Val (Some p) -> kreivo_next_id b2 (Some i2) ben2 = Val (Some p) ->
    b1 = b2 /\ i1 = i2 /\ pid_block_number p = b1 /\ pid_extrinsic_index p = i1) /\
  (forall b i ben, b <= u32_max -> is_bytes ben -> length ben = 32%nat ->
    exists p, kreivo_next_id b (Some i) ben = Val (Some p) /\ pid_wf p).
Proof.
  unfold u16_max, u32_max. split.
  - intros b1 i1 ben1 b2 i2 ben2 p H1 H2 E1 E2.
    destruct (kreivo_next_id_unique b1 i1 ben1 b2 i2 ben2 p) as [-> ->]; [lia|lia|done|done|].
    apply kreivo_next_id_parts in E1 as [Hb Hi]. rewrite N.mod_small in Hi by lia. done.
  - intros b i ben Hb. apply kreivo_next_id_total. lia.
Qed.

Lemma C06_case_holds : kreivo_next_id 7 (Some 2) (replicate 32 9) = Val (Some (PaymentId 9 9 2 7)).
Proof. done. Qed.

(** ** The text is base58 *)
Lemma char_value_all :
  forallb (fun d => match char_value (alpha_encode (N.of_nat d)) with Some v => v =? N.of_nat d | None => false end) (seq 0 58) = true.
Proof. vm_compute. reflexivity. Qed.

Lemma char_value_encode d : d < 58 -> char_value (alpha_encode d) = Some d.
Proof.
  intros Hd. pose proof char_value_all as H. rewrite forallb_forall in H. specialize (H (N.to_nat d)).
  rewrite N2Nat.id in H. destruct (char_value (alpha_encode d)) as [v|].
  - assert (v =? d = true) as E by (apply H, in_seq; lia). apply N.eqb_eq in E. by subst.
  - assert (false = true) as E by (apply H, in_seq; lia). discriminate E.
Qed.

Lemma text_number_encode ds acc : digits 58 ds -> text_number acc (map alpha_encode ds) = Some (bfold 58 acc ds).
Proof.
  revert acc. induction ds as [|d ds IH]; intros acc Hd; cbn [map text_number bfold]; [done|].
  inversion Hd as [|? ? Hd1 Hd2]; subst. rewrite (char_value_encode d Hd1). apply IH, Hd2.
Qed.

Lemma bytes_number_bfold s acc : bytes_number acc s = bfold 256 acc s.
Proof. revert acc. induction s as [|b s IH]; intros acc; cbn [bytes_number bfold]; [done|]. apply IH. Qed.

Lemma pid_text_number : forall p plain, pid_wf p -> pid_display false p = Val plain ->
  text_number 0 plain = Some (bytes_number 0 [pid_prefix0 p; pid_prefix1 p; pid_index p mod 256; pid_index p / 256;
    pid_block p mod 256; pid_block p / 256 mod 256; pid_block p / 65536 mod 256; pid_block p / 16777216]).
Proof.
  intros p plain Hp E. pose proof (pid_as_ref_bytes p Hp) as Hb.
  destruct (bs58_encode_len8 _ Hb (pid_as_ref_length p)) as (ds & Ec & Hd & Hlen).
  unfold pid_display, bs58_encode in E. rewrite Ec in E. cbn [option_map] in E.
  destruct (negb _); [discriminate E|]. destruct (_ <? _)%nat; [discriminate E|]. cbn [app] in E. rewrite take_drop in E. injection E as <-.
  rewrite (text_number_encode _ _ Hd), bytes_number_bfold. f_equal.
  destruct (b_conv_sound 256 58 12 _ _ ltac:(done) ltac:(done) Ec) as (ds' & -> & Hc & Hv & _).
  rewrite bfold_replicate0, bfold_reverse, Hv. f_equal.
  destruct Hp as (_ & _ & Hi & Hk). unfold pid_as_ref. cbn [le_bytes app]. 
  assert (pid_index p / 256 < 256) as H1 by (apply N.div_lt_upper_bound; lia).
  assert (pid_block p / 16777216 < 256) as H2 by (apply N.div_lt_upper_bound; lia).
  rewrite !N.div_div by discriminate. cbn [N.mul Pos.mul].
  change (256 * 256 * 256) with 16777216. change (256 * 256) with 65536.
  rewrite (N.mod_small _ _ H1), (N.mod_small _ _ H2). reflexivity.
Qed.

(** ** The JS constructor *)
Lemma pid_new_displayed : forall p alt t, pid_wf p -> pid_display alt p = Val t -> pid_new t = Val p.
Proof. intros p alt t Hp E. unfold pid_new. by rewrite (pid_parse_display alt p t Hp E). Qed.

Lemma pid_new_panic : forall s, pid_new s = Panic <-> 45 ∈ s /\ (13 < length s)%nat.
Proof.
  intros s. rewrite <- (pid_parse_panic_iff s). unfold pid_new. destruct (pid_parse s); split; intros H; done || discriminate H.
Qed.

(** "0OIl" is no base58 text; the constructor takes it for payment 0, which has its own text. *)
Lemma pid_new_wrong :
  (forall s, pid_parse s = Fail -> pid_new s = Val (PaymentId 0 0 0 0)) /\
  exists s t, s <> t /\ pid_parse s = Fail /\ pid_parse t = Val (PaymentId 0 0 0 0) /\ pid_display false (PaymentId 0 0 0 0) = Val t /\ pid_new s = pid_new t.
Proof.
  split.
  - intros s E. unfold pid_new. rewrite E. reflexivity.
  - exists [48; 79; 73; 108], [49;49;49;49;49;49;49;49]. split; [discriminate|]. split_and!; vm_compute; reflexivity.
Qed.

Lemma alphabet_char c : c ∈ alphabet -> is_Some (char_value c).
Proof.
  intros H. destruct (proj1 (Forall_forall (fun c => exists v, char_value c = Some v) alphabet)) with c as [v E];
    [unfold alphabet; repeat constructor; eexists; reflexivity|exact H|]. exists v. exact E.
Qed.

Lemma pid_text_roundtrip : forall p, pid_wf p ->
  exists plain,
    pid_display false p = Val plain /\
    pid_display true p = Val (take 5 plain ++ [45] ++ drop 5 plain) /\
    (8 <= length plain <= 11)%nat /\ Forall (fun c => is_Some (char_value c)) plain /\
    pid_parse plain = Val p /\ pid_parse (take 5 plain ++ [45] ++ drop 5 plain) = Val p.
Proof.
  intros p Hp. destruct (pid_display_spec p Hp) as (t & E1 & E2 & Hlen & Ha & _).
  exists t. split; [done|]. split; [done|]. split; [done|].
  split; [exact (Forall_impl _ _ _ Ha alphabet_char)|].
  split; [by apply (pid_parse_display false)|by apply (pid_parse_display true)].
Qed.

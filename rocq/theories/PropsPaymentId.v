(** Property theorems C01-C06 about payment identifiers (common/src/payment_id.rs). *)
From Verif Require Import Base PaymentIdModel PaymentIdSpec PaymentIdProofs.

(** C01. Payment ids and 64-bit numbers correspond one to one. *)
Theorem C01_u64_bijection :
  (forall p, pid_wf p -> pid_to_u64 p <= u64_max /\ pid_from_u64 (pid_to_u64 p) = p) /\
  (forall v, v <= u64_max -> pid_wf (pid_from_u64 v) /\ pid_to_u64 (pid_from_u64 v) = v) /\
  (forall p q, pid_wf p -> pid_wf q -> (pid_to_u64 p = pid_to_u64 q <-> p = q)).
Proof. exact pid_u64_bijection. Qed.
Print Assumptions C01_u64_bijection.

Example C01_case : pid_wf (PaymentId 2 5 5 1234567) /\ pid_to_u64 (PaymentId 2 5 5 1234567) = 5302424890049794.
Proof. exact C01_case_holds. Qed.

(** C02. SCALE: 8 bytes, decodes whatever follows, canonical, rejects short input. *)
Theorem C02_scale_codec :
  (forall p, pid_wf p -> length (pid_encode p) = 8%nat /\
     forall rest, pid_decode (pid_encode p ++ rest) = Some (p, rest)) /\
  (forall input p rest, is_bytes input -> pid_decode input = Some (p, rest) ->
     pid_wf p /\ input = pid_encode p ++ rest) /\
  (forall input, pid_decode input = None <-> (length input < 8)%nat).
Proof. exact pid_scale_codec. Qed.
Print Assumptions C02_scale_codec.

Example C02_case : pid_decode [2; 5; 5; 0; 135; 214; 18; 0; 77] = Some (PaymentId 2 5 5 1234567, [77]).
Proof. exact C02_case_holds. Qed.

(** C03. The printed text (plain: [false], with dash: [true]) has 8 to 11 base58 characters and parses back. *)
Theorem C03_text_roundtrip : forall p, pid_wf p ->
  exists plain,
    pid_display false p = Val plain /\
    pid_display true p = Val (take 5 plain ++ [45] ++ drop 5 plain) /\
    (8 <= length plain <= 11)%nat /\ Forall (fun c => is_Some (char_value c)) plain /\
    pid_parse plain = Val p /\ pid_parse (take 5 plain ++ [45] ++ drop 5 plain) = Val p.
Proof. exact pid_text_roundtrip. Qed.
Print Assumptions C03_text_roundtrip.

(** C03. The text, read as a base58 number, is the id's eight bytes (prefix, little-endian index, little-endian block) read as a number. *)
Theorem C03_text_number : forall p plain, pid_wf p -> pid_display false p = Val plain ->
  text_number 0 plain = Some (bytes_number 0 [pid_prefix0 p; pid_prefix1 p; pid_index p mod 256; pid_index p / 256;
    pid_block p mod 256; pid_block p / 256 mod 256; pid_block p / 65536 mod 256; pid_block p / 16777216]).
Proof. exact pid_text_number. Qed.
Print Assumptions C03_text_number.

(** C03. The JS constructor takes back what was printed. *)
Theorem C03_constructor : forall p alt t, pid_wf p -> pid_display alt p = Val t -> pid_new t = Val p.
Proof. exact pid_new_displayed. Qed.
Print Assumptions C03_constructor.

(** "LbNvS-NtVQs", the vector of common/src/payment_id.rs:189-192, and "jpXCZedGfVQ" of line 186. *)
Example C03_case :
  pid_display true (PaymentId 2 5 5 1234567) = Val [76;98;78;118;83;45;78;116;86;81;115] /\
  pid_display false (pid_from_u64 u64_max) = Val [106;112;88;67;90;101;100;71;102;86;81].
Proof. exact C03_case_holds. Qed.

(** C04. Parsing arbitrary text can crash: a dash and more than 12 other bytes. *)
Theorem C04_parse_never_panics_refuted : exists s, Forall (fun c => c < 128) s /\ pid_parse s = Panic.
Proof. exact pid_parse_panics. Qed.
Print Assumptions C04_parse_never_panics_refuted.

(** C04, the exact extent of the crash; missing for the full claim: texts with a dash and more than 13 bytes. *)
Theorem C04_parse_never_panics_partial : forall s, pid_parse s = Panic <-> 45 ∈ s /\ (13 < length s)%nat.
Proof. exact pid_parse_panic_iff. Qed.
Print Assumptions C04_parse_never_panics_partial.

(** C04. The JS constructor crashes on the same texts, and on no others. *)
Theorem C04_constructor_partial : forall s, pid_new s = Panic <-> 45 ∈ s /\ (13 < length s)%nat.
Proof. exact pid_new_panic. Qed.
Print Assumptions C04_constructor_partial.

(** C05. The JS constructor takes every text that is no id for payment 0, which has a text of its own. *)
Theorem C05_constructor_refuted :
  (forall s, pid_parse s = Fail -> pid_new s = Val (PaymentId 0 0 0 0)) /\
  exists s t, s <> t /\ pid_parse s = Fail /\ pid_parse t = Val (PaymentId 0 0 0 0) /\ pid_display false (PaymentId 0 0 0 0) = Val t /\ pid_new s = pid_new t.
Proof. exact pid_new_wrong. Qed.
Print Assumptions C05_constructor_refuted.

(** C05. Different dash-free texts can denote the same payment ("2" and "5R"). *)
Theorem C05_text_canonical_refuted :
  exists s t p, s <> t /\ 45 ∉ s /\ 45 ∉ t /\ pid_parse s = Val p /\ pid_parse t = Val p /\ pid_display false p <> Val s.
Proof. exact pid_text_not_canonical. Qed.
Print Assumptions C05_text_canonical_refuted.

(** C05 for texts whose base58 value fills all eight bytes; shorter ones are silently zero padded. *)
Theorem C05_text_canonical_partial : forall s w,
  45 ∉ s -> bs58_decode 8 s = Some w -> length w = 8%nat ->
  exists p, pid_wf p /\ pid_parse s = Val p /\ pid_display false p = Val s.
Proof. exact pid_text_canonical. Qed.
Print Assumptions C05_text_canonical_partial.

Example C05_case : exists w, bs58_decode 8 [76;98;78;118;83;78;116;86;81;115] = Some w /\ length w = 8%nat.
Proof. exact C05_case_holds. Qed.

(** C06. Extrinsic indices are truncated to 16 bits, so ids can repeat inside a block. *)
Theorem C06_ids_unique_refuted : exists b i1 i2 ben p,
  i1 <> i2 /\ i1 <= u32_max /\ i2 <= u32_max /\ length ben = 32%nat /\
  kreivo_next_id b (Some i1) ben = Val (Some p) /\ kreivo_next_id b (Some i2) ben = Val (Some p).
Proof. exact kreivo_next_id_collides. Qed.
Print Assumptions C06_ids_unique_refuted.

(** C06 for extrinsic indices below 65536: the id determines block and index, and is always issued. *)
Theorem C06_ids_unique_partial :
  (forall b1 i1 ben1 b2 i2 ben2 p, i1 <= u16_max -> i2 <= u16_max ->
    kreivo_next_id b1 (Some i1) ben1 = Val (Some p) -> kreivo_next_id b2 (Some i2) ben2 = Val (Some p) ->
    b1 = b2 /\ i1 = i2 /\ pid_block_number p = b1 /\ pid_extrinsic_index p = i1) /\
  (forall b i ben, b <= u32_max -> is_bytes ben -> length ben = 32%nat ->
    exists p, kreivo_next_id b (Some i) ben = Val (Some p) /\ pid_wf p).
Proof. exact kreivo_next_id_unique_full. Qed.
Print Assumptions C06_ids_unique_partial.

Example C06_case : kreivo_next_id 7 (Some 2) (replicate 32 9) = Val (Some (PaymentId 9 9 2 7)).
Proof. exact C06_case_holds. Qed.

(** Model of common/src/payment_id.rs and of the bs58 0.5 routines it calls. *)
From Verif Require Import Base.

(** common/src/payment_id.rs:8-12 [struct PaymentId]; [repr(C)], so the field
    order is also the memory layout (wasm and x86 are little endian). *)
Record payment_id := PaymentId {
  pid_prefix0 : N;  (* prefix[0] *)
  pid_prefix1 : N;  (* prefix[1] *)
  pid_index : N;    (* index: u16 *)
  pid_block : N;    (* block: u32 *)
}.

Global Instance payment_id_eq_dec : EqDecision payment_id.
Proof. solve_decision. Defined.

(** Field widths of common/src/payment_id.rs:9-11 (implicit in the Rust types). *)
Definition pid_wf (p : payment_id) : Prop :=
  pid_prefix0 p < 256 /\ pid_prefix1 p < 256 /\ pid_index p < 65536 /\ pid_block p < 4294967296.

(** common/src/payment_id.rs:87-92 [AsRef<[u8]>]: the 8 bytes in memory. *)
Definition pid_as_ref (p : payment_id) : list N :=
  [pid_prefix0 p; pid_prefix1 p] ++ le_bytes 2 (pid_index p) ++ le_bytes 4 (pid_block p).

(** common/src/payment_id.rs:57-61 [From<PaymentId> for u64] *)
Definition pid_to_u64 (p : payment_id) : N := le_val (pid_as_ref p).

(** common/src/payment_id.rs:63-74 [From<u64> for PaymentId] *)
Definition pid_from_u64 (v : N) : payment_id :=
  let val := le_bytes 8 v in
  {| pid_prefix0 := nth 0 val 0;
     pid_prefix1 := nth 1 val 0;
     pid_index := le_val (take 2 (drop 2 val));
     pid_block := le_val (drop 4 val) |}.

(** common/src/payment_id.rs:76-85 [From<(u32, u32, &[u8])>]. [extra[..2]] panics when
    there are fewer than two bytes; [idx as u16] truncates. *)
Definition pid_from_parts (block idx : N) (extra : list N) : outcome payment_id :=
  match extra with
  | b0 :: b1 :: _ => Val {| pid_prefix0 := b0; pid_prefix1 := b1; pid_index := wrap16 idx; pid_block := block |}
  | _ => Panic
  end.

(** common/src/payment_id.rs:28-35 [block_number], [extrinsic_index] *)
Definition pid_block_number (p : payment_id) : N := pid_block p.
Definition pid_extrinsic_index (p : payment_id) : N := pid_index p.

(** common/src/payment_id.rs:144-152 [Encode] *)
Definition pid_encode (p : payment_id) : list N := le_bytes 8 (pid_to_u64 p).

(** common/src/payment_id.rs:153-162 [Decode]; [input.read] on a slice fails when
    fewer than 8 bytes are left and otherwise consumes exactly 8. *)
Definition pid_decode (input : list N) : option (payment_id * list N) :=
  if (length input <? 8)%nat then None
  else Some (pid_from_u64 (le_val (take 8 input)), drop 8 input).

(* ------------------------------------------------------------------ *)
(** * bs58 0.5 (dependency of common/Cargo.toml:11), byte-wise algorithm *)

(** The inner [for byte in &mut output[..index]] loop of bs58's [encode_into] and
    [decode_into]: multiply the little-endian digit vector by [from] and add [carry], in
    base [to]. Returns new digits and the remaining carry. ([& 0xFF] and [>> 8] in
    [decode_into] are [mod 256] and [/ 256].) *)
Fixpoint b_inner (from to : N) (ds : list N) (carry : N) : list N * N :=
  match ds with
  | [] => ([], carry)
  | d :: ds' =>
      let c := carry + d * from in
      let '(r, k) := b_inner from to ds' (c / to) in
      (c mod to :: r, k)
  end.

(** The [while carry > 0] loop: push the digits of the carry; [room] is the
    space left in the output buffer, [None] is [BufferTooSmall]. [fuel] bounds the number of
    iterations; running out yields [None] as well and never happens (see [b_push_ok]). *)
Fixpoint b_push (to : N) (fuel room : nat) (carry : N) : option (list N) :=
  if carry =? 0 then Some []
  else match fuel, room with
       | S fuel', S room' =>
           match b_push to fuel' room' (carry / to) with
           | Some r => Some (carry mod to :: r)
           | None => None
           end
       | _, _ => None
       end.

(** One iteration of the outer loop for input digit [v]. *)
Definition b_step (from to : N) (cap : nat) (ds : list N) (v : N) : option (list N) :=
  let '(r, k) := b_inner from to ds v in
  match b_push to (N.size_nat k) (cap - length ds) k with
  | Some more => Some (r ++ more)
  | None => None
  end.

Fixpoint b_loop (from to : N) (cap : nat) (ds : list N) (input : list N) : option (list N) :=
  match input with
  | [] => Some ds
  | v :: rest =>
      match b_step from to cap ds v with
      | Some ds' => b_loop from to cap ds' rest
      | None => None
      end
  end.

(** [input.take_while(|v| v == 0)] *)
Fixpoint leading_zeros (input : list N) : nat :=
  match input with
  | v :: rest => if v =? 0 then S (leading_zeros rest) else O
  | [] => O
  end.

(** The whole conversion: digits, then one zero per leading zero, then [reverse]. [None] is
    [BufferTooSmall] for an output buffer of [cap] bytes. *)
Definition b_conv (from to : N) (cap : nat) (input : list N) : option (list N) :=
  match b_loop from to cap [] input with
  | Some ds =>
      let z := leading_zeros input in
      if (length ds + z <=? cap)%nat then Some (reverse (ds ++ replicate z 0)) else None
  | None => None
  end.

(** bs58 [Alphabet::BITCOIN]: "123456789ABCDEFGHJKLMNPQRSTUVWXYZabcdefghijkmnopqrstuvwxyz" *)
Definition alphabet : list N :=
  [49;50;51;52;53;54;55;56;57;
   65;66;67;68;69;70;71;72;74;75;76;77;78;80;81;82;83;84;85;86;87;88;89;90;
   97;98;99;100;101;102;103;104;105;106;107;109;110;111;112;113;114;115;116;117;118;119;120;121;122].

Definition alpha_encode (d : N) : N := nth (N.to_nat d) alphabet 0.

Fixpoint index_of (c : N) (l : list N) : option N :=
  match l with
  | [] => None
  | x :: l' => if x =? c then Some 0 else option_map N.succ (index_of c l')
  end.

(** [alpha.decode[c]]; [None] covers both [NonAsciiCharacter] and [InvalidCharacter]. *)
Definition alpha_decode (c : N) : option N := index_of c alphabet.

Fixpoint alpha_decode_all (s : list N) : option (list N) :=
  match s with
  | [] => Some []
  | c :: s' =>
      match alpha_decode c, alpha_decode_all s' with
      | Some d, Some ds => Some (d :: ds)
      | _, _ => None
      end
  end.

(** [bs58::encode(input).onto(&mut out[..])] with an output buffer of [cap] bytes. *)
Definition bs58_encode (cap : nat) (input : list N) : option (list N) :=
  option_map (map alpha_encode) (b_conv 256 58 cap input).

(** [bs58::decode(input).onto(&mut out[..])]: the bytes written to the front of the buffer.
    (All errors are merged: the caller discards which one it was.) *)
Definition bs58_decode (cap : nat) (input : list N) : option (list N) :=
  match alpha_decode_all input with
  | Some ds => b_conv 58 256 cap ds
  | None => None
  end.

(* ------------------------------------------------------------------ *)
(** * Text form *)

Definition dash : N := 45.

(** [s.split_once('-')] *)
Fixpoint split_once (s : list N) : option (list N * list N) :=
  match s with
  | [] => None
  | c :: s' =>
      if c =? dash then Some ([], s')
      else match split_once s' with
           | Some (p1, p2) => Some (c :: p1, p2)
           | None => None
           end
  end.

Definition is_ascii (s : list N) : bool := forallb (fun c => c <? 128) s.

(** common/src/payment_id.rs:108-110, the part of [from_str] after the dash has been removed. The
    unwritten tail of [out] is zero. *)
Definition parse_plain (input : list N) : outcome payment_id :=
  match bs58_decode 8 input with
  | Some w => Val (pid_from_u64 (le_val (w ++ replicate (8 - length w) 0)))
  | None => Fail
  end.

(** common/src/payment_id.rs:98-111 [FromStr::from_str]. [tmp[..p1.len()]] and
    [tmp[p1.len()..len]] panic when out of the 12 byte buffer. *)
Definition pid_parse (s : list N) : outcome payment_id :=
  match split_once s with
  | Some (p1, p2) =>
      if (12 <? length p1 + length p2)%nat then Panic
      else if is_ascii (p1 ++ p2) then parse_plain (p1 ++ p2) else Fail
  | None => parse_plain s
  end.

(** common/src/payment_id.rs:116-126 [Display::fmt]; [&out[..5]] panics on shorter text. *)
Definition pid_display (alternate : bool) (p : payment_id) : outcome (list N) :=
  match bs58_encode 12 (pid_as_ref p) with
  | None => Fail
  | Some out =>
      if negb (is_ascii out) then Fail
      else if (length out <? 5)%nat then Panic
      else Val (take 5 out ++ (if alternate then [dash] else []) ++ drop 5 out)
  end.

(** common/src/payment_id.rs:16-20 [PaymentId::new] (the JS constructor):
    [id.parse().unwrap_or(Default::default())] *)
Definition pid_new (s : list N) : outcome payment_id :=
  match pid_parse s with
  | Val p => Val p
  | Fail => Val (pid_from_u64 0)
  | Panic => Panic
  end.

(** runtime/kreivo/src/payments.rs:67-73 [pallet_payments::PaymentId::next]: [block] is
    [System::block_number()], [idx] is [System::extrinsic_index()], the beneficiary is given by
    its 32 encoded bytes. *)
Definition kreivo_next_id (block : N) (idx : option N) (beneficiary : list N) : outcome (option payment_id) :=
  match idx with
  | None => Val None
  | Some i =>
      match pid_from_parts block i beneficiary with
      | Val p => Val (Some p)
      | Fail => Fail
      | Panic => Panic
      end
  end.

(** Fees and deposits, login challenges, and who may register passes and contracts on Kreivo. *)
From Verif Require Import Base XcmTypes OriginTypes AccountsModel.
Open Scope N_scope.

(* ------------------------------------------------------------------ *)
(** * Money *)

(** runtime/runtime-constants/src/lib.rs:28-47 (without feature paseo): [UNITS], [QUID], [CENTS], [MILLICENTS];
    runtime/kreivo/src/constants.rs:21 [EXISTENTIAL_DEPOSIT] *)
Definition UNITS : N := 1000000000000.
Definition QUID : N := UNITS / 30.
Definition CENTS : N := QUID / 100.
Definition MILLICENTS : N := CENTS / 1000.
Definition EXISTENTIAL_DEPOSIT : N := CENTS / 10.

(** runtime/runtime-constants/src/lib.rs:49-51 [deposit]; on u32 arguments nothing overflows u128. *)
Definition relay_deposit (items bytes_ : N) : N := items * 2000 * CENTS + bytes_ * 100 * MILLICENTS.
(** runtime/kreivo/src/constants.rs:28-31 [deposit] *)
Definition deposit (items bytes_ : N) : N := relay_deposit items bytes_ / 100.

(** sp_arithmetic [Perbill::from_rational(p, q)]: floor (dependency); [Perbill * u128]: nearest, ties down (dependency). *)
Definition ratio_parts (p q : N) : N := if (q =? 0) || (q <=? p) then 1000000000 else p * 1000000000 / q.
Definition perbill_of (parts x : N) : N :=
  let t := x * parts in t / 1000000000 + (if 500000000 <? t mod 1000000000 then 1 else 0).

(** frame_support [FeePolynomial::eval] for one positive term of degree one (dependency). *)
Definition linear_fee (frac integer x : N) : N := sat128 (sat128 (0 + perbill_of frac x) + sat128 (integer * x)).

(** runtime/kreivo/src/constants.rs:75-90 [RefTimeToFee]; [base] is ExtrinsicBaseWeight's reference time (dependency). *)
Definition ref_time_fee (base w : N) : N :=
  let p := CENTS in let q := 100 * base in linear_fee (ratio_parts (p mod q) q) (p / q) w.
(** runtime/kreivo/src/constants.rs:94-108 [ProofSizeToFee] *)
Definition proof_size_fee (w : N) : N :=
  let p := CENTS in let q := 10000 in linear_fee (ratio_parts (p mod q) q) (p / q) w.
(** runtime/kreivo/src/constants.rs:60-71 [WeightToFee::weight_to_fee] *)
Definition weight_to_fee (base : N) (w : N * N) : N := N.max (ref_time_fee base (fst w)) (proof_size_fee (snd w)).

(* ------------------------------------------------------------------ *)
(** * Login challenges *)

Definition zero_hash : bytes := replicate 32 0.
(** frame_system [block_hash] (dependency): the zero hash for blocks it keeps no hash of: the current one, later ones, pruned ones. *)
Definition block_hash (hashes : N -> option bytes) (n : N) : bytes := default zero_hash (hashes n).
(** runtime/kreivo/src/configuration/system_support.rs:140-142 [UnincludedBlockHashChallenger::generate] *)
Definition generate_challenge (hashes : N -> option bytes) (cx : N) : bytes := block_hash hashes cx.
(** runtime/kreivo/src/configuration/system_support.rs:144-147 [check_challenge] *)
Definition check_challenge (hashes : N -> option bytes) (now cx : N) (challenge : bytes) : bool :=
  if now - 3 <=? cx then bool_decide (generate_challenge hashes cx = challenge) else false.

(* ------------------------------------------------------------------ *)
(** * Who may register passes; who may upload and instantiate contracts *)

(** What registering costs: amount, who pays, who receives. *)
Definition deposit_info : Type := option (N * N * N).

(** frame_support [EnsureRootWithSuccess] (dependency) *)
Definition root_with {A} (a : A) (o : origin) : option A := match o with ORoot => Some a | _ => None end.
(** runtime/kreivo/src/configuration/system_support.rs:171-188 [CommunitiesDontDeposit] *)
Definition communities_dont_deposit (o : origin) : option deposit_info :=
  match as_signed_by_community o with Some _ => Some None | None => None end.
(** pallet_pass [EnsureSignedPays] (dependency) *)
Definition pass_signed_pays (amount beneficiary : N) (o : origin) : option deposit_info :=
  match o with OSigned who => Some (Some (amount, who, beneficiary)) | _ => None end.
(** runtime/kreivo/src/configuration/system_support.rs:207-220 [pallet_pass::Config::RegisterOrigin] *)
Definition pass_register_origin : origin -> option deposit_info :=
  either_of (root_with None) (either_of communities_dont_deposit (pass_signed_pays EXISTENTIAL_DEPOSIT treasury_account)).

(** runtime/kreivo/src/contracts.rs:61 [UploadOrigin]: the account that pays for the code. *)
Definition upload_origin : origin -> option N := root_with treasury_account.
(** runtime/kreivo/src/contracts.rs:62-68 [InstantiateOrigin]: the account that instantiates. *)
Definition instantiate_origin : origin -> option N :=
  either_of (root_with treasury_account) (either_of (as_signed_by_static_community 1) (as_signed_by_static_community 2)).

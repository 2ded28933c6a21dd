(** Signed transactions: what the signed extensions of the runtime check before a call is dispatched, and the history of a chain of blocks.
    The extensions themselves belong to frame_system and pallet_skip_feeless_payment (dependency); which of them are used, in which order and around what
    is runtime/kreivo/src/lib.rs:130-141. *)
From stdpp Require Import gmap.
Open Scope N_scope.

(** [sp_runtime::generic::Era] (dependency), part of the extensions at runtime/kreivo/src/lib.rs:136. *)
Inductive era := Immortal | Mortal (period phase : N).

(** [Era::decode] of the two bytes of a mortal era (dependency): a period is a power of two, at least four; phases of long periods are rounded. *)
Definition decode_era (enc : N) : option era :=
  let period := 2 * 2 ^ (enc mod 16) in
  let phase := enc / 16 * N.max (period / 4096) 1 in
  if (4 <=? period) && (phase <? period) then Some (Mortal period phase) else None.

(** [Era::birth] (dependency): the block whose hash is signed. *)
Definition era_birth (e : era) (n : N) : N :=
  match e with Immortal => 0 | Mortal period phase => (N.max n phase - phase) / period * period + phase end.

(** A signed transaction, runtime/kreivo/src/lib.rs:128-146: its signer, nonce, era and call, and what was signed with it but not sent
    ([additional_signed] of [CheckSpecVersion], [CheckTxVersion], [CheckGenesis] and [CheckEra]). Signatures are taken to be unforgeable:
    a transaction is one that its signer made, anybody may submit it, any number of times. Tips and assets for fees are part of [tx_call]. *)
Record tx := Tx {
  tx_who : N;
  tx_nonce : N;
  tx_era : era;
  tx_call : N;
  tx_spec : N;
  tx_txv : N;
  tx_genesis : N;
  tx_birth_hash : N;
}.

(** The chain, as far as these checks look at it: the number of the block being built, hashes of earlier blocks, versions of the runtime, and the nonces of the
    accounts that exist (those with a provider or sufficient; runtime/kreivo/src/configuration/system_support.rs:58-90). *)
Record chain := Chain {
  ch_number : N;
  ch_hashes : gmap N N;
  ch_spec : N;
  ch_txv : N;
  ch_nonces : gmap N N;
}.

(** What is decided elsewhere: the hash of the block of each height, whether a call is feeless for its signer (`feeless_if` of its pallet, evaluated in the current state),
    and whether the transaction fits the block and its fee is paid ([CheckWeight], [ChargeTxToPassAccount], see TxFeesModel.v and BlocksModel.v). *)
Record tenv := TEnv {
  te_hash : N -> N;
  te_feeless : chain -> tx -> bool;
  te_admitted : chain -> tx -> bool;
}.

(** runtime/kreivo/src/configuration/system_support.rs:69: [BlockHashCount] of polkadot_runtime_common (dependency). *)
Definition block_hash_count : N := 4096.

(** A field written. *)
Definition set_nonces (m : gmap N N) (c : chain) : chain := Chain (ch_number c) (ch_hashes c) (ch_spec c) (ch_txv c) m.

(** [Checkable::check] of an extrinsic (dependency): the signature is verified against the values of this chain; [CheckEra] refuses when the hash of the birth
    block is not (or no longer) stored. runtime/kreivo/src/lib.rs:131-136. *)
Definition signature_holds (c : chain) (t : tx) : bool :=
  match ch_hashes c !! 0, ch_hashes c !! era_birth (tx_era t) (ch_number c) with
  | Some g, Some h => (tx_spec t =? ch_spec c) && (tx_txv t =? ch_txv c) && (tx_genesis t =? g) && (tx_birth_hash t =? h)
  | _, _ => false
  end.

(** [CheckNonce::pre_dispatch] (dependency): the account exists, its nonce is the transaction's and goes up by one. A nonce has 32 bits; the addition wraps. *)
Definition check_nonce (c : chain) (t : tx) : option chain :=
  n ← ch_nonces c !! tx_who t;
  if tx_nonce t =? n then Some (set_nonces (<[tx_who t := (n + 1) mod 2 ^ 32]> (ch_nonces c)) c) else None.

(** [Executive::apply_extrinsic] up to dispatch, with the extensions in the order of runtime/kreivo/src/lib.rs:131-140: [CheckNonZeroSender] (account zero),
    [SkipCheckIfFeeless<CheckNonce>], and the others as oracles. [None]: not included. What the call does to accounts are steps of their own. *)
Definition apply_tx (e : tenv) (c : chain) (t : tx) : option chain :=
  if negb (signature_holds c t) || (tx_who t =? 0) then None else
  c1 ← (if te_feeless e c t then Some c else check_nonce c t);
  if te_admitted e c t then Some c1 else None.

(** One step: a transaction is submitted (by anybody), a block ends and the next begins, an account comes to exist (or gets another provider), an account is reaped
    (its record is removed with its nonce), the runtime is upgraded. *)
Inductive tstep := TxApply (t : tx) | TxBlock | TxEndow (a : N) | TxReap (a : N) | TxUpgrade (spec txv : N).

(** frame_system's [initialize] and [finalize] (dependency): the hash of the block that ended is stored, the oldest one but that of genesis is dropped. *)
Definition next_block (e : tenv) (c : chain) : chain :=
  let n := ch_number c in
  let old := n - block_hash_count - 1 in
  let h := if old =? 0 then ch_hashes c else delete old (ch_hashes c) in
  Chain (n + 1) (<[n := te_hash e n]> h) (ch_spec c) (ch_txv c) (ch_nonces c).

(** The steps of a chain; [SignedExtra] at runtime/kreivo/src/lib.rs:131-140 decides about the first one. *)
Definition do_tstep (e : tenv) (c : chain) (s : tstep) : chain :=
  match s with
  | TxApply t => default c (apply_tx e c t)
  | TxBlock => next_block e c
  | TxEndow a => match ch_nonces c !! a with Some _ => c | None => set_nonces (<[a := 0]> (ch_nonces c)) c end
  | TxReap a => set_nonces (delete a (ch_nonces c)) c
  | TxUpgrade spec txv => Chain (ch_number c) (ch_hashes c) spec txv (ch_nonces c)
  end.

(** A history. *)
Definition trun (e : tenv) (c : chain) (l : list tstep) : chain := fold_left (do_tstep e) l c.

(** The first block after genesis, with the versions of runtime/kreivo/src/lib.rs:161-170. *)
Definition tgenesis (e : tenv) : chain := Chain 1 {[ 0 := te_hash e 0 ]} 114 9 ∅.

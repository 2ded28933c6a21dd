(** Model of common/src/multilocation_asset_id.rs. *)
From Verif Require Import Base XcmTypes.

(** common/src/multilocation_asset_id.rs:34-38 [enum NetworkId] *)
Inductive asset_network := APolkadot | AKusama | AEthereum (chain_id : N).

(** common/src/multilocation_asset_id.rs:23-27 [struct Para] *)
Record para := Para { para_id : N; para_pallet : N; para_index : N }.

(** common/src/multilocation_asset_id.rs:12-16 [enum FungibleAssetLocation] *)
Inductive asset_id :=
| Here (index : N)
| Sibling (p : para)
| External (net : asset_network) (child : option para).

Global Instance asset_network_eq_dec : EqDecision asset_network. Proof. solve_decision. Defined.
Global Instance para_eq_dec : EqDecision para. Proof. solve_decision. Defined.
Global Instance asset_id_eq_dec : EqDecision asset_id. Proof. solve_decision. Defined.

(** Integer widths of the fields: id u16, pallet u8, index u32, chain_id u64. *)
Definition asset_network_wf (n : asset_network) : Prop :=
  match n with AEthereum c => c <= u64_max | _ => True end.
Definition para_wf (p : para) : Prop :=
  para_id p <= u16_max /\ para_pallet p <= u8_max /\ para_index p <= u32_max.
Definition asset_id_wf (a : asset_id) : Prop :=
  match a with
  | Here i => i <= u32_max
  | Sibling p => para_wf p
  | External n c => asset_network_wf n /\ match c with Some p => para_wf p | None => True end
  end.

(** common/src/multilocation_asset_id.rs:46-50 [From<u32>] *)
Definition asset_from_u32 (v : N) : asset_id := Here v.

(** common/src/multilocation_asset_id.rs:61-72 [TryFrom<xcm NetworkId>] *)
Definition network_try_from (n : network) : option asset_network :=
  match n with
  | Polkadot => Some APolkadot
  | Kusama => Some AKusama
  | Ethereum c => Some (AEthereum c)
  | _ => None
  end.

(** common/src/multilocation_asset_id.rs:74-82 [From<NetworkId> for xcm NetworkId] *)
Definition network_from (n : asset_network) : network :=
  match n with APolkadot => Polkadot | AKusama => Kusama | AEthereum c => Ethereum c end.

(** [try_into] between unsigned integers *)
Definition try_u16 (x : N) : option N := if x <=? u16_max then Some x else None.
Definition try_u32 (x : N) : option N := if x <=? u32_max then Some x else None.

(** common/src/multilocation_asset_id.rs:86-116 [AsFungibleAssetLocation::convert] *)
Definition convert (l : location) : outcome (option asset_id) :=
  match l with
  | Location 2 [GlobalConsensus n] =>
      match network_try_from n with
      | Some n' => Val (Some (External n' None))
      | None => Val None
      end
  | Location 2 [GlobalConsensus n; Parachain id; PalletInstance pallet; GeneralIndex index] =>
      match network_try_from n, try_u16 id, try_u32 index with
      | Some n', Some id', Some index' => Val (Some (External n' (Some (Para id' pallet index'))))
      | _, _, _ => Val None
      end
  | Location 1 [Parachain id; PalletInstance pallet; GeneralIndex index] =>
      match try_u16 id, try_u32 index with
      | Some id', Some index' => Val (Some (Sibling (Para id' pallet index')))
      | _, _ => Val None
      end
  | Location 0 [PalletInstance 13; GeneralIndex index] =>
      match try_u32 index with
      | Some index' => Val (Some (Here index'))
      | None => Panic (* .expect("as it is here, we the types will match; qed") *)
      end
  | _ => Val None
  end.

(** common/src/multilocation_asset_id.rs:118-143 [AsFungibleAssetLocation::convert_back] *)
Definition convert_back (a : asset_id) : option location :=
  match a with
  | Here index => Some (Location 0 [PalletInstance 13; GeneralIndex index])
  | Sibling p => Some (Location 1 [Parachain (para_id p); PalletInstance (para_pallet p); GeneralIndex (para_index p)])
  | External n None => Some (Location 2 [GlobalConsensus (network_from n)])
  | External n (Some p) =>
      Some (Location 2 [GlobalConsensus (network_from n); Parachain (para_id p);
                        PalletInstance (para_pallet p); GeneralIndex (para_index p)])
  end.

(* ------------------------------------------------------------------ *)
(** * derived SCALE codec (common/src/multilocation_asset_id.rs:7-38, [derive(Encode, Decode, MaxEncodedLen)]) *)

(** SCALE: enum = variant index byte then fields; integers little endian; [Option] = 0 or 1 then value. *)
Definition enc_para (p : para) : list N :=
  le_bytes 2 (para_id p) ++ le_bytes 1 (para_pallet p) ++ le_bytes 4 (para_index p).
Definition enc_network (n : asset_network) : list N :=
  match n with APolkadot => [0] | AKusama => [1] | AEthereum c => 2 :: le_bytes 8 c end.
Definition enc_option_para (c : option para) : list N :=
  match c with None => [0] | Some p => 1 :: enc_para p end.
Definition enc_asset (a : asset_id) : list N :=
  match a with
  | Here i => 0 :: le_bytes 4 i
  | Sibling p => 1 :: enc_para p
  | External n c => 2 :: enc_network n ++ enc_option_para c
  end.

Definition dec_uint (n : nat) (input : list N) : option (N * list N) :=
  if (length input <? n)%nat then None else Some (le_val (take n input), drop n input).

Definition dec_para (input : list N) : option (para * list N) :=
  '(id, r1) ← dec_uint 2 input;
  '(pallet, r2) ← dec_uint 1 r1;
  '(index, r3) ← dec_uint 4 r2;
  Some (Para id pallet index, r3).
Definition dec_network (input : list N) : option (asset_network * list N) :=
  match input with
  | 0 :: r => Some (APolkadot, r)
  | 1 :: r => Some (AKusama, r)
  | 2 :: r => '(c, r') ← dec_uint 8 r; Some (AEthereum c, r')
  | _ => None
  end.
Definition dec_option_para (input : list N) : option (option para * list N) :=
  match input with
  | 0 :: r => Some (None, r)
  | 1 :: r => '(p, r') ← dec_para r; Some (Some p, r')
  | _ => None
  end.
Definition dec_asset (input : list N) : option (asset_id * list N) :=
  match input with
  | 0 :: r => '(i, r') ← dec_uint 4 r; Some (Here i, r')
  | 1 :: r => '(p, r') ← dec_para r; Some (Sibling p, r')
  | 2 :: r => '(n, r1) ← dec_network r; '(c, r2) ← dec_option_para r1; Some (External n c, r2)
  | _ => None
  end.

(** [FungibleAssetLocation::max_encoded_len()]: 1 + max(4, 7, (1+8) + (1+7)) *)
Definition asset_max_encoded_len : nat := 18.

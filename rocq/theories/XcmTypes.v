(** XCM v4 location types, as used by common/src/multilocation_asset_id.rs and
    runtime/kreivo/src/xcm_config.rs (defined in staging-xcm, a dependency). *)
From Verif Require Import Base.

(** xcm::v4::NetworkId. Byte arrays are kept as opaque lists. *)
Inductive network :=
| ByGenesis (h : list N)
| ByFork (block : N) (h : list N)
| Polkadot | Kusama | Westend | Rococo | Wococo
| Ethereum (chain_id : N)
| BitcoinCore | BitcoinCash | PolkadotBulletin.

(** xcm::v3::BodyId *)
Inductive body_id :=
| BUnit | BMoniker (m : list N) | BIndex (i : N)
| BExecutive | BTechnical | BLegislative | BJudicial | BDefense | BAdministration | BTreasury.

(** xcm::v3::BodyPart *)
Inductive body_part :=
| Voice
| PMembers (count : N)
| PFraction (nom denom : N)
| AtLeastProportion (nom denom : N)
| MoreThanProportion (nom denom : N).

(** xcm::v4::Junction *)
Inductive junction :=
| Parachain (id : N)
| AccountId32 (net : option network) (id : list N)
| AccountIndex64 (net : option network) (index : N)
| AccountKey20 (net : option network) (key : list N)
| PalletInstance (i : N)
| GeneralIndex (i : N)
| GeneralKey (len : N) (data : list N)
| OnlyChild
| Plurality (id : body_id) (part : body_part)
| GlobalConsensus (net : network).

(** xcm::v4::Location. (The limit of 8 junctions is not modelled: theorems hold for every length.) *)
Record location := Location { loc_parents : N; loc_interior : list junction }.

Global Instance network_eq_dec : EqDecision network. Proof. solve_decision. Defined.
Global Instance body_id_eq_dec : EqDecision body_id. Proof. solve_decision. Defined.
Global Instance body_part_eq_dec : EqDecision body_part. Proof. solve_decision. Defined.
Global Instance junction_eq_dec : EqDecision junction. Proof. solve_decision. Defined.
Global Instance location_eq_dec : EqDecision location. Proof. solve_decision. Defined.

(** Integer widths of the Rust fields that the modelled code reads. *)
Definition network_wf (n : network) : Prop :=
  match n with Ethereum c => c <= u64_max | ByFork b _ => b <= u64_max | _ => True end.
Definition body_id_wf (b : body_id) : Prop :=
  match b with BIndex i => i <= u32_max | _ => True end.
Definition body_part_wf (p : body_part) : Prop :=
  match p with
  | Voice => True
  | PMembers c => c <= u32_max
  | PFraction n d | AtLeastProportion n d | MoreThanProportion n d => n <= u32_max /\ d <= u32_max
  end.
Definition junction_wf (j : junction) : Prop :=
  match j with
  | Parachain id => id <= u32_max
  | PalletInstance i => i <= u8_max
  | GeneralIndex i => i <= u128_max
  | GlobalConsensus n => network_wf n
  | Plurality b p => body_id_wf b /\ body_part_wf p
  | AccountId32 _ id => is_bytes id /\ length id = 32%nat
  | _ => True
  end.
Definition location_wf (l : location) : Prop :=
  loc_parents l <= u8_max /\ Forall junction_wf (loc_interior l).

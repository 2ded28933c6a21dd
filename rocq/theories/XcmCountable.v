(** Locations and asset ids as keys of finite maps. *)
From Verif Require Import Base XcmTypes AssetLocationModel.
From stdpp Require Import countable.
Open Scope N_scope.

Global Instance network_countable : Countable network.
Proof.
  refine (inj_countable'
    (fun n => match n with
              | ByGenesis h => inl (inl h) | ByFork b h => inl (inr (b, h)) | Ethereum c => inr (inl c)
              | Polkadot => inr (inr 0) | Kusama => inr (inr 1) | Westend => inr (inr 2) | Rococo => inr (inr 3) | Wococo => inr (inr 4)
              | BitcoinCore => inr (inr 5) | BitcoinCash => inr (inr 6) | PolkadotBulletin => inr (inr 7)
              end)
    (fun x => match x with
              | inl (inl h) => ByGenesis h | inl (inr (b, h)) => ByFork b h | inr (inl c) => Ethereum c
              | inr (inr 0) => Polkadot | inr (inr 1) => Kusama | inr (inr 2) => Westend | inr (inr 3) => Rococo | inr (inr 4) => Wococo
              | inr (inr 5) => BitcoinCore | inr (inr 6) => BitcoinCash | inr (inr _) => PolkadotBulletin
              end) _).
  by intros [].
Defined.

Global Instance body_id_countable : Countable body_id.
Proof.
  refine (inj_countable'
    (fun n => match n with
              | BMoniker m => inl m | BIndex i => inr (inl i) | BUnit => inr (inr 0) | BExecutive => inr (inr 1) | BTechnical => inr (inr 2)
              | BLegislative => inr (inr 3) | BJudicial => inr (inr 4) | BDefense => inr (inr 5) | BAdministration => inr (inr 6)
              | BTreasury => inr (inr 7)
              end)
    (fun x => match x with
              | inl m => BMoniker m | inr (inl i) => BIndex i | inr (inr 0) => BUnit | inr (inr 1) => BExecutive | inr (inr 2) => BTechnical
              | inr (inr 3) => BLegislative | inr (inr 4) => BJudicial | inr (inr 5) => BDefense | inr (inr 6) => BAdministration
              | inr (inr _) => BTreasury
              end) _).
  by intros [].
Defined.

Global Instance body_part_countable : Countable body_part.
Proof.
  refine (inj_countable'
    (fun n => match n with
              | Voice => (0, 0, 0) | PMembers c => (1, c, 0) | PFraction a b => (2, a, b) | AtLeastProportion a b => (3, a, b)
              | MoreThanProportion a b => (4, a, b)
              end)
    (fun x => match x with
              | (0, _, _) => Voice | (1, c, _) => PMembers c | (2, a, b) => PFraction a b | (3, a, b) => AtLeastProportion a b
              | (_, a, b) => MoreThanProportion a b
              end) _).
  by intros [].
Defined.

Global Instance junction_countable : Countable junction.
Proof.
  refine (inj_countable'
    (fun j => match j with
              | Parachain i => inl (inl (0, i)) | PalletInstance i => inl (inl (1, i)) | GeneralIndex i => inl (inl (2, i))
              | OnlyChild => inl (inl (3, 0))
              | AccountId32 n l => inl (inr (0, n, l, 0)) | AccountIndex64 n i => inl (inr (1, n, [], i))
              | AccountKey20 n l => inl (inr (2, n, l, 0)) | GeneralKey i l => inl (inr (3, None, l, i))
              | GlobalConsensus n => inl (inr (4, Some n, [], 0))
              | Plurality b p => inr (b, p)
              end)
    (fun x => match x with
              | inl (inl (0, i)) => Parachain i | inl (inl (1, i)) => PalletInstance i | inl (inl (2, i)) => GeneralIndex i
              | inl (inl _) => OnlyChild
              | inl (inr (0, n, l, _)) => AccountId32 n l | inl (inr (1, n, _, i)) => AccountIndex64 n i
              | inl (inr (2, n, l, _)) => AccountKey20 n l | inl (inr (3, _, l, i)) => GeneralKey i l
              | inl (inr (_, Some n, _, _)) => GlobalConsensus n | inl (inr (_, None, _, _)) => OnlyChild
              | inr (b, p) => Plurality b p
              end) _).
  by intros [].
Defined.

Global Instance location_countable : Countable location.
Proof. refine (inj_countable' (fun l => (loc_parents l, loc_interior l)) (fun x => Location (fst x) (snd x)) _). by intros []. Defined.

Global Instance asset_network_countable : Countable asset_network.
Proof.
  refine (inj_countable'
    (fun n => match n with APolkadot => inl false | AKusama => inl true | AEthereum c => inr c end)
    (fun x => match x with inl false => APolkadot | inl true => AKusama | inr c => AEthereum c end) _).
  by intros [].
Defined.
Global Instance para_countable : Countable para.
Proof. refine (inj_countable' (fun p => (para_id p, para_pallet p, para_index p)) (fun x => Para (fst (fst x)) (snd (fst x)) (snd x)) _). by intros []. Defined.
Global Instance asset_id_countable : Countable asset_id.
Proof.
  refine (inj_countable'
    (fun a => match a with Here i => inl i | Sibling p => inr (inl p) | External n c => inr (inr (n, c)) end)
    (fun x => match x with inl i => Here i | inr (inl p) => Sibling p | inr (inr (n, c)) => External n c end) _).
  by intros [].
Defined.

(** Vocabulary for statements about accounts and locations. Nothing here is used by the model. *)
From Verif Require Import Base XcmTypes OriginTypes.

(** An account made of a four byte tag, an eight byte pallet id, a 16-bit number (low byte first) and zeros. *)
Definition derived_bytes (tag pallet : list N) (n : N) : list N := tag ++ pallet ++ [n mod 256; n / 256] ++ replicate 18 0.
(** "modl", "kv/cmtys", "py/trsry" in ASCII *)
Definition str_modl : list N := [109; 111; 100; 108].
Definition str_communities : list N := [107; 118; 47; 99; 109; 116; 121; 115].
Definition str_treasury : list N := [112; 121; 47; 116; 114; 115; 114; 121].
(** "Parent", "sibl" in ASCII *)
Definition str_parent : list N := [80; 97; 114; 101; 110; 116].
Definition str_sibl : list N := [115; 105; 98; 108].

(** An account whose bytes are [l]. *)
Definition has_bytes (a : N) (l : list N) : Prop := account_wf a /\ account_bytes a = l.

(** The locations of the relay chain, of sibling chains, and of communities speaking as a whole. *)
Definition chain_or_community (l : location) : Prop :=
  l = Location 1 [] \/ (exists i, i <= u32_max /\ l = Location 1 [Parachain i]) \/
  (exists c, c <= u16_max /\ l = Location 0 [Plurality (BIndex c) Voice]).

(** Fractions are at most one million millionths. *)
Definition subset_wf (s : option subset) : Prop := match s with Some (SubFraction p) => p <= 1000000 | _ => True end.

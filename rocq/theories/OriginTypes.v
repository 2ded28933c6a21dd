(** Runtime origins and address format shared by all pallets. *)
From Verif Require Import Base XcmTypes.

(** AccountId32. An account is the number whose 32 big-endian bytes are the account id, so the [Ord] on
    accounts (used by BTreeMap) is the order on numbers. *)
Notation account := N (only parsing).

(** The 32 bytes of an account. *)
Definition account_bytes (a : account) : list N := reverse (le_bytes 32 a).
Definition account_of_bytes (l : list N) : account := le_val (reverse l).
Definition account_wf (a : account) : Prop := a < 2 ^ 256.

(** pallets/communities/src/origin.rs:122-127 [enum Subset] *)
Inductive subset :=
| SubMember (m : N)
| SubMembers (count : N)
| SubFraction (parts : N)     (* Permill: parts per million *)
| SubAtLeastRank (rank : N).

(** runtime/kreivo/src/governance/origins.rs:33-40 [pallet_custom_origins::Origin] *)
Inductive custom_origin := CreateMemberships | ReferendumCanceller | ReferendumKiller.

(** The runtime's [RuntimeOrigin]/[OriginCaller] (built by frame_support::runtime,
    runtime/kreivo/src/lib.rs:186-200): system origins, pallet_communities' [RawOrigin]
    (pallets/communities/src/origin.rs:98-101), custom origins, XCM origins; [OOther] stands for all remaining
    pallet origins. *)
Inductive origin :=
| ORoot
| ONone
| OSigned (who : account)
| OCommunity (id : N) (s : option subset)
| OCustom (c : custom_origin)
| OXcm (l : location)
| OOther (n : N).

Global Instance subset_eq_dec : EqDecision subset. Proof. solve_decision. Defined.
Global Instance custom_origin_eq_dec : EqDecision custom_origin. Proof. solve_decision. Defined.
Global Instance origin_eq_dec : EqDecision origin. Proof. solve_decision. Defined.

(** sp_runtime::MultiAddress<AccountId, CommunityId> (runtime/kreivo/src/lib.rs:116) *)
Inductive address :=
| AddrId (a : account)
| AddrIndex (i : N)
| AddrRaw (l : list N)
| Addr32 (l : list N)
| Addr20 (l : list N).

Global Instance address_eq_dec : EqDecision address. Proof. solve_decision. Defined.

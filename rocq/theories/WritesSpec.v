(** Vocabulary for what calls write to storage: things that have a value before and after a call, and the number of storage entries each stands for. *)
From stdpp Require Import gmap.
From Verif Require Import Base XcmTypes OriginTypes FeesModel LedgerModel AccountsModel PaymentsModel CommunitiesModel TracksModel ManagerModel.
Open Scope N_scope.

(* ------------------------------------------------------------------ *)
(** * Payments *)

(** A payment's record; who takes part in it; its task on the scheduler's agenda; what an account has free or on hold; what of an asset has been
    burnt (part of the asset's own record). *)
Inductive pthing := PRecord (sender id : N) | PParties (id : N) | PTask (id : N) | PFree (a who : N) | PHeld (a who : N) | PAsset (a : N).
Global Instance pthing_eq_dec : EqDecision pthing. Proof. solve_decision. Defined.
Definition pdiffers (st st' : pstate) (x : pthing) : Prop :=
  match x with
  | PRecord s id => st_pays st !! (s, id) <> st_pays st' !! (s, id)
  | PParties id => st_parties st !! id <> st_parties st' !! id
  | PTask id => st_agenda st !! id <> st_agenda st' !! id
  | PFree a who => free (st_ledger st) a who <> free (st_ledger st') a who
  | PHeld a who => held (st_ledger st) a who <> held (st_ledger st') a who
  | PAsset a => dusted (st_ledger st) a <> dusted (st_ledger st') a
  end.
(** A task is in two entries: the agenda of its block, and where its name is looked up (pallet_scheduler [Agenda], [Lookup]). *)
Definition pentries (x : pthing) : N := match x with PTask _ => 2 | _ => 1 end.

(* ------------------------------------------------------------------ *)
(** * Communities and their manager *)

(** Of pallet_communities: a community, the community of an admin, a decision method, a vote, a vote lock; a poll with its tally; a membership; what an
    account has frozen in a token; an account (balance and references); an asset; of other pallets: a collection of memberships, an item in one, a track,
    the track of an origin, a seat in the collective. *)
Inductive cthing :=
| WCommunity (id : N) | WAdmin (o : origin) | WMethod (id : N) | WVote (p m : N) | WLock (who p : N) | WPoll (p : N) | WMembership (m : N)
| WFrozen (k : option N) (who : N) | WAccount (who : N) | WAsset (a : N)
| WCollection (id : N) | WItem (coll id : N) | WTrack (id : N) | WTrackOf (o : origin) | WSeat (who : N).
Global Instance cthing_eq_dec : EqDecision cthing. Proof. solve_decision. Defined.
Definition cdiffers (s s' : mstate) (x : cthing) : Prop :=
  let c := mg_c s in let c' := mg_c s' in
  match x with
  | WCommunity id => c_info c !! id <> c_info c' !! id
  | WAdmin o => c_admin c o <> c_admin c' o
  | WMethod id => c_method c !! id <> c_method c' !! id
  | WVote p m => c_votes c !! (p, m) <> c_votes c' !! (p, m)
  | WLock who p => c_locks c !! (who, p) <> c_locks c' !! (who, p)
  | WPoll p => c_polls c !! p <> c_polls c' !! p
  | WMembership m => c_members c !! m <> c_members c' !! m
  | WFrozen k who => c_frozen c !! (k, who) <> c_frozen c' !! (k, who)
  | WAccount who => ~ (c_balance c !! who = c_balance c' !! who /\ c_providers c !! who = c_providers c' !! who)
  | WAsset a => c_assets c !! a <> c_assets c' !! a
  | WCollection id => mg_collections s !! id <> mg_collections s' !! id
  | WItem coll id => mg_items s !! (coll, id) <> mg_items s' !! (coll, id)
  | WTrack id => mg_tracks s !! id <> mg_tracks s' !! id
  | WTrackOf o => mg_track_of s o <> mg_track_of s' o
  | WSeat who => mg_collective s !! who <> mg_collective s' !! who
  end.
(** Entries each is kept in, as listed in runtime/kreivo/src/weights/pallet_communities_manager.rs:39-66,80-89: a collection has [Collection], [CollectionRoleOf],
    [CollectionConfigOf] and [CollectionAccount]; an item [Item], [ItemConfigOf], [Account] and [ItemPriceOf]; a track [Tracks] and a place in [TracksIds]; a seat
    [Members], [MemberCount], [IndexToId] and [IdToIndex]. What is frozen is also noted with the account (pallet_balances) or with what is frozen in all
    (pallet_assets_freezer). Memberships of communities are left out (no entries): how they are kept is up to a library that is not here. *)
Definition centries (x : cthing) : N :=
  match x with WCollection _ | WItem _ _ | WSeat _ => 4 | WTrack _ | WFrozen _ _ => 2 | WMembership _ => 0 | _ => 1 end.

(* ------------------------------------------------------------------ *)

(** What is written lies within a list of things, and how many entries they have. *)
Definition only {X} (differs : X -> Prop) (l : list X) : Prop := forall x, differs x -> x ∈ l.
Definition count {X} (entries : X -> N) (l : list X) : N := foldr (fun x n => entries x + n) 0 l.
(** What is written includes these, which are different from one another. *)
Definition at_least {X} (differs : X -> Prop) (l : list X) : Prop := NoDup l /\ Forall differs l.
(** The token a vote is cast with: none, the native one ([Some None]), an asset. *)
Definition with_token (v : vote) : option (option N) :=
  match v with Standard _ => None | NativeBalance _ _ => Some None | AssetBalance _ a _ => Some (Some a) end.
(** A state of the communities alone. *)
Definition alone (c : cstate) : mstate := mset_c c m_empty.

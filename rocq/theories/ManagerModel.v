(** Model of pallet_communities_manager and of the origins that guard community referenda and tracks on Kreivo. *)
From stdpp Require Import gmap.
From Verif Require Import Base XcmTypes OriginTypes AccountsModel CommunitiesModel TracksModel.
Open Scope N_scope.

(* ------------------------------------------------------------------ *)
(** * Names *)

(** core::str::from_utf8 (standard library): whether the bytes are UTF-8. *)
Definition cont_byte (b : N) : bool := (128 <=? b) && (b <=? 191).
Definition between (lo hi b : N) : bool := (lo <=? b) && (b <=? hi).
Fixpoint utf8_ok (l : list N) : bool :=
  match l with
  | [] => true
  | b :: r =>
      if b <? 128 then utf8_ok r
      else if between 194 223 b then match r with c1 :: r1 => cont_byte c1 && utf8_ok r1 | _ => false end
      else if between 224 239 b then
        match r with
        | c1 :: c2 :: r2 =>
            (if b =? 224 then between 160 191 c1 else if b =? 237 then between 128 159 c1 else cont_byte c1) &&
            cont_byte c2 && utf8_ok r2
        | _ => false
        end
      else if between 240 244 b then
        match r with
        | c1 :: c2 :: c3 :: r3 =>
            (if b =? 240 then between 144 191 c1 else if b =? 244 then between 128 143 c1 else cont_byte c1) &&
            cont_byte c2 && cont_byte c3 && utf8_ok r3
        | _ => false
        end
      else false
  end.

(* ------------------------------------------------------------------ *)
(** * State *)

(** An item of the memberships manager collection as pallet_nfts (dependency) keeps it: its owner, its price. *)
Record item := Item { it_owner : N; it_price : option N }.

(** Storage of pallet_communities; of pallet_nfts (Instance2): collections by id with their owner, items; of pallet_referenda_tracks
    (Instance2, dependency): tracks by id, and the track of an origin; of pallet_ranked_collective: members with their rank. *)
Record mstate := MState {
  mg_c : cstate;
  mg_collections : gmap N N;
  mg_items : gmap (N * N) item;
  mg_tracks : gmap N track_info;
  mg_track_of : origin -> option N;
  mg_collective : gmap N N
}.
Definition mset_c x s := MState x (mg_collections s) (mg_items s) (mg_tracks s) (mg_track_of s) (mg_collective s).
Definition mset_collections x s := MState (mg_c s) x (mg_items s) (mg_tracks s) (mg_track_of s) (mg_collective s).
Definition mset_items x s := MState (mg_c s) (mg_collections s) x (mg_tracks s) (mg_track_of s) (mg_collective s).
Definition mset_tracks x y s := MState (mg_c s) (mg_collections s) (mg_items s) x y (mg_collective s).
Definition mset_collective x s := MState (mg_c s) (mg_collections s) (mg_items s) (mg_tracks s) (mg_track_of s) x.
Definition m_empty : mstate := MState c_empty ∅ ∅ ∅ (fun _ => None) ∅.

(** pallets/communities-manager/src/lib.rs:118-125 [Error], and errors of the pallets called *)
Inductive merror :=
| MBadOrigin | MInvalidCommunityName | MLookup | MCreatingTooManyMemberships
| MCommunities (e : cerror) | MCollectionIdInUse | MTrackExists | MAlreadyMember | MItemExists | MNfts | MTracks | MCollective.

(** pallets/communities-manager/src/lib.rs:105-114 [Event] *)
Inductive mevent := MvRegistered (id : N) | MvMembershipsCreated (starting_at amount : N).

Inductive mresult (A : Type) := MOk (a : A) | MErr (e : merror).
Arguments MOk {A} _.
Arguments MErr {A} _.
Definition mbind_ {A B} (x : mresult A) (f : A -> mresult B) : mresult B :=
  match x with MOk a => f a | MErr e => MErr e end.
Notation "'try' x <- a ; b" := (mbind_ a (fun x => b)) (at level 200, x name, right associativity).
Definition mensure (b : bool) (e : merror) : mresult unit := if b then MOk tt else MErr e.
Definition msome {A} (x : option A) (e : merror) : mresult A := match x with Some a => MOk a | None => MErr e end.
Definition lift {A} (x : cresult A) : mresult A := match x with COk a => MOk a | CErr e => MErr (MCommunities e) end.

(** Whether the other pallets accept an operation as far as not decided by the state above. *)
Record menv := MEnv {
  me_c : cenv;
  me_collection_ok : bool;
  me_track_ok : bool;
  me_induct_ok : bool;
  me_item_ok : N -> bool
}.

(** pallets/communities-manager/src/lib.rs:50-97 [Config] *)
Record mconfig := MConfig {
  mc_c : cconfig;
  mc_register_origin : origin -> option (option (N * N * N));
  mc_create_origin : origin -> option unit;
  mc_owner : N;
  mc_collection : N
}.

(* ------------------------------------------------------------------ *)
(** * Pallets called *)

(** pallet_nfts [create_collection_with_id] (dependency) *)
Definition create_collection (e : menv) (s : mstate) (id owner : N) : mresult mstate :=
  try _ <- mensure (match mg_collections s !! id with None => true | _ => false end) MCollectionIdInUse;
  try _ <- mensure (me_collection_ok e) MNfts;
  MOk (mset_collections (<[id := owner]> (mg_collections s)) s).

(** pallet_referenda_tracks [insert] (dependency) *)
Definition insert_track (e : menv) (s : mstate) (id : N) (ti : track_info) (o : origin) : mresult mstate :=
  try _ <- mensure (match mg_tracks s !! id with None => true | _ => false end) MTrackExists;
  try _ <- mensure (me_track_ok e) MTracks;
  MOk (mset_tracks (<[id := ti]> (mg_tracks s)) (fun o' => if decide (o' = o) then Some id else mg_track_of s o') s).

(** pallet_ranked_collective [induct] (dependency) *)
Definition induct (e : menv) (s : mstate) (who : N) : mresult mstate :=
  try _ <- mensure (match mg_collective s !! who with None => true | _ => false end) MAlreadyMember;
  try _ <- mensure (me_induct_ok e) MCollective;
  MOk (mset_collective (<[who := 0]> (mg_collective s)) s).

(** pallet_nfts [mint_into] and [set_price] (dependency) *)
Definition mint_into (e : menv) (s : mstate) (coll id owner : N) : mresult mstate :=
  try _ <- mensure (match mg_items s !! (coll, id) with None => true | _ => false end) MItemExists;
  try _ <- mensure (me_item_ok e id) MNfts;
  MOk (mset_items (<[(coll, id) := Item owner None]> (mg_items s)) s).
Definition set_price (s : mstate) (coll id sender : N) (price : option N) : mresult mstate :=
  try x <- msome (mg_items s !! (coll, id)) MNfts;
  try _ <- mensure (it_owner x =? sender) MNfts;
  MOk (mset_items (<[(coll, id) := Item (it_owner x) price]> (mg_items s)) s).

(** [Incrementable::increment] for u32 *)
Definition next_id (id : N) : option N := if id <? u32_max then Some (id + 1) else None.

(* ------------------------------------------------------------------ *)
(** * Dispatchables *)

(** pallets/communities-manager/src/lib.rs:136-190 [register] *)
Definition mg_register (c : mconfig) (e : menv) (s : mstate) (o : origin) (id : N) (name : list N) (first_admin : address)
    (dm : option decision_method) (ti : option track_info) : mresult (mstate * list mevent) :=
  try deposit <- msome (mc_register_origin c o) MBadOrigin;
  try _ <- mensure (utf8_ok name) MInvalidCommunityName;
  try a <- msome (cc_lookup (mc_c c) first_admin) MLookup;
  let admin := OSigned a in
  try s1 <- lift (register (mc_c c) (me_c e) (mg_c s) admin id deposit);
  try s2 <- match dm with
            | Some d => try r <- lift (call_set_method (mc_c c) s1 admin id d); MOk (fst r)
            | None => MOk s1
            end;
  let account := cc_account (mc_c c) id in
  try s3 <- create_collection e (mset_c s2 s) id account;
  try s4 <- insert_track e s3 id (default (default_track name) ti) (OCommunity id None);
  try s5 <- induct e s4 account;
  MOk (s5, [MvRegistered id]).

(** pallets/communities-manager/src/lib.rs:205-226: the loop of [create_memberships]; returns the number counted. *)
Fixpoint mint_loop (c : mconfig) (e : menv) (s : mstate) (n : nat) (id price minted : N) : mresult (mstate * N) :=
  match n with
  | O => MOk (s, minted)
  | S n' =>
      try s1 <- mint_into e s (mc_collection c) id (mc_owner c);
      try s2 <- set_price s1 (mc_collection c) id (mc_owner c) (Some price);
      match next_id id with
      | Some id' => mint_loop c e s2 n' id' price (minted + 1)
      | None => MOk (s2, minted)
      end
  end.

(** pallets/communities-manager/src/lib.rs:192-234 [create_memberships] *)
Definition mg_create_memberships (c : mconfig) (e : menv) (s : mstate) (o : origin) (amount starting_at price : N) :
    mresult (mstate * list mevent) :=
  try _ <- mensure (amount <=? 1024) MCreatingTooManyMemberships;
  try _ <- msome (mc_create_origin c o) MBadOrigin;
  try r <- mint_loop c e s (N.to_nat amount) starting_at price 0;
  let '(s', minted) := r in
  MOk (s', [MvMembershipsCreated starting_at minted]).

(** What happens on the chain: manager calls, and everything of pallet_communities' own steps but registration. *)
Inductive mstep :=
| MRegister (e : menv) (o : origin) (id : N) (name : list N) (first_admin : address) (dm : option decision_method) (ti : option track_info)
| MCreateMemberships (e : menv) (o : origin) (amount starting_at price : N)
| MCommunityStep (x : cstep).

(** FRAME dispatch: an error leaves the state as it was. *)
Definition mdispatch (s : mstate) (r : mresult (mstate * list mevent)) : mstate := match r with MOk (s', _) => s' | MErr _ => s end.
Definition mstep_run (c : mconfig) (s : mstate) (x : mstep) : mstate :=
  match x with
  | MRegister e o id name a dm ti => mdispatch s (mg_register c e s o id name a dm ti)
  | MCreateMemberships e o n i p => mdispatch s (mg_create_memberships c e s o n i p)
  | MCommunityStep (StRegister _ _ _ _) => s
  | MCommunityStep x => mset_c (cstep_run (mc_c c) (mg_c s) x) s
  end.
Definition mrun (c : mconfig) (s : mstate) (l : list mstep) : mstate := fold_left (mstep_run c) l s.

(* ------------------------------------------------------------------ *)
(** * Kreivo *)

(** runtime/kreivo/src/communities/mod.rs:54-55,95 [RegisterOrigin]: root for free, a signed account pays UNITS/2 (line 43) to the
    treasury. pallets/communities/src/origin.rs:51-62 [EnsureSignedPays]. *)
Definition community_deposit : N := units / 2.
Definition kreivo_register_origin (o : origin) : option (option (N * N * N)) :=
  match o with
  | ORoot => Some None
  | OSigned who => Some (Some (community_deposit, who, treasury_account))
  | _ => None
  end.
(** runtime/kreivo/src/communities/mod.rs:97 [CreateMembershipsOrigin] *)
Definition kreivo_create_memberships_origin (o : origin) : option unit :=
  match o with ORoot | OCustom CreateMemberships => Some tt | _ => None end.
(** runtime/kreivo/src/communities/mod.rs:90-104 *)
Definition kreivo_manager : mconfig :=
  MConfig kreivo_communities kreivo_register_origin kreivo_create_memberships_origin treasury_account 0.

(** runtime/kreivo/src/communities/governance.rs:51-83 [EnsureCommunityMember] *)
Definition ensure_community_member (s : mstate) (o track_origin : origin) : option N :=
  match mg_track_of s track_origin with
  | None => None
  | Some g => match o with OSigned who => if is_member_of (mg_c s) g who then Some who else None | _ => None end
  end.
(** runtime/kreivo/src/communities/governance.rs:98-101 [SubmitOrigin]: who may submit a proposal to be enacted with [track_origin]. *)
Definition kreivo_submit_origin (s : mstate) (o track_origin : origin) : option N :=
  match o with ORoot => Some treasury_account | _ => ensure_community_member s o track_origin end.

(** runtime/kreivo/src/communities/governance.rs:18-31 [EnsureOriginToTrack]: who may update track [id]. *)
Definition ensure_origin_to_track (s : mstate) (o : origin) (id : N) : bool :=
  match mg_track_of s o with Some t => t =? id | None => false end.

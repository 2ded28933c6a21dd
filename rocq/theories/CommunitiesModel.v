(** Model of pallet_communities: registration, administration, memberships, voting and vote locks. *)
From stdpp Require Import gmap.
From Verif Require Import Base XcmTypes OriginTypes AccountsModel.
Open Scope N_scope.

(** pallets/communities/src/types.rs:47-54 [CommunityState] *)
Inductive community_state := Active | Blocked.
Global Instance community_state_eq_dec : EqDecision community_state. Proof. solve_decision. Defined.

(** pallets/communities/src/types.rs:58-64 [DecisionMethod]; asset ids are opaque numbers here. *)
Inductive decision_method :=
| ByMembership
| ByNativeToken
| ByCommunityAsset (asset min : N)
| ByRank.
Global Instance decision_method_eq_dec : EqDecision decision_method. Proof. solve_decision. Defined.

(** pallets/communities/src/types.rs:71-75 [Vote] *)
Inductive vote :=
| AssetBalance (say : bool) (asset amount : N)
| NativeBalance (say : bool) (amount : N)
| Standard (say : bool).
Global Instance vote_eq_dec : EqDecision vote. Proof. solve_decision. Defined.

(** pallets/communities/src/types.rs:82-88 [say] *)
Definition vote_say (v : vote) : bool :=
  match v with AssetBalance s _ _ => s | NativeBalance s _ => s | Standard s => s end.

(** pallets/communities/src/types.rs:90-96 [weight]: balances saturate to u32. *)
Definition vote_weight (v : vote) : N :=
  match v with AssetBalance _ _ a => sat32 a | NativeBalance _ a => sat32 a | Standard _ => 1 end.

(** pallets/communities/src/types.rs:112-128 [Tally] and its default *)
Record tally := Tally { ayes : N; nays : N; bare_ayes : N }.
Definition empty_tally : tally := Tally 0 0 0.

(** pallets/communities/src/functions.rs:216-223 [Tally::add_vote] *)
Definition add_vote (t : tally) (say : bool) (mw w : N) : tally :=
  if say then Tally (sat32 (ayes t + mw)) (nays t) (sat32 (bare_ayes t + w))
  else Tally (ayes t) (sat32 (nays t + mw)) (bare_ayes t).

(** pallets/communities/src/functions.rs:225-232 [Tally::remove_vote] *)
Definition remove_vote_tally (t : tally) (say : bool) (mw w : N) : tally :=
  if say then Tally (ayes t - mw) (nays t) (bare_ayes t - w)
  else Tally (ayes t) (nays t - mw) (bare_ayes t).

(** frame_support [PollStatus] as served by pallet_referenda; the class of a Kreivo poll is the community id, the track the
    referendum was submitted to. An unknown poll is [None] in the map. *)
Inductive poll := Ongoing (t : tally) (class : N) | Completed.

(** A membership as seen through fc_traits_memberships (dependency): the group it belongs to, its holder, and its rank (u8). The
    pallet identifies memberships by their id alone ([check_membership] takes no group, votes are keyed by id), so ids are taken
    to be unique across groups. *)
Record membership := Membership { m_group : N; m_owner : N; m_rank : N }.

(** pallets/communities/src/lib.rs:265-294 storage: [Info], [CommunityIdFor], [CommunityDecisionMethod], [CommunityVotes],
    [CommunityVoteLocks]; then what the pallet reaches through its configuration: polls ([Polls]), memberships ([MemberMgmt]),
    the amounts frozen for voting (per account: [None] is the native token, [Some a] asset a), native balances, provider
    counts, and the assets there are (owner and minimum balance). [CommunityIdFor] is a function because origins are not countable here. *)
Record cstate := CState {
  c_info : gmap N community_state;
  c_admin : origin -> option N;
  c_method : gmap N decision_method;
  c_votes : gmap (N * N) (vote * N);
  c_locks : gmap (N * N) vote;
  c_polls : gmap N poll;
  c_members : gmap N membership;
  c_frozen : gmap (option N * N) N;
  c_balance : gmap N N;
  c_providers : gmap N N;
  c_assets : gmap N (N * N)
}.

Definition set_info x s := CState x (c_admin s) (c_method s) (c_votes s) (c_locks s) (c_polls s) (c_members s) (c_frozen s) (c_balance s) (c_providers s) (c_assets s).
Definition set_admin x s := CState (c_info s) x (c_method s) (c_votes s) (c_locks s) (c_polls s) (c_members s) (c_frozen s) (c_balance s) (c_providers s) (c_assets s).
Definition set_methods x s := CState (c_info s) (c_admin s) x (c_votes s) (c_locks s) (c_polls s) (c_members s) (c_frozen s) (c_balance s) (c_providers s) (c_assets s).
Definition set_votes x s := CState (c_info s) (c_admin s) (c_method s) x (c_locks s) (c_polls s) (c_members s) (c_frozen s) (c_balance s) (c_providers s) (c_assets s).
Definition set_locks x s := CState (c_info s) (c_admin s) (c_method s) (c_votes s) x (c_polls s) (c_members s) (c_frozen s) (c_balance s) (c_providers s) (c_assets s).
Definition set_polls x s := CState (c_info s) (c_admin s) (c_method s) (c_votes s) (c_locks s) x (c_members s) (c_frozen s) (c_balance s) (c_providers s) (c_assets s).
Definition set_members x s := CState (c_info s) (c_admin s) (c_method s) (c_votes s) (c_locks s) (c_polls s) x (c_frozen s) (c_balance s) (c_providers s) (c_assets s).
Definition set_frozen_map x s := CState (c_info s) (c_admin s) (c_method s) (c_votes s) (c_locks s) (c_polls s) (c_members s) x (c_balance s) (c_providers s) (c_assets s).
Definition set_balance x s := CState (c_info s) (c_admin s) (c_method s) (c_votes s) (c_locks s) (c_polls s) (c_members s) (c_frozen s) x (c_providers s) (c_assets s).
Definition set_providers x s := CState (c_info s) (c_admin s) (c_method s) (c_votes s) (c_locks s) (c_polls s) (c_members s) (c_frozen s) (c_balance s) x (c_assets s).
Definition set_assets x s := CState (c_info s) (c_admin s) (c_method s) (c_votes s) (c_locks s) (c_polls s) (c_members s) (c_frozen s) (c_balance s) (c_providers s) x.

(** A new chain. *)
Definition c_empty : cstate := CState ∅ (fun _ => None) ∅ ∅ ∅ ∅ ∅ ∅ ∅ ∅ ∅.

(** pallets/communities/src/lib.rs:338-368 [Error], and errors of the pallets called *)
Inductive cerror :=
| EBadOrigin | ELookup | ECommunityAlreadyExists | ECommunityAtCapacity | ENotAMember | EAlreadyOngoing | ENotOngoing
| EInvalidTrack | EInvalidVoteType | ENoVoteCasted | ENoLocksInPlace | EAlreadyAdmin | EVoteBelowMinimum
| EFreeze | EDeposit | EMembership.

(** pallets/communities/src/lib.rs:300-334 [Event] *)
Inductive cevent :=
| EvCommunityCreated (id : N) (o : origin)
| EvAdminOriginSet (id : N) (o : origin)
| EvDecisionMethodSet (id : N)
| EvMemberAdded (who m : N)
| EvMemberRemoved (who m : N)
| EvRankUpdated (m rank : N)
| EvVoteCasted (who p : N) (v : vote)
| EvVoteRemoved (who p : N).

Inductive cresult (A : Type) := COk (a : A) | CErr (e : cerror).
Arguments COk {A} _.
Arguments CErr {A} _.
Definition cbind {A B} (x : cresult A) (f : A -> cresult B) : cresult B :=
  match x with COk a => f a | CErr e => CErr e end.
Notation "'do' x <- a ; b" := (cbind a (fun x => b)) (at level 200, x name, right associativity).
Definition censure (b : bool) (e : cerror) : cresult unit := if b then COk tt else CErr e.
Definition from_option_err {A} (x : option A) (e : cerror) : cresult A := match x with Some a => COk a | None => CErr e end.

(** What other pallets answer during a call: the balance a voter can have frozen ([balance_freezable], which [set_frozen] with
    [Polite] requires to cover the amount), whether a freeze passes the rest of its checks, whether a native transfer keeping
    the sender alive passes, whether the membership manager accepts an operation. *)
Record cenv := CEnv {
  ce_freezable : option N -> N -> N;
  ce_freeze_ok : option N -> N -> N -> bool;
  ce_transfer_ok : N -> N -> N -> bool;
  ce_member_ok : bool
}.

(** pallets/communities/src/lib.rs:161-252 [Config]: what a runtime chooses. Origins may consult the state. *)
Record cconfig := CConfig {
  cc_create_origin : origin -> option (option (N * N * N));
  cc_admin_origin : cstate -> origin -> option N;
  cc_mgmt_origin : cstate -> origin -> option N;
  cc_lookup : address -> option N;
  cc_account : N -> N;
  cc_pallet_account : N
}.

(* ------------------------------------------------------------------ *)
(** * Origins *)

(** pallets/communities/src/origin.rs:18-40 [EnsureCommunity] *)
Definition ensure_community (s : cstate) (o : origin) : option N :=
  match o with
  | ORoot | ONone => None
  | _ =>
      match (match o with OCommunity id _ => Some id | _ => c_admin s o end) with
      | Some id => match c_info s !! id with Some Active => Some id | _ => None end
      | None => None
      end
  end.

(* ------------------------------------------------------------------ *)
(** * Memberships: the contract of fc_traits_memberships (dependency) as used by this pallet *)

(** [user_memberships(who, None)]; the order stands for the unspecified storage order. *)
Definition user_memberships (s : cstate) (who : N) : list (N * membership) :=
  filter (fun x => m_owner x.2 = who) (map_to_list (c_members s)).

(** [is_member_of(group, who)] *)
Definition is_member_of (s : cstate) (g who : N) : bool :=
  bool_decide (Exists (fun x => m_group x.2 = g /\ m_owner x.2 = who) (map_to_list (c_members s))).

(** [check_membership(who, m)]: the group of the membership when [who] holds it. *)
Definition check_membership (s : cstate) (who m : N) : option N :=
  match c_members s !! m with Some x => if m_owner x =? who then Some (m_group x) else None | None => None end.

(** [rank_of(group, m)] *)
Definition rank_of (s : cstate) (g m : N) : option N :=
  match c_members s !! m with Some x => if m_group x =? g then Some (m_rank x) else None | None => None end.

(** [assign(group, m, who)]: the membership moves into the group and to its new holder. *)
Definition assign (e : cenv) (s : cstate) (g m who : N) : cresult cstate :=
  do _ <- censure (ce_member_ok e) EMembership;
  do x <- from_option_err (c_members s !! m) EMembership;
  COk (set_members (<[m := Membership g who (m_rank x)]> (c_members s)) s).

(** [release(group, m)]: the membership goes back to the account that owns the group's collection. *)
Definition release (c : cconfig) (e : cenv) (s : cstate) (g m : N) : cresult cstate :=
  do _ <- censure (ce_member_ok e) EMembership;
  do x <- from_option_err (c_members s !! m) EMembership;
  do _ <- censure (m_group x =? g) EMembership;
  COk (set_members (<[m := Membership g (cc_account c g) 0]> (c_members s)) s).

(** [set_rank(group, m, rank)] *)
Definition set_rank (e : cenv) (s : cstate) (g m r : N) : cresult cstate :=
  do _ <- censure (ce_member_ok e) EMembership;
  do x <- from_option_err (c_members s !! m) EMembership;
  do _ <- censure (m_group x =? g) EMembership;
  COk (set_members (<[m := Membership (m_group x) (m_owner x) r]> (c_members s)) s).

(** [GenericRank::promote_by(1)], [demote_by(1)]: saturating on u8. *)
Definition promote_rank (r : N) : N := N.min (r + 1) u8_max.
Definition demote_rank (r : N) : N := r - 1.

(* ------------------------------------------------------------------ *)
(** * Locks *)

Definition get_frozen (s : cstate) (k : option N) (who : N) : N := default 0 (c_frozen s !! (k, who)).

(** [set_frozen(.., Polite)] of fungible(s)::freeze::Mutate (dependency) *)
Definition set_frozen (e : cenv) (s : cstate) (k : option N) (who amount : N) : cresult cstate :=
  do _ <- censure ((amount <=? ce_freezable e k who) && ce_freeze_ok e k who amount) EFreeze;
  COk (set_frozen_map (<[(k, who) := amount]> (c_frozen s)) s).

(** What a vote locks: the token and the amount. *)
Definition vote_lock (v : vote) : option (option N * N) :=
  match v with
  | AssetBalance _ a n => Some (Some a, n)
  | NativeBalance _ n => Some (None, n)
  | Standard _ => None
  end.

(** The largest amount of token [k] among the votes of [who] still in [CommunityVoteLocks]
    (pallets/communities/src/functions.rs:169-177 and 182-188). *)
Definition lock_amount (k : option N) (v : vote) : N :=
  match vote_lock v with Some (k', n) => if decide (k' = k) then n else 0 | None => 0 end.
Definition max_locked (s : cstate) (k : option N) (who : N) : N :=
  map_fold (fun wp v acc => if wp.1 =? who then N.max acc (lock_amount k v) else acc) 0 (c_locks s).

(** pallets/communities/src/functions.rs:141-201 [update_locks] with [LockUpdateType::Add] *)
Definition add_lock (e : cenv) (s : cstate) (who p : N) (v : vote) : cresult cstate :=
  match vote_lock v with
  | Some (k, n) =>
      let s1 := set_locks (<[(who, p) := v]> (c_locks s)) s in
      set_frozen e s1 k who (N.max (get_frozen s1 k who) n)
  | None => COk s
  end.

(** pallets/communities/src/functions.rs:141-201 [update_locks] with [LockUpdateType::Remove] *)
Definition remove_lock (e : cenv) (s : cstate) (who p : N) (v : vote) : cresult cstate :=
  match vote_lock v with
  | Some (k, _) =>
      let s1 := set_locks (delete (who, p) (c_locks s)) s in
      set_frozen e s1 k who (max_locked s1 k who)
  | None => COk s
  end.

(* ------------------------------------------------------------------ *)
(** * Voting *)

(** [CommunityDecisionMethod::get] (ValueQuery) *)
Definition method_of (s : cstate) (g : N) : decision_method := default ByMembership (c_method s !! g).

(** pallets/communities/src/functions.rs:90-95 and 126-131 *)
Definition vote_multiplier (s : cstate) (dm : decision_method) (g m : N) : N :=
  match dm with ByRank => default 0 (rank_of s g m) | _ => 1 end.

(** pallets/communities/src/functions.rs:97-105 *)
Definition check_vote_type (v : vote) (dm : decision_method) : cresult bool :=
  match v, dm with
  | AssetBalance say asset amount, ByCommunityAsset a min =>
      if asset =? a then do _ <- censure (min <=? amount) EVoteBelowMinimum; COk say else CErr EInvalidVoteType
  | NativeBalance say _, ByNativeToken => COk say
  | Standard say, ByMembership => COk say
  | Standard say, ByRank => COk say
  | _, _ => CErr EInvalidVoteType
  end.

(** [try_access_poll] of pallet_referenda and [ensure_ongoing] *)
Definition ongoing (s : cstate) (p : N) : cresult (tally * N) :=
  match c_polls s !! p with Some (Ongoing t class) => COk (t, class) | _ => CErr ENotOngoing end.
Definition put_tally (s : cstate) (p : N) (t : tally) (class : N) : cstate :=
  set_polls (<[p := Ongoing t class]> (c_polls s)) s.

(** pallets/communities/src/functions.rs:78-113 [try_vote]; the product is a u32 and wraps in release builds. *)
Definition try_vote (e : cenv) (s : cstate) (g : N) (dm : decision_method) (who m p : N) (v : vote) : cresult cstate :=
  do tc <- ongoing s p;
  let '(t, class) := tc in
  do _ <- censure (g =? class) EInvalidTrack;
  let mult := vote_multiplier s (method_of s g) g m in
  do say <- check_vote_type v dm;
  let w := vote_weight v in
  let t' := add_vote t say (wrap32 (mult * w)) w in
  let s1 := set_votes (<[(p, m) := (v, who)]> (c_votes s)) s in
  do s2 <- add_lock e s1 who p v;
  COk (put_tally s2 p t' class).

(** pallets/communities/src/functions.rs:115-139 [try_remove_vote] *)
Definition try_remove_vote (e : cenv) (s : cstate) (g : N) (dm : decision_method) (m p : N) : cresult cstate :=
  do tc <- ongoing s p;
  let '(t, class) := tc in
  do _ <- censure (g =? class) EInvalidTrack;
  do vv <- from_option_err (c_votes s !! (p, m)) ENoVoteCasted;
  let '(v, voter) := vv in
  let mult := vote_multiplier s dm g m in
  let w := vote_weight v in
  let t' := remove_vote_tally t (vote_say v) (wrap32 (mult * w)) w in
  let s1 := set_votes (delete (p, m) (c_votes s)) s in
  do s2 <- remove_lock e s1 voter p v;
  COk (put_tally s2 p t' class).

(** sp_arithmetic [Perbill::from_rational(p, q)] on u32 (dependency): floor, all of it when q = 0 or p >= q. *)
Definition perbill_from_rational (p q : N) : N := if (q =? 0) || (q <=? p) then 1000000000 else p * 1000000000 / q.

(** [members_total], [ranks_total] of fc_traits_memberships (dependency): memberships of the group, and the sum of their ranks; u32. *)
Definition members_total (s : cstate) (g : N) : N :=
  map_fold (fun _ x acc => if m_group x =? g then acc + 1 else acc) 0 (c_members s).
Definition ranks_total (s : cstate) (g : N) : N :=
  map_fold (fun _ x acc => if m_group x =? g then acc + m_rank x else acc) 0 (c_members s).

(** pallets/communities/src/types.rs:131-140 [max_support]; [issuance] gives the total issuance of each token. *)
Definition max_support (s : cstate) (issuance : option N -> N) (g : N) : N :=
  match method_of s g with
  | ByMembership => members_total s g
  | ByRank => ranks_total s g
  | ByNativeToken => sat32 (issuance None)
  | ByCommunityAsset a _ => sat32 (issuance (Some a))
  end.

(** pallets/communities/src/impls.rs:18-20 [support] *)
Definition support (s : cstate) (issuance : option N -> N) (g : N) (t : tally) : N :=
  perbill_from_rational (bare_ayes t) (max_support s issuance g).

(** pallets/communities/src/impls.rs:22-24 [approval]; the sum is a u32 and wraps in release builds. *)
Definition approval (t : tally) : N :=
  perbill_from_rational (ayes t) (N.max 1 (wrap32 (ayes t + nays t))).

(* ------------------------------------------------------------------ *)
(** * Registration *)

Definition admin_insert (o : origin) (id : N) (f : origin -> option N) : origin -> option N :=
  fun o' => if decide (o' = o) then Some id else f o'.
Definition admin_remove (o : origin) (f : origin -> option N) : origin -> option N :=
  fun o' => if decide (o' = o) then None else f o'.

Definition balance (s : cstate) (a : N) : N := default 0 (c_balance s !! a).

(** [fungible::Mutate::transfer(.., Preserve)] of pallet_balances (dependency) *)
Definition transfer (e : cenv) (s : cstate) (from to amount : N) : cresult cstate :=
  do _ <- censure ((amount <=? balance s from) && ce_transfer_ok e from to amount) EDeposit;
  let b1 := <[from := balance s from - amount]> (c_balance s) in
  COk (set_balance (<[to := default 0 (b1 !! to) + amount]> b1) s).

(** pallets/communities/src/functions.rs:51-76 [register] *)
Definition register (c : cconfig) (e : cenv) (s : cstate) (admin : origin) (id : N) (deposit : option (N * N * N)) : cresult cstate :=
  do _ <- censure (match c_info s !! id with None => true | _ => false end) ECommunityAlreadyExists;
  do _ <- censure (match c_admin s admin with None => true | _ => false end) EAlreadyAdmin;
  do s1 <- match deposit with
           | Some (amount, from, to) => transfer e s from to amount
           | None => COk s
           end;
  let s2 := set_admin (admin_insert admin id (c_admin s1)) s1 in
  let s3 := set_info (<[id := Active]> (c_info s2)) s2 in
  COk (set_providers (<[cc_account c id := default 0 (c_providers s3 !! cc_account c id) + 1]> (c_providers s3)) s3).

(** pallets/communities/src/functions.rs:44-46 [force_state] *)
Definition force_state (s : cstate) (id : N) (st : community_state) : cstate :=
  match c_info s !! id with Some _ => set_info (<[id := st]> (c_info s)) s | None => s end.

(* ------------------------------------------------------------------ *)
(** * Dispatchables (pallets/communities/src/lib.rs:375-572) *)

Inductive ccall :=
| CCreate (admin : origin) (id : N)
| CSetAdmin (admin : origin)
| CAddMember (who : address)
| CRemoveMember (who : address) (m : N)
| CPromote (m : N)
| CDemote (m : N)
| CSetMethod (id : N) (dm : decision_method)
| CVote (m p : N) (v : vote)
| CRemoveVote (m p : N)
| CUnlock (p : N).

(** lib.rs:378-392 [create] *)
Definition call_create (c : cconfig) (e : cenv) (s : cstate) (o admin : origin) (id : N) : cresult (cstate * list cevent) :=
  do deposit <- from_option_err (cc_create_origin c o) EBadOrigin;
  do s' <- register c e s admin id deposit;
  COk (s', [EvCommunityCreated id admin]).

(** lib.rs:396-412 [set_admin_origin] *)
Definition call_set_admin (c : cconfig) (s : cstate) (o admin : origin) : cresult (cstate * list cevent) :=
  do id <- from_option_err (cc_admin_origin c s o) EBadOrigin;
  do _ <- censure (bool_decide (c_admin s o = Some id)) EBadOrigin;
  COk (set_admin (admin_insert admin id (admin_remove o (c_admin s))) s, [EvAdminOriginSet id admin]).

(** lib.rs:419-433 [add_member]; the group of the membership found is ignored. *)
Definition call_add_member (c : cconfig) (e : cenv) (s : cstate) (o : origin) (who : address) : cresult (cstate * list cevent) :=
  do id <- from_option_err (cc_mgmt_origin c s o) EBadOrigin;
  do w <- from_option_err (cc_lookup c who) ELookup;
  do m <- from_option_err (fst <$> head (user_memberships s (cc_account c id))) ECommunityAtCapacity;
  do s' <- assign e s id m w;
  COk (s', [EvMemberAdded w m]).

(** lib.rs:442-456 [remove_member]; whether [who] holds the membership is not checked. *)
Definition call_remove_member (c : cconfig) (e : cenv) (s : cstate) (o : origin) (who : address) (m : N) : cresult (cstate * list cevent) :=
  do id <- from_option_err (cc_mgmt_origin c s o) EBadOrigin;
  do w <- from_option_err (cc_lookup c who) ELookup;
  do _ <- censure (is_member_of s id w) ENotAMember;
  do s' <- release c e s id m;
  COk (s', [EvMemberRemoved w m]).

(** lib.rs:460-470 [promote] *)
Definition call_promote (c : cconfig) (e : cenv) (s : cstate) (o : origin) (m : N) : cresult (cstate * list cevent) :=
  do id <- from_option_err (cc_mgmt_origin c s o) EBadOrigin;
  do r <- from_option_err (rank_of s id m) ENotAMember;
  let rank := promote_rank r in
  do s' <- set_rank e s id m rank;
  COk (s', [EvRankUpdated m rank]).

(** lib.rs:474-482 [demote]; the event carries the old rank. *)
Definition call_demote (c : cconfig) (e : cenv) (s : cstate) (o : origin) (m : N) : cresult (cstate * list cevent) :=
  do id <- from_option_err (cc_mgmt_origin c s o) EBadOrigin;
  do rank <- from_option_err (rank_of s id m) ENotAMember;
  do s' <- set_rank e s id m (demote_rank rank);
  COk (s', [EvRankUpdated m rank]).

(** pallet_assets [Create::create] (dependency, [do_force_create]): fails if the asset exists or the minimum is zero, takes no deposit;
    the owner is also issuer, admin and freezer. lib.rs:494-502 calls it and ignores failure. *)
Definition create_asset (c : cconfig) (s : cstate) (a min : N) : cstate :=
  match c_assets s !! a with
  | None => if min =? 0 then s else set_assets (<[a := (cc_pallet_account c, min)]> (c_assets s)) s
  | Some _ => s
  end.
(** lib.rs:488-506 [set_decision_method]; the community the origin stands for is ignored. *)
Definition call_set_method (c : cconfig) (s : cstate) (o : origin) (id : N) (dm : decision_method) : cresult (cstate * list cevent) :=
  do _ <- from_option_err (cc_admin_origin c s o) EBadOrigin;
  let s1 := match dm with ByCommunityAsset a min => create_asset c s a min | _ => s end in
  COk (set_methods (<[id := dm]> (c_method s1)) s1, [EvDecisionMethodSet id]).

(** lib.rs:510-530 [vote] *)
Definition call_vote (e : cenv) (s : cstate) (o : origin) (m p : N) (v : vote) : cresult (cstate * list cevent) :=
  do _ <- censure (0 <? vote_weight v) EVoteBelowMinimum;
  do who <- from_option_err (ensure_signed o) EBadOrigin;
  do g <- from_option_err (check_membership s who m) ENotAMember;
  let dm := method_of s g in
  do s1 <- match c_votes s !! (p, m) with
           | Some _ => try_remove_vote e s g dm m p
           | None => COk s
           end;
  do s2 <- try_vote e s1 g dm who m p v;
  COk (s2, [EvVoteCasted who p v]).

(** lib.rs:534-548 [remove_vote] *)
Definition call_remove_vote (e : cenv) (s : cstate) (o : origin) (m p : N) : cresult (cstate * list cevent) :=
  do who <- from_option_err (ensure_signed o) EBadOrigin;
  do g <- from_option_err (check_membership s who m) ENotAMember;
  do s1 <- try_remove_vote e s g (method_of s g) m p;
  COk (s1, [EvVoteRemoved who p]).

(** lib.rs:553-558 [unlock] *)
Definition call_unlock (e : cenv) (s : cstate) (o : origin) (p : N) : cresult (cstate * list cevent) :=
  do who <- from_option_err (ensure_signed o) EBadOrigin;
  do _ <- censure (match c_polls s !! p with Some (Ongoing _ _) => false | _ => true end) EAlreadyOngoing;
  do v <- from_option_err (c_locks s !! (who, p)) ENoLocksInPlace;
  do s' <- remove_lock e s who p v;
  COk (s', []).

(** lib.rs:569-572 [dispatch_as_account] and functions.rs:203-212: the origin the inner call is dispatched with. *)
Definition dispatch_as_account (c : cconfig) (s : cstate) (o : origin) : option origin :=
  match cc_mgmt_origin c s o with Some id => Some (OSigned (cc_account c id)) | None => None end.

Definition ccall_run (c : cconfig) (e : cenv) (s : cstate) (o : origin) (k : ccall) : cresult (cstate * list cevent) :=
  match k with
  | CCreate admin id => call_create c e s o admin id
  | CSetAdmin admin => call_set_admin c s o admin
  | CAddMember who => call_add_member c e s o who
  | CRemoveMember who m => call_remove_member c e s o who m
  | CPromote m => call_promote c e s o m
  | CDemote m => call_demote c e s o m
  | CSetMethod id dm => call_set_method c s o id dm
  | CVote m p v => call_vote e s o m p v
  | CRemoveVote m p => call_remove_vote e s o m p
  | CUnlock p => call_unlock e s o p
  end.

(** FRAME dispatch: an error leaves the state as it was. *)
Definition cdispatch (c : cconfig) (e : cenv) (s : cstate) (o : origin) (k : ccall) : cstate :=
  match ccall_run c e s o k with COk (s', _) => s' | CErr _ => s end.

(** What can happen on the chain: calls, registrations by the manager pallet, and the environment: a new referendum opens (with a
    fresh index), a referendum ends, a community is blocked or unblocked, a membership is changed by others (minted, bought,
    transferred), a native balance changes, an asset is created, changed or destroyed by root. *)
Inductive cstep :=
| StCall (e : cenv) (o : origin) (k : ccall)
| StRegister (e : cenv) (admin : origin) (id : N) (deposit : option (N * N * N))
| StPollOpen (p class : N)
| StPollEnd (p : N)
| StForceState (id : N) (st : community_state)
| StMember (m : N) (x : option membership)
| StBalance (a n : N)
| StAsset (a : N) (x : option (N * N)).

Definition cstep_run (c : cconfig) (s : cstate) (x : cstep) : cstate :=
  match x with
  | StCall e o k => cdispatch c e s o k
  | StRegister e admin id deposit => match register c e s admin id deposit with COk s' => s' | CErr _ => s end
  | StPollOpen p class =>
      match c_polls s !! p with None => set_polls (<[p := Ongoing empty_tally class]> (c_polls s)) s | Some _ => s end
  | StPollEnd p =>
      match c_polls s !! p with Some _ => set_polls (<[p := Completed]> (c_polls s)) s | None => s end
  | StForceState id st => force_state s id st
  | StMember m x => set_members (match x with Some y => <[m := y]> (c_members s) | None => delete m (c_members s) end) s
  | StBalance a n => set_balance (<[a := n]> (c_balance s)) s
  | StAsset a x => set_assets (match x with Some y => <[a := y]> (c_assets s) | None => delete a (c_assets s) end) s
  end.

Definition crun (c : cconfig) (s : cstate) (l : list cstep) : cstate := fold_left (cstep_run c) l s.

(** runtime/kreivo/src/communities/mod.rs:57-88: [CreateOrigin = EnsureNever], [AdminOrigin] and [MemberMgmtOrigin] both
    [EitherOf<EnsureCommunity, EnsureCommunityAccount>], Kreivo's address lookup and community accounts. *)
Definition kreivo_admin_origin (s : cstate) : origin -> option N := either_of (ensure_community s) ensure_community_account.
Definition kreivo_communities : cconfig := CConfig (fun _ => None) kreivo_admin_origin kreivo_admin_origin lookup_address community_account
  (pallet_account community_pallet_id).

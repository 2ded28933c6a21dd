(** Vocabulary for stating what users of pallet_communities rely on. Independent of how the calls are programmed: it only looks at
    the stored maps. *)
From stdpp Require Import gmap.
From Verif Require Import Base XcmTypes OriginTypes AccountsModel CommunitiesModel.
Open Scope N_scope.

(** A state some history of a new chain leads to. *)
Definition creachable (c : cconfig) (s : cstate) : Prop := exists l, s = crun c c_empty l.

(** A condition that holds at every step of a history: of the state before the step and the step. *)
Fixpoint all_along (c : cconfig) (P : cstate -> cstep -> Prop) (s : cstate) (l : list cstep) : Prop :=
  match l with
  | [] => True
  | x :: l' => P s x /\ all_along c P (cstep_run c s x) l'
  end.

(* ------------------------------------------------------------------ *)
(** * Votes *)

Definition says_aye (v : vote) : bool :=
  match v with AssetBalance b _ _ | NativeBalance b _ | Standard b => b end.
(** How much a vote puts in: the balance it pledges, or one. *)
Definition put_in (v : vote) : N :=
  match v with AssetBalance _ _ n | NativeBalance _ n => n | Standard _ => 1 end.
(** How much a vote with membership [m] counts per unit in community [g]: the membership's rank where the community decides by rank. *)
Definition factor (s : cstate) (g m : N) : N :=
  match c_method s !! g with
  | Some ByRank => match c_members s !! m with Some x => if m_group x =? g then m_rank x else 0 | None => 0 end
  | _ => 1
  end.

(** The sum of [f membership vote] over the votes recorded for poll [p]. *)
Definition vote_sum (s : cstate) (p : N) (f : N -> vote -> N) : N :=
  map_fold (fun pm vw acc => (if pm.1 =? p then f pm.2 vw.1 else 0) + acc) 0 (c_votes s).

Definition aye_sum (s : cstate) (p g : N) : N := vote_sum s p (fun m v => if says_aye v then factor s g m * put_in v else 0).
Definition nay_sum (s : cstate) (p g : N) : N := vote_sum s p (fun m v => if says_aye v then 0 else factor s g m * put_in v).
Definition bare_sum (s : cstate) (p : N) : N := vote_sum s p (fun m v => if says_aye v then put_in v else 0).

(** The tally of poll [p] is the weighted sum of the votes recorded for it. *)
Definition tally_right (s : cstate) (p : N) : Prop :=
  forall t g, c_polls s !! p = Some (Ongoing t g) ->
    ayes t = aye_sum s p g /\ nays t = nay_sum s p g /\ bare_ayes t = bare_sum s p.

(** The weighted sums of all ongoing polls fit the 32 bits of a tally. *)
Definition sums_fit (s : cstate) : Prop :=
  forall p t g, c_polls s !! p = Some (Ongoing t g) ->
    aye_sum s p g <= u32_max /\ nay_sum s p g <= u32_max /\ bare_sum s p <= u32_max.
Definition bare_fits (s : cstate) : Prop :=
  forall p t g, c_polls s !! p = Some (Ongoing t g) -> bare_sum s p <= u32_max.

(** A step that leaves the factor of every vote recorded in an ongoing poll as it is (no relevant change of rank or method). *)
Definition factors_kept (c : cconfig) (s : cstate) (x : cstep) : Prop :=
  forall p m v w t g, c_votes s !! (p, m) = Some (v, w) -> c_polls s !! p = Some (Ongoing t g) ->
    factor (cstep_run c s x) g m = factor s g m.

(* ------------------------------------------------------------------ *)
(** * Locks *)

(** The token and amount a vote asks to lock. *)
Definition pledges (v : vote) (k : option N) (n : N) : Prop :=
  match v with
  | AssetBalance _ a m => k = Some a /\ n = m
  | NativeBalance _ m => k = None /\ n = m
  | Standard _ => False
  end.

(** [n] is the largest amount of token [k] among the vote locks of [who] (zero when there is none). *)
Definition largest_lock (s : cstate) (who : N) (k : option N) (n : N) : Prop :=
  (forall p v a, c_locks s !! (who, p) = Some v -> pledges v k a -> a <= n) /\
  (n = 0 \/ exists p v, c_locks s !! (who, p) = Some v /\ pledges v k n).

(** The amount of token [k] frozen for voting in the account [who]. *)
Definition frozen (s : cstate) (k : option N) (who : N) : N :=
  match c_frozen s !! (k, who) with Some n => n | None => 0 end.

(** A step in which nobody votes in a poll with a second membership: whoever votes has no vote recorded in that poll other than
    the one with the same membership. *)
Definition one_membership_each (s : cstate) (x : cstep) : Prop :=
  match x with
  | StCall _ (OSigned who) (CVote m p _) => forall m' v, c_votes s !! (p, m') = Some (v, who) -> m' = m
  | _ => True
  end.

(** Everything but votes, locks, tallies and frozen amounts. *)
Definition same_registry (s s' : cstate) : Prop :=
  c_info s' = c_info s /\ c_admin s' = c_admin s /\ c_method s' = c_method s /\ c_members s' = c_members s /\
  c_balance s' = c_balance s /\ c_providers s' = c_providers s /\ c_assets s' = c_assets s.

(** The poll is running. *)
Definition is_ongoing (s : cstate) (p : N) : Prop := exists t g, c_polls s !! p = Some (Ongoing t g).

(* ------------------------------------------------------------------ *)
(** * An environment that refuses nothing, for examples *)
Definition easy_env : cenv := CEnv (fun _ _ => 2 ^ 128) (fun _ _ _ => true) (fun _ _ _ => true) true.

(* ------------------------------------------------------------------ *)
(** * Voting rules *)

(** The kinds of vote a community accepts, by its decision method (none set means one vote per membership). *)
Definition allowed_vote (s : cstate) (g : N) (v : vote) : Prop :=
  match c_method s !! g with
  | None | Some ByMembership | Some ByRank => exists b, v = Standard b
  | Some ByNativeToken => exists b n, v = NativeBalance b n
  | Some (ByCommunityAsset a min) => exists b n, v = AssetBalance b a n /\ min <= n
  end.

(** Account [who] may cast vote [v] with membership [m] in poll [p]: it holds the membership, the poll is running for the
    membership's community, and the vote is of an allowed kind and not empty. *)
Definition may_vote (s : cstate) (who m p : N) (v : vote) : Prop :=
  exists x t, c_members s !! m = Some x /\ m_owner x = who /\ c_polls s !! p = Some (Ongoing t (m_group x)) /\
    allowed_vote s (m_group x) v /\ 0 < put_in v.

(** The tally of a poll with one more vote of factor [k] on top of [t]; and that it fits the counters. *)
Definition tally_plus (t : tally) (k : N) (v : vote) : tally :=
  if says_aye v then Tally (ayes t + k * put_in v) (nays t) (bare_ayes t + put_in v)
  else Tally (ayes t) (nays t + k * put_in v) (bare_ayes t).
Definition tally_within (t : tally) : Prop := ayes t <= u32_max /\ nays t <= u32_max /\ bare_ayes t <= u32_max.

(** A membership votes several times in a row, each time successfully. *)
Fixpoint votes_in_turn (c : cconfig) (s : cstate) (who m p : N) (l : list (cenv * vote)) : option cstate :=
  match l with
  | [] => Some s
  | (e, v) :: l' =>
      match ccall_run c e s (OSigned who) (CVote m p v) with
      | COk (s', _) => votes_in_turn c s' who m p l'
      | CErr _ => None
      end
  end.

(** Parts per billion of a whole, rounded down. *)
Definition parts_of (p q : N) : N := p * 1000000000 / q.

(** All of a community's registry entries and settings apart from memberships. *)
Definition same_voting_state (s s' : cstate) : Prop :=
  c_votes s' = c_votes s /\ c_locks s' = c_locks s /\ c_frozen s' = c_frozen s /\ c_polls s' = c_polls s.

(** The assets after a community chose [dm] for its votes: an asset that did not exist was created, owned by [owner]. *)
Definition assets_after (owner : N) (dm : option decision_method) (s s' : cstate) : Prop :=
  match dm with
  | Some (ByCommunityAsset a min) =>
      (c_assets s !! a = None -> 0 < min -> c_assets s' = <[a := (owner, min)]> (c_assets s)) /\
      (c_assets s !! a <> None \/ min = 0 -> c_assets s' = c_assets s)
  | _ => c_assets s' = c_assets s
  end.

(** How much of token [k] the votes of [who] recorded in poll [p] put in together. *)
Definition counted_of (s : cstate) (p who : N) (k : option N) : N :=
  map_fold (fun pm vw acc => (if (pm.1 =? p) && (vw.2 =? who) then
     match vw.1 with
     | AssetBalance _ a n => if decide (k = Some a) then n else 0
     | NativeBalance _ n => if decide (k = None) then n else 0
     | Standard _ => 0
     end else 0) + acc) 0 (c_votes s).

(** All that can support a proposal in community [g]: its memberships, their ranks together, or the issuance of the token it votes
    with (as far as 32 bits count). *)
Definition members_of (s : cstate) (g : N) : gmap N membership := filter (fun mx => m_group mx.2 = g) (c_members s).
Definition electorate (s : cstate) (issuance : option N -> N) (g : N) : N :=
  match c_method s !! g with
  | None | Some ByMembership => N.of_nat (size (members_of s g))
  | Some ByRank => map_fold (fun _ x acc => m_rank x + acc) 0 (members_of s g)
  | Some ByNativeToken => N.min (issuance None) u32_max
  | Some (ByCommunityAsset a _) => N.min (issuance (Some a)) u32_max
  end.

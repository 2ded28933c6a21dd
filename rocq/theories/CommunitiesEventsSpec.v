(** What somebody who follows the events of pallet_communities learns about votes. *)
From stdpp Require Import gmap.
From Verif Require Import Base XcmTypes OriginTypes AccountsModel CommunitiesModel CommunitiesSpec.
Open Scope N_scope.

(** The events of pallet_communities in a history, oldest first: those of the calls that succeed. *)
Definition cstep_events (c : cconfig) (s : cstate) (x : cstep) : list cevent :=
  match x with
  | StCall e o k => match ccall_run c e s o k with COk (_, evs) => evs | CErr _ => [] end
  | _ => []
  end.
Fixpoint clog (c : cconfig) (s : cstate) (l : list cstep) : list cevent :=
  match l with
  | [] => []
  | x :: l' => cstep_events c s x ++ clog c (cstep_run c s x) l'
  end.

(** The vote each account is told to have in each poll: keyed by (poll, account). *)
Definition learn_vote (m : gmap (N * N) vote) (ev : cevent) : gmap (N * N) vote :=
  match ev with
  | EvVoteCasted who p v => <[(p, who) := v]> m
  | EvVoteRemoved who p => delete (p, who) m
  | _ => m
  end.
Definition votes_told (log : list cevent) : gmap (N * N) vote := fold_left learn_vote log ∅.

(** A step in which nobody replaces or takes back a vote that somebody else cast with the same membership (before it changed hands). *)
Definition own_votes_only (s : cstate) (x : cstep) : Prop :=
  match x with
  | StCall _ (OSigned who) (CVote m p _) | StCall _ (OSigned who) (CRemoveVote m p) =>
      forall v w, c_votes s !! (p, m) = Some (v, w) -> w = who
  | _ => True
  end.

(** What an event says of the states before and after the call that deposited it. *)
Definition event_true (s s' : cstate) (ev : cevent) : Prop :=
  match ev with
  | EvCommunityCreated id o => c_info s !! id = None /\ c_info s' !! id = Some Active /\ c_admin s' o = Some id
  | EvAdminOriginSet id o => c_admin s' o = Some id
  | EvDecisionMethodSet id => exists dm, c_method s' = <[id := dm]> (c_method s)
  | EvMemberAdded who m => exists x, c_members s' !! m = Some x /\ m_owner x = who
  | EvMemberRemoved who m => exists x, c_members s !! m = Some x /\ m_owner x = who
  | EvRankUpdated m r => exists x, c_members s' !! m = Some x /\ m_rank x = r
  | EvVoteCasted who p v => exists m x, c_members s !! m = Some x /\ m_owner x = who /\ c_votes s' !! (p, m) = Some (v, who)
  | EvVoteRemoved who p => exists m x, c_members s !! m = Some x /\ m_owner x = who /\ c_votes s !! (p, m) <> None /\ c_votes s' !! (p, m) = None
  end.

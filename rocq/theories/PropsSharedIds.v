(** Property theorems C163: membership ids that repeat. The program is [vote_in], [remove_in] and [irun] of SharedIdsModel.v; the vocabulary
    is in SharedIdsSpec.v and CommunitiesSpec.v. *)
From stdpp Require Import gmap.
From Verif Require Import Base XcmTypes OriginTypes AccountsModel CommunitiesModel CommunitiesSpec SharedIdsModel SharedIdsSpec SharedIds SharedIdsTwin SharedIdsTally.
Open Scope N_scope.

(* ------------------------------------------------------------------ *)
(** * C163: members vote whatever memberships others give out *)

(** Refuted: a community that storage lists before the member's own needs only give the member a membership with the same id. The member
    still holds theirs, but whatever they vote in a running poll of their community is refused, and so is taking back a vote they cast. *)
Theorem C163_shut_out_refuted : forall l1 l2 e s who g g' m p t r, let order := l1 ++ g' :: l2 in g ∉ l1 -> g' <> g ->
  is_h s !! (g, m) = Some (who, r) -> c_polls (is_c s) !! p = Some (Ongoing t g) ->
  let s' := istep_run kreivo_communities order s (IItem g' m (Some (who, 0))) in
  is_c s' = is_c s /\ is_h s' !! (g, m) = Some (who, r) /\
  (forall v, exists er, vote_in order e s' (OSigned who) m p v = CErr er) /\
  exists er, remove_in order e s' (OSigned who) m p = CErr er.
Proof. exact shut_out. Qed.
Print Assumptions C163_shut_out_refuted.
(** What holds: a member who holds the id in no other community votes; ... *)
Theorem C163_alone_partial : forall order e s who g m p v r t, g ∈ order -> is_h s !! (g, m) = Some (who, r) ->
  (forall g' r', is_h s !! (g', m) = Some (who, r') -> g' = g) ->
  c_polls (is_c s) !! p = Some (Ongoing t g) -> c_votes (is_c s) !! (p, m) = None -> allowed_vote (is_c s) g v -> 0 < put_in v ->
  (forall k n, pledges v k n -> let a := N.max (frozen (is_c s) k who) n in a <= ce_freezable e k who /\ ce_freeze_ok e k who a = true) ->
  exists s', vote_in order e s (OSigned who) m p v = COk s' /\ c_votes (is_c s') !! (p, m) = Some (v, who).
Proof. exact alone_votes. Qed.
Print Assumptions C163_alone_partial.
(** ... whoever votes, or takes a vote back, holds the membership of that id in the poll's own community, and no vote but theirs is touched; ... *)
Theorem C163_own_partial : (forall order e s o m p v s', vote_in order e s o m p v = COk s' ->
    exists who g r t, o = OSigned who /\ c_polls (is_c s) !! p = Some (Ongoing t g) /\ is_h s !! (g, m) = Some (who, r) /\
      allowed_vote (is_c s) g v /\ 0 < put_in v /\ c_votes (is_c s') = <[(p, m) := (v, who)]> (c_votes (is_c s)) /\ is_h s' = is_h s) /\
  (forall order e s o m p s', remove_in order e s o m p = COk s' ->
    exists who g r t, o = OSigned who /\ c_polls (is_c s) !! p = Some (Ongoing t g) /\ is_h s !! (g, m) = Some (who, r) /\
      c_votes (is_c s') = delete (p, m) (c_votes (is_c s)) /\ is_h s' = is_h s).
Proof. exact (conj vote_own remove_own). Qed.
Print Assumptions C163_own_partial.
(** ... tallies are the votes weighed by the memberships of the poll's own community (as C40: while ranks and methods stay as they are and
    the sums fit 32 bits), and frozen funds cover the locks; ... *)
Theorem C163_tally_partial : forall order l,
  (forall l1 x l2, l = l1 ++ x :: l2 -> let s := irun kreivo_communities order i_empty l1 in let s' := irun kreivo_communities order i_empty (l1 ++ [x]) in
     own_kept s s' /\ own_fit s') ->
  own_right (irun kreivo_communities order i_empty l).
Proof. exact own_history. Qed.
Print Assumptions C163_tally_partial.
Theorem C163_locks_partial : forall order l who p v k n, let s := is_c (irun kreivo_communities order i_empty l) in
  c_locks s !! (who, p) = Some v -> pledges v k n -> n <= frozen s k who.
Proof. exact own_covered. Qed.
Print Assumptions C163_locks_partial.
(** ... and that ids are told apart, as the other properties of communities take it, loses nothing: under ids that say the community, the
    same polls, tallies, locks, frozen amounts and votes come about in a history of CommunitiesModel.v. *)
Theorem C163_told_apart_partial : exists code : N -> N -> N, (forall g m g' m', code g m = code g' m' -> g = g' /\ m = m') /\
  forall order l, exists l', let s := irun kreivo_communities order i_empty l in let t := crun kreivo_communities c_empty l' in
    c_polls t = c_polls (is_c s) /\ c_locks t = c_locks (is_c s) /\ c_frozen t = c_frozen (is_c s) /\ c_method t = c_method (is_c s) /\
    c_info t = c_info (is_c s) /\ c_balance t = c_balance (is_c s) /\
    (forall g m, c_members t !! code g m = (fun x => Membership g x.1 x.2) <$> is_h s !! (g, m)) /\
    (forall p y g m, c_polls (is_c s) !! p = Some (Ongoing y g) -> c_votes t !! (p, code g m) = c_votes (is_c s) !! (p, m)).
Proof. exact (ex_intro _ code (conj code_inj told_apart)). Qed.
Print Assumptions C163_told_apart_partial.

(** Accounts 10 and 11 are members 5 of communities 1 and 2, ranks 3 and 4; communities decide by rank; polls 7 of 1 and 8 of 2. *)
Definition by_rank (g : N) : istep := IOther (StCall easy_env (OSigned (community_account g)) (CSetMethod g ByRank)).
Definition i_two : list istep := [by_rank 1; by_rank 2; IItem 1 5 (Some (10, 3)); IItem 2 5 (Some (11, 4)); IOther (StPollOpen 7 1); IOther (StPollOpen 8 2)].
Definition i_votes : list istep := [IVote easy_env (OSigned 10) 5 7 (Standard true); IVote easy_env (OSigned 11) 5 8 (Standard true);
  IVote easy_env (OSigned 11) 5 7 (Standard false); IVote easy_env (OSigned 10) 5 8 (Standard false)].
Definition i_run (l : list istep) : cstate := is_c (irun kreivo_communities [2; 1] i_empty l).
Example C163_case : let s := i_run (i_two ++ i_votes) in
  c_polls s !! 7 = Some (Ongoing (Tally 3 0 1) 1) /\ c_polls s !! 8 = Some (Ongoing (Tally 4 0 1) 2) /\
  c_votes s !! (7, 5) = Some (Standard true, 10) /\ c_votes s !! (8, 5) = Some (Standard true, 11) /\
  (* community 2 gives account 10 its membership 5: 10 can no longer change the vote in poll 7 *)
  let s' := i_run (i_two ++ i_votes ++ [IItem 2 5 (Some (10, 0)); IVote easy_env (OSigned 10) 5 7 (Standard false); IRemove easy_env (OSigned 10) 5 7]) in
  c_polls s' !! 7 = Some (Ongoing (Tally 3 0 1) 1) /\ c_votes s' !! (7, 5) = Some (Standard true, 10) /\
  (* without it, they could *)
  let s'' := i_run (i_two ++ i_votes ++ [IVote easy_env (OSigned 10) 5 7 (Standard false)]) in c_polls s'' !! 7 = Some (Ongoing (Tally 0 3 0) 1).
Proof. cbv zeta. split_and!; vm_compute; reflexivity. Qed.
Example C163_tally_case : forall l1 x l2, i_two ++ i_votes = l1 ++ x :: l2 ->
  let s := irun kreivo_communities [2; 1] i_empty l1 in let s' := irun kreivo_communities [2; 1] i_empty (l1 ++ [x]) in own_kept s s' /\ own_fit s'.
Proof. apply own_checked. vm_compute. reflexivity. Qed.

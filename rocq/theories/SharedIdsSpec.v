(** What tallies are where membership ids may repeat: a vote with id [m] in a poll of community [g] is of the membership [m] of [g]. *)
From stdpp Require Import gmap.
From Verif Require Import Base OriginTypes AccountsModel CommunitiesModel CommunitiesSpec SharedIdsModel.
Open Scope N_scope.

(** How much the membership [m] of [g] counts. *)
Definition own_factor (s : istate) (g m : N) : N :=
  match c_method (is_c s) !! g with
  | Some ByRank => match is_h s !! (g, m) with Some (_, rank) => rank | None => 0 end
  | _ => 1
  end.
(** The sums of the votes recorded for poll [p], weighed by the memberships of [g]: ayes, nays, and the ayes without factors. *)
Definition own_ayes (s : istate) (p g : N) : N := vote_sum (is_c s) p (fun m v => if says_aye v then own_factor s g m * put_in v else 0).
Definition own_nays (s : istate) (p g : N) : N := vote_sum (is_c s) p (fun m v => if says_aye v then 0 else own_factor s g m * put_in v).
Definition own_bare (s : istate) (p : N) : N := vote_sum (is_c s) p (fun m v => if says_aye v then put_in v else 0).
Definition own_right (s : istate) : Prop := forall p t g, c_polls (is_c s) !! p = Some (Ongoing t g) ->
  ayes t = own_ayes s p g /\ nays t = own_nays s p g /\ bare_ayes t = own_bare s p.
(** The sums fit 32 bits; ranks and methods of votes in running polls stay as they are from [s] to [s']. *)
Definition own_fit (s : istate) : Prop := forall p t g, c_polls (is_c s) !! p = Some (Ongoing t g) ->
  own_ayes s p g <= u32_max /\ own_nays s p g <= u32_max /\ own_bare s p <= u32_max.
Definition own_kept (s s' : istate) : Prop := forall p m v w t g, c_votes (is_c s) !! (p, m) = Some (v, w) ->
  c_polls (is_c s) !! p = Some (Ongoing t g) -> own_factor s' g m = own_factor s g m.

(** Voting in communities without assuming that membership ids are unique across communities: pallets/communities/src/lib.rs:510-548
    [vote], [remove_vote]. Memberships are items of one collection per community (runtime/kreivo/src/communities/memberships.rs:10-15), and who
    may mint into a collection picks the ids, so the same id may occur in several communities. *)
From stdpp Require Import gmap.
From Verif Require Import Base OriginTypes AccountsModel CommunitiesModel.
Open Scope N_scope.

(** Who holds membership [m] of community [g], and with which rank. *)
Notation holdings := (gmap (N * N) (N * N)).
(** The memberships of one community, as CommunitiesModel.v has them. *)
Definition members_of (g : N) (h : holdings) : gmap N membership :=
  (fun x => Membership g x.1 x.2) <$> default ∅ (gmap_curry h !! g).

(** [check_membership(who, m)] (fc_traits_memberships, dependency; called without a community, lib.rs:518, 541): the first community among those
    in which [who] holds a membership with this id; [order] stands for the order in which storage lists the communities. *)
Definition holds (h : holdings) (who g m : N) : bool := match h !! (g, m) with Some x => x.1 =? who | None => false end.
Definition found (order : list N) (h : holdings) (who m : N) : option N := List.find (fun g => holds h who g m) order.

(** All of pallet_communities but the memberships ([c_members] is not looked at), and the memberships. *)
Record istate := IState { is_c : cstate; is_h : holdings }.
(** What the pallet finds of the memberships when it is asked about membership [m] of [who]: those of the community found. *)
Definition seen (order : list N) (s : istate) (o : origin) (m : N) : cstate :=
  set_members (match ensure_signed o with
               | Some who => match found order (is_h s) who m with Some g => members_of g (is_h s) | None => ∅ end
               | None => ∅ end) (is_c s).
(** lib.rs:510-530 [vote] and 534-548 [remove_vote]; errors leave the state as it was. *)
Definition vote_in (order : list N) (e : cenv) (s : istate) (o : origin) (m p : N) (v : vote) : cresult istate :=
  do r <- call_vote e (seen order s o m) o m p v;
  COk (IState (set_members (c_members (is_c s)) r.1) (is_h s)).
Definition remove_in (order : list N) (e : cenv) (s : istate) (o : origin) (m p : N) : cresult istate :=
  do r <- call_remove_vote e (seen order s o m) o m p;
  COk (IState (set_members (c_members (is_c s)) r.1) (is_h s)).

(** What can happen: votes and their removal, a membership of some community is minted, moved, burnt or given a rank, and whatever else
    can happen to the pallet (CommunitiesModel.v) that does not read or write memberships. *)
Inductive istep :=
| IVote (e : cenv) (o : origin) (m p : N) (v : vote)
| IRemove (e : cenv) (o : origin) (m p : N)
| IItem (g m : N) (x : option (N * N))
| IOther (x : cstep).
Definition memberless (x : cstep) : bool :=
  match x with
  | StCall _ _ (CCreate _ _ | CSetAdmin _ | CSetMethod _ _ | CUnlock _) => true
  | StCall _ _ _ | StMember _ _ => false
  | _ => true
  end.
Definition istep_run (c : cconfig) (order : list N) (s : istate) (x : istep) : istate :=
  match x with
  | IVote e o m p v => match vote_in order e s o m p v with COk s' => s' | CErr _ => s end
  | IRemove e o m p => match remove_in order e s o m p with COk s' => s' | CErr _ => s end
  | IItem g m x => IState (is_c s) (match x with Some y => <[(g, m) := y]> (is_h s) | None => delete (g, m) (is_h s) end)
  | IOther x => if memberless x then IState (cstep_run c (is_c s) x) (is_h s) else s
  end.
Definition irun (c : cconfig) (order : list N) (s : istate) (l : list istep) : istate := fold_left (istep_run c order) l s.
Definition i_empty : istate := IState c_empty ∅.

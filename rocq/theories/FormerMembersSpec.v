(** What the property about former members (C164) says. *)
From stdpp Require Import gmap.
From Verif Require Import Base XcmTypes OriginTypes CommunitiesModel.
Open Scope N_scope.

(** Account [who] holds no membership of community [g]. *)
Definition no_member (s : cstate) (g who : N) : Prop := forall m x, c_members s !! m = Some x -> m_owner x = who -> m_group x <> g.
(** A step that is a call signed by [who]. *)
Definition call_of (who : N) (x : cstep) : Prop := exists e k, x = StCall e (OSigned who) k.

(** Vocabulary for how referenda end. *)
From stdpp Require Import gmap.
From Verif Require Import Base XcmTypes OriginTypes CommunitiesModel TracksModel ManagerModel GovernanceModel GovernanceSpec.
Open Scope N_scope.

(** Who may cancel, and who may kill, a referendum: in the collective the origin the collective decides about, for communities root. *)
Definition may_cancel (i : inst) (o : origin) : Prop := match i with Collective => o = OCustom ReferendumCanceller | Community => o = ORoot end.
Definition may_kill (i : inst) (o : origin) : Prop := match i with Collective => o = OCustom ReferendumKiller | Community => o = ORoot end.

(** For how many blocks a referendum may wait to be decided about: two days in the collective, fourteen in a community. *)
Definition patience (i : inst) : N := match i with Collective => 28800 | Community => 201600 end.

(** Why referendum [p] comes to be [y] in step [x] from state [s]: it was looked at and
    - reached its thresholds and had been confirmed for long enough,
    - missed its thresholds when its decision period was over,
    - was not being decided about nor waiting in the queue for it although the time for that was over, its deposit missing or its preparation not over;
    or it was called off by who may. *)
Inductive end_reason (s : gstate) (x : gstep) (i : inst) (p : N) : rstatus -> Prop :=
| end_approved e r : x = GService e i p -> approved_at s e i p r -> end_reason s x i p (RApproved (gv_now s))
| end_rejected e r since c ti : x = GService e i p -> is_open s i p r -> rf_deciding r = Some (since, c) -> track_info_of s i (rf_track r) = Some ti ->
    since + ti_decision ti <= gv_now s -> ~ reaches e s i p r (gv_now s - since) -> end_reason s x i p (RRejected (gv_now s))
| end_timed_out s1 e r ti : looked s x s1 e i p -> is_open s1 i p r -> rf_deciding r = None -> rf_queued r = false ->
    track_info_of s1 i (rf_track r) = Some ti -> rf_submitted r + patience i <= gv_now s ->
    (rf_deposit r = false /\ x = GService e i p) \/ gv_now s < rf_submitted r + ti_prepare ti -> end_reason s x i p (RTimedOut (gv_now s))
| end_cancelled s1 o : happens s x s1 o (GCancel i p) -> may_cancel i o -> end_reason s x i p (RCancelled (gv_now s))
| end_killed s1 o : happens s x s1 o (GKill i p) -> may_kill i o -> end_reason s x i p (RKilled (gv_now s)).

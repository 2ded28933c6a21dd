(** The words of C168, apart from the program. *)
From stdpp Require Import gmap.
From Verif Require Import Base XcmTypes OriginTypes AccountsModel CommunitiesModel TracksModel ManagerModel XcmConfigModel GovernanceModel GovernanceSpec.
Open Scope N_scope.

(** Origin [o] is recorded as the administrator of community [g]. *)
Definition administers (s : gstate) (o : origin) (g : N) : Prop := c_admin (mg_c (gv_m s)) o = Some g.
Definition registered (s : gstate) (g : N) : Prop := c_info (mg_c (gv_m s)) !! g <> None.
Definition active (s : gstate) (g : N) : Prop := c_info (mg_c (gv_m s)) !! g = Some Active.
(** A community without an administrator. *)
Definition orphan (s : gstate) (g : N) : Prop := registered s g /\ forall o, ~ administers s o g.
(** During step [x], [o] says that from now on [o'] administers. *)
Definition hands_over (s : gstate) (x : gstep) (s1 : gstate) (o o' : origin) : Prop := happens s x s1 o (GCommunityCall (CSetAdmin o')).

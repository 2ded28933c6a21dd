(** Vocabulary for in whose name calls run. *)
From stdpp Require Import gmap.
From Verif Require Import Base XcmTypes OriginTypes AccountsModel AccountsSpec CommunitiesModel ManagerModel XcmConfigModel GovernanceModel GovernanceSpec.
Open Scope N_scope.

(** [o] manages community [g]: it is the community's own origin or the one registered as its admin, and the community is active; or it is an
    account that looks like the community's (C12). *)
Definition manages (s : gstate) (o : origin) (g : N) : Prop :=
  (c_info (mg_c (gv_m s)) !! g = Some Active /\ ((exists sub, o = OCommunity g sub) \/ c_admin (mg_c (gv_m s)) o = Some g)) \/
  exists w, o = OSigned w /\ account_to_community w = Some g.

(** During step [x] the manager of [g] has call [k] dispatched by the community's account, and that is or contains the call [k'] that comes
    to be dispatched with origin [o']. *)
Definition by_manager (s : gstate) (x : gstep) (g : N) (s' : gstate) (o' : origin) (k' : gcall) : Prop :=
  exists e s1 o k, gstep_env x = Some e /\ happens s x s1 o (GAsCommunity k) /\ manages s1 o g /\
    executes e s1 (OSigned (community_account g)) k s' o' k'.

(** The treasury's account: "modl", "py/trsry", zeros. *)
Definition str_treasury : list N := [112; 121; 47; 116; 114; 115; 114; 121].
Definition treasury_bytes : list N := str_modl ++ str_treasury ++ replicate 20 0.

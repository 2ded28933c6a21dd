(** Property theorems C168: who administers a community. The program is GovernanceModel.v over CommunitiesModel.v; the words are in
    AdminsSpec.v. *)
From stdpp Require Import gmap.
From Verif Require Import Base XcmTypes OriginTypes AccountsModel CommunitiesModel CommunitiesSpec TracksModel ManagerModel ManagerSpec XcmConfigModel
  PropsManager GovernanceModel GovernanceSpec AdminsSpec Admins.
Open Scope N_scope.

(* ------------------------------------------------------------------ *)
(** * C168: a community always has an administrator, who stays until they hand over or the community decides otherwise *)

(** Refuted: by naming the administrator of another community as their own successor, the administrator of any active community takes them
    away from it. They now administer the wrong community, and the other one has no administrator, ... *)
Theorem C168_taken_over_refuted : forall ranks now l e a o g h, let s := grun (g_start ranks now) l in
  administers s o g -> administers s (OSigned a) h -> active s h -> g <> h ->
  let s' := gstep_run s (GTx e a (GCommunityCall (CSetAdmin o))) in administers s' o h /\ orphan s' g.
Proof. exact taken_over. Qed.
Print Assumptions C168_taken_over_refuted.

(** ... and never has one again, whatever anyone does or the collective decides. *)
Theorem C168_forever_refuted : forall s g l, orphan s g -> orphan (grun s l) g.
Proof. exact orphan_forever. Qed.
Print Assumptions C168_forever_refuted.

(** Refuted: no decision of a community replaces its administrator, unless this is the community itself. *)
Theorem C168_decision_refuted : forall e s g sub o, ~ administers s (OCommunity g sub) g ->
  g_call e s (OCommunity g sub) (GCommunityCall (CSetAdmin o)) = None.
Proof. exact members_cannot. Qed.
Print Assumptions C168_decision_refuted.

(** What holds: who administers a community stays until they name a successor, or an administrator of another community names them. *)
Theorem C168_stays_partial : forall s x o g, administers s o g -> ~ administers (gstep_run s x) o g ->
  (exists s1 o', hands_over s x s1 o o') \/ (exists s1 o1 g1, hands_over s x s1 o1 o /\ administers s1 o1 g1 /\ g1 <> g).
Proof. exact handed_over. Qed.
Print Assumptions C168_stays_partial.

(** With or without an administrator, what an active community decides about itself else takes effect: its decisions pass as it. *)
Theorem C168_decides_partial : forall e s g dm, active s g ->
  kreivo_admin_origin (mg_c (gv_m s)) (OCommunity g None) = Some g /\
  exists s', g_call e s (OCommunity g None) (GCommunityCall (CSetMethod g dm)) = Some s' /\ method_of (mg_c (gv_m s')) g = dm.
Proof. exact members_decide. Qed.
Print Assumptions C168_decides_partial.

(** Account 9 registers community 1 for account 1 and community 2 for account 2. Account 1 makes the community its own administrator. Account 2
    names community 1's origin. *)
Definition a_env : genv := GEnv ok_env (fun _ => 0) true true true.
Definition h_admins : list gstep :=
  [GOutside (StBalance 9 (4 * community_deposit)); GTx a_env 9 (GRegister 1 name_one (AddrId 1) None None);
   GTx a_env 9 (GRegister 2 name_one (AddrId 2) None None); GTx a_env 1 (GCommunityCall (CSetAdmin (OCommunity 1 None)))].
Definition s_admins : gstate := grun (g_start ∅ 0) h_admins.
Definition s_taken : gstate := gstep_run s_admins (GTx a_env 2 (GCommunityCall (CSetAdmin (OCommunity 1 None)))).
Example C168_case :
  administers (grun (g_start ∅ 0) (take 3 h_admins)) (OSigned 1) 1 /\ ~ administers s_admins (OSigned 1) 1 /\
  administers s_admins (OCommunity 1 None) 1 /\ administers s_admins (OSigned 2) 2 /\ active s_admins 1 /\ active s_admins 2 /\
  administers s_taken (OCommunity 1 None) 2 /\ orphan s_taken 1 /\ active s_taken 1 /\
  g_call a_env s_taken (OCommunity 1 None) (GCommunityCall (CSetAdmin (OSigned 1))) = None.
Proof.
  assert (A : administers s_admins (OCommunity 1 None) 1) by (vm_compute; reflexivity).
  assert (B : administers s_admins (OSigned 2) 2) by (vm_compute; reflexivity).
  assert (D : active s_admins 2) by (vm_compute; reflexivity).
  destruct (C168_taken_over_refuted ∅ 0 h_admins a_env 2 (OCommunity 1 None) 1 2 A B D) as [T1 T2]; [discriminate|].
  split; [vm_compute; reflexivity|]. split; [intros X; vm_compute in X; discriminate X|]. split; [exact A|]. split; [exact B|].
  split; [vm_compute; reflexivity|]. split; [exact D|]. split; [exact T1|]. split; [exact T2|]. split; [vm_compute; reflexivity|].
  apply C168_decision_refuted. exact (proj2 T2 _).
Qed.

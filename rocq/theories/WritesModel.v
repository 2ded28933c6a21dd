(** How many reads and writes of the database the calls of the payments, communities and manager pallets are charged for on Kreivo. Every weight has the form
    [bench time proof reads writes] (XcmWeightsModel.v). *)
From stdpp Require Import gmap.
From Verif Require Import Base XcmTypes OriginTypes FeesModel LedgerModel AccountsModel PaymentsModel CommunitiesModel XcmConfigModel XcmInstrModel XcmWeightsModel CostModel.
Open Scope N_scope.

(** A benchmarked weight: execution time, proof size, reads, writes. *)
Record benched := Benched { bn_time : N; bn_proof : N; bn_reads : N; bn_writes : N }.
Definition benched_weight (b : benched) : weight := bench (bn_time b) (bn_proof b) (bn_reads b) (bn_writes b).

(** runtime/kreivo/src/weights/pallet_payments.rs:37-200; [pay] grows with the length of the remark (pallets/payments/src/lib.rs:266). *)
Definition pcall_benched (k : pcall) : benched :=
  match k with
  | CPay _ _ _ remark => Benched (221623545 + 539868 * N.of_nat (length (default [] remark))) 8518 6 6
  | CRelease _ => Benched 392162000 8859 8 8
  | CCancel _ => Benched 309037000 8518 7 7
  | CRequestRefund _ => Benched 80807000 159279 3 3
  | CDisputeRefund _ => Benched 202768000 159279 7 6
  | CResolveDispute _ _ => Benched 675111000 8859 9 8
  | CRequestPayment _ _ _ => Benched 62431000 8518 2 2
  | CAcceptAndPay _ => Benched 262563000 8859 7 6
  end.

(** runtime/kreivo/src/weights/pallet_communities.rs:35-255: the writes among [ccall_weight] (CostModel.v). *)
Definition ccall_benched (k : ccall) : benched :=
  match k with
  | CCreate _ _ => Benched 60467000 4087 3 3
  | CSetAdmin _ => Benched 57312000 4087 2 2
  | CSetMethod _ _ => Benched 57754000 3689 2 2
  | CAddMember _ => Benched 372808000 9846 13 11
  | CRemoveMember _ _ => Benched 528792000 15750 15 15
  | CPromote _ => Benched 223142000 6894 4 3
  | CDemote _ => Benched 180040000 6894 4 3
  | CVote _ _ _ => Benched 502488000 6148 10 6
  | CRemoveVote _ _ => Benched 238003000 4365 5 2
  | CUnlock _ => Benched 224360000 8123 6 3
  end.

(** runtime/kreivo/src/weights/pallet_communities_manager.rs:38-77 [register], 78-108 [create_memberships] of [n] memberships
    (pallets/communities-manager/src/lib.rs:192). *)
Definition register_benched : benched := Benched 164491000 132561 8 14.
Definition create_memberships_benched (n : N) : benched := Benched (117430000 + 84131631 * n) (3547 + 3334 * n) (2 + 2 * n) (1 + 4 * n).

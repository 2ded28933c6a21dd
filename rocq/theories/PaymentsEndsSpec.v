(** Vocabulary for statements about how payments end. *)
From Verif Require Import Base XcmTypes OriginTypes PaymentIdModel FeesModel LedgerModel PaymentsModel PaymentsSpec.
From stdpp Require Import gmap.
Open Scope N_scope.

(** What a decision takes from the beneficiary's side and gives to the sender. *)
Definition decided_to_sender (r : dispute_result) (d : detail) : N :=
  match in_favor_of r with
  | RSender => share (percent_beneficiary r) (d_amount d)
  | RBeneficiary => d_amount d - share (percent_beneficiary r) (d_amount d)
  end.

(** The step is the beneficiary cancelling [id], or the sender accepting it. *)
Definition gives_up (c : pconfig) (s ben id : N) (x : pstep) : Prop :=
  exists o e, (x = SCall o (CCancel id) e /\ cfg_beneficiary_origin c o = Some ben) \/
              (x = SCall o (CAcceptAndPay id) e /\ cfg_sender_origin c o = Some s).


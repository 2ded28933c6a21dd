(** Further theorems on properties stated elsewhere: C07 (PropsAssets.v), C54 (PropsManager.v), C103 (PropsFees.v), C143 (PropsCollators.v). *)
From stdpp Require Import gmap strings.
From Verif Require Import Base XcmTypes OriginTypes AssetLocationModel RuntimeModel CommunitiesModel XcmConfigModel XcmWeightsModel TracksModel CostModel CollatorsModel CollatorsExamples CostSpec.
Open Scope N_scope.

(** C07: an asset named by a number alone is the asset of this chain with that number. *)
Theorem C07_numbers : forall v, v <= u32_max ->
  convert_back (asset_from_u32 v) = Some (Location 0 [PalletInstance 13; GeneralIndex v]) /\
  convert (Location 0 [PalletInstance 13; GeneralIndex v]) = Val (Some (asset_from_u32 v)).
Proof.
  intros v Hv. split; [reflexivity|]. cbn [convert]. unfold try_u32. replace (v <=? u32_max) with true by (symmetry; apply N.leb_le; exact Hv). reflexivity.
Qed.
Print Assumptions C07_numbers.
Example C07_numbers_case : 7 <= u32_max.
Proof. vm_compute. discriminate. Qed.

(** C103: a call that fails and says what it used is charged that much, unless it is dispatched as a community's account: then all that was
    declared is charged. *)
Theorem C103_failed : forall c s o i w f, weight_le w (ci_weight i) ->
  charged_weight i (RanErr (PostInfo (Some w) f)) = w /\
  charged_weight (as_account_info i) (as_account_ran c s o (RanErr (PostInfo (Some w) f))) = ci_weight (as_account_info i).
Proof.
  intros c s o i [w1 w2] f [H1 H2]. split.
  - unfold charged_weight. cbn [result_post po_weight]. unfold weight_min. cbn [fst snd] in *. f_equal; lia.
  - unfold as_account_ran. destruct (dispatch_as_account c s o); reflexivity.
Qed.
Print Assumptions C103_failed.
Example C103_failed_case : weight_le (400000000, 3000) (ci_weight (CallInfo (1000000000, 9000) false)).
Proof. split; vm_compute; discriminate. Qed.

(** C143: at the start of a local chain it takes sixteen times the least balance an account can have to be a candidate. *)
Theorem C143_first_bond : forall l free s, kgenesis l free = Some s -> k_bond s = 16 * EXISTENTIAL_DEPOSIT.
Proof. intros l free s. unfold kgenesis. destruct (_ && _ && _); [|discriminate]. intros H. injection H as <-. vm_compute. reflexivity. Qed.
Print Assumptions C143_first_bond.
Example C143_first_case : kgenesis [(1, 101)] money = Some start.
Proof. exact start_is. Qed.

(** C54: tracks go by the name of who decides by them, as text padded with zeros. *)
Definition name_of_origin (o : origin) : string :=
  match o with
  | ORoot => "Root"
  | OCustom ReferendumCanceller => "Referendum Canceller"
  | OCustom ReferendumKiller => "Referendum Killer"
  | OCustom CreateMemberships => "Create Memberships"
  | _ => ""
  end%string.
Theorem C54_names : forall o t i, kreivo_track_for o = Some t -> (t, i) ∈ kreivo_tracks ->
  exists z, ti_name i = map Ascii.N_of_ascii (String.list_ascii_of_string (name_of_origin o)) ++ replicate z 0 /\ length (ti_name i) = 25%nat.
Proof.
  intros o t i Ht Hi.
  assert (o = ORoot \/ o = OCustom ReferendumCanceller \/ o = OCustom ReferendumKiller \/ o = OCustom CreateMemberships) as Ho.
  { destruct o as [| |who|id p|c|x|k]; try discriminate Ht; [tauto|]. destruct c; try discriminate Ht; tauto. }
  destruct Ho as [->|[->|[->| ->]]]; injection Ht as <-;
    repeat (apply elem_of_cons in Hi as [Hi|Hi]; [first [discriminate Hi|injection Hi as ->;
      match goal with |- exists z, ti_name ?j = map _ ?s ++ _ /\ _ => exists (25 - length s)%nat; split; vm_compute; reflexivity end]|]);
    apply elem_of_nil in Hi; destruct Hi.
Qed.
Print Assumptions C54_names.
Example C54_names_case : kreivo_track_for (OCustom ReferendumKiller) = Some 2 /\ exists i, (2, i) ∈ kreivo_tracks.
Proof. split; [reflexivity|]. eexists. right. right. left. Qed.

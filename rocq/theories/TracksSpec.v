(** Vocabulary for thresholds of referenda. Fractions are parts per billion. *)
From Verif Require Import Base XcmTypes OriginTypes TracksModel.

(** A referendum with this track is approved [x] into its decision period with this approval and support. *)
Definition approved (t : track_info) (x approval support : N) : Prop :=
  curve_passing (ti_min_approval t) x approval = true /\ curve_passing (ti_min_support t) x support = true.
Definition percent (p : N) : N := p * 10000000.

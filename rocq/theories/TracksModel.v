(** Governance tracks: threshold curves, the tracks of Kreivo's own governance, the default track of a community. *)
From Verif Require Import Base XcmTypes OriginTypes.

(** sp_arithmetic [Perbill] (dependency): parts per billion. [from_percent]; [a.saturating_div(b, Rounding::Down)]; [a * b]. *)
Definition billion : N := 1000000000.
Definition perbill_percent (p : N) : N := N.min p 100 * 10000000.
Definition perbill_div (a b : N) : N := if (b =? 0) || (b <=? a) then billion else a * billion / b.
Definition perbill_mul (a b : N) : N := a * b / billion.

(** pallet_referenda [Curve] (dependency); curves a caller may choose other than linear ones are opaque functions. *)
Inductive curve := LinearDecreasing (length floor ceil : N) | OtherCurve (f : N -> N).
(** pallet_referenda [Curve::threshold(x)] and [Curve::passing(x, y)]: [x] is the part of the decision period gone by. *)
Definition threshold (c : curve) (x : N) : N :=
  match c with
  | LinearDecreasing len fl ceil => ceil - perbill_mul (perbill_div (N.min x len) len) (ceil - fl)
  | OtherCurve f => f x
  end.
Definition curve_passing (c : curve) (x y : N) : bool := threshold c x <=? y.

(** pallet_referenda [TrackInfo] *)
Record track_info := TrackInfo {
  ti_name : list N;
  ti_max_deciding : N;
  ti_decision_deposit : N;
  ti_prepare : N;
  ti_decision : N;
  ti_confirm : N;
  ti_enactment : N;
  ti_min_approval : curve;
  ti_min_support : curve
}.

(** runtime-constants/src/lib.rs:29 [UNITS], 61-63 [MINUTES], [DAYS] (Kusama values) *)
Definition units : N := 1000000000000.
Definition minutes : N := 10.
Definition days : N := 14400.

(** sp_runtime [str_array] (dependency): the name cut to, or padded with zeros to, the 25 bytes of a track name. *)
Definition str_array (l : list N) : list N := take 25 l ++ replicate (25 - length l) 0.

Definition name_root : list N := [82; 111; 111; 116].
Definition name_canceller : list N := [82;101;102;101;114;101;110;100;117;109;32;67;97;110;99;101;108;108;101;114].
Definition name_killer : list N := [82;101;102;101;114;101;110;100;117;109;32;75;105;108;108;101;114].
Definition name_memberships : list N := [67;114;101;97;116;101;32;77;101;109;98;101;114;115;104;105;112;115].

(** runtime/kreivo/src/collective/tracks.rs:18-106 [tracks]; [make_linear(28, 28, 50%, 100%)] is the linear curve over the whole
    period. *)
Definition kreivo_tracks : list (N * track_info) :=
  let lin fl := LinearDecreasing (perbill_percent 100) (perbill_percent fl) (perbill_percent 100) in
  [(0, TrackInfo (str_array name_root) 1 (10 * units) (15 * minutes) (4 * days) (15 * minutes) 1 (lin 90) (lin 0));
   (1, TrackInfo (str_array name_canceller) 1 units (15 * minutes) (4 * days) (15 * minutes) 1 (lin 90) (lin 0));
   (2, TrackInfo (str_array name_killer) 1 units (15 * minutes) (4 * days) (15 * minutes) 1 (lin 90) (lin 0));
   (3, TrackInfo (str_array name_memberships) 1 units (15 * minutes) (4 * days) (15 * minutes) 1 (lin 50) (lin 50))].

(** runtime/kreivo/src/collective/tracks.rs:108-124 [track_for] *)
Definition kreivo_track_for (o : origin) : option N :=
  match o with
  | ORoot => Some 0
  | OCustom ReferendumCanceller => Some 1
  | OCustom ReferendumKiller => Some 2
  | OCustom CreateMemberships => Some 3
  | _ => None
  end.

(** pallets/communities-manager/src/lib.rs:238-259 [default_tack] *)
Definition default_track (name : list N) : track_info :=
  TrackInfo (str_array name) 1 0 1 255 1 1
    (LinearDecreasing (perbill_percent 100) (perbill_percent 50) (perbill_percent 100))
    (LinearDecreasing (perbill_percent 100) (perbill_percent 0) (perbill_percent 50)).

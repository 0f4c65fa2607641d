(** Distances, directions and places on the sphere: base/math_util.cc with real numbers in place of doubles; rounding is outside. *)
From Coq Require Import Reals ZArith.
Local Open Scope R_scope.

(** math_util.cc:30 kEarthRadius. *)
Definition earth_radius : R := 6366710.
(** math_util.cc:93-96 DegToRad, RadToDeg, MetersToRadians, RadiansToMeters. *)
Definition deg_to_rad (x : R) : R := x * PI / 180.
Definition rad_to_deg (x : R) : R := x * 180 / PI.
Definition meters_to_radians (x : R) : R := x / earth_radius.
Definition radians_to_meters (x : R) : R := x * earth_radius.
(** fmod of the C library: the quotient is cut towards 0. *)
Definition trunc (r : R) : Z := if Rle_dec 0 r then Int_part r else (- Int_part (- r))%Z.
Definition fmod (a b : R) : R := a - b * IZR (trunc (a / b)).
(** atan2 of the C library; 0 has no sign here. *)
Definition atan2 (y x : R) : R :=
  if Rlt_dec 0 x then atan (y / x)
  else if Rlt_dec x 0 then if Rle_dec 0 y then atan (y / x) + PI else atan (y / x) - PI
  else if Rlt_dec 0 y then PI / 2 else if Rlt_dec y 0 then - (PI / 2) else 0.
(** math_util.cc:34-43 AzimuthBetweenPoints. *)
Definition azimuth (lat1 lng1 lat2 lng2 : R) : R :=
  let lat1_r := deg_to_rad lat1 in let lng1_r := deg_to_rad lng1 in let lat2_r := deg_to_rad lat2 in let lng2_r := deg_to_rad lng2 in
  rad_to_deg (fmod (atan2 (sin (lng2_r - lng1_r) * cos lat2_r) (cos lat1_r * sin lat2_r - sin lat1_r * cos lat2_r * cos (lng2_r - lng1_r))) (2 * PI)).
(** math_util.cc:45-54 DistanceBetweenPoints. *)
Definition distance (lat1 lng1 lat2 lng2 : R) : R :=
  let lat1_r := deg_to_rad lat1 in let lng1_r := deg_to_rad lng1 in let lat2_r := deg_to_rad lat2 in let lng2_r := deg_to_rad lng2 in
  radians_to_meters (2 * asin (sqrt (sin ((lat1_r - lat2_r) / 2) ^ 2 + cos lat1_r * cos lat2_r * sin ((lng1_r - lng2_r) / 2) ^ 2))).
(** math_util.cc:56-61 DistanceBetweenPoints3d. *)
Definition distance3d (lat1 lng1 alt1 lat2 lng2 alt2 : R) : R := sqrt (distance lat1 lng1 lat2 lng2 ^ 2 + (alt2 - alt1) ^ 2).
(** math_util.cc:63-69 ElevationBetweenPoints; the division by 0 of two points above each other is outside (an infinity). *)
Definition elevation (lat1 lng1 alt1 lat2 lng2 alt2 : R) : R := rad_to_deg (atan ((alt2 - alt1) / distance lat1 lng1 lat2 lng2)).
(** math_util.cc:71-73 GroundDistanceFromRangeAndElevation, 75-77 HeightFromRangeAndElevation. *)
Definition ground_distance (range elevation : R) : R := Rabs (cos (deg_to_rad elevation) * range).
Definition height (range elevation : R) : R := Rabs (sin (deg_to_rad elevation) * range).
(** math_util.cc:79-92 LatLngOnRadialFromPoint: latitude and longitude. *)
Definition on_radial (lat lng dist radial : R) : R * R :=
  let lat_r := deg_to_rad lat in let lng_r := deg_to_rad lng in let distance_r := meters_to_radians dist in let radial_r := deg_to_rad radial in
  let radial_lat := asin (sin lat_r * cos distance_r + cos lat_r * sin distance_r * cos radial_r) in
  let delta_lng := atan2 (sin radial_r * sin distance_r * cos lat_r) (cos distance_r - sin lat_r * sin radial_lat) in
  let radial_lng := fmod (lng_r + delta_lng + PI) (2 * PI) - PI in
  (rad_to_deg radial_lat, rad_to_deg radial_lng).

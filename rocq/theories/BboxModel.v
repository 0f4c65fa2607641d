(** Model of kmlengine::Bbox (src/kml/engine/bbox.h) and of the bounds of features
    (src/kml/engine/location_util.cc). *)
From Verif Require Import Common Doubles.

(** bbox.h:188 the four members. *)
Record bbox := { north : double; south : double; east : double; west : double }.
(** bbox.h:33-36, 54. *)
Definition d180 : double := d_of_Z 180.
Definition dm180 : double := d_of_Z (-180).
Definition bbox0 : bbox := {| north := dm180; south := d180; east := dm180; west := d180 |}.

(** bbox.h:97-101 ContainedByBox, 91-94 ContainedByBbox. *)
Definition contained_by_box (b : bbox) (n s e w : double) : bool :=
  dge n (north b) && dle s (south b) && dge e (east b) && dle w (west b).
Definition contained_by (b c : bbox) : bool := contained_by_box b (north c) (south c) (east c) (west c).
(** bbox.h:104-107 Contains. *)
Definition contains (b : bbox) (lat lon : double) : bool :=
  dge (north b) lat && dle (south b) lat && dge (east b) lon && dle (west b) lon.
(** bbox.h:118-125 ExpandLatitude, 128-135 ExpandLongitude, 138-141 ExpandLatLon, 110-115 ExpandFromBbox. *)
Definition expand_lat (b : bbox) (lat : double) : bbox :=
  let n := if dgt lat (north b) then lat else north b in
  let s := if dlt lat (south b) then lat else south b in
  {| north := n; south := s; east := east b; west := west b |}.
Definition expand_lon (b : bbox) (lon : double) : bbox :=
  let e := if dgt lon (east b) then lon else east b in
  let w := if dlt lon (west b) then lon else west b in
  {| north := north b; south := south b; east := e; west := w |}.
Definition expand_lat_lon (b : bbox) (lat lon : double) : bbox := expand_lon (expand_lat b lat) lon.
Definition expand_from (b c : bbox) : bbox :=
  expand_lon (expand_lon (expand_lat (expand_lat b (north c)) (south c)) (east c)) (west c).

(** bbox.h:165-171 GetCenterLat, GetCenterLon. *)
Definition mid (a b : double) : double := ddiv (dadd a b) (d_of_Z 2).
Definition center_lat (b : bbox) : double := mid (north b) (south b).
Definition center_lon (b : bbox) : double := mid (east b) (west b).

(** bbox.h:63-88 AlignBbox; max_depth is the number of further steps. *)
Definition align_step (b qt : bbox) : option bbox :=
  let lat := center_lat qt in
  let lon := center_lon qt in
  if contained_by_box b (north qt) lat (east qt) lon then
    Some {| north := north qt; south := lat; east := east qt; west := lon |}
  else if contained_by_box b (north qt) lat lon (west qt) then
    Some {| north := north qt; south := lat; east := lon; west := west qt |}
  else if contained_by_box b lat (south qt) (east qt) lon then
    Some {| north := lat; south := south qt; east := east qt; west := lon |}
  else if contained_by_box b lat (south qt) lon (west qt) then
    Some {| north := lat; south := south qt; east := lon; west := west qt |}
  else None.
Fixpoint align (b qt : bbox) (max_depth : nat) : bbox :=
  match align_step b qt with
  | None => qt
  | Some qt' => match max_depth with O => qt' | S d => align b qt' d end
  end.

(** Geometries and features as location_util.cc sees them: a point, line or ring with or without
    coordinates (latitude, longitude); a polygon by its outer ring if there is one; a model by its
    Location. *)
Inductive geometry :=
| GCoords (c : option (list (double * double)))        (* Point, LineString, LinearRing *)
| GPolygon (outer : option (option (list (double * double)))) (inner : list (list (double * double)))
| GModel (loc : option (double * double))
| GMulti (gs : list geometry)
| GOther.                                              (* gx:Track, gx:MultiTrack *)
Inductive feature :=
| FPlacemark (g : option geometry)
| FPhotoOverlay (p : option (option (list (double * double))))
| FContainer (fs : list feature)
| FOther.                                              (* NetworkLink, other overlays, gx:Tour *)
(** location_util.cc:49-61 GetCoordinatesBounds, location_util.h GetCoordinatesParentBounds. *)
Definition coords_bounds (c : option (list (double * double))) (b : bbox) : bool * bbox :=
  match c with
  | None => (false, b)
  | Some l => (match l with [] => false | _ => true end, fold_left (fun b p => expand_lat_lon b (fst p) (snd p)) l b)
  end.
(** location_util.cc:101-132 GetGeometryBounds. *)
Fixpoint geometry_bounds (g : geometry) (b : bbox) : bool * bbox :=
  match g with
  | GCoords c => coords_bounds c b
  | GPolygon (Some r) _ => coords_bounds r b
  | GPolygon None _ => (false, b)
  | GModel (Some (lat, lon)) => (true, expand_lat_lon b lat lon)
  | GModel None => (false, b)
  | GMulti gs => fold_left (fun r g => let '(h, b) := geometry_bounds g (snd r) in (fst r || h, b)) gs (false, b)
  | GOther => (false, b)
  end.
(** location_util.cc:63-85 GetFeatureBounds. *)
Fixpoint feature_bounds (f : feature) (b : bbox) : bool * bbox :=
  match f with
  | FPlacemark (Some g) => geometry_bounds g b
  | FPlacemark None => (false, b)
  | FPhotoOverlay (Some c) => coords_bounds c b
  | FPhotoOverlay None => (false, b)
  | FContainer fs => fold_left (fun r f => let '(h, b) := feature_bounds f (snd r) in (fst r || h, b)) fs (false, b)
  | FOther => (false, b)
  end.
(** location_util.cc:87-99 GetFeatureLatLon. *)
Definition feature_lat_lon (f : feature) : option (double * double) :=
  let '(h, b) := feature_bounds f bbox0 in if h then Some (center_lat b, center_lon b) else None.

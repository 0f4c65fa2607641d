(** Where features are and the view that shows them: engine/location_util.cc and engine/feature_view.cc on the elements of DomModel.v.  [rd] is the
    number a text stands for; a number of an element is the one of its printed text. *)
From Verif Require Import Common Doubles BboxModel StrMap AttributesModel XsdTables XsdModel HandlerModel DomTables DomModel.

Section View.
  Variable rd : str -> double.
  (** geometry.h:240-241 get_coordinates of Point, LineString, LinearRing: None is has_coordinates false. *)
  Definition coords_of (o : obj) : option (list (double * double)) :=
    match get o Type_coordinates with
    | c :: _ => Some (map (fun v => let '(lon, lat, _) := v in (rd lat, rd lon)) (ovec c))
    | [] => None
    end.
  (** A number of an element, 0 if it is not there (model.cc:42-43, abstractlatlonbox.cc:34-35 have the initial values). *)
  Definition number (dflt : double) (o : obj) (k : N) : double := match get o k with v :: _ => rd (char_data v) | [] => dflt end.
  (** The geometries of location_util.cc:100-128 and 149-173 as BboxModel.v has them; inner boundaries are not looked at. *)
  Fixpoint geometry_of (o : obj) : geometry :=
    let 'Obj ty _ _ _ _ sl _ _ := o in
    if (ty =? Type_Point)%N || (ty =? Type_LineString)%N || (ty =? Type_LinearRing)%N then GCoords (coords_of o)
    else if (ty =? Type_Polygon)%N then
      GPolygon (match get o Type_outerBoundaryIs with
                | b :: _ => match get b Type_LinearRing with r :: _ => Some (coords_of r) | [] => None end
                | [] => None
                end) []
    else if (ty =? Type_Model)%N then
      GModel (match get o Type_Location with
              | l :: _ => Some (number (d_of_Z 0) l Type_latitude, number (d_of_Z 0) l Type_longitude)
              | [] => None
              end)
    else if (ty =? Type_MultiGeometry)%N then GMulti (pick (cls ty) (map (map geometry_of) sl) Type_Geometry)
    else GOther.
  (** location_util.cc:63-84 GetFeatureBounds. *)
  Fixpoint feature_of (o : obj) : feature :=
    let 'Obj ty _ _ _ _ sl _ _ := o in
    if (ty =? Type_Placemark)%N then FPlacemark (match get o Type_Geometry with g :: _ => Some (geometry_of g) | [] => None end)
    else if (ty =? Type_PhotoOverlay)%N then FPhotoOverlay (match get o Type_Point with p :: _ => Some (coords_of p) | [] => None end)
    else if is_a ty Type_Container then FContainer (pick (cls ty) (map (map feature_of) sl) Type_Feature)
    else FOther.
  (** location_util.cc:175-191 GetPointLatLon, 193-203 GetCenter of an AbstractLatLonBox (abstractlatlonbox.cc:34-35). *)
  Definition point_lat_lon (p : obj) : option (double * double) := match coords_of p with Some (x :: _) => Some x | _ => None end.
  Definition box_center (b : obj) : double * double :=
    (mid (number d180 b Type_north) (number dm180 b Type_south), mid (number d180 b Type_east) (number dm180 b Type_west)).

  (** location_util.cc:130-142 GetGeometryLatLon, 144-147 GetPlacemarkLatLon. *)
  Definition geometry_lat_lon (g : obj) : option (double * double) :=
    let '(h, b) := geometry_bounds (geometry_of g) bbox0 in if h then Some (center_lat b, center_lon b) else None.
  Definition placemark_lat_lon (p : obj) : option (double * double) := match get p Type_Geometry with g :: _ => geometry_lat_lon g | [] => None end.

  (** DistanceBetweenPoints (math_util.cc:45-54) and what feature_view.cc:62-72 makes of the two distances before it is clamped. *)
  Variable distance : double -> double -> double -> double -> double.
  Variable reach : double -> double -> double.
  (** feature_view.cc:43-49. *)
  Definition min_range : double := d_of_Z 1000.
  (** The LookAt: longitude, latitude and range; the altitude mode is relativeToGround, the rest is not set. *)
  Record look := Look { l_lon : double; l_lat : double; l_range : double }.
  (** feature_view.cc:59-84 ComputeBboxLookAt. *)
  Definition bbox_look (b : bbox) : look :=
    let r := reach (distance (center_lat b) (center_lon b) (north b) (center_lon b)) (distance (center_lat b) (center_lon b) (center_lat b) (west b)) in
    Look (center_lon b) (center_lat b) (if dlt r min_range then min_range else r).
  (** feature_view.cc:51-57 ComputeFeatureLookAt. *)
  Definition feature_look (o : obj) : option look :=
    let '(h, b) := feature_bounds (feature_of o) bbox0 in if h then Some (bbox_look b) else None.
End View.

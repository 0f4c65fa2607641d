(** The elements made by convenience/convenience.cc for tours, regions, views and placemarks, on the elements of DomModel.v.  A number is given by the
    text it is printed as (see numbers of DomModel.v).  CreateCoordinatesCircle and SimplifyCoordinates are in SimplifyModel.v, the values of
    ExtendedData are in FeatureListModel.v; CreatePointFromLatLonAtts is in GpxModel.v. *)
From Verif Require Import Common Doubles BboxModel StrMap AttributesModel XsdTables XsdModel HandlerModel DomTables DomModel CloneModel ViewModel.
Local Open Scope N_scope.

(** Elements with the given children, in the order the setters are called. *)
Definition made (ty : N) (l : list (N * list obj)) : obj := fold_left (fun o kv => put o (fst kv) (snd kv)) l (create ty).
Definition val (k : N) (v : str) : N * list obj := (k, [field k v]).
(** A value that is an array of one tuple. *)
Definition one_tuple (v : str * str * str) : obj := set_vec (create Type_coordinates) [v].
(** convenience.cc:161-173 CreatePointFromVec3, 175-182 CreatePointLatLon; a Vec3 without altitude has altitude 0 (vec3.h:45-49), printed as 0. *)
Definition vec3 (lon lat : str) (alt : option str) : str * str * str := (lon, lat, match alt with Some a => a | None => S_ "0" end).
Definition point_of (v : str * str * str) : obj := made Type_Point [(Type_coordinates, [one_tuple v])].
(** convenience.cc:185-191 CreatePointPlacemark. *)
Definition point_placemark (name lon lat : str) : obj := made Type_Placemark [val Type_name name; (Type_Geometry, [point_of (vec3 lon lat None)])].
(** set_targetid of an Object (object.h:64-67). *)
Definition with_target (id : str) (o : obj) : obj := let 'Obj t _ e x v s m u := o in Obj t [(S_ "targetId", id)] e x v s m u.
(** convenience.cc:74-89 CreateAnimatedUpdateChangePoint. *)
Definition moved (target : str) (v : str * str * str) : obj := with_target target (made Type_Placemark [(Type_Geometry, [point_of v])]).
Definition move_update (target : str) (v : str * str * str) : obj :=
  made Type_Update [(Type_Create, [made Type_Change [(Type_Object, [moved target v])]]); val Type_targetHref []].
Definition move_point (target : str) (v : str * str * str) (duration : str) : obj :=
  made Type_GxAnimatedUpdate [(Type_Update, [move_update target v]); val Type_GxDuration duration].
(** convenience.cc:91-101 CreateBasicPolygonPlacemark. *)
Definition polygon_placemark (ring : obj) : obj :=
  made Type_Placemark [(Type_Geometry, [made Type_Polygon [(Type_outerBoundaryIs, [made Type_outerBoundaryIs [(Type_LinearRing, [ring])]])]])].
(** convenience.cc:103-115 CreateCamera, 134-146 CreateLookAt; the mode is the text of the enum. *)
Definition camera_of (lat lon alt heading tilt roll mode : str) : obj :=
  made Type_Camera [val Type_longitude lon; val Type_latitude lat; val Type_altitude alt; val Type_heading heading; val Type_tilt tilt; val Type_roll roll; val Type_altitudeMode mode].
Definition look_at_of (lat lon alt heading tilt range mode : str) : obj :=
  made Type_LookAt [val Type_longitude lon; val Type_latitude lat; val Type_altitude alt; val Type_heading heading; val Type_tilt tilt; val Type_range range; val Type_altitudeMode mode].
(** convenience.cc:194-209 CreateRegion2d. *)
Definition region2d (north south east west minlod maxlod : str) : obj :=
  made Type_Region [(Type_LatLonAltBox, [made Type_LatLonAltBox [val Type_north north; val Type_south south; val Type_east east; val Type_west west]]);
                    (Type_Lod, [made Type_Lod [val Type_minLodPixels minlod; val Type_maxLodPixels maxlod]])].
(** convenience.cc:233-237 CreateWait. *)
Definition wait_of (duration : str) : obj := made Type_GxWait [val Type_GxDuration duration].

Section Fly.
  Variable E : env.
  (** convenience.cc:211-217 CreateFlyTo: a copy of the view. *)
  Definition fly_to (v : obj) (duration : str) : cres obj :=
    cbind (clone E v) (fun c => Done (made Type_GxFlyTo [val Type_GxDuration duration; (Type_AbstractView, if is_a (oty c) Type_AbstractView then [c] else [])])).
  Variable rd : str -> double.
  Variable pr : double -> str.
  Variable distance : double -> double -> double -> double -> double.
  Variable reach : double -> double -> double.
  (** feature_view.cc:75-83: the element of a view. *)
  Definition look_obj (l : look) : obj :=
    made Type_LookAt [val Type_longitude (pr (l_lon l)); val Type_latitude (pr (l_lat l)); val Type_range (pr (l_range l)); val Type_altitudeMode (S_ "relativeToGround")].
  (** convenience.cc:219-231 CreateFlyToForFeature; Done None is NULL. *)
  Definition fly_to_feature (f : obj) (duration : str) : cres (option obj) :=
    match get f Type_AbstractView with
    | v :: _ => cbind (fly_to v duration) (fun o => Done (Some o))
    | [] => match feature_look rd distance reach f with Some l => cbind (fly_to (look_obj l) duration) (fun o => Done (Some o)) | None => Done None end
    end.
End Fly.

(** convenience.cc:264-285 CreatePointPlacemarkWithTimeStamp; the texts are those of DateTimeModel.v (GetXsdTime, GetXsdDateTime, GetXsdDate). *)
Definition data_of (name value : str) : obj := let 'Obj t _ e x v s m u := made Type_Data [val Type_value value] in Obj t [(S_ "name", name)] e x v s m u.
Definition time_placemark (p : obj) (date time date_time style_id : str) : obj :=
  made Type_Placemark [val Type_name time; val Type_styleUrl (S_ "#" ++ style_id); (Type_TimePrimitive, [made Type_TimeStamp [val Type_when date_time]]);
    (Type_ExtendedData, [made Type_ExtendedData [(Type_Data, [data_of (S_ "date") date; data_of (S_ "time") time])]]); (Type_Geometry, [p])].

(** Descriptors of the kmldom element classes (src/kml/dom): which attributes and children a class
    understands, in which order AddElement tests them, in which order Serialize writes them and which
    children AcceptChildren visits.  Every table cites the functions it transcribes. *)
From Verif Require Import Common XsdTables.
Local Open Scope N_scope.

(** How AddElement recognizes a child: switch on Type(), or IsA() (also through AsX, kml_cast.cc). *)
Inductive test := TType (ty : N) | TIsA (ty : N).
(** How a simple element is stored (element.cc:178-226 Field::SetBool ... SetString; Color32(string);
    link.cc:46-58 SetStringInsideCdata; liststyle.cc:52-66; geometry.cc:554-570). *)
Inductive fkind := FString | FHref | FBool | FDouble | FInt | FEnum | FColor | FStates | FVec.
(** What happens to an accepted child: the value of a simple element is stored, or appended; a
    complex element becomes the only child in that place, or is appended. *)
Inductive kind := KField (f : fkind) | KFields (f : fkind) | KChild | KChildren.
Record slot := { s_key : N; s_tests : list test; s_kind : kind }.
(** Attribute kinds: CutValue<string/int/double>, vec2.cc:60-71 CutEnumAttr. *)
Inductive akind := AString | AInt | ADouble | AEnum (ty : N).
(** [c_slots] in the order of the tests in AddElement; [c_ser]: keys in the order of Serialize;
    [c_acc]: keys in the order of AcceptChildren. *)
Record class := { c_atts : list (str * akind); c_slots : list slot; c_ser : list N; c_acc : list N }.

Definition fld (ty : N) (f : fkind) : slot := {| s_key := ty; s_tests := [TType ty]; s_kind := KField f |}.
Definition flds (ty : N) (f : fkind) : slot := {| s_key := ty; s_tests := [TType ty]; s_kind := KFields f |}.
Definition one (ty : N) : slot := {| s_key := ty; s_tests := [TType ty]; s_kind := KChild |}.
Definition one_isa (ty : N) : slot := {| s_key := ty; s_tests := [TIsA ty]; s_kind := KChild |}.
Definition many (ty : N) : slot := {| s_key := ty; s_tests := [TType ty]; s_kind := KChildren |}.
Definition many_isa (ty : N) : slot := {| s_key := ty; s_tests := [TIsA ty]; s_kind := KChildren |}.
Definition keys (l : list slot) : list N := map s_key l.

(** The classes IsA answers true for, besides the class itself (the IsA method of each class header:
    abstractlatlonbox.h:43, abstractview.h:43,222,262, balloonstyle.h:43, colorstyle.h:44,
    container.h:45, document.h:45, extendeddata.h:149,218, feature.h:54, folder.h:42,
    geometry.h:147-984, gx_timeprimitive.h:51,72, gx_tour.h:57-334, hotspot.h:42, iconstyle.h:46,
    labelstyle.h:41, linestyle.h:41, link.h:45-286, liststyle.h:49,125, networklink.h:47, object.h:47,
    overlay.h:56-667, placemark.h:44, polystyle.h:41, region.h:48-236, schema.h:110,131, style.h:49,
    stylemap.h:48,118, styleselector.h:42, substyle.h:41, timeprimitive.h:46-118, vec2.h:50; all
    others only themselves). *)
Definition i_object : list N := [Type_Object].
Definition i_feature : list N := Type_Feature :: i_object.
Definition i_container : list N := Type_Container :: i_feature.
Definition i_overlay : list N := Type_Overlay :: i_feature.
Definition i_geometry : list N := Type_Geometry :: i_object.
Definition i_view : list N := Type_AbstractView :: i_object.
Definition i_time : list N := Type_TimePrimitive :: i_object.
Definition i_selector : list N := Type_StyleSelector :: i_object.
Definition i_substyle : list N := Type_SubStyle :: i_object.
Definition i_colorstyle : list N := Type_ColorStyle :: i_substyle.
Definition i_link : list N := Type_BasicLink :: i_object.
Definition i_tour : list N := Type_GxTourPrimitive :: i_object.
Definition i_box : list N := Type_AbstractLatLonBox :: i_object.
Definition bases : list (N * list N) :=
  [(Type_Alias, i_object); (Type_BalloonStyle, i_substyle); (Type_Camera, i_view); (Type_Data, i_object);
   (Type_Document, i_container); (Type_Folder, i_container); (Type_GroundOverlay, i_overlay);
   (Type_Icon, i_link); (Type_IconStyle, i_colorstyle); (Type_IconStyleIcon, i_link);
   (Type_ImagePyramid, i_object); (Type_ItemIcon, i_object); (Type_LabelStyle, i_colorstyle);
   (Type_LatLonAltBox, i_box); (Type_LatLonBox, i_box); (Type_LineString, i_geometry);
   (Type_LineStyle, i_colorstyle); (Type_LinearRing, i_geometry); (Type_Link, i_link);
   (Type_ListStyle, i_substyle); (Type_Location, i_object); (Type_Lod, i_object); (Type_LookAt, i_view);
   (Type_Model, i_geometry); (Type_MultiGeometry, i_geometry); (Type_NetworkLink, i_feature);
   (Type_Orientation, i_object); (Type_Pair, i_object); (Type_PhotoOverlay, i_overlay);
   (Type_Placemark, i_feature); (Type_Point, i_geometry); (Type_PolyStyle, i_colorstyle);
   (Type_Polygon, i_geometry); (Type_Region, i_object); (Type_ResourceMap, i_object); (Type_Scale, i_object);
   (Type_Schema, i_object); (Type_SchemaData, i_object); (Type_ScreenOverlay, i_overlay);
   (Type_Style, i_selector); (Type_StyleMap, i_selector); (Type_TimeSpan, i_time); (Type_TimeStamp, i_time);
   (Type_Url, i_link); (Type_ViewVolume, i_object); (Type_hotSpot, [Type_Vec2]); (Type_overlayXY, [Type_Vec2]);
   (Type_rotationXY, [Type_Vec2]); (Type_screenXY, [Type_Vec2]); (Type_size, [Type_Vec2]);
   (Type_GxAnimatedUpdate, i_tour); (Type_GxFlyTo, i_tour); (Type_GxLatLonQuad, i_object);
   (Type_GxMultiTrack, i_geometry); (Type_GxPlaylist, i_object); (Type_GxSimpleArrayField, [Type_SimpleField]);
   (Type_GxSoundCue, i_tour); (Type_GxTimeSpan, Type_TimeSpan :: i_time);
   (Type_GxTimeStamp, Type_TimeStamp :: i_time); (Type_GxTour, i_feature); (Type_GxTourControl, i_tour);
   (Type_GxTrack, i_geometry); (Type_GxWait, i_tour)].
Fixpoint lookup {A} (k : N) (l : list (N * A)) : option A :=
  match l with [] => None | (k', v) :: l' => if k =? k' then Some v else lookup k l' end.
(** Element::IsA of an element of type [ty]. *)
Definition is_a (ty g : N) : bool :=
  (ty =? g) || existsb (N.eqb g) (match lookup ty bases with Some l => l | None => [] end).

(** object.cc:53-72. *)
Definition object_atts : list (str * akind) := [(S_ "id", AString); (S_ "targetId", AString)].
Definition mk (a : list (str * akind)) (s : list slot) (ser acc : list N) : class :=
  {| c_atts := a; c_slots := s; c_ser := ser; c_acc := acc |}.
(** A class whose Serialize writes everything in the order of AddElement and that visits nothing. *)
Definition flat (a : list (str * akind)) (s : list slot) : class := mk a s (keys s) [].

(** feature.cc:50-130 AddElement, 132-172 SerializeBeforeStyleSelector, 174-184
    SerializeAfterStyleSelector, 194-214 AcceptChildren.  The style selector place is separate
    because Document replaces it. *)
Definition feature_slots1 : list slot := [one_isa Type_AbstractView; one_isa Type_TimePrimitive].
Definition feature_slots2 : list slot :=
  [fld Type_name FString; fld Type_visibility FBool; fld Type_open FBool; one Type_AtomAuthor; one Type_AtomLink;
   fld Type_address FString; one Type_XalAddressDetails; fld Type_phoneNumber FString; one Type_Snippet;
   fld Type_description FString; fld Type_styleUrl FString; one Type_Region; one Type_ExtendedData;
   fld Type_GxBalloonVisibility FBool].
Definition feature_slots : list slot := feature_slots1 ++ [one_isa Type_StyleSelector] ++ feature_slots2.
Definition feature_before : list N :=
  [Type_name; Type_visibility; Type_open; Type_AtomAuthor; Type_AtomLink; Type_address; Type_phoneNumber;
   Type_XalAddressDetails; Type_Snippet; Type_description; Type_AbstractView; Type_TimePrimitive; Type_styleUrl].
Definition feature_after : list N := [Type_Region; Type_ExtendedData; Type_GxBalloonVisibility].
Definition feature_ser : list N := feature_before ++ [Type_StyleSelector] ++ feature_after.
Definition feature_acc : list N :=
  [Type_Snippet; Type_AbstractView; Type_TimePrimitive; Type_StyleSelector; Type_Region; Type_ExtendedData].
(** [s] tested before those of Feature, [ser] written and [acc] visited after those of Feature. *)
Definition feature_class (s : list slot) (ser acc : list N) : class :=
  mk object_atts (s ++ feature_slots) (feature_ser ++ ser) (feature_acc ++ acc).
(** overlay.cc:51-88. *)
Definition overlay_slots : list slot := [fld Type_color FColor; fld Type_drawOrder FInt; one Type_Icon].
Definition overlay_class (s : list slot) (ser acc : list N) : class :=
  feature_class (s ++ overlay_slots) ([Type_color; Type_drawOrder; Type_Icon] ++ ser) (Type_Icon :: acc).
(** abstractview.cc:38-61 (AbstractView), 80-141 (AbstractViewCommon). *)
Definition view_class (r : N) : class :=
  mk object_atts
    ([fld r FDouble; fld Type_longitude FDouble; fld Type_latitude FDouble; fld Type_altitude FDouble;
      fld Type_heading FDouble; fld Type_tilt FDouble; fld Type_altitudeMode FEnum; fld Type_GxAltitudeMode FEnum;
      one_isa Type_TimePrimitive])
    [Type_TimePrimitive; Type_longitude; Type_latitude; Type_altitude; Type_heading; Type_tilt; r; Type_altitudeMode;
     Type_GxAltitudeMode]
    [Type_TimePrimitive].
(** geometry.cc:212-266 (AltitudeGeometryCommon, ExtrudeGeometryCommon, CoordinatesGeometryCommon). *)
Definition altitude_slots : list slot := [fld Type_altitudeMode FEnum; fld Type_GxAltitudeMode FEnum].
Definition extrude_slots : list slot := fld Type_extrude FBool :: altitude_slots.
Definition coordinates_slots : list slot := one Type_coordinates :: extrude_slots.
(** geometry.cc:299-332 LineCommon. *)
Definition line_class : class :=
  mk object_atts (fld Type_tessellate FBool :: coordinates_slots)
    [Type_extrude; Type_tessellate; Type_altitudeMode; Type_GxAltitudeMode; Type_coordinates] [Type_coordinates].
(** geometry.cc:350-371 BoundaryCommon (based on Element). *)
Definition boundary_class : class := mk [] [one Type_LinearRing] [Type_LinearRing] [Type_LinearRing].
(** colorstyle.cc:45-69, substyle.cc:34-40. *)
Definition color_style_slots : list slot := [fld Type_color FColor; fld Type_colorMode FEnum].
Definition color_style_class (s : list slot) (acc : list N) : class :=
  mk object_atts (s ++ color_style_slots) ([Type_color; Type_colorMode] ++ keys s) acc.
(** link.cc:60-82 BasicLink, 108-165 AbstractLink. *)
Definition basic_link : list slot := [fld Type_href FHref].
Definition link_slots : list slot :=
  [fld Type_refreshMode FEnum; fld Type_refreshInterval FDouble; fld Type_viewRefreshMode FEnum;
   fld Type_viewRefreshTime FDouble; fld Type_viewBoundScale FDouble; fld Type_viewFormat FString;
   fld Type_httpQuery FString].
Definition link_class : class :=
  mk object_atts (link_slots ++ basic_link) (keys basic_link ++ keys link_slots) [].
(** abstractlatlonbox.cc:34-74. *)
Definition box_slots : list slot := [fld Type_north FDouble; fld Type_south FDouble; fld Type_east FDouble; fld Type_west FDouble].
Definition box_class (s : list slot) : class := mk object_atts (s ++ box_slots) (keys box_slots ++ keys s) [].
(** timeprimitive.cc:41-108, gx_timeprimitive.cc. *)
Definition span_class : class := flat object_atts [fld Type_begin FString; fld Type_end FString].
Definition stamp_class : class := flat object_atts [fld Type_when FString].
(** vec2.cc:73-104: only attributes; children fall to Element. *)
Definition vec2_class : class :=
  flat [(S_ "x", ADouble); (S_ "y", ADouble); (S_ "xunits", AEnum Type_units); (S_ "yunits", AEnum Type_units)] [].
(** snippet.cc:47-73 SnippetCommon. *)
Definition snippet_class : class := flat [(S_ "maxLines", AInt)] [].
(** gx_tour.cc:125-142 GxTourPrimitiveCommon: duration first. *)
Definition tour_class (s : list slot) (acc : list N) : class :=
  mk object_atts (s ++ [fld Type_GxDuration FDouble]) (Type_GxDuration :: keys s) acc.
(** atom.cc:185-232 AtomCommon. *)
Definition atom_slots : list slot :=
  [fld Type_atomId FString; fld Type_atomTitle FString; fld Type_atomUpdated FString; many Type_AtomCategory; many Type_AtomLink].
(** schema.cc:51-90 SimpleField. *)
Definition simplefield_class : class := flat [(S_ "type", AString); (S_ "name", AString)] [fld Type_displayName FString].

Definition classes : list (N * class) :=
  [(* model.cc:186-214 *)
   (Type_Alias, flat object_atts [fld Type_targetHref FString; fld Type_sourceHref FString]);
   (* balloonstyle.cc:51-94 *)
   (Type_BalloonStyle, flat object_atts [fld Type_bgColor FColor; fld Type_textColor FColor; fld Type_text FString; fld Type_displayMode FEnum]);
   (* abstractview.cc:173-190, 146-163 *)
   (Type_Camera, view_class Type_roll);
   (Type_LookAt, view_class Type_range);
   (* networklinkcontrol.cc:56-143 *)
   (Type_Change, mk [] [many_isa Type_Object] [Type_Object] [Type_Object]);
   (Type_Create, mk [] [many_isa Type_Container] [Type_Container] [Type_Container]);
   (Type_Delete, mk [] [many_isa Type_Feature] [Type_Feature] [Type_Feature]);
   (* extendeddata.cc:212-250 *)
   (Type_Data, flat ((S_ "name", AString) :: object_atts) [fld Type_displayName FString; fld Type_value FString]);
   (* document.cc:36-70, container.cc:43-87; Feature's own style selector is unreachable here *)
   (Type_Document, mk object_atts
      ([many Type_Schema; many_isa Type_StyleSelector; many_isa Type_Feature] ++ feature_slots1 ++ feature_slots2)
      (feature_before ++ [Type_StyleSelector] ++ feature_after ++ [Type_Schema; Type_Feature])
      ([Type_Snippet; Type_AbstractView; Type_TimePrimitive; Type_Region; Type_ExtendedData] ++
       [Type_Feature; Type_Schema; Type_StyleSelector]));
   (* extendeddata.cc:266-293 *)
   (Type_ExtendedData, mk [] [many_isa Type_Data; many_isa Type_SchemaData] [Type_Data; Type_SchemaData] [Type_Data; Type_SchemaData]);
   (* folder.cc:40-44, container.cc:47-90 *)
   (Type_Folder, mk object_atts (many_isa Type_Feature :: feature_slots) (feature_ser ++ [Type_Feature]) (feature_acc ++ [Type_Feature]));
   (* overlay.cc:167-226 *)
   (Type_GroundOverlay, overlay_class
      [fld Type_altitude FDouble; fld Type_altitudeMode FEnum; fld Type_GxAltitudeMode FEnum; one Type_LatLonBox; one Type_GxLatLonQuad]
      [Type_altitude; Type_altitudeMode; Type_GxAltitudeMode; Type_LatLonBox; Type_GxLatLonQuad] [Type_LatLonBox; Type_GxLatLonQuad]);
   (* link.cc:168-186 *)
   (Type_Icon, link_class);
   (Type_Link, link_class);
   (Type_Url, link_class);
   (* link.cc:199-236 *)
   (Type_IconStyleIcon, mk object_atts
      ([fld Type_GxX FDouble; fld Type_GxY FDouble; fld Type_GxW FDouble; fld Type_GxH FDouble] ++ basic_link)
      [Type_href; Type_GxX; Type_GxY; Type_GxW; Type_GxH] []);
   (* iconstyle.cc:50-103 *)
   (Type_IconStyle, color_style_class
      [fld Type_scale FDouble; fld Type_heading FDouble; one Type_IconStyleIcon; one Type_hotSpot] [Type_IconStyleIcon; Type_hotSpot]);
   (* overlay.cc:305-345 *)
   (Type_ImagePyramid, flat object_atts [fld Type_tileSize FInt; fld Type_maxWidth FInt; fld Type_maxHeight FInt; fld Type_gridOrigin FEnum]);
   (* liststyle.cc:47-93 *)
   (Type_ItemIcon, flat object_atts [fld Type_state FStates; fld Type_href FString]);
   (* labelstyle.cc:43-66, linestyle.cc:42-65, polystyle.cc:43-72 *)
   (Type_LabelStyle, color_style_class [fld Type_scale FDouble] []);
   (Type_LineStyle, color_style_class [fld Type_width FDouble] []);
   (Type_PolyStyle, color_style_class [fld Type_fill FBool; fld Type_outline FBool] []);
   (* region.cc:49-90 *)
   (Type_LatLonAltBox, box_class [fld Type_minAltitude FDouble; fld Type_maxAltitude FDouble; fld Type_altitudeMode FEnum; fld Type_GxAltitudeMode FEnum]);
   (* overlay.cc:96-118 *)
   (Type_LatLonBox, box_class [fld Type_rotation FDouble]);
   (* geometry.cc:334-348 *)
   (Type_LineString, line_class);
   (Type_LinearRing, line_class);
   (* liststyle.cc:109-154 *)
   (Type_ListStyle, mk object_atts
      [fld Type_listItemType FEnum; fld Type_bgColor FColor; many Type_ItemIcon; fld Type_maxSnippetLines FInt]
      [Type_listItemType; Type_bgColor; Type_ItemIcon; Type_maxSnippetLines] [Type_ItemIcon]);
   (* model.cc:49-84, 95-130, 141-176 *)
   (Type_Location, flat object_atts [fld Type_longitude FDouble; fld Type_latitude FDouble; fld Type_altitude FDouble]);
   (Type_Orientation, flat object_atts [fld Type_heading FDouble; fld Type_tilt FDouble; fld Type_roll FDouble]);
   (Type_Scale, flat object_atts [fld Type_x FDouble; fld Type_y FDouble; fld Type_z FDouble]);
   (* region.cc:102-141 *)
   (Type_Lod, flat object_atts [fld Type_minLodPixels FDouble; fld Type_maxLodPixels FDouble; fld Type_minFadeExtent FDouble; fld Type_maxFadeExtent FDouble]);
   (* extendeddata.cc:297-309 *)
   (Type_Metadata, flat [] []);
   (* model.cc:255-328 *)
   (Type_Model, mk object_atts
      ([one Type_Location; one Type_Orientation; one Type_Scale; one Type_Link; one Type_ResourceMap] ++ altitude_slots)
      [Type_altitudeMode; Type_GxAltitudeMode; Type_Location; Type_Orientation; Type_Scale; Type_Link; Type_ResourceMap]
      [Type_Location; Type_Orientation; Type_Scale; Type_Link; Type_ResourceMap]);
   (* geometry.cc:456-480 *)
   (Type_MultiGeometry, mk object_atts [many_isa Type_Geometry] [Type_Geometry] [Type_Geometry]);
   (* networklink.cc:44-94: a Url is accepted as the Link *)
   (Type_NetworkLink, feature_class
      [fld Type_refreshVisibility FBool; fld Type_flyToView FBool;
       {| s_key := Type_Link; s_tests := [TType Type_Url; TType Type_Link]; s_kind := KChild |}]
      [Type_refreshVisibility; Type_flyToView; Type_Link] [Type_Link]);
   (* networklinkcontrol.cc:214-305 *)
   (Type_NetworkLinkControl, mk []
      [one_isa Type_AbstractView; fld Type_minRefreshPeriod FDouble; fld Type_maxSessionLength FDouble; fld Type_cookie FString;
       fld Type_message FString; fld Type_linkName FString; fld Type_linkDescription FString; one Type_linkSnippet;
       fld Type_expires FString; one Type_Update]
      [Type_minRefreshPeriod; Type_maxSessionLength; Type_cookie; Type_message; Type_linkName; Type_linkDescription;
       Type_linkSnippet; Type_expires; Type_Update; Type_AbstractView]
      [Type_linkSnippet; Type_Update; Type_AbstractView]);
   (* stylemap.cc:43-89, 94-118 *)
   (Type_Pair, mk object_atts [one_isa Type_StyleSelector; fld Type_key FEnum; fld Type_styleUrl FString]
      [Type_key; Type_styleUrl; Type_StyleSelector] [Type_StyleSelector]);
   (Type_StyleMap, mk object_atts [many Type_Pair] [Type_Pair] [Type_Pair]);
   (* overlay.cc:359-420 *)
   (Type_PhotoOverlay, overlay_class
      [fld Type_rotation FDouble; one Type_ViewVolume; one Type_ImagePyramid; one Type_Point; fld Type_shape FEnum]
      [Type_rotation; Type_ViewVolume; Type_ImagePyramid; Type_Point; Type_shape] [Type_ViewVolume; Type_ImagePyramid; Type_Point]);
   (* placemark.cc:40-69 *)
   (Type_Placemark, feature_class [one_isa Type_Geometry] [Type_Geometry] [Type_Geometry]);
   (* geometry.cc:271-286 *)
   (Type_Point, mk object_atts coordinates_slots [Type_extrude; Type_altitudeMode; Type_GxAltitudeMode; Type_coordinates] [Type_coordinates]);
   (* geometry.cc:396-447 *)
   (Type_Polygon, mk object_atts
      ([fld Type_tessellate FBool; one Type_outerBoundaryIs; many Type_innerBoundaryIs] ++ extrude_slots)
      [Type_extrude; Type_tessellate; Type_altitudeMode; Type_GxAltitudeMode; Type_outerBoundaryIs; Type_innerBoundaryIs]
      [Type_outerBoundaryIs; Type_innerBoundaryIs]);
   (* region.cc:152-192 *)
   (Type_Region, mk object_atts [one Type_LatLonAltBox; one Type_Lod] [Type_LatLonAltBox; Type_Lod] [Type_LatLonAltBox; Type_Lod]);
   (* model.cc:225-249 *)
   (Type_ResourceMap, mk object_atts [many Type_Alias] [Type_Alias] [Type_Alias]);
   (* schema.cc:112-158 *)
   (Type_Schema, mk ((S_ "name", AString) :: object_atts) [many Type_SimpleField; many Type_GxSimpleArrayField]
      [Type_SimpleField; Type_GxSimpleArrayField] [Type_SimpleField; Type_GxSimpleArrayField]);
   (* extendeddata.cc:151-199 *)
   (Type_SchemaData, mk ((S_ "schemaUrl", AString) :: object_atts) [many Type_SimpleData; many Type_GxSimpleArrayData]
      [Type_SimpleData; Type_GxSimpleArrayData] [Type_SimpleData; Type_GxSimpleArrayData]);
   (* overlay.cc:462-527 *)
   (Type_ScreenOverlay, overlay_class
      [one Type_overlayXY; one Type_screenXY; one Type_rotationXY; one Type_size; fld Type_rotation FDouble]
      [Type_overlayXY; Type_screenXY; Type_rotationXY; Type_size; Type_rotation] [Type_overlayXY; Type_screenXY; Type_rotationXY; Type_size]);
   (* extendeddata.cc:52-86: text, and misplaced children *)
   (Type_SimpleData, flat [(S_ "name", AString)] []);
   (Type_SimpleField, simplefield_class);
   (* schema.cc:94-103 *)
   (Type_GxSimpleArrayField, simplefield_class);
   (Type_Snippet, snippet_class);
   (Type_linkSnippet, snippet_class);
   (* style.cc:40-117 *)
   (Type_Style, mk object_atts
      [one Type_IconStyle; one Type_LabelStyle; one Type_LineStyle; one Type_PolyStyle; one Type_BalloonStyle; one Type_ListStyle]
      [Type_IconStyle; Type_LabelStyle; Type_LineStyle; Type_PolyStyle; Type_BalloonStyle; Type_ListStyle]
      [Type_IconStyle; Type_LabelStyle; Type_LineStyle; Type_PolyStyle; Type_BalloonStyle; Type_ListStyle]);
   (Type_TimeSpan, span_class);
   (Type_TimeStamp, stamp_class);
   (Type_GxTimeSpan, span_class);
   (Type_GxTimeStamp, stamp_class);
   (* networklinkcontrol.cc:153-193 *)
   (Type_Update, mk []
      [fld Type_targetHref FString; {| s_key := Type_Create; s_tests := [TType Type_Create; TType Type_Delete; TType Type_Change]; s_kind := KChildren |}]
      [Type_targetHref; Type_Create] [Type_Create]);
   (* overlay.cc:242-290 *)
   (Type_ViewVolume, flat object_atts [fld Type_leftFov FDouble; fld Type_rightFov FDouble; fld Type_bottomFov FDouble; fld Type_topFov FDouble; fld Type_near FDouble]);
   (* geometry.cc:179-194: parses itself, writes no attributes and no unknown content *)
   (Type_coordinates, flat [] []);
   (Type_hotSpot, vec2_class);
   (Type_overlayXY, vec2_class);
   (Type_rotationXY, vec2_class);
   (Type_screenXY, vec2_class);
   (Type_size, vec2_class);
   (Type_innerBoundaryIs, boundary_class);
   (Type_outerBoundaryIs, boundary_class);
   (* kml.cc:45-95 *)
   (Type_kml, mk [(S_ "hint", AString)] [one_isa Type_Feature; one Type_NetworkLinkControl] [Type_NetworkLinkControl; Type_Feature]
      [Type_NetworkLinkControl; Type_Feature]);
   (* atom.cc:59-92, 105-135, 147-168, 235-295, 301-344: no AcceptChildren *)
   (Type_AtomAuthor, flat [] [fld Type_atomName FString; fld Type_atomUri FString; fld Type_atomEmail FString]);
   (Type_AtomCategory, flat [(S_ "term", AString); (S_ "scheme", AString); (S_ "label", AString)] []);
   (Type_AtomContent, flat [(S_ "src", AString); (S_ "type", AString)] []);
   (Type_AtomEntry, mk [] ([fld Type_atomSummary FString; one Type_AtomContent] ++ atom_slots)
      (keys atom_slots ++ [Type_atomSummary; Type_AtomContent]) []);
   (Type_AtomFeed, mk [] (many Type_AtomEntry :: atom_slots) (keys atom_slots ++ [Type_AtomEntry]) []);
   (Type_AtomLink, flat [(S_ "href", AString); (S_ "rel", AString); (S_ "type", AString); (S_ "hreflang", AString); (S_ "title", AString); (S_ "length", AInt)] []);
   (* xal.cc:40-269: no AcceptChildren; the name of a Locality is never written *)
   (Type_XalAddressDetails, flat [] [one Type_XalCountry]);
   (Type_XalAdministrativeArea, flat [] [fld Type_xalAdministrativeAreaName FString; one Type_XalLocality; one Type_XalSubAdministrativeArea]);
   (Type_XalCountry, flat [] [fld Type_xalCountryNameCode FString; one Type_XalAdministrativeArea]);
   (Type_XalLocality, mk [] [fld Type_xalLocalityName FString; one Type_XalPostalCode; one Type_XalThoroughfare]
      [Type_XalThoroughfare; Type_XalPostalCode] []);
   (Type_XalPostalCode, flat [] [fld Type_xalPostalCodeNumber FString]);
   (Type_XalSubAdministrativeArea, flat [] [fld Type_xalSubAdministrativeAreaName FString; one Type_XalLocality]);
   (Type_XalThoroughfare, mk [] [fld Type_xalThoroughfareName FString; fld Type_xalThoroughfareNumber FString]
      [Type_xalThoroughfareNumber; Type_xalThoroughfareName] []);
   (* gx_tour.cc:46-300 *)
   (Type_GxTour, feature_class [one Type_GxPlaylist] [Type_GxPlaylist] [Type_GxPlaylist]);
   (Type_GxPlaylist, mk object_atts [many_isa Type_GxTourPrimitive] [Type_GxTourPrimitive] [Type_GxTourPrimitive]);
   (Type_GxAnimatedUpdate, tour_class [one Type_Update] [Type_Update]);
   (Type_GxFlyTo, tour_class [fld Type_GxFlyToMode FEnum; one_isa Type_AbstractView] [Type_AbstractView]);
   (Type_GxWait, tour_class [] []);
   (Type_GxSoundCue, flat object_atts [fld Type_href FString]);
   (Type_GxTourControl, flat object_atts [fld Type_GxPlayMode FEnum]);
   (* overlay.cc:128-153 *)
   (Type_GxLatLonQuad, mk object_atts [one Type_coordinates] [Type_coordinates] [Type_coordinates]);
   (* geometry.cc:488-552, 583-614 *)
   (Type_GxTrack, mk object_atts
      ([flds Type_when FString; flds Type_GxAngles FVec; flds Type_GxCoord FVec; one Type_Model; one Type_ExtendedData] ++ altitude_slots)
      [Type_altitudeMode; Type_GxAltitudeMode; Type_when; Type_GxCoord; Type_GxAngles; Type_Model; Type_ExtendedData]
      [Type_Model; Type_ExtendedData]);
   (Type_GxMultiTrack, mk object_atts [fld Type_GxInterpolate FBool; many_isa Type_GxTrack] [Type_GxInterpolate; Type_GxTrack] [Type_GxTrack]);
   (* extendeddata.cc:101-132 *)
   (Type_GxSimpleArrayData, flat [(S_ "name", AString)] [flds Type_GxValue FString])].

Definition no_class : class := flat [] [].
Definition class_of (ty : N) : class := match lookup ty classes with Some c => c | None => no_class end.

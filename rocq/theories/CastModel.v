(** Model of the classes of the elements (class declarations of src/kml/dom), their Accept methods, the visit functions of Visitor
    (src/kml/dom/visitor.cc) and the casts (src/kml/dom/kml_cast.cc, kml_cast.h). *)
From Verif Require Import Common XsdTables XsdModel HandlerModel DomTables DomModel.
Local Open Scope N_scope.

(** A class has the number of its type (kml22.h); the classes and visit functions without a type of their own have numbers from 1000 on. *)
Definition C_AbstractViewCommon : N := 1000.
Definition C_AtomCommon : N := 1001.
Definition C_Element : N := 1002.
Definition C_Field : N := 1003.
Definition C_AltitudeGeometryCommon : N := 1004.
Definition C_ExtrudeGeometryCommon : N := 1005.
Definition C_CoordinatesGeometryCommon : N := 1006.
Definition C_LineCommon : N := 1007.
Definition C_BoundaryCommon : N := 1008.
Definition C_GxTourPrimitiveCommon : N := 1009.
Definition C_AbstractLink : N := 1010.
Definition C_UpdateOperation : N := 1011.
Definition C_SnippetCommon : N := 1012.
(** The class each class derives from:
    abstractlatlonbox.h:39, abstractview.h:39,75,218,258, atom.h:37,94,172,232,277,326,359, balloonstyle.h:39,
    colorstyle.h:40, container.h:41, document.h:41, element.h:58,290, extendeddata.h:49,97,145,214,282,331,
    feature.h:50, folder.h:38,
    geometry.h:91,143,161,205,234,263,284,315,333,352,382,400,418,485,520,604,660,736,812,888,946,980,
    gx_timeprimitive.h:44,65, gx_tour.h:50,87,120,138,173,210,261,284,327, hotspot.h:38, iconstyle.h:42,
    kml.h:46, labelstyle.h:37, linestyle.h:38, link.h:41,82,224,242,260,282, liststyle.h:45,121,
    networklink.h:43, networklinkcontrol.h:49,65,101,137,173,221, object.h:43,
    overlay.h:52,121,164,199,300,318,336,354,372,457,569,663, placemark.h:40, polystyle.h:38,
    region.h:44,138,232, schema.h:45,106,127, snippet.h:43,91,109, style.h:45, stylemap.h:44,114,
    styleselector.h:38, substyle.h:37, timeprimitive.h:42,62,114, vec2.h:46, xal.h:60,83,138,179,229,261,303.
    BasicElement (element.h:271) stands between some classes and Element. *)
Definition base_class : list (N * N) :=
  [(Type_AbstractLatLonBox, Type_Object); (Type_AbstractView, Type_Object);
   (C_AbstractViewCommon, Type_AbstractView); (Type_LookAt, C_AbstractViewCommon);
   (Type_Camera, C_AbstractViewCommon); (Type_AtomAuthor, C_Element); (C_AtomCommon, C_Element);
   (Type_AtomCategory, C_Element); (Type_AtomContent, C_Element); (Type_AtomEntry, C_AtomCommon);
   (Type_AtomFeed, C_AtomCommon); (Type_AtomLink, C_Element); (Type_BalloonStyle, Type_SubStyle);
   (Type_ColorStyle, Type_SubStyle); (Type_Container, Type_Feature); (Type_Document, Type_Container);
   (C_Field, C_Element); (Type_SimpleData, C_Element); (Type_GxSimpleArrayData, C_Element);
   (Type_SchemaData, Type_Object); (Type_Data, Type_Object); (Type_ExtendedData, C_Element);
   (Type_Metadata, C_Element); (Type_Feature, Type_Object); (Type_Folder, Type_Container);
   (Type_coordinates, C_Element); (Type_Geometry, Type_Object); (C_AltitudeGeometryCommon, Type_Geometry);
   (C_ExtrudeGeometryCommon, C_AltitudeGeometryCommon); (C_CoordinatesGeometryCommon, C_ExtrudeGeometryCommon);
   (Type_Point, C_CoordinatesGeometryCommon); (C_LineCommon, C_CoordinatesGeometryCommon);
   (Type_LineString, C_LineCommon); (Type_LinearRing, C_LineCommon); (C_BoundaryCommon, C_Element);
   (Type_outerBoundaryIs, C_BoundaryCommon); (Type_innerBoundaryIs, C_BoundaryCommon);
   (Type_Polygon, C_ExtrudeGeometryCommon); (Type_MultiGeometry, Type_Geometry);
   (Type_GxTrack, C_AltitudeGeometryCommon); (Type_GxMultiTrack, Type_Geometry); (Type_Location, Type_Object);
   (Type_Orientation, Type_Object); (Type_Scale, Type_Object); (Type_Alias, Type_Object);
   (Type_ResourceMap, Type_Object); (Type_Model, C_AltitudeGeometryCommon); (Type_GxTimeSpan, Type_TimeSpan);
   (Type_GxTimeStamp, Type_TimeStamp); (Type_GxTour, Type_Feature); (Type_GxPlaylist, Type_Object);
   (Type_GxTourPrimitive, Type_Object); (C_GxTourPrimitiveCommon, Type_GxTourPrimitive);
   (Type_GxAnimatedUpdate, C_GxTourPrimitiveCommon); (Type_GxFlyTo, C_GxTourPrimitiveCommon);
   (Type_GxWait, C_GxTourPrimitiveCommon); (Type_GxSoundCue, Type_GxTourPrimitive);
   (Type_GxTourControl, Type_GxTourPrimitive); (Type_hotSpot, Type_Vec2); (Type_IconStyle, Type_ColorStyle);
   (Type_kml, C_Element); (Type_LabelStyle, Type_ColorStyle); (Type_LineStyle, Type_ColorStyle);
   (Type_BasicLink, Type_Object); (C_AbstractLink, Type_BasicLink); (Type_Link, C_AbstractLink);
   (Type_Icon, C_AbstractLink); (Type_Url, C_AbstractLink); (Type_IconStyleIcon, Type_BasicLink);
   (Type_ItemIcon, Type_Object); (Type_ListStyle, Type_SubStyle); (Type_NetworkLink, Type_Feature);
   (C_UpdateOperation, C_Element); (Type_Create, C_UpdateOperation); (Type_Delete, C_UpdateOperation);
   (Type_Change, C_UpdateOperation); (Type_Update, C_Element); (Type_NetworkLinkControl, C_Element);
   (Type_Object, C_Element); (Type_Overlay, Type_Feature); (Type_LatLonBox, Type_AbstractLatLonBox);
   (Type_GxLatLonQuad, Type_Object); (Type_GroundOverlay, Type_Overlay); (Type_overlayXY, Type_Vec2);
   (Type_screenXY, Type_Vec2); (Type_rotationXY, Type_Vec2); (Type_size, Type_Vec2);
   (Type_ScreenOverlay, Type_Overlay); (Type_ViewVolume, Type_Object); (Type_ImagePyramid, Type_Object);
   (Type_PhotoOverlay, Type_Overlay); (Type_Placemark, Type_Feature); (Type_PolyStyle, Type_ColorStyle);
   (Type_LatLonAltBox, Type_AbstractLatLonBox); (Type_Lod, Type_Object); (Type_Region, Type_Object);
   (Type_SimpleField, C_Element); (Type_GxSimpleArrayField, Type_SimpleField); (Type_Schema, Type_Object);
   (C_SnippetCommon, C_Element); (Type_Snippet, C_SnippetCommon); (Type_linkSnippet, C_SnippetCommon);
   (Type_Style, Type_StyleSelector); (Type_Pair, Type_Object); (Type_StyleMap, Type_StyleSelector);
   (Type_StyleSelector, Type_Object); (Type_SubStyle, Type_Object); (Type_TimePrimitive, Type_Object);
   (Type_TimeSpan, Type_TimePrimitive); (Type_TimeStamp, Type_TimePrimitive); (Type_Vec2, C_Element);
   (Type_XalAddressDetails, C_Element); (Type_XalAdministrativeArea, C_Element); (Type_XalCountry, C_Element);
   (Type_XalLocality, C_Element); (Type_XalPostalCode, C_Element); (Type_XalSubAdministrativeArea, C_Element);
   (Type_XalThoroughfare, C_Element)].
(** The Accept methods: the visit function a class calls;
    abstractview.cc:163,190, balloonstyle.cc:91, document.cc:62, element.cc:166,
    extendeddata.cc:87,134,189,251,285,307, folder.cc:45, geometry.cc:194,288,334,342,377,385,436,473,540,607,
    gx_timeprimitive.cc:42,52, gx_tour.cc:65,114,166,212,236,268,300, iconstyle.cc:90, kml.cc:83,
    labelstyle.cc:65, linestyle.cc:64, link.cc:84,170,178,186,238, liststyle.cc:96,147,
    model.cc:83,129,176,213,242,306, networklink.cc:84, networklinkcontrol.cc:45,72,104,136,186,290,
    overlay.cc:118,144,213,288,345,405,426,434,442,450,508, placemark.cc:59, polystyle.cc:71,
    region.cc:89,142,179, schema.cc:88,99,149, snippet.cc:79,87, style.cc:92, stylemap.cc:78,111,
    timeprimitive.cc:79,108, vec2.cc:106. *)
Definition accepts_as : list (N * N) :=
  [(Type_LookAt, Type_LookAt); (Type_Camera, Type_Camera); (Type_BalloonStyle, Type_BalloonStyle);
   (Type_Document, Type_Document); (C_Element, C_Element); (Type_SimpleData, Type_SimpleData);
   (Type_GxSimpleArrayData, Type_GxSimpleArrayData); (Type_SchemaData, Type_SchemaData); (Type_Data, Type_Data);
   (Type_ExtendedData, Type_ExtendedData); (Type_Metadata, Type_Metadata); (Type_Folder, Type_Folder);
   (Type_coordinates, Type_coordinates); (Type_Point, Type_Point); (Type_LineString, Type_LineString);
   (Type_LinearRing, Type_LinearRing); (Type_outerBoundaryIs, Type_outerBoundaryIs);
   (Type_innerBoundaryIs, Type_innerBoundaryIs); (Type_Polygon, Type_Polygon);
   (Type_MultiGeometry, Type_MultiGeometry); (Type_GxTrack, Type_GxTrack); (Type_GxMultiTrack, Type_GxMultiTrack);
   (Type_GxTimeSpan, Type_GxTimeSpan); (Type_GxTimeStamp, Type_GxTimeStamp); (Type_GxTour, Type_GxTour);
   (Type_GxPlaylist, Type_GxPlaylist); (Type_GxAnimatedUpdate, Type_GxAnimatedUpdate); (Type_GxFlyTo, Type_GxFlyTo);
   (Type_GxWait, Type_GxWait); (Type_GxSoundCue, Type_GxSoundCue); (Type_GxTourControl, Type_GxTourControl);
   (Type_IconStyle, Type_IconStyle); (Type_kml, Type_kml); (Type_LabelStyle, Type_LabelStyle);
   (Type_LineStyle, Type_LineStyle); (Type_BasicLink, Type_BasicLink); (Type_Link, Type_Link);
   (Type_Icon, Type_Icon); (Type_Url, Type_Url); (Type_IconStyleIcon, Type_IconStyleIcon);
   (Type_ItemIcon, Type_ItemIcon); (Type_ListStyle, Type_ListStyle); (Type_Location, Type_Location);
   (Type_Orientation, Type_Orientation); (Type_Scale, Type_Scale); (Type_Alias, Type_Alias);
   (Type_ResourceMap, Type_ResourceMap); (Type_Model, Type_Model); (Type_NetworkLink, Type_NetworkLink);
   (C_UpdateOperation, C_UpdateOperation); (Type_Create, Type_Create); (Type_Delete, Type_Delete);
   (Type_Change, Type_Change); (Type_Update, Type_Update); (Type_NetworkLinkControl, Type_NetworkLinkControl);
   (Type_LatLonBox, Type_LatLonBox); (Type_GxLatLonQuad, Type_GxLatLonQuad);
   (Type_GroundOverlay, Type_GroundOverlay); (Type_ViewVolume, Type_ViewVolume);
   (Type_ImagePyramid, Type_ImagePyramid); (Type_PhotoOverlay, Type_PhotoOverlay); (Type_overlayXY, Type_overlayXY);
   (Type_screenXY, Type_screenXY); (Type_rotationXY, Type_rotationXY); (Type_size, Type_size);
   (Type_ScreenOverlay, Type_ScreenOverlay); (Type_Placemark, Type_Placemark); (Type_PolyStyle, Type_PolyStyle);
   (Type_LatLonAltBox, Type_LatLonAltBox); (Type_Lod, Type_Lod); (Type_Region, Type_Region);
   (Type_SimpleField, Type_SimpleField); (Type_GxSimpleArrayField, Type_GxSimpleArrayField);
   (Type_Schema, Type_Schema); (Type_Snippet, Type_Snippet); (Type_linkSnippet, Type_linkSnippet);
   (Type_Style, Type_Style); (Type_Pair, Type_Pair); (Type_StyleMap, Type_StyleMap); (Type_TimeSpan, Type_TimeSpan);
   (Type_TimeStamp, Type_TimeStamp); (Type_Vec2, Type_Vec2)].
(** visitor.cc:40-523: the visit function each visit function calls. *)
Definition visit_next : list (N * N) :=
  [(Type_AbstractLatLonBox, Type_Object); (C_AbstractLink, Type_BasicLink); (Type_AbstractView, Type_Object);
   (Type_Alias, Type_Object); (Type_BalloonStyle, Type_SubStyle); (Type_BasicLink, Type_Object);
   (Type_Camera, Type_AbstractView); (Type_Change, C_UpdateOperation); (Type_ColorStyle, Type_SubStyle);
   (Type_Container, Type_Feature); (Type_coordinates, C_Element); (Type_Create, C_UpdateOperation);
   (Type_Data, Type_Object); (Type_Delete, C_UpdateOperation); (Type_Document, Type_Container);
   (Type_ExtendedData, C_Element); (Type_Feature, Type_Object); (C_Field, C_Element); (Type_Folder, Type_Container);
   (Type_Geometry, Type_Object); (Type_GroundOverlay, Type_Overlay); (Type_GxAnimatedUpdate, Type_GxTourPrimitive);
   (Type_GxFlyTo, Type_GxTourPrimitive); (Type_GxLatLonQuad, Type_Object); (Type_GxMultiTrack, Type_Geometry);
   (Type_GxPlaylist, Type_Object); (Type_GxSimpleArrayData, C_Element); (Type_GxSimpleArrayField, Type_SimpleField);
   (Type_GxSoundCue, Type_GxTourPrimitive); (Type_GxTimeSpan, Type_TimeSpan); (Type_GxTimeStamp, Type_TimeStamp);
   (Type_GxTour, Type_Feature); (Type_GxTourControl, Type_GxTourPrimitive); (Type_GxTourPrimitive, Type_Object);
   (Type_GxTrack, Type_Geometry); (Type_GxWait, Type_GxTourPrimitive); (Type_hotSpot, Type_Vec2);
   (Type_Icon, C_AbstractLink); (Type_IconStyle, Type_ColorStyle); (Type_IconStyleIcon, Type_BasicLink);
   (Type_ImagePyramid, Type_Object); (Type_innerBoundaryIs, C_Element); (Type_ItemIcon, Type_Object);
   (Type_kml, C_Element); (Type_LabelStyle, Type_ColorStyle); (Type_LatLonAltBox, Type_AbstractLatLonBox);
   (Type_LatLonBox, Type_AbstractLatLonBox); (Type_LineString, Type_Geometry); (Type_LineStyle, Type_ColorStyle);
   (Type_LinearRing, Type_Geometry); (Type_Link, C_AbstractLink); (Type_linkSnippet, C_Element);
   (Type_ListStyle, Type_SubStyle); (Type_Location, Type_Object); (Type_Lod, Type_Object);
   (Type_LookAt, Type_AbstractView); (Type_Metadata, C_Element); (Type_Model, Type_Geometry);
   (Type_MultiGeometry, Type_Geometry); (Type_NetworkLink, Type_Feature); (Type_NetworkLinkControl, C_Element);
   (Type_Object, C_Element); (Type_Orientation, Type_Object); (Type_outerBoundaryIs, C_Element);
   (Type_Overlay, Type_Feature); (Type_overlayXY, Type_Vec2); (Type_Pair, Type_Object);
   (Type_PhotoOverlay, Type_Overlay); (Type_Placemark, Type_Feature); (Type_Point, Type_Geometry);
   (Type_PolyStyle, Type_ColorStyle); (Type_Polygon, Type_Geometry); (Type_Region, Type_Object);
   (Type_ResourceMap, Type_Object); (Type_rotationXY, Type_Vec2); (Type_Scale, Type_Object);
   (Type_Schema, Type_Object); (Type_SchemaData, Type_Object); (Type_ScreenOverlay, Type_Overlay);
   (Type_screenXY, Type_Vec2); (Type_SimpleData, C_Element); (Type_SimpleField, C_Element); (Type_size, Type_Vec2);
   (Type_Snippet, C_Element); (Type_Style, Type_StyleSelector); (Type_StyleMap, Type_StyleSelector);
   (Type_StyleSelector, Type_Object); (Type_SubStyle, Type_Object); (Type_TimePrimitive, Type_Object);
   (Type_TimeSpan, Type_TimePrimitive); (Type_TimeStamp, Type_TimePrimitive); (Type_Update, C_Element);
   (C_UpdateOperation, C_Element); (Type_Url, C_AbstractLink); (Type_Vec2, C_Element);
   (Type_ViewVolume, Type_Object)].
(** kml_cast.cc:32-506 and kml_cast.h:71,78,90,105,111,132,135,144,150,153,156,159,162,165,170,174,179,183,187,191,196,202,206,210,214,218,222,227,232,236,240,244,248,252,256,260:
    the class a cast leads to (static_pointer_cast) and the test before it; ElementCast (kml_cast.h:40-47) asks for the static ElementType of the class,
    which GxSimpleArrayField has from SimpleField (schema.h:45,106-115). *)
Definition casts : list (N * test) :=
  [(Type_AbstractLatLonBox, TIsA Type_AbstractLatLonBox); (Type_AbstractView, TIsA Type_AbstractView);
   (Type_ColorStyle, TIsA Type_ColorStyle); (Type_Container, TIsA Type_Container); (Type_Feature, TIsA Type_Feature);
   (Type_Geometry, TIsA Type_Geometry); (Type_Object, TIsA Type_Object); (Type_Overlay, TIsA Type_Overlay);
   (Type_StyleSelector, TIsA Type_StyleSelector); (Type_SubStyle, TIsA Type_SubStyle);
   (Type_TimePrimitive, TIsA Type_TimePrimitive); (Type_Alias, TType Type_Alias);
   (Type_BalloonStyle, TType Type_BalloonStyle); (Type_Camera, TType Type_Camera); (Type_Change, TType Type_Change);
   (Type_Create, TType Type_Create); (Type_Data, TType Type_Data); (Type_Delete, TType Type_Delete);
   (Type_Document, TType Type_Document); (Type_Folder, TType Type_Folder);
   (Type_GroundOverlay, TType Type_GroundOverlay); (Type_hotSpot, TType Type_hotSpot); (Type_Icon, TType Type_Icon);
   (Type_IconStyle, TType Type_IconStyle); (Type_IconStyleIcon, TType Type_IconStyleIcon);
   (Type_ImagePyramid, TType Type_ImagePyramid); (Type_innerBoundaryIs, TType Type_innerBoundaryIs);
   (Type_ItemIcon, TType Type_ItemIcon); (Type_LabelStyle, TType Type_LabelStyle);
   (Type_LatLonAltBox, TType Type_LatLonAltBox); (Type_LatLonBox, TType Type_LatLonBox);
   (Type_LineString, TType Type_LineString); (Type_LineStyle, TType Type_LineStyle);
   (Type_LinearRing, TType Type_LinearRing); (Type_Link, TType Type_Link);
   (Type_linkSnippet, TType Type_linkSnippet); (Type_ListStyle, TType Type_ListStyle);
   (Type_Location, TType Type_Location); (Type_Lod, TType Type_Lod); (Type_LookAt, TType Type_LookAt);
   (Type_Model, TType Type_Model); (Type_MultiGeometry, TType Type_MultiGeometry);
   (Type_NetworkLink, TType Type_NetworkLink); (Type_Orientation, TType Type_Orientation);
   (Type_outerBoundaryIs, TType Type_outerBoundaryIs); (Type_overlayXY, TType Type_overlayXY);
   (Type_Pair, TType Type_Pair); (Type_PhotoOverlay, TType Type_PhotoOverlay);
   (Type_Placemark, TType Type_Placemark); (Type_Point, TType Type_Point); (Type_PolyStyle, TType Type_PolyStyle);
   (Type_Polygon, TType Type_Polygon); (Type_Region, TType Type_Region); (Type_ResourceMap, TType Type_ResourceMap);
   (Type_rotationXY, TType Type_rotationXY); (Type_Scale, TType Type_Scale); (Type_Schema, TType Type_Schema);
   (Type_SchemaData, TType Type_SchemaData); (Type_ScreenOverlay, TType Type_ScreenOverlay);
   (Type_screenXY, TType Type_screenXY); (Type_size, TType Type_size); (Type_Snippet, TType Type_Snippet);
   (Type_Style, TType Type_Style); (Type_StyleMap, TType Type_StyleMap); (Type_TimeSpan, TIsA Type_TimeSpan);
   (Type_TimeStamp, TIsA Type_TimeStamp); (Type_Update, TType Type_Update); (Type_ViewVolume, TType Type_ViewVolume);
   (Type_coordinates, TIsA Type_coordinates); (Type_ExtendedData, TIsA Type_ExtendedData); (Type_kml, TIsA Type_kml);
   (Type_Metadata, TIsA Type_Metadata); (Type_NetworkLinkControl, TIsA Type_NetworkLinkControl);
   (Type_SimpleData, TIsA Type_SimpleData); (Type_SimpleField, TIsA Type_SimpleField);
   (Type_Update, TIsA Type_Update); (Type_AtomAuthor, TIsA Type_AtomAuthor);
   (Type_AtomCategory, TIsA Type_AtomCategory); (Type_AtomContent, TIsA Type_AtomContent);
   (Type_AtomEntry, TIsA Type_AtomEntry); (Type_AtomFeed, TIsA Type_AtomFeed); (Type_AtomLink, TIsA Type_AtomLink);
   (Type_XalAddressDetails, TIsA Type_XalAddressDetails);
   (Type_XalAdministrativeArea, TIsA Type_XalAdministrativeArea); (Type_XalCountry, TIsA Type_XalCountry);
   (Type_XalLocality, TIsA Type_XalLocality); (Type_XalPostalCode, TIsA Type_XalPostalCode);
   (Type_XalSubAdministrativeArea, TIsA Type_XalSubAdministrativeArea);
   (Type_XalThoroughfare, TIsA Type_XalThoroughfare); (Type_GxAnimatedUpdate, TIsA Type_GxAnimatedUpdate);
   (Type_GxFlyTo, TIsA Type_GxFlyTo); (Type_GxLatLonQuad, TIsA Type_GxLatLonQuad);
   (Type_GxMultiTrack, TIsA Type_GxMultiTrack); (Type_GxPlaylist, TIsA Type_GxPlaylist);
   (Type_GxSimpleArrayField, TIsA Type_SimpleField); (Type_GxSimpleArrayData, TIsA Type_GxSimpleArrayData);
   (Type_GxSoundCue, TIsA Type_GxSoundCue); (Type_GxTimeSpan, TIsA Type_GxTimeSpan);
   (Type_GxTimeStamp, TIsA Type_GxTimeStamp); (Type_GxTour, TIsA Type_GxTour);
   (Type_GxTourControl, TIsA Type_GxTourControl); (Type_GxTourPrimitive, TIsA Type_GxTourPrimitive);
   (Type_GxTrack, TIsA Type_GxTrack); (Type_GxWait, TIsA Type_GxWait)].

(** The classes of an element of class [c], from its own up. *)
Fixpoint up (fuel : nat) (t : list (N * N)) (c : N) : list N :=
  c :: match fuel with O => [] | S n => match lookup c t with Some b => up n t b | None => [] end end.
Definition ancestors (c : N) : list N := up 12 base_class c.
(** Accept is virtual: the method of the nearest class that has one; Element has one (element.cc:166-168). *)
Definition accept (ty : N) : N :=
  match List.find (fun c => match lookup c accepts_as with Some _ => true | None => false end) (ancestors ty) with
  | Some c => match lookup c accepts_as with Some v => v | None => C_Element end
  | None => C_Element
  end.
(** The visit functions an element of type [ty] goes through if none is overridden. *)
Definition visit_chain (ty : N) : list N := up 12 visit_next (accept ty).
(** A visitor that overrides the visit functions [f] (without calling those of Visitor): the function that gets the element. *)
Definition dispatch (f : N -> bool) (ty : N) : option N := List.find f (visit_chain ty).
(** The elements a driver hands to the overridden function [g], in order. *)
Definition received (f : N -> bool) (g : N) (l : list obj) : list obj :=
  filter (fun o => match dispatch f (oty o) with Some v => v =? g | None => false end) l.
(** The test of a cast. *)
Definition cast_test (t : test) (ty : N) : bool := match t with TType g => ty =? g | TIsA g => is_a ty g end.

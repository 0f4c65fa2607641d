(** Model of the simple fields of the element classes of kmldom (src/kml/dom): what the constructor, the get, has, set and clear
    functions and AddElement do to the members of an object.  Complex children and arrays are not fields here (ParentModel.v,
    DomModel.v); attributes are set through the set functions only. *)
From Verif Require Import Common Doubles ColorModel StringsModel XsdTables XsdModel DomTables DomModel CastModel.
Local Open Scope N_scope.

(** Values of members: bool, int (also enumerators), double, Color32 and string. *)
Inductive val := VBool (b : bool) | VInt (z : Z) | VDouble (d : double) | VColor (c : N) | VText (s : str).
(** The right hand side of an assignment: the argument of the set function or a constant. *)
Inductive rhs := Arg | Const (v : val).
(** The functions of a field of a class: its name, how AddElement reads the child, the members that get_ and has_ return, the
    assignments of set_ and clear_, the initial values of the members, and the child AddElement takes: its type, the
    member its result is assigned to and the member it writes to. *)
Record fld := { f_name : str; f_kind : fkind; f_get : str; f_has : str; f_set : list (str * rhs); f_clear : list (str * rhs);
                f_init : list (str * val); f_add : option (N * str * str) }.
Definition fd (n : str) (k : fkind) (g h : str) (s c : list (str * rhs)) (i : list (str * val)) (a : option (N * str * str)) : fld :=
  {| f_name := n; f_kind := k; f_get := g; f_has := h; f_set := s; f_clear := c; f_init := i; f_add := a |}.
(** color32.h:50-52: a Color32 made from text (its value before does not matter). *)
Definition colour_text (s : str) : N := match set_color_abgr_str 0 s with Ok c => c | _ => 0 end.
(** Get, has, set and clear functions of the simple fields: declarations in
    abstractlatlonbox.h:48-109, abstractview.h:78-171, 176-189, 227-240, 267-280, atom.h:42-75, 97-130, 177-210,
    237-258, 290-299, 364-433, balloonstyle.h:48-109, colorstyle.h:49-78, extendeddata.h:54-75, 102-111, 155-164,
    224-257, feature.h:59-92, 115-124, 139-148, 162-171, 194-204, 240-249, geometry.h:170-191, 210-219, 290-299,
    427-436, 613-622, 669-714, 745-790, 821-866, 897-926, gx_tour.h:141-154, 222-231, 296-309, 339-352,
    iconstyle.h:51-80, kml.h:50-59, labelstyle.h:46-59, linestyle.h:47-60, link.h:50-63, 87-196, 291-352,
    liststyle.h:88-101, 130-159, 175-188, networklink.h:52-73, networklinkcontrol.h:178-187, 226-295, 308-317,
    object.h:51-71, overlay.h:61-90, 130-143, 208-253, 421-434, 466-543, 578-639, 672-685, 718-731, polystyle.h:47-76,
    region.h:53-114, 147-208, schema.h:49-80, 135-144, snippet.h:52-73, stylemap.h:53-82, timeprimitive.h:71-92,
    123-132, vec2.h:54-96, xal.h:88-101, 143-152, 184-197, 234-247, 267-280, 308-337;
    constructors and the assignments in AddElement:
    abstractlatlonbox.cc:33-36, 43-52, abstractview.cc:63-78, 86-104, 141-148, 168-175, atom.cc:50-55, 67-73, 96-101,
    139-143, 171-175, 193-199, 228-231, 241, 288-297, balloonstyle.cc:38-46, 57-66, colorstyle.cc:36-41, 48-51,
    extendeddata.cc:42-46, 92-95, 139-142, 201-206, 232-234, feature.cc:34-46, 71-77, 86, 92, 107-110, 125,
    geometry.cc:202-207, 218-221, 228-231, 241, 292-295, 304, 389-392, 402, 572-575, 588, gx_tour.cc:130, 179-182,
    191, 242-245, 254, 274-277, 286, gx_tour.h:159-161, iconstyle.cc:41-46, 56-59, kml.cc:36-39, labelstyle.cc:35-38,
    49, linestyle.cc:35-37, 48, link.cc:36-38, 68, 89-103, 114-132, 190-195, 205-214, liststyle.cc:40-43, 68, 101-105,
    115-118, 124, model.cc:41-45, 55-61, 87-91, 101-107, 133-137, 147-154, 180-182, 192-195, networklink.cc:37-40,
    50-53, networklinkcontrol.cc:146-149, 159, 196-210, 224-239, 245, object.cc:34-38, overlay.cc:42-47, 54-57, 88-91,
    102, 155-162, 173-179, 227-238, 248-260, 292-301, 311-320, 349-354, 365, 377, 454-457, 480, polystyle.cc:36-38,
    49-52, region.cc:39-45, 55-64, 93-98, 108-117, schema.cc:39-44, 75, 104-106, snippet.cc:36-41, stylemap.cc:37-39,
    53-56, timeprimitive.cc:45-48, 58-61, 83-85, 94, vec2.cc:37-46, xal.cc:66-69, 77, 106-109, 117, 140-143, 151,
    176-179, 187, 203-206, 214, 237-241, 249-252. A member without an initializer is an empty string. Enumerators are
    their numbers (kml22.h:520-605). *)
Definition own_fields : list (N * list fld) :=
 [(Type_AbstractLatLonBox,
    [
     fd (S_ "north") FDouble (S_ "north_") (S_ "has_north_")
        [(S_ "north_", Arg); (S_ "has_north_", Const (VBool true))]
        [(S_ "north_", Const (VDouble (d_of_Z 180))); (S_ "has_north_", Const (VBool false))]
        [(S_ "north_", VDouble (d_of_Z 180)); (S_ "has_north_", VBool false)] (Some (Type_north, S_ "has_north_", S_ "north_"));
     fd (S_ "south") FDouble (S_ "south_") (S_ "has_south_")
        [(S_ "south_", Arg); (S_ "has_south_", Const (VBool true))]
        [(S_ "south_", Const (VDouble (d_of_Z (-180)))); (S_ "has_south_", Const (VBool false))]
        [(S_ "south_", VDouble (d_of_Z (-180))); (S_ "has_south_", VBool false)] (Some (Type_south, S_ "has_south_", S_ "south_"));
     fd (S_ "east") FDouble (S_ "east_") (S_ "has_east_")
        [(S_ "east_", Arg); (S_ "has_east_", Const (VBool true))]
        [(S_ "east_", Const (VDouble (d_of_Z 180))); (S_ "has_east_", Const (VBool false))]
        [(S_ "east_", VDouble (d_of_Z 180)); (S_ "has_east_", VBool false)] (Some (Type_east, S_ "has_east_", S_ "east_"));
     fd (S_ "west") FDouble (S_ "west_") (S_ "has_west_")
        [(S_ "west_", Arg); (S_ "has_west_", Const (VBool true))]
        [(S_ "west_", Const (VDouble (d_of_Z (-180)))); (S_ "has_west_", Const (VBool false))]
        [(S_ "west_", VDouble (d_of_Z (-180))); (S_ "has_west_", VBool false)] (Some (Type_west, S_ "has_west_", S_ "west_"))]);
  (C_AbstractViewCommon,
    [
     fd (S_ "longitude") FDouble (S_ "longitude_") (S_ "has_longitude_")
        [(S_ "longitude_", Arg); (S_ "has_longitude_", Const (VBool true))]
        [(S_ "longitude_", Const (VDouble (d_of_Z 0))); (S_ "has_longitude_", Const (VBool false))]
        [(S_ "longitude_", VDouble (d_of_Z 0)); (S_ "has_longitude_", VBool false)] (Some (Type_longitude, S_ "has_longitude_", S_ "longitude_"));
     fd (S_ "latitude") FDouble (S_ "latitude_") (S_ "has_latitude_")
        [(S_ "latitude_", Arg); (S_ "has_latitude_", Const (VBool true))]
        [(S_ "latitude_", Const (VDouble (d_of_Z 0))); (S_ "has_latitude_", Const (VBool false))]
        [(S_ "latitude_", VDouble (d_of_Z 0)); (S_ "has_latitude_", VBool false)] (Some (Type_latitude, S_ "has_latitude_", S_ "latitude_"));
     fd (S_ "altitude") FDouble (S_ "altitude_") (S_ "has_altitude_")
        [(S_ "altitude_", Arg); (S_ "has_altitude_", Const (VBool true))]
        [(S_ "altitude_", Const (VDouble (d_of_Z 0))); (S_ "has_altitude_", Const (VBool false))]
        [(S_ "altitude_", VDouble (d_of_Z 0)); (S_ "has_altitude_", VBool false)] (Some (Type_altitude, S_ "has_altitude_", S_ "altitude_"));
     fd (S_ "heading") FDouble (S_ "heading_") (S_ "has_heading_")
        [(S_ "heading_", Arg); (S_ "has_heading_", Const (VBool true))]
        [(S_ "heading_", Const (VDouble (d_of_Z 0))); (S_ "has_heading_", Const (VBool false))]
        [(S_ "heading_", VDouble (d_of_Z 0)); (S_ "has_heading_", VBool false)] (Some (Type_heading, S_ "has_heading_", S_ "heading_"));
     fd (S_ "tilt") FDouble (S_ "tilt_") (S_ "has_tilt_")
        [(S_ "tilt_", Arg); (S_ "has_tilt_", Const (VBool true))]
        [(S_ "tilt_", Const (VDouble (d_of_Z 0))); (S_ "has_tilt_", Const (VBool false))]
        [(S_ "tilt_", VDouble (d_of_Z 0)); (S_ "has_tilt_", VBool false)] (Some (Type_tilt, S_ "has_tilt_", S_ "tilt_"));
     fd (S_ "altitudemode") FEnum (S_ "altitudemode_") (S_ "has_altitudemode_")
        [(S_ "altitudemode_", Arg); (S_ "has_altitudemode_", Const (VBool true))]
        [(S_ "altitudemode_", Const (VInt 0)); (S_ "has_altitudemode_", Const (VBool false))]
        [(S_ "altitudemode_", VInt 0); (S_ "has_altitudemode_", VBool false)] (Some (Type_altitudeMode, S_ "has_altitudemode_", S_ "altitudemode_"));
     fd (S_ "gx_altitudemode") FEnum (S_ "gx_altitudemode_") (S_ "has_gx_altitudemode_")
        [(S_ "gx_altitudemode_", Arg); (S_ "has_gx_altitudemode_", Const (VBool true))]
        [(S_ "gx_altitudemode_", Const (VInt 0)); (S_ "has_gx_altitudemode_", Const (VBool false))]
        [(S_ "gx_altitudemode_", VInt 0); (S_ "has_gx_altitudemode_", VBool false)] (Some (Type_GxAltitudeMode, S_ "has_gx_altitudemode_", S_ "gx_altitudemode_"))]);
  (Type_LookAt,
    [
     fd (S_ "range") FDouble (S_ "range_") (S_ "has_range_")
        [(S_ "range_", Arg); (S_ "has_range_", Const (VBool true))]
        [(S_ "range_", Const (VDouble (d_of_Z 0))); (S_ "has_range_", Const (VBool false))]
        [(S_ "range_", VDouble (d_of_Z 0)); (S_ "has_range_", VBool false)] (Some (Type_range, S_ "has_range_", S_ "range_"))]);
  (Type_Camera,
    [
     fd (S_ "roll") FDouble (S_ "roll_") (S_ "has_roll_")
        [(S_ "roll_", Arg); (S_ "has_roll_", Const (VBool true))]
        [(S_ "roll_", Const (VDouble (d_of_Z 0))); (S_ "has_roll_", Const (VBool false))]
        [(S_ "roll_", VDouble (d_of_Z 0)); (S_ "has_roll_", VBool false)] (Some (Type_roll, S_ "has_roll_", S_ "roll_"))]);
  (Type_AtomAuthor,
    [
     fd (S_ "name") FString (S_ "name_") (S_ "has_name_")
        [(S_ "name_", Arg); (S_ "has_name_", Const (VBool true))]
        [(S_ "name_", Const (VText [])); (S_ "has_name_", Const (VBool false))]
        [(S_ "name_", VText []); (S_ "has_name_", VBool false)] (Some (Type_atomName, S_ "has_name_", S_ "name_"));
     fd (S_ "uri") FString (S_ "uri_") (S_ "has_uri_")
        [(S_ "uri_", Arg); (S_ "has_uri_", Const (VBool true))]
        [(S_ "uri_", Const (VText [])); (S_ "has_uri_", Const (VBool false))]
        [(S_ "uri_", VText []); (S_ "has_uri_", VBool false)] (Some (Type_atomUri, S_ "has_uri_", S_ "uri_"));
     fd (S_ "email") FString (S_ "email_") (S_ "has_email_")
        [(S_ "email_", Arg); (S_ "has_email_", Const (VBool true))]
        [(S_ "email_", Const (VText [])); (S_ "has_email_", Const (VBool false))]
        [(S_ "email_", VText []); (S_ "has_email_", VBool false)] (Some (Type_atomEmail, S_ "has_email_", S_ "email_"))]);
  (C_AtomCommon,
    [
     fd (S_ "id") FString (S_ "id_") (S_ "has_id_")
        [(S_ "id_", Arg); (S_ "has_id_", Const (VBool true))]
        [(S_ "id_", Const (VText [])); (S_ "has_id_", Const (VBool false))]
        [(S_ "id_", VText []); (S_ "has_id_", VBool false)] (Some (Type_atomId, S_ "has_id_", S_ "id_"));
     fd (S_ "title") FString (S_ "title_") (S_ "has_title_")
        [(S_ "title_", Arg); (S_ "has_title_", Const (VBool true))]
        [(S_ "title_", Const (VText [])); (S_ "has_title_", Const (VBool false))]
        [(S_ "title_", VText []); (S_ "has_title_", VBool false)] (Some (Type_atomTitle, S_ "has_title_", S_ "title_"));
     fd (S_ "updated") FString (S_ "updated_") (S_ "has_updated_")
        [(S_ "updated_", Arg); (S_ "has_updated_", Const (VBool true))]
        [(S_ "updated_", Const (VText [])); (S_ "has_updated_", Const (VBool false))]
        [(S_ "updated_", VText []); (S_ "has_updated_", VBool false)] (Some (Type_atomUpdated, S_ "has_updated_", S_ "updated_"))]);
  (Type_AtomCategory,
    [
     fd (S_ "term") FString (S_ "term_") (S_ "has_term_")
        [(S_ "term_", Arg); (S_ "has_term_", Const (VBool true))]
        [(S_ "term_", Const (VText [])); (S_ "has_term_", Const (VBool false))]
        [(S_ "term_", VText []); (S_ "has_term_", VBool false)] (None);
     fd (S_ "scheme") FString (S_ "scheme_") (S_ "has_scheme_")
        [(S_ "scheme_", Arg); (S_ "has_scheme_", Const (VBool true))]
        [(S_ "scheme_", Const (VText [])); (S_ "has_scheme_", Const (VBool false))]
        [(S_ "scheme_", VText []); (S_ "has_scheme_", VBool false)] (None);
     fd (S_ "label") FString (S_ "label_") (S_ "has_label_")
        [(S_ "label_", Arg); (S_ "has_label_", Const (VBool true))]
        [(S_ "label_", Const (VText [])); (S_ "has_label_", Const (VBool false))]
        [(S_ "label_", VText []); (S_ "has_label_", VBool false)] (None)]);
  (Type_AtomContent,
    [
     fd (S_ "src") FString (S_ "src_") (S_ "has_src_")
        [(S_ "src_", Arg); (S_ "has_src_", Const (VBool true))]
        [(S_ "src_", Const (VText [])); (S_ "has_src_", Const (VBool false))]
        [(S_ "src_", VText []); (S_ "has_src_", VBool false)] (None);
     fd (S_ "type") FString (S_ "type_") (S_ "has_type_")
        [(S_ "type_", Arg); (S_ "has_type_", Const (VBool true))]
        [(S_ "type_", Const (VText [])); (S_ "has_type_", Const (VBool false))]
        [(S_ "type_", VText []); (S_ "has_type_", VBool false)] (None)]);
  (Type_AtomEntry,
    [
     fd (S_ "summary") FString (S_ "summary_") (S_ "has_summary_")
        [(S_ "summary_", Arg); (S_ "has_summary_", Const (VBool true))]
        [(S_ "summary_", Const (VText [])); (S_ "has_summary_", Const (VBool false))]
        [(S_ "summary_", VText []); (S_ "has_summary_", VBool false)] (Some (Type_atomSummary, S_ "has_summary_", S_ "summary_"))]);
  (Type_AtomLink,
    [
     fd (S_ "href") FString (S_ "href_") (S_ "has_href_")
        [(S_ "href_", Arg); (S_ "has_href_", Const (VBool true))]
        [(S_ "href_", Const (VText [])); (S_ "has_href_", Const (VBool false))]
        [(S_ "href_", VText []); (S_ "has_href_", VBool false)] (None);
     fd (S_ "rel") FString (S_ "rel_") (S_ "has_rel_")
        [(S_ "rel_", Arg); (S_ "has_rel_", Const (VBool true))]
        [(S_ "rel_", Const (VText [])); (S_ "has_rel_", Const (VBool false))]
        [(S_ "rel_", VText []); (S_ "has_rel_", VBool false)] (None);
     fd (S_ "type") FString (S_ "type_") (S_ "has_type_")
        [(S_ "type_", Arg); (S_ "has_type_", Const (VBool true))]
        [(S_ "type_", Const (VText [])); (S_ "has_type_", Const (VBool false))]
        [(S_ "type_", VText []); (S_ "has_type_", VBool false)] (None);
     fd (S_ "hreflang") FString (S_ "hreflang_") (S_ "has_hreflang_")
        [(S_ "hreflang_", Arg); (S_ "has_hreflang_", Const (VBool true))]
        [(S_ "hreflang_", Const (VText [])); (S_ "has_hreflang_", Const (VBool false))]
        [(S_ "hreflang_", VText []); (S_ "has_hreflang_", VBool false)] (None);
     fd (S_ "title") FString (S_ "title_") (S_ "has_title_")
        [(S_ "title_", Arg); (S_ "has_title_", Const (VBool true))]
        [(S_ "title_", Const (VText [])); (S_ "has_title_", Const (VBool false))]
        [(S_ "title_", VText []); (S_ "has_title_", VBool false)] (None);
     fd (S_ "length") FInt (S_ "length_") (S_ "has_length_")
        [(S_ "length_", Arg); (S_ "has_length_", Const (VBool true))]
        [(S_ "length_", Const (VInt 0)); (S_ "has_length_", Const (VBool false))]
        [(S_ "length_", VInt 0); (S_ "has_length_", VBool false)] (None)]);
  (Type_BalloonStyle,
    [
     fd (S_ "bgcolor") FColor (S_ "bgcolor_") (S_ "has_bgcolor_")
        [(S_ "bgcolor_", Arg); (S_ "has_bgcolor_", Const (VBool true))]
        [(S_ "bgcolor_", Const (VColor 4294967295)); (S_ "has_bgcolor_", Const (VBool false))]
        [(S_ "bgcolor_", VColor (colour_text (S_ "ffffffff"))); (S_ "has_bgcolor_", VBool false)] (Some (Type_bgColor, S_ "has_bgcolor_", S_ "bgcolor_"));
     fd (S_ "textcolor") FColor (S_ "textcolor_") (S_ "has_textcolor_")
        [(S_ "textcolor_", Arg); (S_ "has_textcolor_", Const (VBool true))]
        [(S_ "textcolor_", Const (VColor 4278190080)); (S_ "has_textcolor_", Const (VBool false))]
        [(S_ "textcolor_", VColor (colour_text (S_ "ff000000"))); (S_ "has_textcolor_", VBool false)] (Some (Type_textColor, S_ "has_textcolor_", S_ "textcolor_"));
     fd (S_ "text") FString (S_ "text_") (S_ "has_text_")
        [(S_ "text_", Arg); (S_ "has_text_", Const (VBool true))]
        [(S_ "text_", Const (VText [])); (S_ "has_text_", Const (VBool false))]
        [(S_ "text_", VText []); (S_ "has_text_", VBool false)] (Some (Type_text, S_ "has_text_", S_ "text_"));
     fd (S_ "displaymode") FEnum (S_ "displaymode_") (S_ "has_displaymode_")
        [(S_ "displaymode_", Arg); (S_ "has_displaymode_", Const (VBool true))]
        [(S_ "displaymode_", Const (VInt 0)); (S_ "has_displaymode_", Const (VBool false))]
        [(S_ "displaymode_", VInt 0); (S_ "has_displaymode_", VBool false)] (Some (Type_displayMode, S_ "has_displaymode_", S_ "displaymode_"))]);
  (Type_ColorStyle,
    [
     fd (S_ "color") FColor (S_ "color_") (S_ "has_color_")
        [(S_ "color_", Arg); (S_ "has_color_", Const (VBool true))]
        [(S_ "color_", Const (VColor 4294967295)); (S_ "has_color_", Const (VBool false))]
        [(S_ "color_", VColor 4294967295); (S_ "has_color_", VBool false)] (Some (Type_color, S_ "has_color_", S_ "color_"));
     fd (S_ "colormode") FEnum (S_ "colormode_") (S_ "has_colormode_")
        [(S_ "colormode_", Arg); (S_ "has_colormode_", Const (VBool true))]
        [(S_ "colormode_", Const (VInt 0)); (S_ "has_colormode_", Const (VBool false))]
        [(S_ "colormode_", VInt 0); (S_ "has_colormode_", VBool false)] (Some (Type_colorMode, S_ "has_colormode_", S_ "colormode_"))]);
  (Type_SimpleData,
    [
     fd (S_ "name") FString (S_ "name_") (S_ "has_name_")
        [(S_ "name_", Arg); (S_ "has_name_", Const (VBool true))]
        [(S_ "name_", Const (VText [])); (S_ "has_name_", Const (VBool false))]
        [(S_ "name_", VText []); (S_ "has_name_", VBool false)] (None);
     fd (S_ "text") FString (S_ "text_") (S_ "has_text_")
        [(S_ "text_", Arg); (S_ "has_text_", Const (VBool true))]
        [(S_ "text_", Const (VText [])); (S_ "has_text_", Const (VBool false))]
        [(S_ "text_", VText []); (S_ "has_text_", VBool false)] (None)]);
  (Type_GxSimpleArrayData,
    [
     fd (S_ "name") FString (S_ "name_") (S_ "has_name_")
        [(S_ "name_", Arg); (S_ "has_name_", Const (VBool true))]
        [(S_ "name_", Const (VText [])); (S_ "has_name_", Const (VBool false))]
        [(S_ "name_", VText []); (S_ "has_name_", VBool false)] (None)]);
  (Type_SchemaData,
    [
     fd (S_ "schemaurl") FString (S_ "schemaurl_") (S_ "has_schemaurl_")
        [(S_ "schemaurl_", Arg); (S_ "has_schemaurl_", Const (VBool true))]
        [(S_ "schemaurl_", Const (VText [])); (S_ "has_schemaurl_", Const (VBool false))]
        [(S_ "schemaurl_", VText []); (S_ "has_schemaurl_", VBool false)] (None)]);
  (Type_Data,
    [
     fd (S_ "name") FString (S_ "name_") (S_ "has_name_")
        [(S_ "name_", Arg); (S_ "has_name_", Const (VBool true))]
        [(S_ "name_", Const (VText [])); (S_ "has_name_", Const (VBool false))]
        [(S_ "name_", VText []); (S_ "has_name_", VBool false)] (None);
     fd (S_ "displayname") FString (S_ "displayname_") (S_ "has_displayname_")
        [(S_ "displayname_", Arg); (S_ "has_displayname_", Const (VBool true))]
        [(S_ "displayname_", Const (VText [])); (S_ "has_displayname_", Const (VBool false))]
        [(S_ "displayname_", VText []); (S_ "has_displayname_", VBool false)] (Some (Type_displayName, S_ "has_displayname_", S_ "displayname_"));
     fd (S_ "value") FString (S_ "value_") (S_ "has_value_")
        [(S_ "value_", Arg); (S_ "has_value_", Const (VBool true))]
        [(S_ "value_", Const (VText [])); (S_ "has_value_", Const (VBool false))]
        [(S_ "value_", VText []); (S_ "has_value_", VBool false)] (Some (Type_value, S_ "has_value_", S_ "value_"))]);
  (Type_Feature,
    [
     fd (S_ "name") FString (S_ "name_") (S_ "has_name_")
        [(S_ "name_", Arg); (S_ "has_name_", Const (VBool true))]
        [(S_ "name_", Const (VText [])); (S_ "has_name_", Const (VBool false))]
        [(S_ "name_", VText []); (S_ "has_name_", VBool false)] (Some (Type_name, S_ "has_name_", S_ "name_"));
     fd (S_ "visibility") FBool (S_ "visibility_") (S_ "has_visibility_")
        [(S_ "visibility_", Arg); (S_ "has_visibility_", Const (VBool true))]
        [(S_ "visibility_", Const (VBool true)); (S_ "has_visibility_", Const (VBool false))]
        [(S_ "visibility_", VBool true); (S_ "has_visibility_", VBool false)] (Some (Type_visibility, S_ "has_visibility_", S_ "visibility_"));
     fd (S_ "open") FBool (S_ "open_") (S_ "has_open_")
        [(S_ "open_", Arg); (S_ "has_open_", Const (VBool true))]
        [(S_ "open_", Const (VBool false)); (S_ "has_open_", Const (VBool false))]
        [(S_ "open_", VBool false); (S_ "has_open_", VBool false)] (Some (Type_open, S_ "has_open_", S_ "open_"));
     fd (S_ "address") FString (S_ "address_") (S_ "has_address_")
        [(S_ "address_", Arg); (S_ "has_address_", Const (VBool true))]
        [(S_ "address_", Const (VText [])); (S_ "has_address_", Const (VBool false))]
        [(S_ "address_", VText []); (S_ "has_address_", VBool false)] (Some (Type_address, S_ "has_address_", S_ "address_"));
     fd (S_ "phonenumber") FString (S_ "phonenumber_") (S_ "has_phonenumber_")
        [(S_ "phonenumber_", Arg); (S_ "has_phonenumber_", Const (VBool true))]
        [(S_ "phonenumber_", Const (VText [])); (S_ "has_phonenumber_", Const (VBool false))]
        [(S_ "phonenumber_", VText []); (S_ "has_phonenumber_", VBool false)] (Some (Type_phoneNumber, S_ "has_phonenumber_", S_ "phonenumber_"));
     fd (S_ "description") FString (S_ "description_") (S_ "has_description_")
        [(S_ "description_", Arg); (S_ "has_description_", Const (VBool true))]
        [(S_ "description_", Const (VText [])); (S_ "has_description_", Const (VBool false))]
        [(S_ "description_", VText []); (S_ "has_description_", VBool false)] (Some (Type_description, S_ "has_description_", S_ "description_"));
     fd (S_ "styleurl") FString (S_ "styleurl_") (S_ "has_styleurl_")
        [(S_ "styleurl_", Arg); (S_ "has_styleurl_", Const (VBool true))]
        [(S_ "styleurl_", Const (VText [])); (S_ "has_styleurl_", Const (VBool false))]
        [(S_ "styleurl_", VText []); (S_ "has_styleurl_", VBool false)] (Some (Type_styleUrl, S_ "has_styleurl_", S_ "styleurl_"));
     fd (S_ "gx_balloonvisibility") FBool (S_ "gx_balloonvisibility_") (S_ "has_gx_balloonvisibility_")
        [(S_ "gx_balloonvisibility_", Arg); (S_ "has_gx_balloonvisibility_", Const (VBool true))]
        [(S_ "gx_balloonvisibility_", Const (VBool false)); (S_ "has_gx_balloonvisibility_", Const (VBool false))]
        [(S_ "gx_balloonvisibility_", VBool false); (S_ "has_gx_balloonvisibility_", VBool false)] (Some (Type_GxBalloonVisibility, S_ "has_gx_balloonvisibility_", S_ "gx_balloonvisibility_"))]);
  (C_AltitudeGeometryCommon,
    [
     fd (S_ "altitudemode") FEnum (S_ "altitudemode_") (S_ "has_altitudemode_")
        [(S_ "altitudemode_", Arg); (S_ "has_altitudemode_", Const (VBool true))]
        [(S_ "altitudemode_", Const (VInt 0)); (S_ "has_altitudemode_", Const (VBool false))]
        [(S_ "altitudemode_", VInt 0); (S_ "has_altitudemode_", VBool false)] (Some (Type_altitudeMode, S_ "has_altitudemode_", S_ "altitudemode_"));
     fd (S_ "gx_altitudemode") FEnum (S_ "gx_altitudemode_") (S_ "has_gx_altitudemode_")
        [(S_ "gx_altitudemode_", Arg); (S_ "has_gx_altitudemode_", Const (VBool true))]
        [(S_ "gx_altitudemode_", Const (VInt 0)); (S_ "has_gx_altitudemode_", Const (VBool false))]
        [(S_ "gx_altitudemode_", VInt 0); (S_ "has_gx_altitudemode_", VBool false)] (Some (Type_GxAltitudeMode, S_ "has_gx_altitudemode_", S_ "gx_altitudemode_"))]);
  (C_ExtrudeGeometryCommon,
    [
     fd (S_ "extrude") FBool (S_ "extrude_") (S_ "has_extrude_")
        [(S_ "extrude_", Arg); (S_ "has_extrude_", Const (VBool true))]
        [(S_ "extrude_", Const (VBool false)); (S_ "has_extrude_", Const (VBool false))]
        [(S_ "extrude_", VBool false); (S_ "has_extrude_", VBool false)] (Some (Type_extrude, S_ "has_extrude_", S_ "extrude_"))]);
  (C_LineCommon,
    [
     fd (S_ "tessellate") FBool (S_ "tessellate_") (S_ "has_tessellate_")
        [(S_ "tessellate_", Arg); (S_ "has_tessellate_", Const (VBool true))]
        [(S_ "tessellate_", Const (VBool false)); (S_ "has_tessellate_", Const (VBool false))]
        [(S_ "tessellate_", VBool false); (S_ "has_tessellate_", VBool false)] (Some (Type_tessellate, S_ "has_tessellate_", S_ "tessellate_"))]);
  (Type_Polygon,
    [
     fd (S_ "tessellate") FBool (S_ "tessellate_") (S_ "has_tessellate_")
        [(S_ "tessellate_", Arg); (S_ "has_tessellate_", Const (VBool true))]
        [(S_ "tessellate_", Const (VBool false)); (S_ "has_tessellate_", Const (VBool false))]
        [(S_ "tessellate_", VBool false); (S_ "has_tessellate_", VBool false)] (Some (Type_tessellate, S_ "has_tessellate_", S_ "tessellate_"))]);
  (Type_GxMultiTrack,
    [
     fd (S_ "gx_interpolate") FBool (S_ "gx_interpolate_") (S_ "has_gx_interpolate_")
        [(S_ "gx_interpolate_", Arg); (S_ "has_gx_interpolate_", Const (VBool true))]
        [(S_ "gx_interpolate_", Const (VBool false)); (S_ "has_gx_interpolate_", Const (VBool false))]
        [(S_ "gx_interpolate_", VBool false); (S_ "has_gx_interpolate_", VBool false)] (Some (Type_GxInterpolate, S_ "has_gx_interpolate_", S_ "gx_interpolate_"))]);
  (Type_Location,
    [
     fd (S_ "longitude") FDouble (S_ "longitude_") (S_ "has_longitude_")
        [(S_ "longitude_", Arg); (S_ "has_longitude_", Const (VBool true))]
        [(S_ "longitude_", Const (VDouble (d_of_Z 0))); (S_ "has_longitude_", Const (VBool false))]
        [(S_ "longitude_", VDouble (d_of_Z 0)); (S_ "has_longitude_", VBool false)] (Some (Type_longitude, S_ "has_longitude_", S_ "longitude_"));
     fd (S_ "latitude") FDouble (S_ "latitude_") (S_ "has_latitude_")
        [(S_ "latitude_", Arg); (S_ "has_latitude_", Const (VBool true))]
        [(S_ "latitude_", Const (VDouble (d_of_Z 0))); (S_ "has_latitude_", Const (VBool false))]
        [(S_ "latitude_", VDouble (d_of_Z 0)); (S_ "has_latitude_", VBool false)] (Some (Type_latitude, S_ "has_latitude_", S_ "latitude_"));
     fd (S_ "altitude") FDouble (S_ "altitude_") (S_ "has_altitude_")
        [(S_ "altitude_", Arg); (S_ "has_altitude_", Const (VBool true))]
        [(S_ "altitude_", Const (VDouble (d_of_Z 0))); (S_ "has_altitude_", Const (VBool false))]
        [(S_ "altitude_", VDouble (d_of_Z 0)); (S_ "has_altitude_", VBool false)] (Some (Type_altitude, S_ "has_altitude_", S_ "altitude_"))]);
  (Type_Orientation,
    [
     fd (S_ "heading") FDouble (S_ "heading_") (S_ "has_heading_")
        [(S_ "heading_", Arg); (S_ "has_heading_", Const (VBool true))]
        [(S_ "heading_", Const (VDouble (d_of_Z 0))); (S_ "has_heading_", Const (VBool false))]
        [(S_ "heading_", VDouble (d_of_Z 0)); (S_ "has_heading_", VBool false)] (Some (Type_heading, S_ "has_heading_", S_ "heading_"));
     fd (S_ "tilt") FDouble (S_ "tilt_") (S_ "has_tilt_")
        [(S_ "tilt_", Arg); (S_ "has_tilt_", Const (VBool true))]
        [(S_ "tilt_", Const (VDouble (d_of_Z 0))); (S_ "has_tilt_", Const (VBool false))]
        [(S_ "tilt_", VDouble (d_of_Z 0)); (S_ "has_tilt_", VBool false)] (Some (Type_tilt, S_ "has_tilt_", S_ "tilt_"));
     fd (S_ "roll") FDouble (S_ "roll_") (S_ "has_roll_")
        [(S_ "roll_", Arg); (S_ "has_roll_", Const (VBool true))]
        [(S_ "roll_", Const (VDouble (d_of_Z 0))); (S_ "has_roll_", Const (VBool false))]
        [(S_ "roll_", VDouble (d_of_Z 0)); (S_ "has_roll_", VBool false)] (Some (Type_roll, S_ "has_roll_", S_ "roll_"))]);
  (Type_Scale,
    [
     fd (S_ "x") FDouble (S_ "x_") (S_ "has_x_")
        [(S_ "x_", Arg); (S_ "has_x_", Const (VBool true))]
        [(S_ "x_", Const (VDouble (d_of_Z 1))); (S_ "has_x_", Const (VBool false))]
        [(S_ "x_", VDouble (d_of_Z 1)); (S_ "has_x_", VBool false)] (Some (Type_x, S_ "has_x_", S_ "x_"));
     fd (S_ "y") FDouble (S_ "y_") (S_ "has_y_")
        [(S_ "y_", Arg); (S_ "has_y_", Const (VBool true))]
        [(S_ "y_", Const (VDouble (d_of_Z 1))); (S_ "has_y_", Const (VBool false))]
        [(S_ "y_", VDouble (d_of_Z 1)); (S_ "has_y_", VBool false)] (Some (Type_y, S_ "has_y_", S_ "y_"));
     fd (S_ "z") FDouble (S_ "z_") (S_ "has_z_")
        [(S_ "z_", Arg); (S_ "has_z_", Const (VBool true))]
        [(S_ "z_", Const (VDouble (d_of_Z 1))); (S_ "has_z_", Const (VBool false))]
        [(S_ "z_", VDouble (d_of_Z 1)); (S_ "has_z_", VBool false)] (Some (Type_z, S_ "has_z_", S_ "z_"))]);
  (Type_Alias,
    [
     fd (S_ "targethref") FString (S_ "targethref_") (S_ "has_targethref_")
        [(S_ "targethref_", Arg); (S_ "has_targethref_", Const (VBool true))]
        [(S_ "targethref_", Const (VText [])); (S_ "has_targethref_", Const (VBool false))]
        [(S_ "targethref_", VText []); (S_ "has_targethref_", VBool false)] (Some (Type_targetHref, S_ "has_targethref_", S_ "targethref_"));
     fd (S_ "sourcehref") FString (S_ "sourcehref_") (S_ "has_sourcehref_")
        [(S_ "sourcehref_", Arg); (S_ "has_sourcehref_", Const (VBool true))]
        [(S_ "sourcehref_", Const (VText [])); (S_ "has_sourcehref_", Const (VBool false))]
        [(S_ "sourcehref_", VText []); (S_ "has_sourcehref_", VBool false)] (Some (Type_sourceHref, S_ "has_sourcehref_", S_ "sourcehref_"))]);
  (C_GxTourPrimitiveCommon,
    [
     fd (S_ "gx_duration") FDouble (S_ "gx_duration_") (S_ "has_gx_duration_")
        [(S_ "gx_duration_", Arg); (S_ "has_gx_duration_", Const (VBool true))]
        [(S_ "gx_duration_", Const (VDouble (d_of_Z 0))); (S_ "has_gx_duration_", Const (VBool false))]
        [(S_ "gx_duration_", VDouble (d_of_Z 0)); (S_ "has_gx_duration_", VBool false)] (Some (Type_GxDuration, S_ "has_gx_duration_", S_ "gx_duration_"))]);
  (Type_GxFlyTo,
    [
     fd (S_ "gx_flytomode") FEnum (S_ "gx_flytomode_") (S_ "has_gx_flytomode_")
        [(S_ "gx_flytomode_", Arg); (S_ "has_gx_flytomode_", Const (VBool true))]
        [(S_ "gx_flytomode_", Const (VInt 0)); (S_ "has_gx_flytomode_", Const (VBool false))]
        [(S_ "gx_flytomode_", VInt 0); (S_ "has_gx_flytomode_", VBool false)] (Some (Type_GxFlyToMode, S_ "has_gx_flytomode_", S_ "gx_flytomode_"))]);
  (Type_GxSoundCue,
    [
     fd (S_ "href") FString (S_ "href_") (S_ "has_href_")
        [(S_ "href_", Arg); (S_ "has_href_", Const (VBool true))]
        [(S_ "href_", Const (VText [])); (S_ "has_href_", Const (VBool false))]
        [(S_ "href_", VText []); (S_ "has_href_", VBool false)] (Some (Type_href, S_ "has_href_", S_ "href_"))]);
  (Type_GxTourControl,
    [
     fd (S_ "gx_playmode") FEnum (S_ "gx_playmode_") (S_ "has_gx_playmode_")
        [(S_ "gx_playmode_", Arg); (S_ "has_gx_playmode_", Const (VBool true))]
        [(S_ "gx_playmode_", Const (VInt 0)); (S_ "has_gx_playmode_", Const (VBool false))]
        [(S_ "gx_playmode_", VInt 0); (S_ "has_gx_playmode_", VBool false)] (Some (Type_GxPlayMode, S_ "has_gx_playmode_", S_ "gx_playmode_"))]);
  (Type_IconStyle,
    [
     fd (S_ "scale") FDouble (S_ "scale_") (S_ "has_scale_")
        [(S_ "scale_", Arg); (S_ "has_scale_", Const (VBool true))]
        [(S_ "scale_", Const (VDouble (d_of_Z 1))); (S_ "has_scale_", Const (VBool false))]
        [(S_ "scale_", VDouble (d_of_Z 1)); (S_ "has_scale_", VBool false)] (Some (Type_scale, S_ "has_scale_", S_ "scale_"));
     fd (S_ "heading") FDouble (S_ "heading_") (S_ "has_heading_")
        [(S_ "heading_", Arg); (S_ "has_heading_", Const (VBool true))]
        [(S_ "heading_", Const (VDouble (d_of_Z 0))); (S_ "has_heading_", Const (VBool false))]
        [(S_ "heading_", VDouble (d_of_Z 0)); (S_ "has_heading_", VBool false)] (Some (Type_heading, S_ "has_heading_", S_ "heading_"))]);
  (Type_kml,
    [
     fd (S_ "hint") FString (S_ "hint_") (S_ "has_hint_")
        [(S_ "hint_", Arg); (S_ "has_hint_", Const (VBool true))]
        [(S_ "hint_", Const (VText [])); (S_ "has_hint_", Const (VBool false))]
        [(S_ "hint_", VText []); (S_ "has_hint_", VBool false)] (None)]);
  (Type_LabelStyle,
    [
     fd (S_ "scale") FDouble (S_ "scale_") (S_ "has_scale_")
        [(S_ "scale_", Arg); (S_ "has_scale_", Const (VBool true))]
        [(S_ "scale_", Const (VDouble (d_of_Z 1))); (S_ "has_scale_", Const (VBool false))]
        [(S_ "scale_", VDouble (d_of_Z 1)); (S_ "has_scale_", VBool false)] (Some (Type_scale, S_ "has_scale_", S_ "scale_"))]);
  (Type_LineStyle,
    [
     fd (S_ "width") FDouble (S_ "width_") (S_ "has_width_")
        [(S_ "width_", Arg); (S_ "has_width_", Const (VBool true))]
        [(S_ "width_", Const (VDouble (d_of_Z 1))); (S_ "has_width_", Const (VBool false))]
        [(S_ "width_", VDouble (d_of_Z 1)); (S_ "has_width_", VBool false)] (Some (Type_width, S_ "has_width_", S_ "width_"))]);
  (Type_BasicLink,
    [
     fd (S_ "href") FHref (S_ "href_") (S_ "has_href_")
        [(S_ "href_", Arg); (S_ "has_href_", Const (VBool true))]
        [(S_ "href_", Const (VText [])); (S_ "has_href_", Const (VBool false))]
        [(S_ "href_", VText []); (S_ "has_href_", VBool false)] (Some (Type_href, S_ "has_href_", S_ "href_"))]);
  (C_AbstractLink,
    [
     fd (S_ "refreshmode") FEnum (S_ "refreshmode_") (S_ "has_refreshmode_")
        [(S_ "refreshmode_", Arg); (S_ "has_refreshmode_", Const (VBool true))]
        [(S_ "refreshmode_", Const (VInt 0)); (S_ "has_refreshmode_", Const (VBool false))]
        [(S_ "refreshmode_", VInt 0); (S_ "has_refreshmode_", VBool false)] (Some (Type_refreshMode, S_ "has_refreshmode_", S_ "refreshmode_"));
     fd (S_ "refreshinterval") FDouble (S_ "refreshinterval_") (S_ "has_refreshinterval_")
        [(S_ "refreshinterval_", Arg); (S_ "has_refreshinterval_", Const (VBool true))]
        [(S_ "refreshinterval_", Const (VDouble (d_of_Z 4))); (S_ "has_refreshinterval_", Const (VBool false))]
        [(S_ "refreshinterval_", VDouble (d_of_Z 4)); (S_ "has_refreshinterval_", VBool false)] (Some (Type_refreshInterval, S_ "has_refreshinterval_", S_ "refreshinterval_"));
     fd (S_ "viewrefreshmode") FEnum (S_ "viewrefreshmode_") (S_ "has_viewrefreshmode_")
        [(S_ "viewrefreshmode_", Arg); (S_ "has_viewrefreshmode_", Const (VBool true))]
        [(S_ "viewrefreshmode_", Const (VInt 0)); (S_ "has_viewrefreshmode_", Const (VBool false))]
        [(S_ "viewrefreshmode_", VInt 0); (S_ "has_viewrefreshmode_", VBool false)] (Some (Type_viewRefreshMode, S_ "has_viewrefreshmode_", S_ "viewrefreshmode_"));
     fd (S_ "viewrefreshtime") FDouble (S_ "viewrefreshtime_") (S_ "has_viewrefreshtime_")
        [(S_ "viewrefreshtime_", Arg); (S_ "has_viewrefreshtime_", Const (VBool true))]
        [(S_ "viewrefreshtime_", Const (VDouble (d_of_Z 4))); (S_ "has_viewrefreshtime_", Const (VBool false))]
        [(S_ "viewrefreshtime_", VDouble (d_of_Z 4)); (S_ "has_viewrefreshtime_", VBool false)] (Some (Type_viewRefreshTime, S_ "has_viewrefreshtime_", S_ "viewrefreshtime_"));
     fd (S_ "viewboundscale") FDouble (S_ "viewboundscale_") (S_ "has_viewboundscale_")
        [(S_ "viewboundscale_", Arg); (S_ "has_viewboundscale_", Const (VBool true))]
        [(S_ "viewboundscale_", Const (VDouble (d_of_Z 1))); (S_ "has_viewboundscale_", Const (VBool false))]
        [(S_ "viewboundscale_", VDouble (d_of_Z 1)); (S_ "has_viewboundscale_", VBool false)] (Some (Type_viewBoundScale, S_ "has_viewboundscale_", S_ "viewboundscale_"));
     fd (S_ "viewformat") FString (S_ "viewformat_") (S_ "has_viewformat_")
        [(S_ "viewformat_", Arg); (S_ "has_viewformat_", Const (VBool true))]
        [(S_ "viewformat_", Const (VText [])); (S_ "has_viewformat_", Const (VBool false))]
        [(S_ "viewformat_", VText []); (S_ "has_viewformat_", VBool false)] (Some (Type_viewFormat, S_ "has_viewformat_", S_ "viewformat_"));
     fd (S_ "httpquery") FString (S_ "httpquery_") (S_ "has_httpquery_")
        [(S_ "httpquery_", Arg); (S_ "has_httpquery_", Const (VBool true))]
        [(S_ "httpquery_", Const (VText [])); (S_ "has_httpquery_", Const (VBool false))]
        [(S_ "httpquery_", VText []); (S_ "has_httpquery_", VBool false)] (Some (Type_httpQuery, S_ "has_httpquery_", S_ "httpquery_"))]);
  (Type_IconStyleIcon,
    [
     fd (S_ "gx_x") FDouble (S_ "gx_x_") (S_ "has_gx_x_")
        [(S_ "gx_x_", Arg); (S_ "has_gx_x_", Const (VBool true))]
        [(S_ "gx_x_", Const (VDouble (d_of_Z 0))); (S_ "has_gx_x_", Const (VBool false))]
        [(S_ "gx_x_", VDouble (d_of_Z 0)); (S_ "has_gx_x_", VBool false)] (Some (Type_GxX, S_ "has_gx_x_", S_ "gx_x_"));
     fd (S_ "gx_y") FDouble (S_ "gx_y_") (S_ "has_gx_y_")
        [(S_ "gx_y_", Arg); (S_ "has_gx_y_", Const (VBool true))]
        [(S_ "gx_y_", Const (VDouble (d_of_Z 0))); (S_ "has_gx_y_", Const (VBool false))]
        [(S_ "gx_y_", VDouble (d_of_Z 0)); (S_ "has_gx_y_", VBool false)] (Some (Type_GxY, S_ "has_gx_y_", S_ "gx_y_"));
     fd (S_ "gx_w") FDouble (S_ "gx_w_") (S_ "has_gx_w_")
        [(S_ "gx_w_", Arg); (S_ "has_gx_w_", Const (VBool true))]
        [(S_ "gx_w_", Const (VDouble (d_of_Z 0))); (S_ "has_gx_w_", Const (VBool false))]
        [(S_ "gx_w_", VDouble (d_of_Z 0)); (S_ "has_gx_w_", VBool false)] (Some (Type_GxW, S_ "has_gx_w_", S_ "gx_w_"));
     fd (S_ "gx_h") FDouble (S_ "gx_h_") (S_ "has_gx_h_")
        [(S_ "gx_h_", Arg); (S_ "has_gx_h_", Const (VBool true))]
        [(S_ "gx_h_", Const (VDouble (d_of_Z 0))); (S_ "has_gx_h_", Const (VBool false))]
        [(S_ "gx_h_", VDouble (d_of_Z 0)); (S_ "has_gx_h_", VBool false)] (Some (Type_GxH, S_ "has_gx_h_", S_ "gx_h_"))]);
  (Type_ItemIcon,
    [
     fd (S_ "href") FString (S_ "href_") (S_ "has_href_")
        [(S_ "href_", Arg); (S_ "has_href_", Const (VBool true))]
        [(S_ "href_", Const (VText [])); (S_ "has_href_", Const (VBool false))]
        [(S_ "href_", VText []); (S_ "has_href_", VBool false)] (Some (Type_href, S_ "has_href_", S_ "href_"))]);
  (Type_ListStyle,
    [
     fd (S_ "listitemtype") FEnum (S_ "listitemtype_") (S_ "has_listitemtype_")
        [(S_ "listitemtype_", Arg); (S_ "has_listitemtype_", Const (VBool true))]
        [(S_ "listitemtype_", Const (VInt 0)); (S_ "has_listitemtype_", Const (VBool false))]
        [(S_ "listitemtype_", VInt 0); (S_ "has_listitemtype_", VBool false)] (Some (Type_listItemType, S_ "has_listitemtype_", S_ "listitemtype_"));
     fd (S_ "bgcolor") FColor (S_ "bgcolor_") (S_ "has_bgcolor_")
        [(S_ "bgcolor_", Arg); (S_ "has_bgcolor_", Const (VBool true))]
        [(S_ "bgcolor_", Const (VColor 4294967295)); (S_ "has_bgcolor_", Const (VBool false))]
        [(S_ "bgcolor_", VColor 4294967295); (S_ "has_bgcolor_", VBool false)] (Some (Type_bgColor, S_ "has_bgcolor_", S_ "bgcolor_"));
     fd (S_ "maxsnippetlines") FInt (S_ "maxsnippetlines_") (S_ "has_maxsnippetlines_")
        [(S_ "maxsnippetlines_", Arg); (S_ "has_maxsnippetlines_", Const (VBool true))]
        [(S_ "maxsnippetlines_", Const (VInt 2)); (S_ "has_maxsnippetlines_", Const (VBool false))]
        [(S_ "maxsnippetlines_", VInt 2); (S_ "has_maxsnippetlines_", VBool false)] (Some (Type_maxSnippetLines, S_ "has_maxsnippetlines_", S_ "maxsnippetlines_"))]);
  (Type_NetworkLink,
    [
     fd (S_ "refreshvisibility") FBool (S_ "refreshvisibility_") (S_ "has_refreshvisibility_")
        [(S_ "refreshvisibility_", Arg); (S_ "has_refreshvisibility_", Const (VBool true))]
        [(S_ "refreshvisibility_", Const (VBool false)); (S_ "has_refreshvisibility_", Const (VBool false))]
        [(S_ "refreshvisibility_", VBool false); (S_ "has_refreshvisibility_", VBool false)] (Some (Type_refreshVisibility, S_ "has_refreshvisibility_", S_ "refreshvisibility_"));
     fd (S_ "flytoview") FBool (S_ "flytoview_") (S_ "has_flytoview_")
        [(S_ "flytoview_", Arg); (S_ "has_flytoview_", Const (VBool true))]
        [(S_ "flytoview_", Const (VBool false)); (S_ "has_flytoview_", Const (VBool false))]
        [(S_ "flytoview_", VBool false); (S_ "has_flytoview_", VBool false)] (Some (Type_flyToView, S_ "has_flytoview_", S_ "flytoview_"))]);
  (Type_Update,
    [
     fd (S_ "targethref") FString (S_ "targethref_") (S_ "has_targethref_")
        [(S_ "targethref_", Arg); (S_ "has_targethref_", Const (VBool true))]
        [(S_ "targethref_", Const (VText [])); (S_ "has_targethref_", Const (VBool false))]
        [(S_ "targethref_", VText []); (S_ "has_targethref_", VBool false)] (Some (Type_targetHref, S_ "has_targethref_", S_ "targethref_"))]);
  (Type_NetworkLinkControl,
    [
     fd (S_ "minrefreshperiod") FDouble (S_ "minrefreshperiod_") (S_ "has_minrefreshperiod_")
        [(S_ "minrefreshperiod_", Arg); (S_ "has_minrefreshperiod_", Const (VBool true))]
        [(S_ "minrefreshperiod_", Const (VDouble (d_of_Z 0))); (S_ "has_minrefreshperiod_", Const (VBool false))]
        [(S_ "minrefreshperiod_", VDouble (d_of_Z 0)); (S_ "has_minrefreshperiod_", VBool false)] (Some (Type_minRefreshPeriod, S_ "has_minrefreshperiod_", S_ "minrefreshperiod_"));
     fd (S_ "maxsessionlength") FDouble (S_ "maxsessionlength_") (S_ "has_maxsessionlength_")
        [(S_ "maxsessionlength_", Arg); (S_ "has_maxsessionlength_", Const (VBool true))]
        [(S_ "maxsessionlength_", Const (VDouble (d_of_Z 0))); (S_ "has_maxsessionlength_", Const (VBool false))]
        [(S_ "maxsessionlength_", VDouble (d_of_Z 0)); (S_ "has_maxsessionlength_", VBool false)] (Some (Type_maxSessionLength, S_ "has_maxsessionlength_", S_ "maxsessionlength_"));
     fd (S_ "cookie") FString (S_ "cookie_") (S_ "has_cookie_")
        [(S_ "cookie_", Arg); (S_ "has_cookie_", Const (VBool true))]
        [(S_ "cookie_", Const (VText [])); (S_ "has_cookie_", Const (VBool false))]
        [(S_ "cookie_", VText []); (S_ "has_cookie_", VBool false)] (Some (Type_cookie, S_ "has_cookie_", S_ "cookie_"));
     fd (S_ "message") FString (S_ "message_") (S_ "has_message_")
        [(S_ "message_", Arg); (S_ "has_message_", Const (VBool true))]
        [(S_ "message_", Const (VText [])); (S_ "has_message_", Const (VBool false))]
        [(S_ "message_", VText []); (S_ "has_message_", VBool false)] (Some (Type_message, S_ "has_message_", S_ "message_"));
     fd (S_ "linkname") FString (S_ "linkname_") (S_ "has_linkname_")
        [(S_ "linkname_", Arg); (S_ "has_linkname_", Const (VBool true))]
        [(S_ "linkname_", Const (VText [])); (S_ "has_linkname_", Const (VBool false))]
        [(S_ "linkname_", VText []); (S_ "has_linkname_", VBool false)] (Some (Type_linkName, S_ "has_linkname_", S_ "linkname_"));
     fd (S_ "linkdescription") FString (S_ "linkdescription_") (S_ "has_linkdescription_")
        [(S_ "linkdescription_", Arg); (S_ "has_linkdescription_", Const (VBool true))]
        [(S_ "linkdescription_", Const (VText [])); (S_ "has_linkdescription_", Const (VBool false))]
        [(S_ "linkdescription_", VText []); (S_ "has_linkdescription_", VBool false)] (Some (Type_linkDescription, S_ "has_linkdescription_", S_ "linkdescription_"));
     fd (S_ "expires") FString (S_ "expires_") (S_ "has_expires_")
        [(S_ "expires_", Arg); (S_ "has_expires_", Const (VBool true))]
        [(S_ "expires_", Const (VText [])); (S_ "has_expires_", Const (VBool false))]
        [(S_ "expires_", VText []); (S_ "has_expires_", VBool false)] (Some (Type_expires, S_ "has_expires_", S_ "expires_"))]);
  (Type_Object,
    [
     fd (S_ "id") FString (S_ "id_") (S_ "has_id_")
        [(S_ "id_", Arg); (S_ "has_id_", Const (VBool true))]
        [(S_ "id_", Const (VText [])); (S_ "has_id_", Const (VBool false))]
        [(S_ "id_", VText []); (S_ "has_id_", VBool false)] (None);
     fd (S_ "targetid") FString (S_ "targetid_") (S_ "has_targetid_")
        [(S_ "targetid_", Arg); (S_ "has_targetid_", Const (VBool true))]
        [(S_ "targetid_", Const (VText [])); (S_ "has_targetid_", Const (VBool false))]
        [(S_ "targetid_", VText []); (S_ "has_targetid_", VBool false)] (None)]);
  (Type_Overlay,
    [
     fd (S_ "color") FColor (S_ "color_") (S_ "has_color_")
        [(S_ "color_", Arg); (S_ "has_color_", Const (VBool true))]
        [(S_ "color_", Const (VColor 4294967295)); (S_ "has_color_", Const (VBool false))]
        [(S_ "color_", VColor 4294967295); (S_ "has_color_", VBool false)] (Some (Type_color, S_ "has_color_", S_ "color_"));
     fd (S_ "draworder") FInt (S_ "draworder_") (S_ "has_draworder_")
        [(S_ "draworder_", Arg); (S_ "has_draworder_", Const (VBool true))]
        [(S_ "draworder_", Const (VInt 0)); (S_ "has_draworder_", Const (VBool false))]
        [(S_ "draworder_", VInt 0); (S_ "has_draworder_", VBool false)] (Some (Type_drawOrder, S_ "has_draworder_", S_ "draworder_"))]);
  (Type_LatLonBox,
    [
     fd (S_ "rotation") FDouble (S_ "rotation_") (S_ "has_rotation_")
        [(S_ "rotation_", Arg); (S_ "has_rotation_", Const (VBool true))]
        [(S_ "rotation_", Const (VDouble (d_of_Z 0))); (S_ "has_rotation_", Const (VBool false))]
        [(S_ "rotation_", VDouble (d_of_Z 0)); (S_ "has_rotation_", VBool false)] (Some (Type_rotation, S_ "has_rotation_", S_ "rotation_"))]);
  (Type_GroundOverlay,
    [
     fd (S_ "altitude") FDouble (S_ "altitude_") (S_ "has_altitude_")
        [(S_ "altitude_", Arg); (S_ "has_altitude_", Const (VBool true))]
        [(S_ "altitude_", Const (VDouble (d_of_Z 0))); (S_ "has_altitude_", Const (VBool false))]
        [(S_ "altitude_", VDouble (d_of_Z 0)); (S_ "has_altitude_", VBool false)] (Some (Type_altitude, S_ "has_altitude_", S_ "altitude_"));
     fd (S_ "altitudemode") FEnum (S_ "altitudemode_") (S_ "has_altitudemode_")
        [(S_ "altitudemode_", Arg); (S_ "has_altitudemode_", Const (VBool true))]
        [(S_ "altitudemode_", Const (VInt 0)); (S_ "has_altitudemode_", Const (VBool false))]
        [(S_ "altitudemode_", VInt 0); (S_ "has_altitudemode_", VBool false)] (Some (Type_altitudeMode, S_ "has_altitudemode_", S_ "altitudemode_"));
     fd (S_ "gx_altitudemode") FEnum (S_ "gx_altitudemode_") (S_ "has_gx_altitudemode_")
        [(S_ "gx_altitudemode_", Arg); (S_ "has_gx_altitudemode_", Const (VBool true))]
        [(S_ "gx_altitudemode_", Const (VInt 0)); (S_ "has_gx_altitudemode_", Const (VBool false))]
        [(S_ "gx_altitudemode_", VInt 0); (S_ "has_gx_altitudemode_", VBool false)] (Some (Type_GxAltitudeMode, S_ "has_gx_altitudemode_", S_ "gx_altitudemode_"))]);
  (Type_ScreenOverlay,
    [
     fd (S_ "rotation") FDouble (S_ "rotation_") (S_ "has_rotation_")
        [(S_ "rotation_", Arg); (S_ "has_rotation_", Const (VBool true))]
        [(S_ "rotation_", Const (VDouble (d_of_Z 0))); (S_ "has_rotation_", Const (VBool false))]
        [(S_ "rotation_", VDouble (d_of_Z 0)); (S_ "has_rotation_", VBool false)] (Some (Type_rotation, S_ "has_rotation_", S_ "rotation_"))]);
  (Type_ViewVolume,
    [
     fd (S_ "leftfov") FDouble (S_ "leftfov_") (S_ "has_leftfov_")
        [(S_ "leftfov_", Arg); (S_ "has_leftfov_", Const (VBool true))]
        [(S_ "leftfov_", Const (VDouble (d_of_Z 0))); (S_ "has_leftfov_", Const (VBool false))]
        [(S_ "leftfov_", VDouble (d_of_Z 0)); (S_ "has_leftfov_", VBool false)] (Some (Type_leftFov, S_ "has_leftfov_", S_ "leftfov_"));
     fd (S_ "rightfov") FDouble (S_ "rightfov_") (S_ "has_rightfov_")
        [(S_ "rightfov_", Arg); (S_ "has_rightfov_", Const (VBool true))]
        [(S_ "rightfov_", Const (VDouble (d_of_Z 0))); (S_ "has_rightfov_", Const (VBool false))]
        [(S_ "rightfov_", VDouble (d_of_Z 0)); (S_ "has_rightfov_", VBool false)] (Some (Type_rightFov, S_ "has_rightfov_", S_ "rightfov_"));
     fd (S_ "bottomfov") FDouble (S_ "bottomfov_") (S_ "has_bottomfov_")
        [(S_ "bottomfov_", Arg); (S_ "has_bottomfov_", Const (VBool true))]
        [(S_ "bottomfov_", Const (VDouble (d_of_Z 0))); (S_ "has_bottomfov_", Const (VBool false))]
        [(S_ "bottomfov_", VDouble (d_of_Z 0)); (S_ "has_bottomfov_", VBool false)] (Some (Type_bottomFov, S_ "has_bottomfov_", S_ "bottomfov_"));
     fd (S_ "topfov") FDouble (S_ "topfov_") (S_ "has_topfov_")
        [(S_ "topfov_", Arg); (S_ "has_topfov_", Const (VBool true))]
        [(S_ "topfov_", Const (VDouble (d_of_Z 0))); (S_ "has_topfov_", Const (VBool false))]
        [(S_ "topfov_", VDouble (d_of_Z 0)); (S_ "has_topfov_", VBool false)] (Some (Type_topFov, S_ "has_topfov_", S_ "topfov_"));
     fd (S_ "near") FDouble (S_ "near_") (S_ "has_near_")
        [(S_ "near_", Arg); (S_ "has_near_", Const (VBool true))]
        [(S_ "near_", Const (VDouble (d_of_Z 0))); (S_ "has_near_", Const (VBool false))]
        [(S_ "near_", VDouble (d_of_Z 0)); (S_ "has_near_", VBool false)] (Some (Type_near, S_ "has_near_", S_ "near_"))]);
  (Type_ImagePyramid,
    [
     fd (S_ "tilesize") FInt (S_ "tilesize_") (S_ "has_tilesize_")
        [(S_ "tilesize_", Arg); (S_ "has_tilesize_", Const (VBool true))]
        [(S_ "tilesize_", Const (VInt 256)); (S_ "has_tilesize_", Const (VBool false))]
        [(S_ "tilesize_", VInt 256); (S_ "has_tilesize_", VBool false)] (Some (Type_tileSize, S_ "has_tilesize_", S_ "tilesize_"));
     fd (S_ "maxwidth") FInt (S_ "maxwidth_") (S_ "has_maxwidth_")
        [(S_ "maxwidth_", Arg); (S_ "has_maxwidth_", Const (VBool true))]
        [(S_ "maxwidth_", Const (VInt 0)); (S_ "has_maxwidth_", Const (VBool false))]
        [(S_ "maxwidth_", VInt 0); (S_ "has_maxwidth_", VBool false)] (Some (Type_maxWidth, S_ "has_maxwidth_", S_ "maxwidth_"));
     fd (S_ "maxheight") FInt (S_ "maxheight_") (S_ "has_maxheight_")
        [(S_ "maxheight_", Arg); (S_ "has_maxheight_", Const (VBool true))]
        [(S_ "maxheight_", Const (VInt 0)); (S_ "has_maxheight_", Const (VBool false))]
        [(S_ "maxheight_", VInt 0); (S_ "has_maxheight_", VBool false)] (Some (Type_maxHeight, S_ "has_maxheight_", S_ "maxheight_"));
     fd (S_ "gridorigin") FEnum (S_ "gridorigin_") (S_ "has_gridorigin_")
        [(S_ "gridorigin_", Arg); (S_ "has_gridorigin_", Const (VBool true))]
        [(S_ "gridorigin_", Const (VInt 0)); (S_ "has_gridorigin_", Const (VBool false))]
        [(S_ "gridorigin_", VInt 0); (S_ "has_gridorigin_", VBool false)] (Some (Type_gridOrigin, S_ "has_gridorigin_", S_ "gridorigin_"))]);
  (Type_PhotoOverlay,
    [
     fd (S_ "rotation") FDouble (S_ "rotation_") (S_ "has_rotation_")
        [(S_ "rotation_", Arg); (S_ "has_rotation_", Const (VBool true))]
        [(S_ "rotation_", Const (VDouble (d_of_Z 0))); (S_ "has_rotation_", Const (VBool false))]
        [(S_ "rotation_", VDouble (d_of_Z 0)); (S_ "has_rotation_", VBool false)] (Some (Type_rotation, S_ "has_rotation_", S_ "rotation_"));
     fd (S_ "shape") FEnum (S_ "shape_") (S_ "has_shape_")
        [(S_ "shape_", Arg); (S_ "has_shape_", Const (VBool true))]
        [(S_ "shape_", Const (VInt 0)); (S_ "has_shape_", Const (VBool false))]
        [(S_ "shape_", VInt 0); (S_ "has_shape_", VBool false)] (Some (Type_shape, S_ "has_shape_", S_ "shape_"))]);
  (Type_PolyStyle,
    [
     fd (S_ "fill") FBool (S_ "fill_") (S_ "has_fill_")
        [(S_ "fill_", Arg); (S_ "has_fill_", Const (VBool true))]
        [(S_ "fill_", Const (VBool true)); (S_ "has_fill_", Const (VBool false))]
        [(S_ "fill_", VBool true); (S_ "has_fill_", VBool false)] (Some (Type_fill, S_ "has_fill_", S_ "fill_"));
     fd (S_ "outline") FBool (S_ "outline_") (S_ "has_outline_")
        [(S_ "outline_", Arg); (S_ "has_outline_", Const (VBool true))]
        [(S_ "outline_", Const (VBool true)); (S_ "has_outline_", Const (VBool false))]
        [(S_ "outline_", VBool true); (S_ "has_outline_", VBool false)] (Some (Type_outline, S_ "has_outline_", S_ "outline_"))]);
  (Type_LatLonAltBox,
    [
     fd (S_ "minaltitude") FDouble (S_ "minaltitude_") (S_ "has_minaltitude_")
        [(S_ "minaltitude_", Arg); (S_ "has_minaltitude_", Const (VBool true))]
        [(S_ "minaltitude_", Const (VDouble (d_of_Z 0))); (S_ "has_minaltitude_", Const (VBool false))]
        [(S_ "minaltitude_", VDouble (d_of_Z 0)); (S_ "has_minaltitude_", VBool false)] (Some (Type_minAltitude, S_ "has_minaltitude_", S_ "minaltitude_"));
     fd (S_ "maxaltitude") FDouble (S_ "maxaltitude_") (S_ "has_maxaltitude_")
        [(S_ "maxaltitude_", Arg); (S_ "has_maxaltitude_", Const (VBool true))]
        [(S_ "maxaltitude_", Const (VDouble (d_of_Z 0))); (S_ "has_maxaltitude_", Const (VBool false))]
        [(S_ "maxaltitude_", VDouble (d_of_Z 0)); (S_ "has_maxaltitude_", VBool false)] (Some (Type_maxAltitude, S_ "has_maxaltitude_", S_ "maxaltitude_"));
     fd (S_ "altitudemode") FEnum (S_ "altitudemode_") (S_ "has_altitudemode_")
        [(S_ "altitudemode_", Arg); (S_ "has_altitudemode_", Const (VBool true))]
        [(S_ "altitudemode_", Const (VInt 0)); (S_ "has_altitudemode_", Const (VBool false))]
        [(S_ "altitudemode_", VInt 0); (S_ "has_altitudemode_", VBool false)] (Some (Type_altitudeMode, S_ "has_altitudemode_", S_ "altitudemode_"));
     fd (S_ "gx_altitudemode") FEnum (S_ "gx_altitudemode_") (S_ "has_gx_altitudemode_")
        [(S_ "gx_altitudemode_", Arg); (S_ "has_gx_altitudemode_", Const (VBool true))]
        [(S_ "gx_altitudemode_", Const (VInt 0)); (S_ "has_gx_altitudemode_", Const (VBool false))]
        [(S_ "gx_altitudemode_", VInt 0); (S_ "has_gx_altitudemode_", VBool false)] (Some (Type_GxAltitudeMode, S_ "has_gx_altitudemode_", S_ "gx_altitudemode_"))]);
  (Type_Lod,
    [
     fd (S_ "minlodpixels") FDouble (S_ "minlodpixels_") (S_ "has_minlodpixels_")
        [(S_ "minlodpixels_", Arg); (S_ "has_minlodpixels_", Const (VBool true))]
        [(S_ "minlodpixels_", Const (VDouble (d_of_Z 0))); (S_ "has_minlodpixels_", Const (VBool false))]
        [(S_ "minlodpixels_", VDouble (d_of_Z 0)); (S_ "has_minlodpixels_", VBool false)] (Some (Type_minLodPixels, S_ "has_minlodpixels_", S_ "minlodpixels_"));
     fd (S_ "maxlodpixels") FDouble (S_ "maxlodpixels_") (S_ "has_maxlodpixels_")
        [(S_ "maxlodpixels_", Arg); (S_ "has_maxlodpixels_", Const (VBool true))]
        [(S_ "maxlodpixels_", Const (VDouble (d_of_Z (-1)))); (S_ "has_maxlodpixels_", Const (VBool false))]
        [(S_ "maxlodpixels_", VDouble (d_of_Z (-1))); (S_ "has_maxlodpixels_", VBool false)] (Some (Type_maxLodPixels, S_ "has_maxlodpixels_", S_ "maxlodpixels_"));
     fd (S_ "minfadeextent") FDouble (S_ "minfadeextent_") (S_ "has_minfadeextent_")
        [(S_ "minfadeextent_", Arg); (S_ "has_minfadeextent_", Const (VBool true))]
        [(S_ "minfadeextent_", Const (VDouble (d_of_Z 0))); (S_ "has_minfadeextent_", Const (VBool false))]
        [(S_ "minfadeextent_", VDouble (d_of_Z 0)); (S_ "has_minfadeextent_", VBool false)] (Some (Type_minFadeExtent, S_ "has_minfadeextent_", S_ "minfadeextent_"));
     fd (S_ "maxfadeextent") FDouble (S_ "maxfadeextent_") (S_ "has_maxfadeextent_")
        [(S_ "maxfadeextent_", Arg); (S_ "has_maxfadeextent_", Const (VBool true))]
        [(S_ "maxfadeextent_", Const (VDouble (d_of_Z 0))); (S_ "has_maxfadeextent_", Const (VBool false))]
        [(S_ "maxfadeextent_", VDouble (d_of_Z 0)); (S_ "has_maxfadeextent_", VBool false)] (Some (Type_maxFadeExtent, S_ "has_maxfadeextent_", S_ "maxfadeextent_"))]);
  (Type_SimpleField,
    [
     fd (S_ "type") FString (S_ "type_") (S_ "has_type_")
        [(S_ "type_", Arg); (S_ "has_type_", Const (VBool true))]
        [(S_ "type_", Const (VText [])); (S_ "has_type_", Const (VBool false))]
        [(S_ "type_", VText []); (S_ "has_type_", VBool false)] (None);
     fd (S_ "name") FString (S_ "name_") (S_ "has_name_")
        [(S_ "name_", Arg); (S_ "has_name_", Const (VBool true))]
        [(S_ "name_", Const (VText [])); (S_ "has_name_", Const (VBool false))]
        [(S_ "name_", VText []); (S_ "has_name_", VBool false)] (None);
     fd (S_ "displayname") FString (S_ "displayname_") (S_ "has_displayname_")
        [(S_ "displayname_", Arg); (S_ "has_displayname_", Const (VBool true))]
        [(S_ "displayname_", Const (VText [])); (S_ "has_displayname_", Const (VBool false))]
        [(S_ "displayname_", VText []); (S_ "has_displayname_", VBool false)] (Some (Type_displayName, S_ "has_displayname_", S_ "displayname_"))]);
  (Type_Schema,
    [
     fd (S_ "name") FString (S_ "name_") (S_ "has_name_")
        [(S_ "name_", Arg); (S_ "has_name_", Const (VBool true))]
        [(S_ "name_", Const (VText [])); (S_ "has_name_", Const (VBool false))]
        [(S_ "name_", VText []); (S_ "has_name_", VBool false)] (None)]);
  (C_SnippetCommon,
    [
     fd (S_ "text") FString (S_ "text_") (S_ "has_text_")
        [(S_ "text_", Arg); (S_ "has_text_", Const (VBool true))]
        [(S_ "text_", Const (VText [])); (S_ "has_text_", Const (VBool false))]
        [(S_ "text_", VText []); (S_ "has_text_", VBool false)] (None);
     fd (S_ "maxlines") FInt (S_ "maxlines_") (S_ "has_maxlines_")
        [(S_ "maxlines_", Arg); (S_ "has_maxlines_", Const (VBool true))]
        [(S_ "maxlines_", Const (VInt 2)); (S_ "has_maxlines_", Const (VBool false))]
        [(S_ "maxlines_", VInt 2); (S_ "has_maxlines_", VBool false)] (None)]);
  (Type_Pair,
    [
     fd (S_ "key") FEnum (S_ "key_") (S_ "has_key_")
        [(S_ "key_", Arg); (S_ "has_key_", Const (VBool true))]
        [(S_ "key_", Const (VInt 0)); (S_ "has_key_", Const (VBool false))]
        [(S_ "key_", VInt 0); (S_ "has_key_", VBool false)] (Some (Type_key, S_ "has_key_", S_ "key_"));
     fd (S_ "styleurl") FString (S_ "styleurl_") (S_ "has_styleurl_")
        [(S_ "styleurl_", Arg); (S_ "has_styleurl_", Const (VBool true))]
        [(S_ "styleurl_", Const (VText [])); (S_ "has_styleurl_", Const (VBool false))]
        [(S_ "styleurl_", VText []); (S_ "has_styleurl_", VBool false)] (Some (Type_styleUrl, S_ "has_styleurl_", S_ "styleurl_"))]);
  (Type_TimeSpan,
    [
     fd (S_ "begin") FString (S_ "begin_") (S_ "has_begin_")
        [(S_ "begin_", Arg); (S_ "has_begin_", Const (VBool true))]
        [(S_ "begin_", Const (VText [])); (S_ "has_begin_", Const (VBool false))]
        [(S_ "begin_", VText []); (S_ "has_begin_", VBool false)] (Some (Type_begin, S_ "has_begin_", S_ "begin_"));
     fd (S_ "end") FString (S_ "end_") (S_ "has_end_")
        [(S_ "end_", Arg); (S_ "has_end_", Const (VBool true))]
        [(S_ "end_", Const (VText [])); (S_ "has_end_", Const (VBool false))]
        [(S_ "end_", VText []); (S_ "has_end_", VBool false)] (Some (Type_end, S_ "has_end_", S_ "end_"))]);
  (Type_TimeStamp,
    [
     fd (S_ "when") FString (S_ "when_") (S_ "has_when_")
        [(S_ "when_", Arg); (S_ "has_when_", Const (VBool true))]
        [(S_ "when_", Const (VText [])); (S_ "has_when_", Const (VBool false))]
        [(S_ "when_", VText []); (S_ "has_when_", VBool false)] (Some (Type_when, S_ "has_when_", S_ "when_"))]);
  (Type_Vec2,
    [
     fd (S_ "x") FDouble (S_ "x_") (S_ "has_x_")
        [(S_ "x_", Arg); (S_ "has_x_", Const (VBool true))]
        [(S_ "x_", Const (VDouble (d_of_Z 1))); (S_ "has_x_", Const (VBool false))]
        [(S_ "x_", VDouble (d_of_Z 1)); (S_ "has_x_", VBool false)] (None);
     fd (S_ "y") FDouble (S_ "y_") (S_ "has_y_")
        [(S_ "y_", Arg); (S_ "has_y_", Const (VBool true))]
        [(S_ "y_", Const (VDouble (d_of_Z 1))); (S_ "has_y_", Const (VBool false))]
        [(S_ "y_", VDouble (d_of_Z 1)); (S_ "has_y_", VBool false)] (None);
     fd (S_ "xunits") FInt (S_ "xunits_") (S_ "has_xunits_")
        [(S_ "xunits_", Arg); (S_ "has_xunits_", Const (VBool true))]
        [(S_ "xunits_", Const (VInt 0)); (S_ "has_xunits_", Const (VBool false))]
        [(S_ "xunits_", VInt 0); (S_ "has_xunits_", VBool false)] (None);
     fd (S_ "yunits") FInt (S_ "yunits_") (S_ "has_yunits_")
        [(S_ "yunits_", Arg); (S_ "has_yunits_", Const (VBool true))]
        [(S_ "yunits_", Const (VInt 0)); (S_ "has_yunits_", Const (VBool false))]
        [(S_ "yunits_", VInt 0); (S_ "has_yunits_", VBool false)] (None)]);
  (Type_XalAdministrativeArea,
    [
     fd (S_ "administrativeareaname") FString (S_ "administrativeareaname_") (S_ "has_administrativeareaname_")
        [(S_ "administrativeareaname_", Arg); (S_ "has_administrativeareaname_", Const (VBool true))]
        [(S_ "administrativeareaname_", Const (VText [])); (S_ "has_administrativeareaname_", Const (VBool false))]
        [(S_ "administrativeareaname_", VText []); (S_ "has_administrativeareaname_", VBool false)] (Some (Type_xalAdministrativeAreaName, S_ "has_administrativeareaname_", S_ "administrativeareaname_"))]);
  (Type_XalCountry,
    [
     fd (S_ "countrynamecode") FString (S_ "countrynamecode_") (S_ "has_countrynamecode_")
        [(S_ "countrynamecode_", Arg); (S_ "has_countrynamecode_", Const (VBool true))]
        [(S_ "countrynamecode_", Const (VText [])); (S_ "has_countrynamecode_", Const (VBool false))]
        [(S_ "countrynamecode_", VText []); (S_ "has_countrynamecode_", VBool false)] (Some (Type_xalCountryNameCode, S_ "has_countrynamecode_", S_ "countrynamecode_"))]);
  (Type_XalLocality,
    [
     fd (S_ "localityname") FString (S_ "localityname_") (S_ "has_localityname_")
        [(S_ "localityname_", Arg); (S_ "has_localityname_", Const (VBool true))]
        [(S_ "localityname_", Const (VText [])); (S_ "has_localityname_", Const (VBool false))]
        [(S_ "localityname_", VText []); (S_ "has_localityname_", VBool false)] (Some (Type_xalLocalityName, S_ "has_localityname_", S_ "localityname_"))]);
  (Type_XalPostalCode,
    [
     fd (S_ "postalcodenumber") FString (S_ "postalcodenumber_") (S_ "has_postalcodenumber_")
        [(S_ "postalcodenumber_", Arg); (S_ "has_postalcodenumber_", Const (VBool true))]
        [(S_ "postalcodenumber_", Const (VText [])); (S_ "has_postalcodenumber_", Const (VBool false))]
        [(S_ "postalcodenumber_", VText []); (S_ "has_postalcodenumber_", VBool false)] (Some (Type_xalPostalCodeNumber, S_ "has_postalcodenumber_", S_ "postalcodenumber_"))]);
  (Type_XalSubAdministrativeArea,
    [
     fd (S_ "subadministrativeareaname") FString (S_ "subadministrativeareaname_") (S_ "has_subadministrativeareaname_")
        [(S_ "subadministrativeareaname_", Arg); (S_ "has_subadministrativeareaname_", Const (VBool true))]
        [(S_ "subadministrativeareaname_", Const (VText [])); (S_ "has_subadministrativeareaname_", Const (VBool false))]
        [(S_ "subadministrativeareaname_", VText []); (S_ "has_subadministrativeareaname_", VBool false)] (Some (Type_xalSubAdministrativeAreaName, S_ "has_subadministrativeareaname_", S_ "subadministrativeareaname_"))]);
  (Type_XalThoroughfare,
    [
     fd (S_ "thoroughfarename") FString (S_ "thoroughfarename_") (S_ "has_thoroughfarename_")
        [(S_ "thoroughfarename_", Arg); (S_ "has_thoroughfarename_", Const (VBool true))]
        [(S_ "thoroughfarename_", Const (VText [])); (S_ "has_thoroughfarename_", Const (VBool false))]
        [(S_ "thoroughfarename_", VText []); (S_ "has_thoroughfarename_", VBool false)] (Some (Type_xalThoroughfareName, S_ "has_thoroughfarename_", S_ "thoroughfarename_"));
     fd (S_ "thoroughfarenumber") FString (S_ "thoroughfarenumber_") (S_ "has_thoroughfarenumber_")
        [(S_ "thoroughfarenumber_", Arg); (S_ "has_thoroughfarenumber_", Const (VBool true))]
        [(S_ "thoroughfarenumber_", Const (VText [])); (S_ "has_thoroughfarenumber_", Const (VBool false))]
        [(S_ "thoroughfarenumber_", VText []); (S_ "has_thoroughfarenumber_", VBool false)] (Some (Type_xalThoroughfareNumber, S_ "has_thoroughfarenumber_", S_ "thoroughfarenumber_"))])].

(** The classes an object consists of, the most derived first. *)
Fixpoint classes_of (fuel : nat) (c : N) : list N :=
  match fuel with
  | O => []
  | S n => c :: match List.find (fun e => fst e =? c) base_class with Some (_, b) => classes_of n b | None => [] end
  end.
(** The fields of an object, each with the class that declares it (a class has at most seven base classes). *)
Definition fields_in (c : N) : list fld := match List.find (fun e => fst e =? c) own_fields with Some (_, l) => l | None => [] end.
Definition fields (c : N) : list (N * fld) := flat_map (fun d => map (pair d) (fields_in d)) (classes_of 8 c).

(** The members of an object: declaring class, name, value. *)
Definition members := list (N * str * val).
Definition same (d : N) (m : str) (e : N * str * val) : bool := let '(d', m', _) := e in (d =? d') && eqs m m'.
Definition read (st : members) (d : N) (m : str) : option val := option_map snd (List.find (same d m) st).
Definition write (st : members) (d : N) (m : str) (v : val) : members :=
  map (fun e => if same d m e then (fst e, v) else e) st.
Definition fresh (c : N) : members := flat_map (fun df => map (fun mv => (fst df, fst mv, snd mv)) (f_init (snd df))) (fields c).

(** A function is called by its name: the most derived class that declares it (C++ name lookup). *)
Definition field_named (c : N) (n : str) : option (N * fld) := List.find (fun df => eqs (f_name (snd df)) n) (fields c).
(** A child goes to the first class, from the most derived on, whose AddElement has a case for it. *)
Definition takes_child (ty : N) (df : N * fld) : bool := match f_add (snd df) with Some (t, _, _) => t =? ty | None => false end.
Definition field_of_child (c ty : N) : option (N * fld) := List.find (takes_child ty) (fields c).
Definition assign (d : N) (arg : val) (st : members) (a : str * rhs) : members :=
  write st d (fst a) (match snd a with Arg => arg | Const v => v end).

Section Reading.
  (** kmlbase::FromString to double and int (string_util.h, string_util.cc:94-105): None, the variable is not written. *)
  Variable read_double : str -> option double.
  Variable read_int : str -> option Z.

  (** element.cc:178-226 SetBool, SetDouble, SetInt, SetEnum, SetString; link.cc:46-58 SetStringInsideCdata; Color32(text): the new
      value (None, not written) and the result. *)
  Definition read_child (k : fkind) (ty : N) (s : str) : res (option val * bool) :=
    match k with
    | FBool => Ok (Some (VBool (from_string_bool s)), true)
    | FDouble => Ok (option_map VDouble (read_double s), true)
    | FInt => Ok (option_map VInt (read_int s), true)
    | FEnum => let e := enum_id ty s in Ok (if (e =? -1)%Z then (None, false) else (Some (VInt e), true))
    | FHref => Ok (Some (VText (inside_cdata s)), true)
    | FColor => do c <- set_color_abgr_str 0 s; Ok (Some (VColor c), true)
    | _ => Ok (Some (VText s), true)
    end.

  (** What can be done to an object: set_, clear_ and AddElement of a simple child with the given text. *)
  Inductive op := OSet (n : str) (v : val) | OClear (n : str) | OChild (ty : N) (s : str).
  (** A function that does not exist leaves the object as it is; so does, here, a child that is not a simple field. *)
  Definition step (c : N) (st : members) (o : op) : res members :=
    match o with
    | OSet n v => Ok (match field_named c n with Some (d, f) => fold_left (assign d v) (f_set f) st | None => st end)
    | OClear n => Ok (match field_named c n with Some (d, f) => fold_left (assign d (VBool false)) (f_clear f) st | None => st end)
    | OChild ty s =>
        match field_of_child c ty with
        | Some (d, f) =>
            match f_add f with
            | Some (_, h, m) =>
                do (w, r) <- read_child (f_kind f) ty s;
                let st := match w with Some v => write st d m v | None => st end in
                Ok (write st d h (VBool r))
            | None => Ok st
            end
        | None => Ok st
        end
    end.
  Fixpoint run (c : N) (st : members) (l : list op) : res members :=
    match l with
    | [] => Ok st
    | o :: r => do st <- step c st o; run c st r
    end.
  (** get_ and has_ of an object. *)
  Definition get_field (c : N) (n : str) (st : members) : option val :=
    match field_named c n with Some (d, f) => read st d (f_get f) | None => None end.
  Definition has_field (c : N) (n : str) (st : members) : option val :=
    match field_named c n with Some (d, f) => read st d (f_has f) | None => None end.
End Reading.

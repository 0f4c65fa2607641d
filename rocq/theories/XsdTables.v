(** Tables of src/kml/dom/kml22.h and kml22.cc, transcribed entry by entry. *)
From Verif Require Import Common.
Local Open Scope N_scope.

(** xsd.h:39-43 XsdType. *)
Inductive xsd_type := XSD_SIMPLE | XSD_COMPLEX | XSD_UNKNOWN.

(** kml22.h:40-274 enum KmlDomType: one constant per enumerator, numbered in order. *)
Definition Type_Unknown : N := 0.
Definition Type_ColorStyle : N := 1.
Definition Type_Container : N := 2.
Definition Type_Feature : N := 3.
Definition Type_Geometry : N := 4.
Definition Type_AbstractLatLonBox : N := 5.
Definition Type_Object : N := 6.
Definition Type_Overlay : N := 7.
Definition Type_StyleSelector : N := 8.
Definition Type_SubStyle : N := 9.
Definition Type_TimePrimitive : N := 10.
Definition Type_AbstractView : N := 11.
Definition Type_BasicLink : N := 12.
Definition Type_Vec2 : N := 13.
Definition Type_Alias : N := 14.
Definition Type_BalloonStyle : N := 15.
Definition Type_Camera : N := 16.
Definition Type_Change : N := 17.
Definition Type_Create : N := 18.
Definition Type_Data : N := 19.
Definition Type_Delete : N := 20.
Definition Type_Document : N := 21.
Definition Type_ExtendedData : N := 22.
Definition Type_Folder : N := 23.
Definition Type_GroundOverlay : N := 24.
Definition Type_Icon : N := 25.
Definition Type_IconStyle : N := 26.
Definition Type_IconStyleIcon : N := 27.
Definition Type_ImagePyramid : N := 28.
Definition Type_ItemIcon : N := 29.
Definition Type_LabelStyle : N := 30.
Definition Type_LatLonAltBox : N := 31.
Definition Type_LatLonBox : N := 32.
Definition Type_LineString : N := 33.
Definition Type_LineStyle : N := 34.
Definition Type_LinearRing : N := 35.
Definition Type_Link : N := 36.
Definition Type_ListStyle : N := 37.
Definition Type_Location : N := 38.
Definition Type_Lod : N := 39.
Definition Type_LookAt : N := 40.
Definition Type_Metadata : N := 41.
Definition Type_Model : N := 42.
Definition Type_MultiGeometry : N := 43.
Definition Type_NetworkLink : N := 44.
Definition Type_NetworkLinkControl : N := 45.
Definition Type_Orientation : N := 46.
Definition Type_Pair : N := 47.
Definition Type_PhotoOverlay : N := 48.
Definition Type_Placemark : N := 49.
Definition Type_Point : N := 50.
Definition Type_PolyStyle : N := 51.
Definition Type_Polygon : N := 52.
Definition Type_Region : N := 53.
Definition Type_ResourceMap : N := 54.
Definition Type_Scale : N := 55.
Definition Type_Schema : N := 56.
Definition Type_SchemaData : N := 57.
Definition Type_ScreenOverlay : N := 58.
Definition Type_SimpleData : N := 59.
Definition Type_SimpleField : N := 60.
Definition Type_Snippet : N := 61.
Definition Type_Style : N := 62.
Definition Type_StyleMap : N := 63.
Definition Type_TimeSpan : N := 64.
Definition Type_TimeStamp : N := 65.
Definition Type_Update : N := 66.
Definition Type_Url : N := 67.
Definition Type_ViewVolume : N := 68.
Definition Type_address : N := 69.
Definition Type_altitude : N := 70.
Definition Type_altitudeMode : N := 71.
Definition Type_altitudeModeGroup : N := 72.
Definition Type_begin : N := 73.
Definition Type_bgColor : N := 74.
Definition Type_bottomFov : N := 75.
Definition Type_color : N := 76.
Definition Type_colorMode : N := 77.
Definition Type_cookie : N := 78.
Definition Type_coordinates : N := 79.
Definition Type_description : N := 80.
Definition Type_displayMode : N := 81.
Definition Type_displayName : N := 82.
Definition Type_drawOrder : N := 83.
Definition Type_east : N := 84.
Definition Type_end : N := 85.
Definition Type_expires : N := 86.
Definition Type_extrude : N := 87.
Definition Type_fill : N := 88.
Definition Type_flyToView : N := 89.
Definition Type_gridOrigin : N := 90.
Definition Type_heading : N := 91.
Definition Type_hotSpot : N := 92.
Definition Type_href : N := 93.
Definition Type_httpQuery : N := 94.
Definition Type_innerBoundaryIs : N := 95.
Definition Type_key : N := 96.
Definition Type_kml : N := 97.
Definition Type_latitude : N := 98.
Definition Type_leftFov : N := 99.
Definition Type_linkDescription : N := 100.
Definition Type_linkName : N := 101.
Definition Type_linkSnippet : N := 102.
Definition Type_listItemType : N := 103.
Definition Type_longitude : N := 104.
Definition Type_maxAltitude : N := 105.
Definition Type_maxFadeExtent : N := 106.
Definition Type_maxHeight : N := 107.
Definition Type_maxLength : N := 108.
Definition Type_maxLodPixels : N := 109.
Definition Type_maxSessionLength : N := 110.
Definition Type_maxSnippetLines : N := 111.
Definition Type_maxWidth : N := 112.
Definition Type_message : N := 113.
Definition Type_minAltitude : N := 114.
Definition Type_minFadeExtent : N := 115.
Definition Type_minLodPixels : N := 116.
Definition Type_minRefreshPeriod : N := 117.
Definition Type_name : N := 118.
Definition Type_near : N := 119.
Definition Type_north : N := 120.
Definition Type_open : N := 121.
Definition Type_outerBoundaryIs : N := 122.
Definition Type_outline : N := 123.
Definition Type_overlayXY : N := 124.
Definition Type_phoneNumber : N := 125.
Definition Type_range : N := 126.
Definition Type_refreshInterval : N := 127.
Definition Type_refreshMode : N := 128.
Definition Type_refreshVisibility : N := 129.
Definition Type_rightFov : N := 130.
Definition Type_roll : N := 131.
Definition Type_rotation : N := 132.
Definition Type_rotationXY : N := 133.
Definition Type_scale : N := 134.
Definition Type_screenXY : N := 135.
Definition Type_shape : N := 136.
Definition Type_size : N := 137.
Definition Type_snippet : N := 138.
Definition Type_sourceHref : N := 139.
Definition Type_south : N := 140.
Definition Type_state : N := 141.
Definition Type_styleUrl : N := 142.
Definition Type_targetHref : N := 143.
Definition Type_tessellate : N := 144.
Definition Type_text : N := 145.
Definition Type_textColor : N := 146.
Definition Type_tileSize : N := 147.
Definition Type_tilt : N := 148.
Definition Type_topFov : N := 149.
Definition Type_units : N := 150.
Definition Type_value : N := 151.
Definition Type_viewBoundScale : N := 152.
Definition Type_viewFormat : N := 153.
Definition Type_viewRefreshMode : N := 154.
Definition Type_viewRefreshTime : N := 155.
Definition Type_visibility : N := 156.
Definition Type_west : N := 157.
Definition Type_when : N := 158.
Definition Type_width : N := 159.
Definition Type_x : N := 160.
Definition Type_y : N := 161.
Definition Type_z : N := 162.
Definition Type_AtomAuthor : N := 163.
Definition Type_AtomCategory : N := 164.
Definition Type_AtomContent : N := 165.
Definition Type_AtomEntry : N := 166.
Definition Type_AtomFeed : N := 167.
Definition Type_AtomLink : N := 168.
Definition Type_atomEmail : N := 169.
Definition Type_atomId : N := 170.
Definition Type_atomLabel : N := 171.
Definition Type_atomName : N := 172.
Definition Type_atomScheme : N := 173.
Definition Type_atomSummary : N := 174.
Definition Type_atomTerm : N := 175.
Definition Type_atomTitle : N := 176.
Definition Type_atomUpdated : N := 177.
Definition Type_atomUri : N := 178.
Definition Type_XalAddressDetails : N := 179.
Definition Type_XalAdministrativeArea : N := 180.
Definition Type_XalCountry : N := 181.
Definition Type_XalLocality : N := 182.
Definition Type_XalPostalCode : N := 183.
Definition Type_XalSubAdministrativeArea : N := 184.
Definition Type_XalThoroughfare : N := 185.
Definition Type_xalAdministrativeAreaName : N := 186.
Definition Type_xalCountryNameCode : N := 187.
Definition Type_xalLocalityName : N := 188.
Definition Type_xalPostalCodeNumber : N := 189.
Definition Type_xalSubAdministrativeAreaName : N := 190.
Definition Type_xalThoroughfareName : N := 191.
Definition Type_xalThoroughfareNumber : N := 192.
Definition Type_GxTourPrimitive : N := 193.
Definition Type_GxAnimatedUpdate : N := 194.
Definition Type_GxFlyTo : N := 195.
Definition Type_GxLatLonQuad : N := 196.
Definition Type_GxMultiTrack : N := 197.
Definition Type_GxPlaylist : N := 198.
Definition Type_GxSimpleArrayData : N := 199.
Definition Type_GxSimpleArrayField : N := 200.
Definition Type_GxSoundCue : N := 201.
Definition Type_GxTimeSpan : N := 202.
Definition Type_GxTimeStamp : N := 203.
Definition Type_GxTour : N := 204.
Definition Type_GxTourControl : N := 205.
Definition Type_GxTrack : N := 206.
Definition Type_GxWait : N := 207.
Definition Type_GxAltitudeMode : N := 208.
Definition Type_GxAngles : N := 209.
Definition Type_GxBalloonVisibility : N := 210.
Definition Type_GxCoord : N := 211.
Definition Type_GxDuration : N := 212.
Definition Type_GxFlyToMode : N := 213.
Definition Type_GxH : N := 214.
Definition Type_GxInterpolate : N := 215.
Definition Type_GxPlayMode : N := 216.
Definition Type_GxValue : N := 217.
Definition Type_GxW : N := 218.
Definition Type_GxX : N := 219.
Definition Type_GxY : N := 220.
Definition Type_Invalid : N := 221.

(** The enumerators of KmlDomType by name, in order (used to state what a type is called). *)
Definition dom_types : list str := [
  S_ "Type_Unknown";
  S_ "Type_ColorStyle";
  S_ "Type_Container";
  S_ "Type_Feature";
  S_ "Type_Geometry";
  S_ "Type_AbstractLatLonBox";
  S_ "Type_Object";
  S_ "Type_Overlay";
  S_ "Type_StyleSelector";
  S_ "Type_SubStyle";
  S_ "Type_TimePrimitive";
  S_ "Type_AbstractView";
  S_ "Type_BasicLink";
  S_ "Type_Vec2";
  S_ "Type_Alias";
  S_ "Type_BalloonStyle";
  S_ "Type_Camera";
  S_ "Type_Change";
  S_ "Type_Create";
  S_ "Type_Data";
  S_ "Type_Delete";
  S_ "Type_Document";
  S_ "Type_ExtendedData";
  S_ "Type_Folder";
  S_ "Type_GroundOverlay";
  S_ "Type_Icon";
  S_ "Type_IconStyle";
  S_ "Type_IconStyleIcon";
  S_ "Type_ImagePyramid";
  S_ "Type_ItemIcon";
  S_ "Type_LabelStyle";
  S_ "Type_LatLonAltBox";
  S_ "Type_LatLonBox";
  S_ "Type_LineString";
  S_ "Type_LineStyle";
  S_ "Type_LinearRing";
  S_ "Type_Link";
  S_ "Type_ListStyle";
  S_ "Type_Location";
  S_ "Type_Lod";
  S_ "Type_LookAt";
  S_ "Type_Metadata";
  S_ "Type_Model";
  S_ "Type_MultiGeometry";
  S_ "Type_NetworkLink";
  S_ "Type_NetworkLinkControl";
  S_ "Type_Orientation";
  S_ "Type_Pair";
  S_ "Type_PhotoOverlay";
  S_ "Type_Placemark";
  S_ "Type_Point";
  S_ "Type_PolyStyle";
  S_ "Type_Polygon";
  S_ "Type_Region";
  S_ "Type_ResourceMap";
  S_ "Type_Scale";
  S_ "Type_Schema";
  S_ "Type_SchemaData";
  S_ "Type_ScreenOverlay";
  S_ "Type_SimpleData";
  S_ "Type_SimpleField";
  S_ "Type_Snippet";
  S_ "Type_Style";
  S_ "Type_StyleMap";
  S_ "Type_TimeSpan";
  S_ "Type_TimeStamp";
  S_ "Type_Update";
  S_ "Type_Url";
  S_ "Type_ViewVolume";
  S_ "Type_address";
  S_ "Type_altitude";
  S_ "Type_altitudeMode";
  S_ "Type_altitudeModeGroup";
  S_ "Type_begin";
  S_ "Type_bgColor";
  S_ "Type_bottomFov";
  S_ "Type_color";
  S_ "Type_colorMode";
  S_ "Type_cookie";
  S_ "Type_coordinates";
  S_ "Type_description";
  S_ "Type_displayMode";
  S_ "Type_displayName";
  S_ "Type_drawOrder";
  S_ "Type_east";
  S_ "Type_end";
  S_ "Type_expires";
  S_ "Type_extrude";
  S_ "Type_fill";
  S_ "Type_flyToView";
  S_ "Type_gridOrigin";
  S_ "Type_heading";
  S_ "Type_hotSpot";
  S_ "Type_href";
  S_ "Type_httpQuery";
  S_ "Type_innerBoundaryIs";
  S_ "Type_key";
  S_ "Type_kml";
  S_ "Type_latitude";
  S_ "Type_leftFov";
  S_ "Type_linkDescription";
  S_ "Type_linkName";
  S_ "Type_linkSnippet";
  S_ "Type_listItemType";
  S_ "Type_longitude";
  S_ "Type_maxAltitude";
  S_ "Type_maxFadeExtent";
  S_ "Type_maxHeight";
  S_ "Type_maxLength";
  S_ "Type_maxLodPixels";
  S_ "Type_maxSessionLength";
  S_ "Type_maxSnippetLines";
  S_ "Type_maxWidth";
  S_ "Type_message";
  S_ "Type_minAltitude";
  S_ "Type_minFadeExtent";
  S_ "Type_minLodPixels";
  S_ "Type_minRefreshPeriod";
  S_ "Type_name";
  S_ "Type_near";
  S_ "Type_north";
  S_ "Type_open";
  S_ "Type_outerBoundaryIs";
  S_ "Type_outline";
  S_ "Type_overlayXY";
  S_ "Type_phoneNumber";
  S_ "Type_range";
  S_ "Type_refreshInterval";
  S_ "Type_refreshMode";
  S_ "Type_refreshVisibility";
  S_ "Type_rightFov";
  S_ "Type_roll";
  S_ "Type_rotation";
  S_ "Type_rotationXY";
  S_ "Type_scale";
  S_ "Type_screenXY";
  S_ "Type_shape";
  S_ "Type_size";
  S_ "Type_snippet";
  S_ "Type_sourceHref";
  S_ "Type_south";
  S_ "Type_state";
  S_ "Type_styleUrl";
  S_ "Type_targetHref";
  S_ "Type_tessellate";
  S_ "Type_text";
  S_ "Type_textColor";
  S_ "Type_tileSize";
  S_ "Type_tilt";
  S_ "Type_topFov";
  S_ "Type_units";
  S_ "Type_value";
  S_ "Type_viewBoundScale";
  S_ "Type_viewFormat";
  S_ "Type_viewRefreshMode";
  S_ "Type_viewRefreshTime";
  S_ "Type_visibility";
  S_ "Type_west";
  S_ "Type_when";
  S_ "Type_width";
  S_ "Type_x";
  S_ "Type_y";
  S_ "Type_z";
  S_ "Type_AtomAuthor";
  S_ "Type_AtomCategory";
  S_ "Type_AtomContent";
  S_ "Type_AtomEntry";
  S_ "Type_AtomFeed";
  S_ "Type_AtomLink";
  S_ "Type_atomEmail";
  S_ "Type_atomId";
  S_ "Type_atomLabel";
  S_ "Type_atomName";
  S_ "Type_atomScheme";
  S_ "Type_atomSummary";
  S_ "Type_atomTerm";
  S_ "Type_atomTitle";
  S_ "Type_atomUpdated";
  S_ "Type_atomUri";
  S_ "Type_XalAddressDetails";
  S_ "Type_XalAdministrativeArea";
  S_ "Type_XalCountry";
  S_ "Type_XalLocality";
  S_ "Type_XalPostalCode";
  S_ "Type_XalSubAdministrativeArea";
  S_ "Type_XalThoroughfare";
  S_ "Type_xalAdministrativeAreaName";
  S_ "Type_xalCountryNameCode";
  S_ "Type_xalLocalityName";
  S_ "Type_xalPostalCodeNumber";
  S_ "Type_xalSubAdministrativeAreaName";
  S_ "Type_xalThoroughfareName";
  S_ "Type_xalThoroughfareNumber";
  S_ "Type_GxTourPrimitive";
  S_ "Type_GxAnimatedUpdate";
  S_ "Type_GxFlyTo";
  S_ "Type_GxLatLonQuad";
  S_ "Type_GxMultiTrack";
  S_ "Type_GxPlaylist";
  S_ "Type_GxSimpleArrayData";
  S_ "Type_GxSimpleArrayField";
  S_ "Type_GxSoundCue";
  S_ "Type_GxTimeSpan";
  S_ "Type_GxTimeStamp";
  S_ "Type_GxTour";
  S_ "Type_GxTourControl";
  S_ "Type_GxTrack";
  S_ "Type_GxWait";
  S_ "Type_GxAltitudeMode";
  S_ "Type_GxAngles";
  S_ "Type_GxBalloonVisibility";
  S_ "Type_GxCoord";
  S_ "Type_GxDuration";
  S_ "Type_GxFlyToMode";
  S_ "Type_GxH";
  S_ "Type_GxInterpolate";
  S_ "Type_GxPlayMode";
  S_ "Type_GxValue";
  S_ "Type_GxW";
  S_ "Type_GxX";
  S_ "Type_GxY";
  S_ "Type_Invalid"].

(** kml22.cc:34-281 kKml22Elements. *)
Definition kml22_elements : list (str * xsd_type) := [
  (S_ "<Unknown>", XSD_UNKNOWN);
  (S_ "AbstractColorStyleGroup", XSD_COMPLEX);
  (S_ "Container", XSD_COMPLEX);
  (S_ "Feature", XSD_COMPLEX);
  (S_ "Geometry", XSD_COMPLEX);
  (S_ "AbstractLatLonBox", XSD_COMPLEX);
  (S_ "AbstractObjectGroup", XSD_COMPLEX);
  (S_ "AbstractOverlayGroup", XSD_COMPLEX);
  (S_ "StyleSelector", XSD_COMPLEX);
  (S_ "AbstractSubStyleGroup", XSD_COMPLEX);
  (S_ "TimePrimitive", XSD_COMPLEX);
  (S_ "AbstractView", XSD_COMPLEX);
  (S_ "BasicLink", XSD_COMPLEX);
  (S_ "vec2Type", XSD_COMPLEX);
  (S_ "Alias", XSD_COMPLEX);
  (S_ "BalloonStyle", XSD_COMPLEX);
  (S_ "Camera", XSD_COMPLEX);
  (S_ "Change", XSD_COMPLEX);
  (S_ "Create", XSD_COMPLEX);
  (S_ "Data", XSD_COMPLEX);
  (S_ "Delete", XSD_COMPLEX);
  (S_ "Document", XSD_COMPLEX);
  (S_ "ExtendedData", XSD_COMPLEX);
  (S_ "Folder", XSD_COMPLEX);
  (S_ "GroundOverlay", XSD_COMPLEX);
  (S_ "Icon", XSD_COMPLEX);
  (S_ "IconStyle", XSD_COMPLEX);
  (S_ "IconStyleIcon", XSD_COMPLEX);
  (S_ "ImagePyramid", XSD_COMPLEX);
  (S_ "ItemIcon", XSD_COMPLEX);
  (S_ "LabelStyle", XSD_COMPLEX);
  (S_ "LatLonAltBox", XSD_COMPLEX);
  (S_ "LatLonBox", XSD_COMPLEX);
  (S_ "LineString", XSD_COMPLEX);
  (S_ "LineStyle", XSD_COMPLEX);
  (S_ "LinearRing", XSD_COMPLEX);
  (S_ "Link", XSD_COMPLEX);
  (S_ "ListStyle", XSD_COMPLEX);
  (S_ "Location", XSD_COMPLEX);
  (S_ "Lod", XSD_COMPLEX);
  (S_ "LookAt", XSD_COMPLEX);
  (S_ "Metadata", XSD_COMPLEX);
  (S_ "Model", XSD_COMPLEX);
  (S_ "MultiGeometry", XSD_COMPLEX);
  (S_ "NetworkLink", XSD_COMPLEX);
  (S_ "NetworkLinkControl", XSD_COMPLEX);
  (S_ "Orientation", XSD_COMPLEX);
  (S_ "Pair", XSD_COMPLEX);
  (S_ "PhotoOverlay", XSD_COMPLEX);
  (S_ "Placemark", XSD_COMPLEX);
  (S_ "Point", XSD_COMPLEX);
  (S_ "PolyStyle", XSD_COMPLEX);
  (S_ "Polygon", XSD_COMPLEX);
  (S_ "Region", XSD_COMPLEX);
  (S_ "ResourceMap", XSD_COMPLEX);
  (S_ "Scale", XSD_COMPLEX);
  (S_ "Schema", XSD_COMPLEX);
  (S_ "SchemaData", XSD_COMPLEX);
  (S_ "ScreenOverlay", XSD_COMPLEX);
  (S_ "SimpleData", XSD_COMPLEX);
  (S_ "SimpleField", XSD_COMPLEX);
  (S_ "Snippet", XSD_COMPLEX);
  (S_ "Style", XSD_COMPLEX);
  (S_ "StyleMap", XSD_COMPLEX);
  (S_ "TimeSpan", XSD_COMPLEX);
  (S_ "TimeStamp", XSD_COMPLEX);
  (S_ "Update", XSD_COMPLEX);
  (S_ "Url", XSD_COMPLEX);
  (S_ "ViewVolume", XSD_COMPLEX);
  (S_ "address", XSD_SIMPLE);
  (S_ "altitude", XSD_SIMPLE);
  (S_ "altitudeMode", XSD_SIMPLE);
  (S_ "altitudeModeGroup", XSD_SIMPLE);
  (S_ "begin", XSD_SIMPLE);
  (S_ "bgColor", XSD_SIMPLE);
  (S_ "bottomFov", XSD_SIMPLE);
  (S_ "color", XSD_SIMPLE);
  (S_ "colorMode", XSD_SIMPLE);
  (S_ "cookie", XSD_SIMPLE);
  (S_ "coordinates", XSD_COMPLEX);
  (S_ "description", XSD_SIMPLE);
  (S_ "displayMode", XSD_SIMPLE);
  (S_ "displayName", XSD_SIMPLE);
  (S_ "drawOrder", XSD_SIMPLE);
  (S_ "east", XSD_SIMPLE);
  (S_ "end", XSD_SIMPLE);
  (S_ "expires", XSD_SIMPLE);
  (S_ "extrude", XSD_SIMPLE);
  (S_ "fill", XSD_SIMPLE);
  (S_ "flyToView", XSD_SIMPLE);
  (S_ "gridOrigin", XSD_SIMPLE);
  (S_ "heading", XSD_SIMPLE);
  (S_ "hotSpot", XSD_COMPLEX);
  (S_ "href", XSD_SIMPLE);
  (S_ "httpQuery", XSD_SIMPLE);
  (S_ "innerBoundaryIs", XSD_COMPLEX);
  (S_ "key", XSD_SIMPLE);
  (S_ "kml", XSD_COMPLEX);
  (S_ "latitude", XSD_SIMPLE);
  (S_ "leftFov", XSD_SIMPLE);
  (S_ "linkDescription", XSD_SIMPLE);
  (S_ "linkName", XSD_SIMPLE);
  (S_ "linkSnippet", XSD_COMPLEX);
  (S_ "listItemType", XSD_SIMPLE);
  (S_ "longitude", XSD_SIMPLE);
  (S_ "maxAltitude", XSD_SIMPLE);
  (S_ "maxFadeExtent", XSD_SIMPLE);
  (S_ "maxHeight", XSD_SIMPLE);
  (S_ "maxLength", XSD_SIMPLE);
  (S_ "maxLodPixels", XSD_SIMPLE);
  (S_ "maxSessionLength", XSD_SIMPLE);
  (S_ "maxSnippetLines", XSD_SIMPLE);
  (S_ "maxWidth", XSD_SIMPLE);
  (S_ "message", XSD_SIMPLE);
  (S_ "minAltitude", XSD_SIMPLE);
  (S_ "minFadeExtent", XSD_SIMPLE);
  (S_ "minLodPixels", XSD_SIMPLE);
  (S_ "minRefreshPeriod", XSD_SIMPLE);
  (S_ "name", XSD_SIMPLE);
  (S_ "near", XSD_SIMPLE);
  (S_ "north", XSD_SIMPLE);
  (S_ "open", XSD_SIMPLE);
  (S_ "outerBoundaryIs", XSD_COMPLEX);
  (S_ "outline", XSD_SIMPLE);
  (S_ "overlayXY", XSD_COMPLEX);
  (S_ "phoneNumber", XSD_SIMPLE);
  (S_ "range", XSD_SIMPLE);
  (S_ "refreshInterval", XSD_SIMPLE);
  (S_ "refreshMode", XSD_SIMPLE);
  (S_ "refreshVisibility", XSD_SIMPLE);
  (S_ "rightFov", XSD_SIMPLE);
  (S_ "roll", XSD_SIMPLE);
  (S_ "rotation", XSD_SIMPLE);
  (S_ "rotationXY", XSD_COMPLEX);
  (S_ "scale", XSD_SIMPLE);
  (S_ "screenXY", XSD_COMPLEX);
  (S_ "shape", XSD_SIMPLE);
  (S_ "size", XSD_COMPLEX);
  (S_ "snippet", XSD_SIMPLE);
  (S_ "sourceHref", XSD_SIMPLE);
  (S_ "south", XSD_SIMPLE);
  (S_ "state", XSD_SIMPLE);
  (S_ "styleUrl", XSD_SIMPLE);
  (S_ "targetHref", XSD_SIMPLE);
  (S_ "tessellate", XSD_SIMPLE);
  (S_ "text", XSD_SIMPLE);
  (S_ "textColor", XSD_SIMPLE);
  (S_ "tileSize", XSD_SIMPLE);
  (S_ "tilt", XSD_SIMPLE);
  (S_ "topFov", XSD_SIMPLE);
  (S_ "units", XSD_SIMPLE);
  (S_ "value", XSD_SIMPLE);
  (S_ "viewBoundScale", XSD_SIMPLE);
  (S_ "viewFormat", XSD_SIMPLE);
  (S_ "viewRefreshMode", XSD_SIMPLE);
  (S_ "viewRefreshTime", XSD_SIMPLE);
  (S_ "visibility", XSD_SIMPLE);
  (S_ "west", XSD_SIMPLE);
  (S_ "when", XSD_SIMPLE);
  (S_ "width", XSD_SIMPLE);
  (S_ "x", XSD_SIMPLE);
  (S_ "y", XSD_SIMPLE);
  (S_ "z", XSD_SIMPLE);
  (S_ "atom:author", XSD_COMPLEX);
  (S_ "atom:category", XSD_COMPLEX);
  (S_ "atom:content", XSD_COMPLEX);
  (S_ "atom:entry", XSD_COMPLEX);
  (S_ "atom:feed", XSD_COMPLEX);
  (S_ "atom:link", XSD_COMPLEX);
  (S_ "atom:email", XSD_SIMPLE);
  (S_ "atom:id", XSD_SIMPLE);
  (S_ "atom:label", XSD_SIMPLE);
  (S_ "atom:name", XSD_SIMPLE);
  (S_ "atom:scheme", XSD_SIMPLE);
  (S_ "atom:summary", XSD_SIMPLE);
  (S_ "atom:term", XSD_SIMPLE);
  (S_ "atom:title", XSD_SIMPLE);
  (S_ "atom:updated", XSD_SIMPLE);
  (S_ "atom:uri", XSD_SIMPLE);
  (S_ "xal:AddressDetails", XSD_COMPLEX);
  (S_ "xal:AdministrativeArea", XSD_COMPLEX);
  (S_ "xal:Country", XSD_COMPLEX);
  (S_ "xal:Locality", XSD_COMPLEX);
  (S_ "xal:PostalCode", XSD_COMPLEX);
  (S_ "xal:SubAdministrativeArea", XSD_COMPLEX);
  (S_ "xal:Thoroughfare", XSD_COMPLEX);
  (S_ "xal:AdministrativeAreaName", XSD_SIMPLE);
  (S_ "xal:CountryNameCode", XSD_SIMPLE);
  (S_ "xal:LocalityName", XSD_SIMPLE);
  (S_ "xal:PostalCodeNumber", XSD_SIMPLE);
  (S_ "xal:SubAdministrativeAreaName", XSD_SIMPLE);
  (S_ "xal:ThoroughfareName", XSD_SIMPLE);
  (S_ "xal:ThoroughfareNumber", XSD_SIMPLE);
  (S_ "gx:AbstractTourPrimitiveGroup", XSD_COMPLEX);
  (S_ "gx:AnimatedUpdate", XSD_COMPLEX);
  (S_ "gx:FlyTo", XSD_COMPLEX);
  (S_ "gx:LatLonQuad", XSD_COMPLEX);
  (S_ "gx:MultiTrack", XSD_COMPLEX);
  (S_ "gx:Playlist", XSD_COMPLEX);
  (S_ "gx:SimpleArrayData", XSD_COMPLEX);
  (S_ "gx:SimpleArrayField", XSD_COMPLEX);
  (S_ "gx:SoundCue", XSD_COMPLEX);
  (S_ "gx:TimeSpan", XSD_COMPLEX);
  (S_ "gx:TimeStamp", XSD_COMPLEX);
  (S_ "gx:Tour", XSD_COMPLEX);
  (S_ "gx:TourControl", XSD_COMPLEX);
  (S_ "gx:Track", XSD_COMPLEX);
  (S_ "gx:Wait", XSD_COMPLEX);
  (S_ "gx:altitudeMode", XSD_SIMPLE);
  (S_ "gx:angles", XSD_SIMPLE);
  (S_ "gx:balloonVisibility", XSD_SIMPLE);
  (S_ "gx:coord", XSD_SIMPLE);
  (S_ "gx:duration", XSD_SIMPLE);
  (S_ "gx:flyToMode", XSD_SIMPLE);
  (S_ "gx:h", XSD_SIMPLE);
  (S_ "gx:interpolate", XSD_SIMPLE);
  (S_ "gx:playMode", XSD_SIMPLE);
  (S_ "gx:value", XSD_SIMPLE);
  (S_ "gx:w", XSD_SIMPLE);
  (S_ "gx:x", XSD_SIMPLE);
  (S_ "gx:y", XSD_SIMPLE);
  (S_ "</Unknown>", XSD_UNKNOWN)].

(** kml22.h:278-499 the strings of kmlDomTypeToString. *)
Definition dom_type_strings : list str := [
  S_ "Type_Unknown";
  S_ "Type_ColorStyle";
  S_ "Type_Container";
  S_ "Type_Feature";
  S_ "Type_Geometry";
  S_ "Type_AbstractLatLonBox";
  S_ "Type_Object";
  S_ "Type_Overlay";
  S_ "Type_StyleSelector";
  S_ "Type_SubStyle";
  S_ "Type_TimePrimitive";
  S_ "Type_AbstractView";
  S_ "Type_BasicLink";
  S_ "Type_Vec2";
  S_ "Type_Alias";
  S_ "Type_BalloonStyle";
  S_ "Type_Camera";
  S_ "Type_Change";
  S_ "Type_Create";
  S_ "Type_Data";
  S_ "Type_Delete";
  S_ "Type_Document";
  S_ "Type_ExtendedData";
  S_ "Type_Folder";
  S_ "Type_GroundOverlay";
  S_ "Type_Icon";
  S_ "Type_IconStyle";
  S_ "Type_IconStyleIcon";
  S_ "Type_ImagePyramid";
  S_ "Type_ItemIcon";
  S_ "Type_LabelStyle";
  S_ "Type_LatLonAltBox";
  S_ "Type_LatLonBox";
  S_ "Type_LineString";
  S_ "Type_LineStyle";
  S_ "Type_LinearRing";
  S_ "Type_Link";
  S_ "Type_ListStyle";
  S_ "Type_Location";
  S_ "Type_Lod";
  S_ "Type_LookAt";
  S_ "Type_Metadata";
  S_ "Type_Model";
  S_ "Type_MultiGeometry";
  S_ "Type_NetworkLink";
  S_ "Type_NetworkLinkControl";
  S_ "Type_Orientation";
  S_ "Type_Pair";
  S_ "Type_PhotoOverlay";
  S_ "Type_Placemark";
  S_ "Type_Point";
  S_ "Type_PolyStyle";
  S_ "Type_Polygon";
  S_ "Type_Region";
  S_ "Type_ResourceMap";
  S_ "Type_Scale";
  S_ "Type_Schema";
  S_ "Type_SchemaData";
  S_ "Type_ScreenOverlay";
  S_ "Type_SimpleData";
  S_ "Type_SimpleField";
  S_ "Type_Snippet";
  S_ "Type_Style";
  S_ "Type_StyleMap";
  S_ "Type_TimeSpan";
  S_ "Type_TimeStamp";
  S_ "Type_Update";
  S_ "Type_Url";
  S_ "Type_ViewVolume";
  S_ "Type_address";
  S_ "Type_altitude";
  S_ "Type_altitudeMode";
  S_ "Type_altitudeModeGroup";
  S_ "Type_begin";
  S_ "Type_bgColor";
  S_ "Type_bottomFov";
  S_ "Type_color";
  S_ "Type_colorMode";
  S_ "Type_cookie";
  S_ "Type_coordinates";
  S_ "Type_description";
  S_ "Type_displayMode";
  S_ "Type_displayName";
  S_ "Type_drawOrder";
  S_ "Type_east";
  S_ "Type_end";
  S_ "Type_expires";
  S_ "Type_extrude";
  S_ "Type_fill";
  S_ "Type_flyToView";
  S_ "Type_gridOrigin";
  S_ "Type_heading";
  S_ "Type_hotSpot";
  S_ "Type_href";
  S_ "Type_httpQuery";
  S_ "Type_innerBoundaryIs";
  S_ "Type_key";
  S_ "Type_kml";
  S_ "Type_latitude";
  S_ "Type_leftFov";
  S_ "Type_linkDescription";
  S_ "Type_linkName";
  S_ "Type_linkSnippet";
  S_ "Type_listItemType";
  S_ "Type_longitude";
  S_ "Type_maxAltitude";
  S_ "Type_maxFadeExtent";
  S_ "Type_maxHeight";
  S_ "Type_maxLength";
  S_ "Type_maxLodPixels";
  S_ "Type_maxSessionLength";
  S_ "Type_maxSnippetLines";
  S_ "Type_maxWidth";
  S_ "Type_message";
  S_ "Type_minAltitude";
  S_ "Type_minFadeExtent";
  S_ "Type_minLodPixels";
  S_ "Type_minRefreshPeriod";
  S_ "Type_name";
  S_ "Type_near";
  S_ "Type_north";
  S_ "Type_open";
  S_ "Type_outerBoundaryIs";
  S_ "Type_outline";
  S_ "Type_overlayXY";
  S_ "Type_phoneNumber";
  S_ "Type_range";
  S_ "Type_refreshInterval";
  S_ "Type_refreshMode";
  S_ "Type_refreshVisibility";
  S_ "Type_rightFov";
  S_ "Type_roll";
  S_ "Type_rotation";
  S_ "Type_rotationXY";
  S_ "Type_scale";
  S_ "Type_screenXY";
  S_ "Type_shape";
  S_ "Type_size";
  S_ "Type_snippet";
  S_ "Type_sourceHref";
  S_ "Type_south";
  S_ "Type_state";
  S_ "Type_styleUrl";
  S_ "Type_targetHref";
  S_ "Type_tessellate";
  S_ "Type_text";
  S_ "Type_textColor";
  S_ "Type_tileSize";
  S_ "Type_tilt";
  S_ "Type_topFov";
  S_ "Type_units";
  S_ "Type_value";
  S_ "Type_viewBoundScale";
  S_ "Type_viewFormat";
  S_ "Type_viewRefreshMode";
  S_ "Type_viewRefreshTime";
  S_ "Type_visibility";
  S_ "Type_west";
  S_ "Type_when";
  S_ "Type_width";
  S_ "Type_x";
  S_ "Type_y";
  S_ "Type_z";
  S_ "Type_AtomAuthor";
  S_ "Type_AtomCategory";
  S_ "Type_AtomContent";
  S_ "Type_AtomEntry";
  S_ "Type_AtomFeed";
  S_ "Type_AtomLink";
  S_ "Type_atomEmail";
  S_ "Type_atomId";
  S_ "Type_atomLabel";
  S_ "Type_atomName";
  S_ "Type_atomScheme";
  S_ "Type_atomSummary";
  S_ "Type_atomTerm";
  S_ "Type_atomTitle";
  S_ "Type_atomUpdated";
  S_ "Type_atomUri";
  S_ "Type_XalAddressDetails";
  S_ "Type_XalAdministrativeArea";
  S_ "Type_XalCountry";
  S_ "Type_XalLocality";
  S_ "Type_XalPostalCode";
  S_ "Type_XalSubAdministrativeArea";
  S_ "Type_XalThoroughfare";
  S_ "Type_xalAdministrativeAreaName";
  S_ "Type_xalCountryNameCode";
  S_ "Type_xalLocalityName";
  S_ "Type_xalPostalCodeNumber";
  S_ "Type_xalSubAdministrativeAreaName";
  S_ "Type_xalThoroughfareName";
  S_ "Type_xalThoroughfareNumber";
  S_ "Type_GxTourPrimitive";
  S_ "Type_GxAnimatedUpdate";
  S_ "Type_GxFlyTo";
  S_ "Type_GxLatLonQuad";
  S_ "Type_GxPlaylist";
  S_ "Type_GxSoundCue";
  S_ "Type_GxTimeSpan";
  S_ "Type_GxTimeStamp";
  S_ "Type_GxTour";
  S_ "Type_GxTourControl";
  S_ "Type_GxWait";
  S_ "Type_GxAltitudeMode";
  S_ "Type_GxBalloonVisibility";
  S_ "Type_GxDuration";
  S_ "Type_GxFlyToMode";
  S_ "Type_GxPlayMode";
  S_ "Type_Invalid"].

(** kml22.cc:285-323 kKml22Enums with their value lists (without the closing NULL). *)
Definition kml22_enums : list (N * list str) := [
  (Type_altitudeMode, [S_ "clampToGround"; S_ "relativeToGround"; S_ "absolute"]);
  (Type_colorMode, [S_ "normal"; S_ "random"]);
  (Type_displayMode, [S_ "default"; S_ "hide"]);
  (Type_gridOrigin, [S_ "lowerLeft"; S_ "upperLeft"]);
  (Type_state, [S_ "open"; S_ "closed"; S_ "error"; S_ "fetching0"; S_ "fetching1"; S_ "fetching2"]);
  (Type_listItemType, [S_ "check"; S_ "radioFolder"; S_ "checkOffOnly"; S_ "checkHideChildren"]);
  (Type_refreshMode, [S_ "onChange"; S_ "onInterval"; S_ "onExpire"]);
  (Type_shape, [S_ "rectangle"; S_ "cylinder"; S_ "sphere"]);
  (Type_key, [S_ "normal"; S_ "highlight"]);
  (Type_units, [S_ "fraction"; S_ "pixels"; S_ "insetPixels"]);
  (Type_viewRefreshMode, [S_ "never"; S_ "onRequest"; S_ "onStop"; S_ "onRegion"]);
  (Type_GxAltitudeMode, [S_ "clampToSeaFloor"; S_ "relativeToSeaFloor"]);
  (Type_GxFlyToMode, [S_ "bounce"; S_ "smooth"]);
  (Type_GxPlayMode, [S_ "pause"])].

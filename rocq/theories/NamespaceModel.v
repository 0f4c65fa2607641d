(** Model of how a file is written with the namespaces it uses: engine/find_xml_namespaces.cc, base/xml_namespaces.cc
    and KmlFile::SerializeToString, SerializeToOstream (engine/kml_file.cc). *)
From Verif Require Import Common StrMap AttributesModel XsdTables XsdModel SerializerModel HandlerModel DomTables DomModel.
Local Open Scope N_scope.

(** base/xml_namespaces.h:37-58 XmlnsId. *)
Definition XMLNS_NONE : N := 0.
Definition XMLNS_ATOM : N := 2.
Definition XMLNS_GX22 : N := 11.
Definition XMLNS_KML22 : N := 13.
Definition XMLNS_XAL : N := 16.
(** base/xml_namespaces.cc:30-51 XmlNamespaces without the first entry, in the order of XmlnsId. *)
Definition namespaces : list (N * (str * str)) := map (fun e => (fst e, (list_ascii_of_string (fst (snd e)), list_ascii_of_string (snd (snd e)))))
  [(1, ("app", "http://www.w3.org/2007/app")); (2, ("atom", "http://www.w3.org/2005/Atom"));
   (3, ("batch", "http://schemas.google.com/gdata/batch")); (4, ("docs", "http://schemas.google.com/docs/2007"));
   (5, ("exif", "http://schemas.google.com/photos/exif/2007")); (6, ("gd", "http://schemas.google.com/g/2005"));
   (7, ("georss", "http://www.georss.org/georss")); (8, ("gml", "http://www.opengis.net/gml"));
   (9, ("gphoto", "http://schemas.google.com/photos/2007")); (10, ("gpx", "http://www.topografix.com/GPX/1/0"));
   (11, ("gx", "http://www.google.com/kml/ext/2.2")); (12, ("gs", "http://schemas.google.com/spreadsheets/2006"));
   (13, ("kml", "http://www.opengis.net/kml/2.2")); (14, ("media", "http://search.yahoo.com/mrss/"));
   (15, ("openSearch", "http://a9.com/-/spec/opensearch/1.1/")); (16, ("xal", "urn:oasis:names:tc:ciq:xsdschema:xAL:2.0"));
   (17, ("xml", "http://www.w3.org/XML/1998/namespace")); (18, ("xsd", "http://www.w3.org/2001/XMLSchema"));
   (19, ("xsi", "http://www.w3.org/2001/XMLSchema-instance"))]%string.

(** get_xmlns of an element (base/xml_element.h:60-62), which the constructors set.  geometry.cc:483,574, extendeddata.cc:94,
    schema.cc:94, overlay.cc:123, gx_tour.cc:41,79,145,181,226,244,276, gx_timeprimitive.cc:37,47. *)
Definition gx_classes : list N :=
  [Type_GxTrack; Type_GxMultiTrack; Type_GxSimpleArrayData; Type_GxSimpleArrayField; Type_GxLatLonQuad; Type_GxTour; Type_GxPlaylist;
   Type_GxAnimatedUpdate; Type_GxFlyTo; Type_GxWait; Type_GxSoundCue; Type_GxTourControl; Type_GxTimeSpan; Type_GxTimeStamp].
(** atom.cc:54,100,142,230,264,296. *)
Definition atom_classes : list N := [Type_AtomAuthor; Type_AtomCategory; Type_AtomContent; Type_AtomEntry; Type_AtomFeed; Type_AtomLink].
(** xal.cc:40,68,108,142,178,205,240. *)
Definition xal_classes : list N :=
  [Type_XalAddressDetails; Type_XalAdministrativeArea; Type_XalCountry; Type_XalLocality; Type_XalPostalCode;
   Type_XalSubAdministrativeArea; Type_XalThoroughfare].
(** kml.cc:38, snippet.cc:40, geometry.cc:50, schema.cc:43, extendeddata.cc:45,141,205,257,297, networklinkcontrol.cc:51,83,115,148,209;
    all those derived from Object: object.cc:37.  The others keep the initial value (xml_element.h:85). *)
Definition kml_classes : list N :=
  [Type_kml; Type_Snippet; Type_linkSnippet; Type_coordinates; Type_SimpleField; Type_SimpleData; Type_SchemaData; Type_Data; Type_ExtendedData;
   Type_Metadata; Type_Create; Type_Delete; Type_Change; Type_Update; Type_NetworkLinkControl].
Definition mem (l : list N) (t : N) : bool := existsb (N.eqb t) l.
Definition xmlns_of (t : N) : N :=
  if mem gx_classes t then XMLNS_GX22 else if mem atom_classes t then XMLNS_ATOM else if mem xal_classes t then XMLNS_XAL
  else if mem kml_classes t || is_a t Type_Object then XMLNS_KML22 else XMLNS_NONE.

(** The types of the elements XmlNamespaceFinder::SaveElement is called with (find_xml_namespaces.cc:49-54), when it is called with [o]:
    simple elements are saved by other methods; element.cc:66-71 calls Serialize of misplaced children and not SaveElement. *)
Fixpoint saved_types (o : obj) : list N :=
  let 'Obj ty _ _ _ _ sl mis _ := o in
  if is_simple ty then [] else if ty =? Type_coordinates then [ty]
  else ty :: flat_map (pick (cls ty) (map (flat_map saved_types) sl)) (c_ser (cls ty)) ++ flat_map (fun c => tl (saved_types c)) mis.
(** find_xml_namespaces.cc:60-76 FindXmlNamespaces into an empty map: the std::set is gone through in the order of the ids. *)
Definition find_namespaces (o : obj) : attrs :=
  let ids := map xmlns_of (oty o :: saved_types o) in
  fold_left (fun m e => if mem ids (fst e) then mset (fst (snd e)) (snd (snd e)) m else m) namespaces [].
(** find_xml_namespaces.cc:78-91 FindAndInsertXmlNamespaces with Element::MergeXmlns (element.cc:146-151). *)
Definition insert_namespaces (o : obj) : obj :=
  let '(v, m) := cut_value (S_ "kml") (find_namespaces o) in
  let m := match v with Some u => set_value (S_ "xmlns") u m | None => m end in
  set_ea o {| unknown := unknown (oea o);
              xmlns := Some (merge_attributes (match xmlns (oea o) with Some x => x | None => [] end) m) |}.
(** kml_file.cc:171-173 CreateXmlHeader. *)
Definition xml_header (encoding : str) : str := S_ "<?xml version=""1.0"" encoding=""" ++ encoding ++ S_ """?>" ++ ["010"%char].
(** kml_file.cc:197-212 SerializeToString into an empty string, of a file with this root or without one (xml_serializer.h:75-83 does nothing then):
    the root afterwards, and the text. *)
Definition serialize_to_string (encoding : str) (root : option obj) : res (option obj * bool * str) :=
  match root with
  | None => Ok (None, true, xml_header encoding)
  | Some o => do s <- serialize_pretty (ser (insert_namespaces o)); Ok (Some (insert_namespaces o), true, xml_header encoding ++ s)
  end.
(** kml_file.cc:175-195 SerializeToOstream. *)
Definition serialize_to_ostream (encoding : str) (root : option obj) : res (option obj * bool * str) :=
  match root with
  | None => Ok (None, false, [])
  | Some o => do s <- serialize_pretty (ser (insert_namespaces o)); Ok (Some (insert_namespaces o), true, xml_header encoding ++ s)
  end.

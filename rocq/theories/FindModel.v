(** Model of src/kml/engine/find.cc, engine/feature_visitor.cc and the getters of engine/link_util.h on the elements of DomModel.v. *)
From Verif Require Import Common StrMap AttributesModel XsdTables XsdModel SerializerModel HandlerModel DomTables DomModel.
Local Open Scope N_scope.

(** The elements a Serializer's SaveElement is called with when it is called with [o] and calls itself for each element (find.cc:47-54 and
    72-80; serializer.h SaveElementGroup): the element itself and those below it in the order of Serialize.  Simple elements are given to other
    methods; element.cc:66-71 calls Serialize of misplaced children and not SaveElement. *)
Fixpoint saved (o : obj) : list obj :=
  let 'Obj ty _ _ _ _ sl mis _ := o in
  if is_simple ty then [] else if ty =? Type_coordinates then [o]
  else o :: flat_map (pick (cls ty) (map (flat_map saved) sl)) (c_ser (cls ty)) ++ flat_map (fun c => tl (saved c)) mis.
(** find.cc:87-97 GetElementsById. *)
Definition get_elements_by_id (o : obj) (ty : N) : list obj := filter (fun e => is_a (oty e) ty) (tl (saved o)).
(** What is given to SaveElement by Serialize of [o] alone. *)
Fixpoint saved_once (o : obj) : list obj :=
  let 'Obj ty _ _ _ _ sl mis _ := o in
  if is_simple ty || (ty =? Type_coordinates) then []
  else filter (fun c => negb (is_simple (oty c))) (flat_map (pick (cls ty) sl) (c_ser (cls ty))) ++ flat_map saved_once mis.
(** find.cc:99-107 GetChildElements: the count is the length of the vector. *)
Definition get_child_elements (o : obj) (recurse : bool) : list obj := if recurse then tl (saved o) else saved_once o.

(** feature_visitor.cc:39-45 GetRootFeature. *)
Definition get_root_feature (o : obj) : option obj :=
  match (if oty o =? Type_kml then get o Type_Feature else []) with
  | f :: _ => Some f
  | [] => if is_a (oty o) Type_Feature then Some o else None
  end.
(** feature_visitor.cc:47-59 VisitFeatureHierarchy: the features VisitFeature is called with. *)
Fixpoint visit_features (f : obj) : list obj :=
  f :: (if is_a (oty f) Type_Container then pick (cls (oty f)) (map (flat_map visit_features) (oslots f)) Type_Feature else []).

(** link_util.h:57-64 GetHref, 68-71 GetLinkParentHref, 75-78 GetIconParentHref; None: false.  The Icon of an IconStyle
    is another class than that of an Overlay (iconstyle.h). *)
Definition get_href (o : option obj) : option str :=
  match o with Some h => match get h Type_href with v :: _ => Some (char_data v) | [] => None end | None => None end.
Definition get_link_parent_href (o : obj) : option str := get_href (hd_error (get o Type_Link)).
Definition get_icon_parent_href (o : obj) : option str := get_href (hd_error (get o Type_Icon ++ get o Type_IconStyleIcon)).

(** Model of KmlFile::CreateFromImport and CreateFromImportLax (src/kml/engine/kml_file.cc): what a file made
    from an element knows.  An element is the way to it from the root (IdModel.v). *)
From Verif Require Import Common StrMap AttributesModel XsdTables XsdModel HandlerModel DomTables DomModel IdModel.
Local Open Scope N_scope.

(** XmlElement::GetParent (xml_element.h:51-53) of the element at [p], as its type; [up] is that of the root,
    which may itself have a parent. *)
Definition parent_type (up : option N) (o : obj) (p : address) : option N :=
  match p with
  | [] => up
  | _ => option_map oty (at_address o (removelast p))
  end.
(** kml_file.cc:152-153: AsStyleSelector of the element, AsDocument of its parent. *)
Definition document_style (up : option N) (o : obj) (p : address) : bool :=
  match at_address o p with Some x => is_a (oty x) Type_StyleSelector | None => false end &&
  match parent_type up o p with Some d => is_a d Type_Document | None => false end.
(** What the file keeps: object_id_map_ and shared_style_map_ (kml_file.h:175-176). *)
Record imported := { i_objects : list (str * address); i_styles : list (str * address) }.
(** kml_file.cc:150-157, the loop over object_id_map_. *)
Definition style_step (up : option N) (o : obj) (m : list (str * address)) (e : str * address) : list (str * address) :=
  if document_style up o (snd e)
  then mset (match id_at o (snd e) with Some id => id | None => [] end) (snd e) m
  else m.
(** kml_file.cc:133-161 CreateFromImportInternal of an element; None: NULL. *)
Definition import (strict : bool) (up : option N) (o : obj) : option imported :=
  if strict && (match dup_ids o with [] => false | _ => true end) then None
  else Some {| i_objects := map_ids o; i_styles := fold_left (style_step up o) (map_ids o) [] |}.
(** kml_file.cc:214-223 GetObjectById, GetSharedStyleById. *)
Definition object_by_id (f : imported) (id : str) : option address := mget id (i_objects f).
Definition style_by_id (f : imported) (id : str) : option address := mget id (i_styles f).

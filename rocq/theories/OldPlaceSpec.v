(** What parsing a document with an old-style Schema (KML 2.0: a Schema with a parent and a name, then elements of this name) should yield, as recursive
    functions on the document tree. *)
From Verif Require Import Common AttributesModel XsdTables XsdModel XmlSpec HandlerModel HandlerSpec.
Local Open Scope N_scope.

Section Place.
  (** The name the Schema declares, and the names of its fields. *)
  Variable S : str.
  Variable fs : list str.
  (** A field of the schema: an element of one of the names which is not KML. *)
  Definition data_name (n : str) : bool := is_unknown_type (element_id n) && existsb (eqs n) fs.
  Definition text_only (ks : list xml) : bool := forallb (fun k => match k with XChar _ => true | _ => false end) ks.
  Definition data_of (k : xml) : list (str * str) :=
    match k with XElem n _ ks => if negb (eqs n S) && data_name n then [(n, direct_text ks)] else [] | XChar _ => [] end.
  Definition is_data (k : xml) : bool :=
    match k with XElem n _ ks => negb (eqs n S) && data_name n && text_only ks | XChar _ => false end.
  (** Documents this is about: fields are in elements named [S] only and have text only, these are not in one another, there is no other Schema, and no
      description in an element that is not KML. *)
  Fixpoint fits (inside : bool) (t : xml) : bool :=
    match t with
    | XChar _ => true
    | XElem n a ks =>
        if eqs n S then negb inside && forallb (fun k => is_data k || fits true k) ks
        else negb (data_name n) && negb (eqs n (S_ "Schema")) &&
             match known_type Type_Unknown n with
             | None => forallb no_description ks
             | Some ty => if ty =? Type_description then true else forallb (fits inside) ks
             end
    end.
  (** What a parent of type [p] receives for the child [t]: an element named [S] is a Placemark, its fields are extended data. *)
  Fixpoint place_received (p : N) (t : xml) : list entry :=
    match t with
    | XChar _ => []
    | XElem n a ks =>
        if eqs n S then
          [LChild (Node Type_Placemark (match a with [] => None | _ => Some (attrs_of a) end) (direct_text ks)
                     (flat_map (fun k => if is_data k then [] else place_received Type_Placemark k) ks ++ [LExtendedData (S ++ S_ "_id") (flat_map data_of ks)]))]
        else
          match known_type p n with
          | None => [LUnknown (raw t ++ ["010"%char])]
          | Some ty =>
              [LChild (if ty =? Type_description then Node ty (node_atts n a) (flat_map raw ks) []
                       else Node ty (node_atts n a) (direct_text ks) (flat_map (place_received ty) ks ++ self_entry ty (direct_text ks)))]
          end
    end.
End Place.

(** The fields of a Schema. *)
Definition field_names (ks : list xml) : list str :=
  flat_map (fun k => match k with
                     | XElem n a _ => if eqs n (S_ "SimpleField") then match find_value (S_ "name") (attrs_of a) with Some v => [v] | None => [] end else []
                     | XChar _ => []
                     end) ks.
(** Elements around the Schema, from the root on: name, attributes, what is in front of the next one and what is behind it. *)
Record around := { ar_name : str; ar_atts : list (str * str); ar_before : list xml; ar_after : list xml }.
Fixpoint plug (l : list around) (x : xml) : xml :=
  match l with
  | [] => x
  | c :: r => XElem (ar_name c) (ar_atts c) (ar_before c ++ plug r x :: ar_after c)
  end.
Definition around_ok (S : str) (fs : list str) (c : around) : bool :=
  match known_type Type_Unknown (ar_name c) with Some ty => negb (ty =? Type_description) | None => false end &&
  negb (eqs (ar_name c) S) && negb (eqs (ar_name c) (S_ "Schema")) &&
  forallb (fun t => no_old_schema t && descriptions_ok t) (ar_before c) && forallb (fits S fs false) (ar_after c).
(** What the parent of the outermost of them receives; in front of the Schema everything is as without it. *)
Fixpoint place_around (S : str) (fs : list str) (sa : list (str * str)) (sk : list xml) (p : N) (l : list around) : list entry :=
  match l with
  | [] => [LChild (Node Type_Schema (Some (attrs_of sa)) (direct_text sk) (flat_map (received keep_all Type_Schema) sk ++ [LSchemaId (S ++ S_ "_id")]))]
  | c :: r =>
      match known_type p (ar_name c) with
      | None => []
      | Some ty =>
          let text := direct_text (ar_before c ++ ar_after c) in
          [LChild (Node ty (node_atts (ar_name c) (ar_atts c)) text
                     (flat_map (received keep_all ty) (ar_before c) ++ place_around S fs sa sk ty r ++ flat_map (place_received S fs ty) (ar_after c) ++ self_entry ty text))]
      end
  end.

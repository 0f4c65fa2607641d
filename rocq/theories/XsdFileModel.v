(** Model of the XSD reader: kmlxsd::XsdFile (src/kml/xsd/xsd_file.h, xsd_file.cc), XsdHandler
    (xsd_handler.cc), XsdSchema (xsd_schema.h), XsdElement (xsd_element.cc), XsdComplexType,
    XsdSimpleType and XsdPrimitiveType.  The handler runs on the events of a well-formed document
    (XmlSpec.ev).  A type or element object is represented by its contents; two types held by one
    file are the same object exactly when their names agree, because type_map_ is keyed by name. *)
From Verif Require Import Common StrMap AttributesModel XmlSpec StringsModel.

(** xsd_element.h:91-97 the fields of XsdElement; type_id_ is [primitive x_type]. *)
Record xelem := { x_name : str; x_ref : bool; x_abstract : bool; x_default : str; x_type : str; x_subst : str }.
(** xsd_complex_type.h:122-124, xsd_simple_type.h:113-115, xsd_primitive_type.h. *)
Inductive xtype :=
| Complex (name base : str) (sequence : list xelem)
| Simple (name base : str) (enumeration : list str)
| Primitive (name : str).
(** XsdType::get_name / get_base (xsd_type.h:55-61). *)
Definition t_name (t : xtype) : str := match t with Complex n _ _ | Simple n _ _ | Primitive n => n end.
Definition t_base (t : xtype) : str :=
  match t with Complex _ b _ | Simple _ b _ => b | Primitive _ => S_ "xsd:primitive" end.
(** xsd_complex_type.h:59-64 AsComplexType. *)
Definition is_complex (t : xtype) : bool := match t with Complex _ _ _ => true | _ => false end.
Definition is_simple (t : xtype) : bool := match t with Simple _ _ _ => true | _ => false end.

(** xsd_primitive_type.cc:31-57 XsdPrimitiveTypeName. *)
Definition primitive_names : list str := map list_ascii_of_string
  ["string"; "boolean"; "decimal"; "float"; "double"; "duration"; "dateTime"; "time"; "date";
   "gYearMonth"; "gYear"; "gMonthDay"; "gDay"; "gMonth"; "hexBinary"; "base64Binary"; "anyURI";
   "QNAME"; "NOTATION"; "integer"; "long"; "int"]%string.
(** xsd_primitive_type.cc:63-73 GetTypeId <> XSD_INVALID. *)
Definition primitive (s : str) : bool := existsb (eqs s) primitive_names.

(** xsd_file.h:166-168: xsd_schema_ (the target namespace and its prefix), element_map_, type_map_. *)
Record xsd := { x_schema : option (str * str); x_elements : smap xelem; x_types : smap xtype }.
Definition empty_xsd : xsd := {| x_schema := None; x_elements := []; x_types := [] |}.

(** xsd_schema.h:82-100 Parse with xmlns.h:89-95: the prefix is the first one (in key order) bound to the
    target namespace. *)
Definition schema_create (a : attrs) : option (str * str) :=
  match mget (S_ "targetNamespace") a with
  | None | Some [] => None
  | Some tns =>
      match fst (split_by_prefix (S_ "xmlns") a) with
      | None => None
      | Some m => match find_key tns m with None | Some [] => None | Some p => Some (tns, p) end
      end
  end.
(** xsd_schema.h:66-77 SplitNsName. *)
Definition split_ns_name (sc : str * str) (s : str) : option str :=
  let p := snd sc ++ S_ ":" in
  if (length p <? length s)%nat && prefixb p s then Some (skipn (length p) s) else None.

(** xsd_element.cc:42-61 ParseAttributes. *)
Definition attr (k : str) (a : attrs) : str := match mget k a with Some v => v | None => [] end.
Definition element_create (a : attrs) : option xelem :=
  match mget (S_ "name") a with
  | Some n => Some {| x_name := n; x_ref := false;
                      x_abstract := match mget (S_ "abstract") a with Some v => from_string_bool v | None => false end;
                      x_default := attr (S_ "default") a; x_type := attr (S_ "type") a;
                      x_subst := attr (S_ "substitutionGroup") a |}
  | None =>
      match mget (S_ "ref") a with
      | Some n => Some {| x_name := n; x_ref := true; x_abstract := false; x_default := []; x_type := []; x_subst := [] |}
      | None => None
      end
  end.

(** xsd_handler.h: xsd_file_, current_type_, parse_ (head is the top). *)
Record xh := { h_file : xsd; h_cur : option xtype; h_parse : list str }.
Definition with_schema (f : xsd) s := {| x_schema := s; x_elements := x_elements f; x_types := x_types f |}.
(** xsd_file.h:63-65 add_element, 68-70 add_type. *)
Definition add_element (f : xsd) (e : xelem) : xsd :=
  {| x_schema := x_schema f; x_elements := mset (x_name e) e (x_elements f); x_types := x_types f |}.
Definition add_type (f : xsd) (t : xtype) : xsd :=
  {| x_schema := x_schema f; x_elements := x_elements f; x_types := mset (t_name t) t (x_types f) |}.
Definition with_file (h : xh) f := {| h_file := f; h_cur := h_cur h; h_parse := h_parse h |}.
Definition with_cur (h : xh) c := {| h_file := h_file h; h_cur := c; h_parse := h_parse h |}.

(** xsd_handler.cc:97-112 StartXsElement: parse_.top() of an empty stack is undefined. *)
Definition start_xs_element (h : xh) (a : attrs) : res xh :=
  match element_create a with
  | None => Ok h
  | Some e =>
      match h_parse h with
      | [] => UB
      | top :: _ =>
          if eqs top (S_ "schema") then Ok (with_file h (add_element (h_file h) e))
          else match h_cur h with
               | Some (Complex n b s) => Ok (with_cur h (Some (Complex n b (s ++ [e]))))
               | _ => Ok h
               end
      end
  end.
(** xsd_handler.cc:41-45,66-70: complexType and simpleType start a type unless one is open. *)
Definition start_type (mk : str -> xtype) (h : xh) (a : attrs) : xh :=
  match h_cur h with
  | Some _ => h
  | None => with_cur h (option_map mk (mget (S_ "name") a))
  end.
(** xsd_handler.cc:55-63 StartExtension, 73-81 StartRestriction, 84-92 StartEnumeration. *)
Definition start_extension (h : xh) (a : attrs) : xh :=
  match h_cur h, mget (S_ "base") a with
  | Some (Complex n _ s), Some b => with_cur h (Some (Complex n b s))
  | _, _ => h
  end.
Definition start_restriction (h : xh) (a : attrs) : xh :=
  match h_cur h, mget (S_ "base") a with
  | Some (Simple n _ s), Some b => with_cur h (Some (Simple n b s))
  | _, _ => h
  end.
Definition start_enumeration (h : xh) (a : attrs) : xh :=
  match h_cur h, mget (S_ "value") a with
  | Some (Simple n b s), Some v => with_cur h (Some (Simple n b (s ++ [v])))
  | _, _ => h
  end.
(** Attributes::Create(StringVector) (attributes.cc:44-51,63-72) of the pairs expat reports. *)
Definition attrs_of (l : list (str * str)) : attrs :=
  fold_left (fun m kv => mset (fst kv) (snd kv) m) l [].
(** xsd_handler.cc:115-139 StartElement. *)
Definition xs_start (h : xh) (n : str) (atts : list (str * str)) : res xh :=
  let a := attrs_of atts in
  do h1 <- (if eqs n (S_ "schema") then Ok (with_file h (with_schema (h_file h) (schema_create a)))
            else if eqs n (S_ "element") then start_xs_element h a
            else if eqs n (S_ "complexType") then Ok (start_type (fun s => Complex s [] []) h a)
            else if eqs n (S_ "extension") then Ok (start_extension h a)
            else if eqs n (S_ "simpleType") then Ok (start_type (fun s => Simple s [] []) h a)
            else if eqs n (S_ "restriction") then Ok (start_restriction h a)
            else if eqs n (S_ "enumeration") then Ok (start_enumeration h a)
            else Ok h);
  Ok {| h_file := h_file h1; h_cur := h_cur h1; h_parse := n :: h_parse h1 |}.
(** xsd_handler.cc:49-52 EndType: add_type dereferences the current type, which may be NULL. *)
Definition end_type (h : xh) : res xh :=
  match h_cur h with
  | None => UB
  | Some t => Ok (with_cur (with_file h (add_type (h_file h) t)) None)
  end.
(** xsd_handler.cc:142-150 EndElement. *)
Definition xs_end (h : xh) (n : str) : res xh :=
  match h_parse h with
  | [] => UB
  | _ :: p =>
      let h1 := {| h_file := h_file h; h_cur := h_cur h; h_parse := p |} in
      if eqs n (S_ "complexType") || eqs n (S_ "simpleType") then end_type h1 else Ok h1
  end.
Fixpoint xs_run (h : xh) (l : list ev) : res xh :=
  match l with
  | [] => Ok h
  | EStart n a :: r => do h1 <- xs_start h n a; xs_run h1 r
  | EEnd n :: r => do h1 <- xs_end h n; xs_run h1 r
  | EChar _ :: r => xs_run h r
  end.
(** xsd_file.cc:40-49 CreateFromParse of a well-formed document. *)
Definition xsd_parse (l : list ev) : res xsd :=
  do h <- xs_run {| h_file := empty_xsd; h_cur := None; h_parse := [] |} l; Ok (h_file h).

(** * Queries *)
(** xsd_file.cc:79-83 FindType, 85-89 FindElement. *)
Definition find_type (f : xsd) (n : str) : option xtype := mget n (x_types f).
Definition find_element (f : xsd) (n : str) : option xelem := mget n (x_elements f).
(** xsd_file.cc:91-108 FindElementType. *)
Definition find_element_type (f : xsd) (e : xelem) : option xtype :=
  match x_type e with
  | [] => None
  | ty => if primitive ty then Some (Primitive ty)
          else match x_schema f with
               | None => None
               | Some sc => match split_ns_name sc ty with None => None | Some n => find_type f n end
               end
  end.
(** xsd_file.cc:136-144 ResolveRef. *)
Definition resolve_ref (f : xsd) (r : str) : option xelem :=
  match x_schema f with
  | None => None
  | Some sc => match split_ns_name sc r with None => None | Some n => find_element f n end
  end.
(** xsd_file.cc:110-124 FindChildElements: NULL is pushed for a reference which is not found. *)
Definition find_child_elements (f : xsd) (t : xtype) : list (option xelem) :=
  match t with
  | Complex _ _ s => map (fun e => if x_ref e then resolve_ref f (x_name e) else Some e) s
  | _ => []
  end.
(** xsd_file.cc:126-134 GetChildElements. *)
Definition get_child_elements (f : xsd) (name : str) : list (option xelem) :=
  match find_element f name with
  | None => []
  | Some e => match find_element_type f e with Some t => find_child_elements f t | None => [] end
  end.
(** xsd_file.cc:146-154 GetBaseType, for a file with a schema. *)
Definition get_base_type (f : xsd) (sc : str * str) (t : xtype) : option xtype :=
  match split_ns_name sc (t_base t) with
  | None => None
  | Some n => match find_type f n with Some b => if is_complex b then Some b else None | None => None end
  end.
(** xsd_file.cc:156-173 GetTypeHierarchy: the loop runs on a copy with [fuel] rounds. *)
Fixpoint hierarchy (fuel : nat) (f : xsd) (sc : str * str) (t : xtype) : res (bool * list xtype) :=
  match fuel with
  | O => Fuel
  | S k =>
      match t_base t with
      | [] => Ok (true, [])
      | _ => match get_base_type f sc t with
             | None => Ok (false, [])
             | Some b => do r <- hierarchy k f sc b; Ok (fst r, b :: snd r)
             end
      end
  end.
Definition get_type_hierarchy (fuel : nat) (f : xsd) (t : xtype) : res (bool * list xtype) :=
  match x_schema f with None => Ok (false, []) | Some sc => hierarchy fuel f sc t end.
(** xsd_file.cc:234-246 SearchTypeHierarchy (recursive); types compared as objects, that is by name. *)
Fixpoint search (fuel : nat) (f : xsd) (sc : str * str) (t find : xtype) : res bool :=
  match fuel with
  | O => Fuel
  | S k =>
      if eqs (t_name find) (t_name t) then Ok true
      else match get_base_type f sc t with
           | None => Ok false
           | Some b => search k f sc b find
           end
  end.
Definition search_type_hierarchy (fuel : nat) (f : xsd) (t find : xtype) : res bool :=
  match x_schema f with None => Ok false | Some sc => search fuel f sc t find end.
(** xsd_file.cc:248-263 GetElementsOfType. *)
Fixpoint elements_of_type (fuel : nat) (f : xsd) (l : smap xelem) (t : xtype) : res (list xelem) :=
  match l with
  | [] => Ok []
  | (_, e) :: l' =>
      do b <- match find_element_type f e with
              | Some c => if is_complex c then search_type_hierarchy fuel f c t else Ok false
              | None => Ok false
              end;
      do r <- elements_of_type fuel f l' t; Ok (if b then e :: r else r)
  end.
Definition get_elements_of_type (fuel : nat) (f : xsd) (t : xtype) : res (list xelem) :=
  elements_of_type fuel f (x_elements f) t.
(** xsd_file.cc:177-213: the three groups; 216-232 GenerateElementIdVector with the two offsets. *)
Definition abstract_elements (f : xsd) : list xelem := filter x_abstract (map snd (x_elements f)).
Definition has_type_such (p : xtype -> bool) (f : xsd) (e : xelem) : bool :=
  match find_element_type f e with Some t => p t | None => false end.
Definition complex_elements (f : xsd) : list xelem :=
  filter (fun e => negb (x_abstract e) && has_type_such is_complex f e) (map snd (x_elements f)).
Definition simple_elements (f : xsd) : list xelem :=
  filter (fun e => negb (x_abstract e) && (primitive (x_type e) || has_type_such is_simple f e)) (map snd (x_elements f)).
Definition element_id_vector (f : xsd) : list xelem * nat * nat :=
  let a := abstract_elements f in let c := complex_elements f in
  (a ++ c ++ simple_elements f, length a, (length a + length c)%nat).

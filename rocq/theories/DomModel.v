(** Model of the element classes of kmldom: how an element is built from what the parser gives it
    (ParseAttributes, AddElement, AddUnknownElement), how it is written (Serialize) and which children a
    visitor reaches (AcceptChildren).  The classes are the tables of DomTables.v. *)
From Verif Require Import Common StrMap StringsModel ColorModel AttributesModel XsdTables XsdModel CoordModel.
From Verif Require Import HandlerModel SerializerModel DomTables.
Local Open Scope N_scope.

(** An element.  [ka]: values of the attributes the class knows, as text; [ea]: other attributes
    (element.h:242-247); [text]: character data of simple elements, Snippet, linkSnippet and SimpleData
    (None: has_text is false); [vec]: coordinates as printed; [slots]: the children, one list for each
    entry of c_slots (the value of a simple child is kept as a simple element with the text
    Serialize would write); [mis]: unknown_legal_elements_array_; [unk]: unknown_elements_array_. *)
Inductive obj := Obj (ty : N) (ka : attrs) (ea : elem_attrs) (text : option str) (vec : list (str * str * str))
                     (slots : list (list obj)) (mis : list obj) (unk : list str).
Definition oty (o : obj) := let 'Obj t _ _ _ _ _ _ _ := o in t.
Definition oka (o : obj) := let 'Obj _ a _ _ _ _ _ _ := o in a.
Definition oea (o : obj) := let 'Obj _ _ e _ _ _ _ _ := o in e.
Definition otext (o : obj) := let 'Obj _ _ _ t _ _ _ _ := o in t.
Definition ovec (o : obj) := let 'Obj _ _ _ _ v _ _ _ := o in v.
Definition oslots (o : obj) := let 'Obj _ _ _ _ _ s _ _ := o in s.
Definition omis (o : obj) := let 'Obj _ _ _ _ _ _ m _ := o in m.
Definition ounk (o : obj) := let 'Obj _ _ _ _ _ _ _ u := o in u.
Definition set_ka (o : obj) v := let 'Obj t _ e x c s m u := o in Obj t v e x c s m u.
Definition set_ea (o : obj) v := let 'Obj t a _ x c s m u := o in Obj t a v x c s m u.
Definition set_text (o : obj) v := let 'Obj t a e _ c s m u := o in Obj t a e v c s m u.
Definition set_vec (o : obj) v := let 'Obj t a e x _ s m u := o in Obj t a e x v s m u.
Definition set_slots (o : obj) v := let 'Obj t a e x c _ m u := o in Obj t a e x c v m u.
Definition set_mis (o : obj) v := let 'Obj t a e x c s _ u := o in Obj t a e x c s v u.
Definition set_unk (o : obj) v := let 'Obj t a e x c s m _ := o in Obj t a e x c s m v.
Definition char_data (o : obj) : str := match otext o with Some s => s | None => [] end.

(** Number formatting is a parameter: [e_dbl tok] is what ToString(double) prints for the number
    that >> double reads from the characters [tok]; [e_int s] is what ToString(int) prints after
    FromString<int>(s), None if the variable is not written; [e_dflt], [e_idflt],
    [e_adflt], [e_aidflt]: printed initial values of the numeric (double, int) members and attributes of a
    class. *)
Record env := { e_dbl : str -> str; e_int : str -> option str; e_dflt : N -> N -> str; e_idflt : N -> N -> str;
                e_adflt : N -> str -> str; e_aidflt : N -> str -> str }.

(** kml_factory.cc CreateElementById / CreateFieldById. *)
Definition cls (ty : N) : class := class_of ty.
Definition create (ty : N) : obj := Obj ty [] no_attrs None [] (map (fun _ => []) (c_slots (cls ty))) [] [].
(** A simple element with its text (Field). *)
Definition field (ty : N) (v : str) : obj := Obj ty [] no_attrs (Some v) [] [] [] [].

Section Dom.
  Variable E : env.

  (** link.cc:46-58 BasicLink SetStringInsideCdata: with the literal prefix, 9 characters are cut in front
      and 3 at the end (size_t arithmetic: nothing is cut at the end of a text of less than 12). *)
  Definition inside_cdata (s : str) : str :=
    if prefixb (S_ "<![CDATA[") s then
      if (12 <=? length s)%nat then firstn (length s - 12) (skipn 9 s) else skipn 9 s
    else s.
  (** liststyle.cc:54-66, 82-93. *)
  Fixpoint join (sep : str) (l : list str) : str :=
    match l with [] => [] | [x] => x | x :: r => x ++ sep ++ join sep r end.
  Definition valid_enum (ty : N) (s : str) : bool := negb (enum_id ty s =? -1)%Z.
  Definition states (s : str) : res str :=
    do ts <- split_string_using s (S_ " "); Ok (join (S_ " ") (filter (valid_enum Type_state) ts)).
  (** geometry.cc:554-570, 526-531. *)
  Definition num_or_zero (o : option str) : str := match o with Some s => e_dbl E s | None => e_dbl E (S_ "0") end.
  Definition gx_value (s : str) : res str :=
    do v <- gx_parse s; Ok (gx_text (num_or_zero (g_lon v)) (num_or_zero (g_lat v)) (num_or_zero (g_alt v))).

  (** The text Serialize will write for a simple child of type [ty] with text [s] given to a parent of
      class [p]: element.cc:178-226 SetBool, SetDouble, SetInt, SetEnum, SetString; Color32(string)
      (color32.h:50-52, its initial value does not matter); None: has_x is false afterwards.
      [prev] is the value before. *)
  Definition norm (p : N) (f : fkind) (ty : N) (prev : option str) (s : str) : res (option str) :=
    let keep (dflt : str) := match prev with Some v => v | None => dflt end in
    match f with
    | FString => Ok (Some s)
    | FHref => Ok (Some (inside_cdata s))
    | FBool => Ok (Some (to_string_bool (from_string_bool s)))
    | FDouble => Ok (Some (match from_string_double s with Some t => e_dbl E t | None => keep (e_dflt E p ty) end))
    | FInt => Ok (Some (match e_int E s with Some v => v | None => keep (e_idflt E p ty) end))
    | FEnum => Ok (if valid_enum ty s then Some s else None)
    | FColor => do c <- set_color_abgr_str 0 s; Ok (Some (to_string_abgr c))
    | FStates => do v <- states s; Ok (Some v)
    | FVec => do v <- gx_value s; Ok (Some v)
    end.

  (** Attribute values: attributes.h:83-90 CutValue (a number that cannot be read leaves the initial value,
      has_x is true), vec2.cc:60-71 CutEnumAttr. *)
  Definition norm_att (ty : N) (k : str) (a : akind) (s : str) : option str :=
    match a with
    | AString => Some s
    | AInt => Some (match e_int E s with Some v => v | None => e_aidflt E ty k end)
    | ADouble => Some (match from_string_double s with Some t => e_dbl E t | None => e_adflt E ty k end)
    | AEnum t => if valid_enum t s then Some s else None
    end.
  Fixpoint cut_known (ty : N) (ks : list (str * akind)) (a ka : attrs) : attrs * attrs :=
    match ks with
    | [] => (a, ka)
    | (k, kd) :: r =>
        let '(v, a) := cut_value k a in
        let ka := match v with
                  | Some s => match norm_att ty k kd s with Some w => mset k w ka | None => ka end
                  | None => ka
                  end in
        cut_known ty r a ka
    end.
  (** ParseAttributes of each class: the known attributes are cut, the rest goes to
      AddUnknownAttributes. *)
  Definition parse_attributes (o : obj) (a : attrs) : obj :=
    let '(a, ka) := cut_known (oty o) (c_atts (cls (oty o))) a (oka o) in
    set_ea (set_ka o ka) (add_unknown_attributes (oea o) a).
  (** SerializeAttributes of each class: Element::SerializeAttributes, then the known ones. *)
  Definition out_attributes (o : obj) : attrs := merge_attributes (serialize_attributes (oea o) []) (oka o).

  (** The first test that accepts a child of type [ty]. *)
  Definition accepts (ty : N) (t : test) : bool := match t with TType g => ty =? g | TIsA g => is_a ty g end.
  Definition takes (ty : N) (s : slot) : bool := existsb (accepts ty) (s_tests s).
  Fixpoint find_slot (ty : N) (ss : list slot) (i : nat) : option (nat * slot) :=
    match ss with
    | [] => None
    | s :: r => if takes ty s then Some (i, s) else find_slot ty r (S i)
    end.
  Fixpoint update (i : nat) (v : list obj) (l : list (list obj)) : list (list obj) :=
    match l, i with
    | [], _ => []
    | _ :: r, O => v :: r
    | x :: r, S j => x :: update j v r
    end.
  Definition snippet_type (ty : N) : bool := (ty =? Type_Snippet) || (ty =? Type_linkSnippet).
  (** AddElement of each class; a child no class on the way up accepts ends in
      unknown_legal_elements_array_ (element.cc:53-55).  Exceptions: Snippet and linkSnippet
      (snippet.cc:63-68) take their own character data, which is empty while children are added, and
      drop the child; Coordinates (geometry.cc:178-182) parses its own character data, so the child is
      dropped; SimpleData (extendeddata.cc:68-78) does so for a SimpleData child. *)
  Definition add_element (o c : obj) : res obj :=
    let p := oty o in
    if snippet_type p then Ok (set_text o (Some []))
    else if p =? Type_coordinates then Ok o
    else if (p =? Type_SimpleData) && (oty c =? Type_SimpleData) then Ok (set_text o (Some []))
    else
      match find_slot (oty c) (c_slots (cls p)) 0 with
      | None => Ok (set_mis o (omis o ++ [c]))
      | Some (i, s) =>
          let cur := nth i (oslots o) [] in
          let prev := match cur with v :: _ => otext v | [] => None end in
          let store v := set_slots o (update i v (oslots o)) in
          match s_kind s with
          | KField f => do v <- norm p f (oty c) prev (char_data c);
                        Ok (store (match v with Some v => [field (oty c) v] | None => [] end))
          | KFields f => do v <- norm p f (oty c) None (char_data c);
                         Ok (store (cur ++ match v with Some v => [field (oty c) v] | None => [] end))
          | KChild => Ok (store [c])
          | KChildren => Ok (store (cur ++ [c]))
          end
      end.
  (** AddElement(this) once the character data is known (kml_handler.cc:246-262). *)
  Definition vec_text (v : vec3) : str * str * str :=
    (e_dbl E (v_lon v), num_or_zero (v_lat v), num_or_zero (v_alt v)).
  Definition add_self (o : obj) (s : str) : res obj :=
    if oty o =? Type_coordinates then do vs <- coordinates_parse s; Ok (set_vec o (ovec o ++ map vec_text vs))
    else if snippet_type (oty o) || (oty o =? Type_SimpleData) then Ok (set_text o (Some s))
    else Ok o.

  (** kml_handler.cc:427-447: the ExtendedData made for a placemark of an old style Schema. *)
  Fixpoint index_of_key (k : N) (ss : list slot) (i : nat) : option nat :=
    match ss with [] => None | s :: r => if s_key s =? k then Some i else index_of_key k r (S i) end.
  Definition put (o : obj) (k : N) (v : list obj) : obj :=
    match index_of_key k (c_slots (cls (oty o))) 0 with
    | Some i => set_slots o (update i v (oslots o))
    | None => o
    end.
  Definition get (o : obj) (k : N) : list obj :=
    match index_of_key k (c_slots (cls (oty o))) 0 with Some i => nth i (oslots o) [] | None => [] end.
  Definition old_data (url : str) (sd : list (str * str)) : obj :=
    put (create Type_ExtendedData) Type_SchemaData
      [put (set_ka (create Type_SchemaData) [(S_ "schemaUrl", url)]) Type_SimpleData
         (map (fun nv => set_text (set_ka (create Type_SimpleData) [(S_ "name", fst nv)]) (Some (snd nv))) sd)].

  (** The element for a node of the parser (HandlerModel.v). *)
  Definition start (ty : N) (a : option attrs) (cd : str) : obj :=
    if is_simple ty then field ty cd
    else match a with Some a => parse_attributes (create ty) a | None => create ty end.
  Fixpoint build (n : node) : res obj :=
    let 'Node ty a cd log := n in
    (fix go (l : list entry) (o : obj) : res obj :=
       match l with
       | [] => Ok o
       | e :: r =>
           do o' <- match e with
                    | LChild c => do c' <- build c; add_element o c'
                    | LUnknown s => Ok (set_unk o (ounk o ++ [s]))
                    | LSelf s => add_self o s
                    | LSchemaId s => Ok (set_ka o (mset (S_ "id") s (oka o)))
                    | LExtendedData url sd => Ok (put o Type_ExtendedData [old_data url sd])
                    end;
           go r o'
       end) log (start ty a cd).

  (** Serialize: the calls made on the serializer.  A simple element writes its text only
      (element.cc:174-176); Coordinates::Serialize (geometry.cc:184-192) writes the tuples only; all
      others write attributes, children in the order c_ser, misplaced elements and unknown markup
      (element.cc:64-87, 151-164). *)
  Definition vec_item (v : str * str * str) : item := let '(a, b, c) := v in IVec3 a b c.
  Definition own_content (ty : N) (t : option str) : list item :=
    if snippet_type ty then [IContent (match t with Some s => s | None => [] end)]
    else if ty =? Type_SimpleData then match t with Some s => [IContent s] | None => [] end
    else [].
  Definition pick {A} (c : class) (l : list (list A)) (k : N) : list A :=
    match index_of_key k (c_slots c) 0 with Some i => nth i l [] | None => [] end.
  Fixpoint ser (o : obj) : item :=
    let 'Obj ty ka ea tx vec sl mis unk := o in
    if is_simple ty then IField ty (match tx with Some s => s | None => [] end)
    else if ty =? Type_coordinates then IElem ty [] (map vec_item vec)
    else IElem ty (out_attributes o)
           (own_content ty tx ++ flat_map (pick (cls ty) (map (map ser) sl)) (c_ser (cls ty)) ++ map ser mis ++ map IUnknown unk).

  (** visitor_driver.cc SimplePreorderDriver / SimplePostorderDriver over AcceptChildren. *)
  Fixpoint preorder (o : obj) : list obj :=
    o :: flat_map (pick (cls (oty o)) (map (flat_map preorder) (oslots o))) (c_acc (cls (oty o))).
  Fixpoint postorder (o : obj) : list obj :=
    flat_map (pick (cls (oty o)) (map (flat_map postorder) (oslots o))) (c_acc (cls (oty o))) ++ [o].
End Dom.

(** Model of kmldom::KmlHandler (src/kml/dom/kml_handler.cc) and Parser::Parse (src/kml/dom/parser.cc).
    Expat is represented by the events it reports for a well-formed document (XmlSpec.v); after
    XML_StopParser no further event has an effect and the parse returns NULL (expat_parser.cc:144-158:
    the status is XML_STATUS_SUSPENDED).  The one EndElement call expat still makes for an
    empty-element tag after a stop is left out: its result is discarded. *)
From Verif Require Import Common StrMap AttributesModel XsdTables XsdModel XmlSpec.
Local Open Scope N_scope.

(** A parsed element: its type, the attributes given to ParseAttributes (None: not called), its
    character data, and what its AddElement/AddUnknownElement received, in order. *)
Inductive node := Node (ty : N) (atts : option attrs) (cd : str) (log : list entry)
with entry :=
| LChild (n : node)                                 (* AddElement(child) *)
| LUnknown (s : str)                                (* AddUnknownElement(s) *)
| LSelf (cd : str)                                  (* AddElement(this), with the character data set *)
| LSchemaId (s : str)                               (* old Schema: set_id *)
| LExtendedData (url : str) (sd : list (str * str)) (* old Schema: set_extendeddata *).
Definition nty (n : node) := let 'Node t _ _ _ := n in t.
Definition natts (n : node) := let 'Node _ a _ _ := n in a.
Definition ncd (n : node) := let 'Node _ _ c _ := n in c.
Definition nlog (n : node) := let 'Node _ _ _ l := n in l.

(** An element on the parse stack. *)
Record frame := { fty : N; fatts : option attrs; fcd : str; flog : list entry }.
Definition log_entry (e : entry) (f : frame) : frame :=
  {| fty := fty f; fatts := fatts f; fcd := fcd f; flog := flog f ++ [e] |}.
Definition set_fcd (f : frame) (c : str) : frame :=
  {| fty := fty f; fatts := fatts f; fcd := c; flog := flog f |}.
Definition node_of (f : frame) : node := Node (fty f) (fatts f) (fcd f) (flog f).

(** Observer notifications (parser_observer.h): type and attributes of a new element; parent type and
    finished child. *)
Inductive note :=
| NNew (ty : N) (atts : option attrs)
| NEnd (parent : N) (child : node)
| NAdd (parent : N) (child : node).
(** An observer decides on a notification knowing all previous ones (its state). *)
Definition observer := list (nat * note) -> note -> bool.

(** kml_handler.h:101-131: members of KmlHandler, plus the stop flag of the expat parser and the
    notifications made so far (latest first).  [sdata]: simpledata_vec_ as (name, text);
    [sdone]: how many of them already have a parent. *)
Record hstate := {
  stack : list frame; cds : list str; skip : N; indesc : N; depth : N;
  old : str; sfields : list str; sdata : list (str * str); sdone : nat; inold : bool;
  stopped : bool; trace : list (nat * note) }.
Definition h0 : hstate :=
  {| stack := []; cds := []; skip := 0; indesc := 0; depth := 0; old := []; sfields := []; sdata := [];
     sdone := 0; inold := false; stopped := false; trace := [] |}.

(** Unsigned 32-bit arithmetic of skip_depth_, in_description_ and nesting_depth_. *)
Definition u32 (n : N) : N := n mod 4294967296.
Definition inc (n : N) : N := u32 (n + 1).
Definition dec (n : N) : N := u32 (n + 4294967295).

(** kml_factory.cc:44-150 CreateElementById: NULL for the abstract types. *)
Definition abstract_types : list N :=
  [Type_ColorStyle; Type_Container; Type_Feature; Type_Geometry; Type_AbstractLatLonBox; Type_Object;
   Type_Overlay; Type_StyleSelector; Type_SubStyle; Type_TimePrimitive; Type_AbstractView;
   Type_BasicLink; Type_Vec2; Type_GxTourPrimitive].
Definition creatable (ty : N) : bool :=
  match element_type (Z.of_N ty) with
  | XSD_COMPLEX => negb (existsb (N.eqb ty) abstract_types)
  | _ => false
  end.
Definition is_simple (ty : N) : bool :=
  match element_type (Z.of_N ty) with XSD_SIMPLE => true | _ => false end.
Definition is_unknown_type (ty : N) : bool :=
  match element_type (Z.of_N ty) with XSD_UNKNOWN => true | _ => false end.

(** attributes.cc Create + Parse on the vector expat_handler builds. *)
Definition attrs_of (a : list (str * str)) : attrs := parse_cstrings (flat_map (fun kv => [fst kv; snd kv]) a) [].

(** kml_handler.cc:349-363 InsertUnknownStartElement, 366-371 InsertUnknownEndElement: text appended. *)
Definition raw_att (kv : str * str) : str := S_ " " ++ fst kv ++ S_ "=""" ++ snd kv ++ S_ """".
Definition raw_start (name : str) (a : list (str * str)) : str := S_ "<" ++ name ++ flat_map raw_att a ++ S_ ">".
Definition raw_end (name : str) : str := S_ "</" ++ name ++ S_ ">".

Section Setters.
  Variable h : hstate.
  Definition set_stack v := {| stack := v; cds := cds h; skip := skip h; indesc := indesc h; depth := depth h; old := old h; sfields := sfields h; sdata := sdata h; sdone := sdone h; inold := inold h; stopped := stopped h; trace := trace h |}.
  Definition set_cds v := {| stack := stack h; cds := v; skip := skip h; indesc := indesc h; depth := depth h; old := old h; sfields := sfields h; sdata := sdata h; sdone := sdone h; inold := inold h; stopped := stopped h; trace := trace h |}.
  Definition set_skip v := {| stack := stack h; cds := cds h; skip := v; indesc := indesc h; depth := depth h; old := old h; sfields := sfields h; sdata := sdata h; sdone := sdone h; inold := inold h; stopped := stopped h; trace := trace h |}.
  Definition set_indesc v := {| stack := stack h; cds := cds h; skip := skip h; indesc := v; depth := depth h; old := old h; sfields := sfields h; sdata := sdata h; sdone := sdone h; inold := inold h; stopped := stopped h; trace := trace h |}.
  Definition set_depth v := {| stack := stack h; cds := cds h; skip := skip h; indesc := indesc h; depth := v; old := old h; sfields := sfields h; sdata := sdata h; sdone := sdone h; inold := inold h; stopped := stopped h; trace := trace h |}.
  Definition set_old v := {| stack := stack h; cds := cds h; skip := skip h; indesc := indesc h; depth := depth h; old := v; sfields := sfields h; sdata := sdata h; sdone := sdone h; inold := inold h; stopped := stopped h; trace := trace h |}.
  Definition set_sfields v := {| stack := stack h; cds := cds h; skip := skip h; indesc := indesc h; depth := depth h; old := old h; sfields := v; sdata := sdata h; sdone := sdone h; inold := inold h; stopped := stopped h; trace := trace h |}.
  Definition set_sdata v d := {| stack := stack h; cds := cds h; skip := skip h; indesc := indesc h; depth := depth h; old := old h; sfields := sfields h; sdata := v; sdone := d; inold := inold h; stopped := stopped h; trace := trace h |}.
  Definition set_inold v := {| stack := stack h; cds := cds h; skip := skip h; indesc := indesc h; depth := depth h; old := old h; sfields := sfields h; sdata := sdata h; sdone := sdone h; inold := v; stopped := stopped h; trace := trace h |}.
  Definition stop := {| stack := stack h; cds := cds h; skip := skip h; indesc := indesc h; depth := depth h; old := old h; sfields := sfields h; sdata := sdata h; sdone := sdone h; inold := inold h; stopped := true; trace := trace h |}.
  Definition set_trace v := {| stack := stack h; cds := cds h; skip := skip h; indesc := indesc h; depth := depth h; old := old h; sfields := sfields h; sdata := sdata h; sdone := sdone h; inold := inold h; stopped := stopped h; trace := v |}.
End Setters.

(** char_data_.top().append(s): undefined on an empty stack. *)
Definition append_cd (h : hstate) (s : str) : res hstate :=
  match cds h with c :: r => Ok (set_cds h ((c ++ s) :: r)) | [] => UB end.

(** kml_handler.cc:197-205, 300-310, 313-323: observers in order until one returns false. *)
Fixpoint call_observers (obs : list observer) (i : nat) (n : note) (tr : list (nat * note)) : bool * list (nat * note) :=
  match obs with
  | [] => (true, tr)
  | o :: r => let tr' := (i, n) :: tr in
              if o tr n then call_observers r (S i) n tr' else (false, tr')
  end.

Definition is_description (name : str) : bool := eqs name (S_ "description").
Definition is_schema (name : str) : bool := eqs name (S_ "Schema").
Definition max_nesting : N := 100.

(** kml_handler.cc:374-381 FindOldSchemaParentName. *)
Definition find_old_schema (a : list (str * str)) (old : str) : str :=
  match find_value (S_ "parent") (attrs_of a) with
  | Some _ => match find_value (S_ "name") (attrs_of a) with Some n => n | None => old end
  | None => old
  end.

Section Handler.
  Variable obs : list observer.

  (** kml_handler.cc:155-160 and 186-188: an unknown element begins. *)
  Definition begin_unknown (h : hstate) (name : str) (a : list (str * str)) : res hstate :=
    do h <- append_cd h (raw_start name a); Ok (set_skip h (inc (skip h))).

  (** kml_handler.cc:72-194 StartElement. *)
  Definition start_element (h : hstate) (name : str) (a : list (str * str)) : res hstate :=
    let h := set_depth h (inc (depth h)) in
    if max_nesting <? depth h then Ok (stop h)
    else
    let h := if (0 <? indesc h) && is_description name then set_indesc h (inc (indesc h)) else h in
    if 0 <? skip h then begin_unknown h name a
    else
    let h := if is_schema name then set_old h (find_old_schema a (old h)) else h in
    let h := set_cds h ([] :: cds h) in
    let ty := element_id name in
    let ty := if negb (eqs (old h) []) && eqs name (old h) then Type_Placemark else ty in
    let push (h : hstate) (f : frame) : res hstate :=
      let h := set_stack h (f :: stack h) in
      let h := if fty f =? Type_description then set_indesc (set_skip h (inc (skip h))) (inc (indesc h)) else h in
      let '(ok, tr) := call_observers obs 0 (NNew (fty f) (fatts f)) (trace h) in
      let h := set_trace h tr in
      Ok (if ok then h else stop h) in
    let unknown (h : hstate) : res hstate :=
      match stack h with
      | [] => Ok (stop h)
      | _ => begin_unknown h name a
      end in
    if creatable ty then
      let ty := if ty =? Type_Icon then
                  match stack h with
                  | f :: _ => if fty f =? Type_IconStyle then Type_IconStyleIcon else ty
                  | [] => ty
                  end
                else ty in
      push h {| fty := ty; fatts := match a with [] => None | _ => Some (attrs_of a) end; fcd := []; flog := [] |}
    else if is_simple ty then push h {| fty := ty; fatts := None; fcd := []; flog := [] |}
    else if is_unknown_type ty && negb (eqs (old h) []) then
      if existsb (eqs name) (sfields h) then
        Ok (set_inold (set_sdata h (sdata h ++ [(name, [])]) (sdone h)) true)
      else unknown (set_inold h false)
    else unknown h.

  (** kml_handler.cc:409-424 HandleOldSchemaEndElement: names of the SimpleField children. *)
  Definition schema_fields (l : list entry) : list str :=
    flat_map (fun e => match e with
                       | LChild n => if nty n =? Type_SimpleField then
                                       match natts n with
                                       | Some a => match find_value (S_ "name") a with Some v => [v] | None => [] end
                                       | None => []
                                       end
                                     else []
                       | _ => []
                       end) l.

  (** Text into the last simple data of the vector. *)
  Fixpoint set_last (l : list (str * str)) (t : str) : list (str * str) :=
    match l with
    | [] => []
    | [(n, _)] => [(n, t)]
    | x :: l' => x :: set_last l' t
    end.

  Definition self_parsed (ty : N) : bool :=
    (ty =? Type_coordinates) || (ty =? Type_Snippet) || (ty =? Type_linkSnippet) || (ty =? Type_SimpleData).

  (** kml_handler.cc:207-298 EndElement. *)
  Definition end_element (h : hstate) (name : str) : res hstate :=
    let h := set_depth h (dec (depth h)) in
    let h := if is_description name then
               let h := set_indesc h (dec (indesc h)) in
               if indesc h =? 0 then set_skip h (dec (skip h)) else h
             else h in
    if 0 <? skip h then
      do h <- append_cd h (raw_end name);
      let h := set_skip h (dec (skip h)) in
      if skip h =? 0 then
        match cds h, stack h with
        | c :: cr, f :: fr => Ok (set_stack (set_cds h cr) (log_entry (LUnknown (c ++ ["010"%char])) f :: fr))
        | _, _ => UB
        end
      else Ok h
    else
    match stack h with
    | [] => Ok h
    | f :: fr =>
        match cds h with
        | [] => UB
        | c :: cr =>
            let h := set_cds h cr in
            if inold h && negb (Nat.eqb (length (sdata h)) 0) then
              Ok (set_inold (set_sdata h (set_last (sdata h) c) (sdone h)) false)
            else
            let f := set_fcd f c in
            let f := if self_parsed (fty f) then log_entry (LSelf c) f else f in
            do (h, f) <-
              (if negb (eqs (old h) []) then
                 if is_schema name then
                   if fty f =? Type_Schema then
                     Ok (set_sfields h (sfields h ++ schema_fields (flog f)), log_entry (LSchemaId (old h ++ S_ "_id")) f)
                   else UB
                 else if eqs name (old h) then
                   if fty f =? Type_Placemark then
                     Ok (set_sdata h (sdata h) (length (sdata h)),
                         log_entry (LExtendedData (old h ++ S_ "_id") (skipn (sdone h) (sdata h))) f)
                   else UB
                 else Ok (h, f)
               else Ok (h, f));
            let child := node_of f in
            match fr with
            | [] => Ok (set_stack h [f])
            | p :: pr =>
                let '(ok, tr) := call_observers obs 0 (NEnd (fty p) child) (trace h) in
                let p := if ok then log_entry (LChild child) p else p in
                let '(ok, tr) := call_observers obs 0 (NAdd (fty p) child) tr in
                let h := set_trace (set_stack h (p :: pr)) tr in
                Ok (if ok then h else stop h)
            end
        end
    end.

  Definition event (h : hstate) (e : ev) : res hstate :=
    if stopped h then Ok h
    else match e with
         | EStart n a => start_element h n a
         | EEnd n => end_element h n
         | EChar c => append_cd h [c]         (* kml_handler.cc:333-335 CharData *)
         end.
  Fixpoint events (h : hstate) (es : list ev) : res hstate :=
    match es with
    | [] => Ok h
    | e :: r => do h <- event h e; events h r
    end.

  (** kml_handler.cc:339-346 PopRoot after a complete parse (parser.cc:53-60). *)
  Definition pop_root (h : hstate) : option node :=
    if stopped h then None
    else match stack h with [f] => Some (node_of f) | _ => None end.
  Definition parse_events (es : list ev) : res (option node) := do h <- events h0 es; Ok (pop_root h).
End Handler.

(** Model of kmldom::Serializer (src/kml/dom/serializer.cc, serializer.h) and of the XML writer
    kmldom::XmlSerializer (src/kml/dom/xml_serializer.h, xml_serializer.cc). *)
From Verif Require Import Common StrMap StringsModel AttributesModel XsdTables XsdModel.
Local Open Scope N_scope.

(** serializer.cc:39-47 EnityEscapeXml.  The StringMap iterates in byte order of its keys:
    quotation mark, ampersand, apostrophe, less-than, greater-than. *)
Definition escape_map : list (str * str) :=
  [(S_ """", S_ "&quot;"); (S_ "&", S_ "&amp;"); (S_ "'", S_ "&apos;"); (S_ "<", S_ "&lt;"); (S_ ">", S_ "&gt;")].
Definition entity_escape (xml : str) : res str := create_expanded xml escape_map [] [].

(** find_first_of over the five reserved bytes, != npos. *)
Definition reserved (c : ascii) : bool :=
  aeq c "&"%char || aeq c "'"%char || aeq c "<"%char || aeq c ">"%char || aeq c """"%char.
(** serializer.cc:56-69 MaybeQuoteString. *)
Definition maybe_quote (v : str) : res str :=
  match find (S_ "<![CDATA[") v with
  | Some _ => entity_escape v
  | None => if existsb reserved v then Ok (S_ "<![CDATA[" ++ v ++ S_ "]]>") else Ok v
  end.

(** Calls an Element makes on a serializer.  Numbers arrive as the text produced by
    kmlbase::ToString (string_util.h), so a field value or tuple component is a string here. *)
Inductive call :=
| CBegin (ty : N) (a : attrs)
| CEnd
| CField (ty : N) (v : str)
| CContent (s : str) (q : bool)
| CVec3 (lon lat alt : str)
| CColor (ty : N) (v : str)
| CIndent.

(** xml_serializer.h:236-241: members of XmlSerializer. *)
Record ser := { out : str; tags : list N; pending : bool; satts : str }.
Definition ser0 : ser := {| out := []; tags := []; pending := false; satts := [] |}.

(** xsd_.ElementName as used for tags. *)
Definition tag_name (ty : N) : str := element_name (Z.of_N ty).

Section Writer.
  (** xml_serializer.h:236-237 newline_ and indent_. *)
  Variables nl ind : str.

  Definition put (s : ser) (t : str) : ser :=
    {| out := out s ++ t; tags := tags s; pending := pending s; satts := satts s |}.
  (** xml_serializer.h:191-198 Indent: indent_ once per open tag. *)
  Fixpoint indent (n : nat) : str := match n with O => [] | S n' => ind ++ indent n' end.
  Definition do_indent (s : ser) : ser := put s (indent (length (tags s))).
  (** xml_serializer.h:214-234 EmitStart; top() of an empty stack is undefined. *)
  Definition emit_start (s : ser) (is_nil : bool) : res (ser * bool) :=
    if pending s then
      match tags s with
      | [] => UB
      | ty :: _ =>
          Ok ({| out := out s ++ S_ "<" ++ tag_name ty ++ satts s ++ (if is_nil then S_ "/>" else S_ ">") ++ nl;
                 tags := tags s; pending := false; satts := [] |}, true)
      end
    else Ok (s, false).
  Definition emit_open (s : ser) : res ser := do (s', _) <- emit_start s false; Ok s'.

  (** xml_serializer.h:131-147 SaveStringFieldById. *)
  Definition save_field (s : ser) (ty : N) (v : str) : res ser :=
    do s <- emit_open s;
    let s := do_indent s in
    match v with
    | [] => Ok (put s (S_ "<" ++ tag_name ty ++ S_ "/" ++ S_ ">" ++ nl))
    | _ => do q <- maybe_quote v;
           Ok (put s (S_ "<" ++ tag_name ty ++ S_ ">" ++ q ++ S_ "</" ++ tag_name ty ++ S_ ">" ++ nl))
    end.

  Definition step (s : ser) (c : call) : res ser :=
    match c with
    (* xml_serializer.h:98-110 BeginById *)
    | CBegin ty a =>
        do s <- emit_open s;
        let s := do_indent s in
        Ok {| out := out s; tags := ty :: tags s; pending := true; satts := satts s ++ serialize a |}
    (* xml_serializer.h:113-127 End *)
    | CEnd =>
        match tags s with
        | [] => UB
        | ty :: ts =>
            do (s, is_nil) <- emit_start s true;
            let s := {| out := out s; tags := ts; pending := pending s; satts := satts s |} in
            if is_nil then Ok s
            else Ok (put (do_indent s) (S_ "</" ++ tag_name ty ++ S_ ">" ++ nl))
        end
    | CField ty v => save_field s ty v
    (* xml_serializer.h:150-157 SaveContent *)
    | CContent t q =>
        do s <- emit_open s;
        do t <- (if q then maybe_quote t else Ok t);
        Ok (put s t)
    (* xml_serializer.h:160-182 SaveVec3 *)
    | CVec3 lon lat alt =>
        do s <- emit_open s;
        Ok (put (do_indent s) (lon ++ S_ "," ++ lat ++ S_ "," ++ alt ++
              match nl with [] => ["010"%char] | _ => nl end))
    (* xml_serializer.h:185-188 SaveColor *)
    | CColor ty v => do s <- emit_open s; save_field s ty v
    | CIndent => Ok (do_indent s)
    end.

  Fixpoint run (s : ser) (cs : list call) : res ser :=
    match cs with
    | [] => Ok s
    | c :: cs' => do s <- step s c; run s cs'
    end.
End Writer.

(** What an Element::Serialize makes of itself: an ElementSerializer (element.cc:151-164: attributes,
    content, then unknown elements as raw text after an Indent, then End) around fields, text,
    coordinate tuples and child elements. *)
Inductive item :=
| IElem (ty : N) (a : attrs) (kids : list item)
| IField (ty : N) (v : str)
| IColor (ty : N) (v : str)
| IContent (s : str)
| IVec3 (lon lat alt : str)
| IUnknown (s : str).

Fixpoint calls (i : item) : list call :=
  match i with
  | IElem ty a ks => CBegin ty a :: flat_map calls ks ++ [CEnd]
  | IField ty v => [CField ty v]
  | IColor ty v => [CColor ty v]
  | IContent s => [CContent s true]
  | IVec3 a b c => [CVec3 a b c]
  | IUnknown s => [CIndent; CContent s false]
  end.

(** xml_serializer.cc:46-69 SerializePretty, SerializeRaw. *)
Definition serialize_with (nl ind : str) (i : item) : res str := do s <- run nl ind ser0 (calls i); Ok (out s).
Definition serialize_pretty (i : item) : res str := serialize_with ["010"%char] (S_ "  ") i.
Definition serialize_raw (i : item) : res str := serialize_with [] [] i.

(** Model of the namespace aware parses: base/xmlns.h, base/expat_handler_ns.cc, dom/kml_handler_ns.cc and
    ParseNS, ParseAtom of dom/parser.cc. *)
From Verif Require Import Common StrMap AttributesModel XsdTables XsdModel XmlSpec XmlSpecProofs NsSpec HandlerModel.

(** base/xmlns.h:55-120: default_ and prefix_map_. *)
Record xmlns_table := { x_default : str; x_prefixes : option attrs }.
(** base/xmlns.h:58-65, 108-117 Create; None: NULL. *)
Definition xmlns_create (a : attrs) : option xmlns_table :=
  let p := fst (split_by_prefix (S_ "xmlns") a) in
  let d := match find_value (S_ "xmlns") a with Some v => v | None => [] end in
  match d, p with [], None => None | _, _ => Some {| x_default := d; x_prefixes := p |} end.
(** base/xmlns.h:78-84 GetNamespace, 89-95 GetKey. *)
Definition get_namespace (x : xmlns_table) (p : str) : str :=
  match x_prefixes x with Some m => match mget p m with Some u => u | None => [] end | None => [] end.
Definition get_key (x : xmlns_table) (u : str) : str :=
  match x_prefixes x with Some m => match find_key u m with Some p => p | None => [] end | None => [] end.
(** base/expat_handler_ns.cc:37-59 TranslatePrefixedName. *)
Definition translate (x : xmlns_table) (s : str) : str :=
  match find_char "|"%char s with
  | None => s
  | Some i =>
      let u := firstn i s in let l := skipn (i + 1) s in
      if eqs (x_default x) u then l
      else match get_key x u with [] => s | p => p ++ S_ ":" ++ l end
  end.
(** dom/kml_handler_ns.cc:45-60: what follows the last separator (npos + 1 is 0). *)
Fixpoint after_last (s : str) : str :=
  match s with
  | [] => []
  | c :: r => if existsb (aeq "|"%char) r then after_last r else if aeq "|"%char c then r else s
  end.
(** The names of the elements are changed on the way to KmlHandler (expat_handler_ns.cc:61-70, kml_handler_ns.cc:45-60). *)
Fixpoint rename (f : str -> str) (x : xml) : xml :=
  match x with XElem n a ks => XElem (f n) a (map (rename f) ks) | XChar c => XChar c end.
Definition rename_event (f : str -> str) (e : ev) : ev :=
  match e with EStart n a => EStart (f n) a | EEnd n => EEnd (f n) | EChar c => EChar c end.
(** dom/parser.cc:89-91. *)
Definition atom_uri : str := S_ "http://www.w3.org/2005/Atom".
Definition kml_uri22 : str := S_ "http://www.opengis.net/kml/2.2".
Definition atom_attributes : attrs := set_value (S_ "xmlns:atom") atom_uri (set_value (S_ "xmlns") kml_uri22 []).
Definition atom_table : xmlns_table := match xmlns_create atom_attributes with Some t => t | None => {| x_default := []; x_prefixes := None |} end.
(** The parse of ParseAtom: the parser of a handler is set by ExpatParser (expat_parser.cc:81-86) for the handler it gets, here the ExpatHandlerNs; that of the KmlHandler
    behind it has no value (expat_handler.h:50-58), and stopping it (kml_handler.cc:76,166,192,295) is UB. *)
Definition parse_unset (obs : list observer) (es : list ev) : res (option node) :=
  do h <- events obs h0 es; if stopped h then UB else Ok (pop_root h).
(** dom/parser.cc:65-71 ParseNS, 75-97 ParseAtom, of a document; [None]: NULL.  What is reported before an error of the namespaces is left out. *)
Definition parse_renamed (run : list observer -> list ev -> res (option node)) (f : str -> str) (obs : list observer) (t : xml) : res (option node) :=
  match ns [] t with None => Ok None | Some x => run obs (map (rename_event f) (xevents (reported x))) end.
Definition parse_ns := parse_renamed parse_events after_last.
Definition parse_atom := parse_renamed parse_unset (translate atom_table).
Definition parse_ns_text (obs : list observer) (s : str) : res (option node) :=
  match xml_tree s with Some t => parse_ns obs t | None => Ok None end.
Definition parse_atom_text (obs : list observer) (s : str) : res (option node) :=
  match xml_tree s with Some t => parse_atom obs t | None => Ok None end.

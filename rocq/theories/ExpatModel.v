(** The interface of the library to expat: conversion of what expat reports to UTF-8, and the end of a parse when an entity is declared
    (kml/base/expat_handler.h:69-122, kml/base/expat_parser.cc:35-158). *)
From Verif Require Import Common XmlSpec HandlerModel StreamModel NsModel XsdFileModel.
Local Open Scope N_scope.

(** expat_handler.h:69-95 xmlchar_to_utf8: the bytes pushed for a code unit; [wide]: expat was built with XML_UNICODE, and an XML_Char is a UTF-16 code unit; a byte otherwise. *)
Definition to_utf8 (wide : bool) (c : N) : list N :=
  if negb wide || (c <? 128) then [c]
  else if c <? 2048 then [N.lor 192 (N.shiftr c 6); N.lor 128 (N.land c 63)]
  else if (c <? 55296) || (56319 <? c) then [N.lor 224 (N.shiftr c 12); N.lor 128 (N.land (N.shiftr c 6) 63); N.lor 128 (N.land c 63)]
  else [].
(** expat_handler.h:97-104 xml_char_to_string: up to the first zero; the list is what the memory holds from there on. *)
Fixpoint xml_char_to_string (wide : bool) (l : list N) : res (list N) :=
  match l with
  | [] => UB
  | 0 :: _ => Ok []
  | c :: r => do s <- xml_char_to_string wide r; Ok (to_utf8 wide c ++ s)
  end.
(** expat_handler.h:116-122 xml_char_to_string_n. *)
Fixpoint xml_char_to_string_n (wide : bool) (n : nat) (l : list N) : res (list N) :=
  match n, l with
  | O, _ => Ok []
  | S n, c :: r => do s <- xml_char_to_string_n wide n r; Ok (to_utf8 wide c ++ s)
  | S _, [] => UB
  end.

(** What expat reports: an entity declaration (of the document type declaration) or one of the pieces of StreamModel. *)
Inductive report := Declared | Reported (p : piece).
Section Driver.
  (** A handler (expat_handler.h:37-60): what it does with a piece, and whether it has stopped the parser. *)
  Context {H : Type}.
  Variable on : H -> piece -> res (H * bool).
  (** expat_parser.cc:69-77 entityDeclHandler stops the parser; nothing is reported by a stopped one. *)
  Definition take_report (s : H * bool) (r : report) : res (H * bool) :=
    if snd s then Ok s else match r with Declared => Ok (fst s, true) | Reported p => on (fst s) p end.
  Fixpoint take_reports (s : H * bool) (l : list report) : res (H * bool) :=
    match l with [] => Ok s | r :: l => do s <- take_report s r; take_reports s l end.
  (** Expat: as in StreamModel. *)
  Variable expat : list str -> str -> bool -> list report * bool.
  (** expat_parser.cc:144-158 _ParseString: the handler afterwards, and the result. *)
  Definition parse_xml (h : H) (xml : str) : res (H * bool) :=
    let '(rs, ok) := expat [] xml (negb (eqs xml [])) in
    do s <- take_reports (h, false) rs; Ok (fst s, ok && negb (snd s)).
  (** expat_parser.cc:108-142 ParseBuffer, ParseInternalBuffer for one block after the other, up to the first that gives false, or to the last: the handler, and the result of
      the last call.  Failing allocation is not modelled. *)
  Fixpoint parse_buffers (before : list str) (h : H) (blocks : list (str * bool)) : res (H * bool) :=
    match blocks with
    | [] => Ok (h, true)
    | (b, final) :: l =>
        let '(rs, ok) := expat before b final in
        do s <- take_reports (h, false) rs;
        if ok && negb (snd s) then parse_buffers (before ++ [b]) (fst s) l else Ok (fst s, false)
    end.
End Driver.

(** kml_handler.cc:72-331: KmlHandler as a handler. *)
Definition kml_on (obs : list observer) (h : hstate) (p : piece) : res (hstate * bool) := do h' <- take_piece obs h p; Ok (h', stopped h').
(** expat_handler_ns.cc:61-70, kml_handler_ns.cc:45-60: the names are changed on the way to it. *)
Definition rename_piece (f : str -> str) (p : piece) : piece :=
  match p with PStart n a e => PStart (f n) a e | PEnd n => PEnd (f n) | PText s => PText s end.
(** parser.cc:53-97 Parse, ParseNS, ParseAtom: the names are changed by [f]; the root, and whether the parse was without error.
    [unset]: in ParseAtom the KmlHandler has no parser that it could stop (NsModel.parse_unset). *)
Definition parse_dom (unset : bool) (f : str -> str) (obs : list observer) (expat : list str -> str -> bool -> list report * bool) (s : str) : res (option node * bool) :=
  do r <- parse_xml (fun h p => do x <- kml_on obs h (rename_piece f p); if unset && snd x then UB else Ok x) expat h0 s;
  Ok (if snd r then root_of (fst r) else None, snd r).
(** xsd_handler.cc:95-140: XsdHandler as a handler. *)
Definition xsd_on (h : xh) (p : piece) : res (xh * bool) := do h' <- xs_run h (flatten p); Ok (h', false).
(** xsd_file.cc:40-49 CreateFromParse; [None]: NULL. *)
Definition create_from_parse (expat : list str -> str -> bool -> list report * bool) (s : str) : res (option xsd) :=
  do r <- parse_xml xsd_on expat {| h_file := empty_xsd; h_cur := None; h_parse := [] |} s;
  Ok (if snd r then Some (h_file (fst r)) else None).
(** xsd_file.h:72-77 get_target_namespace, get_target_namespace_prefix: a NULL schema is dereferenced. *)
Definition get_target_namespace (f : xsd) : res str := match x_schema f with Some s => Ok (fst s) | None => UB end.
Definition get_target_namespace_prefix (f : xsd) : res str := match x_schema f with Some s => Ok (snd s) | None => UB end.

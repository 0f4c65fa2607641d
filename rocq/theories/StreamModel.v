(** Parsing of a stream by blocks, and what expat reports for them (kml/engine/kml_stream.cc:38-76, kml/base/expat_parser.cc:100-158).
    Not modelled: failing allocation of the buffer, the texts of error messages, documents of 2^31 bytes or more; for document type declarations with entities see ExpatModel.v. *)
From Verif Require Import Common XmlSpec XmlSpecProofs HandlerModel.
Local Open Scope N_scope.

(** What expat reports: expat_parser.cc:35-58 startElement, endElement, charData.  Character data comes in pieces of any length.
    For an empty-element tag the end is reported even if the parser was stopped when its start was reported (kml_handler.cc:231-237, expat.h XML_StopParser). *)
Inductive piece := PStart (n : str) (a : list (str * str)) (empty : bool) | PEnd (n : str) | PText (s : str).
Definition flatten (p : piece) : list ev :=
  match p with
  | PStart n a e => EStart n a :: (if e then [EEnd n] else [])
  | PEnd n => [EEnd n]
  | PText s => map EChar s
  end.

Section Stream.
  Variable obs : list observer.
  (** kml_handler.cc:72-331 StartElement, EndElement, CharData. *)
  Definition take_piece (h : hstate) (p : piece) : res hstate :=
    if stopped h then Ok h
    else match p with
         | PStart n a e => do h <- start_element obs h n a; if e then end_element obs h n else Ok h
         | PEnd n => end_element obs h n
         | PText s => append_cd h s
         end.
  Fixpoint take_pieces (h : hstate) (ps : list piece) : res hstate :=
    match ps with [] => Ok h | p :: r => do h <- take_piece h p; take_pieces h r end.

  (** Expat: what a call of XML_ParseBuffer reports, and whether it finds no error; from the blocks of the previous calls, the block and whether it is the last one. *)
  Variable expat : list str -> str -> bool -> list piece * bool.

  (** A read from the stream: the stream is still good, at its end, or broken afterwards (std::istream::read, gcount, eof, good). *)
  Inductive read_state := Good | Eof | Bad.
  Definition is_eof (r : read_state) : bool := match r with Eof => true | _ => false end.
  (** kml_stream.cc:53-70, expat_parser.cc:122-142 ParseInternalBuffer: the loop; [None] if it is left with NULL.  A stopped parser is suspended, not finished. *)
  Fixpoint stream_loop (before : list str) (h : hstate) (reads : list (str * read_state)) : res (option hstate) :=
    match reads with
    | [] => Ok (Some h)
    | (c, e) :: r =>
        let '(ps, ok) := expat before c (is_eof e) in
        do h <- take_pieces h ps;
        if ok && negb (stopped h) then
          match e with Good => stream_loop (before ++ [c]) h r | _ => Ok (Some h) end
        else Ok None
    end.
  (** kml_handler.cc:339-346 PopRoot. *)
  Definition root_of (h : hstate) : option node := match stack h with [f] => Some (node_of f) | _ => None end.
  (** kml_stream.cc:38-76 ParseFromIstream: NULL, or a KmlStream and its root. *)
  Definition parse_stream (reads : list (str * read_state)) : res (option (option node)) :=
    do r <- stream_loop [] h0 reads; Ok (option_map root_of r).
  (** expat_parser.cc:144-158 _ParseString, parser.cc:53-60 Parse: the root, and whether an error is reported.  The size is passed as the flag for the last block. *)
  Definition parse_string (s : str) : res (option node * bool) :=
    let '(ps, ok) := expat [] s (negb (eqs s [])) in
    do h <- take_pieces h0 ps;
    if ok && negb (stopped h) then Ok (root_of h, false) else Ok (None, true).
End Stream.
Arguments stream_loop obs expat before h reads : clear implicits.

(** kml_stream.cc:52-56: the reads of an intact stream with these contents. *)
Fixpoint reads_of (fuel : nat) (s : str) : list (str * read_state) :=
  match fuel with
  | O => []
  | S k => if (length s <? 4096)%nat then [(s, Eof)] else (firstn 4096 s, Good) :: reads_of k (skipn 4096 s)
  end.

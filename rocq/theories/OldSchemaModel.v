(** Instances of old-style schemas kept as unknown elements (kml/engine/parse_old_schema.cc, kml/engine/old_schema_parser_observer.h). *)
From Verif Require Import Common HandlerModel HandlerProps XsdTables DomModel DomSpec.
Local Open Scope N_scope.

(** parse_old_schema.cc:36-66 ConvertOldSchema; of the schema map only the names are used.  [input_xml[0]] of the empty string is the NUL character. *)
Definition convert_old_schema (names : list str) (xml : str) : option str :=
  match xml with
  | c :: _ =>
      if negb (aeq c "<"%char) then None
      else match find_char ">"%char xml with
           | None => None
           | Some gt =>
               let tag := firstn (gt - 1) (skipn 1 xml) in
               match find (S_ "</" ++ tag ++ S_ ">") xml with
               | None => None
               | Some e => if existsb (eqs tag) names then Some (S_ "<Placemark>" ++ firstn (e - gt - 1) (skipn (gt + 1) xml) ++ S_ "</Placemark>") else None
               end
           end
  | [] => None
  end.
(** parse_old_schema.cc:68-79 ParseOldSchema: AsPlacemark of Parse. *)
Definition parse_old_schema (E : env) (names : list str) (xml : str) : res (option obj) :=
  match convert_old_schema names xml with
  | None => Ok None
  | Some s => do r <- read_kml E s;
              Ok (match r with Some o => if oty o =? Type_Placemark then Some o else None | None => None end)
  end.
(** old_schema_parser_observer.h:57-73 AddChild: what it makes of a child that is a container (AsContainer: Document or Folder). *)
Fixpoint parse_instances (E : env) (names : list str) (l : list str) : res (list obj) :=
  match l with
  | [] => Ok []
  | u :: r => do o <- parse_old_schema E names u;
              do os <- parse_instances E names r;
              Ok (match o with Some o => o :: os | None => os end)
  end.
Definition add_instances (E : env) (names : list str) (child : obj) : res obj :=
  if (oty child =? Type_Document) || (oty child =? Type_Folder) then
    do os <- parse_instances E names (ounk child);
    Ok (put child Type_Feature (get child Type_Feature ++ os))
  else Ok child.

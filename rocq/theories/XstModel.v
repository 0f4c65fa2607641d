(** Model of the XST reader (src/kml/xsd/xst_parser.cc), of the alias map of XsdFile (xsd_file.h) and of the
    creators of src/kml/xsd/xsd_util.cc. *)
From Verif Require Import Common StrMap AttributesModel StringsModel XsdFileModel.

(** xsd_file.h:178 alias_map_. *)
Definition aliases := smap str.
(** xsd_file.h:91-94 set_alias. *)
Definition set_alias (real alias : str) (m : aliases) : aliases := mset real alias m.
(** xsd_file.h:99-102 get_alias: the empty string for a name without alias. *)
Definition get_alias (m : aliases) (real : str) : str := match mget real m with Some a => a | None => [] end.

(** xst_parser.cc:37-42 ParseXstAlias. *)
Definition parse_xst_alias (line : list str) (m : aliases) : aliases :=
  match line with [_; real; alias] => set_alias real alias m | _ => m end.
(** xst_parser.cc:48-55: one line. *)
Definition parse_xst_line (line : str) (m : aliases) : res aliases :=
  do words <- split_string_using line (S_ " ");
  match words with
  | [] => Ok m
  | w :: _ => Ok (if eqs w (S_ "alias") then parse_xst_alias words m else m)
  end.
(** xst_parser.cc:47-56: the loop over the lines. *)
Fixpoint parse_xst_lines (lines : list str) (m : aliases) : res aliases :=
  match lines with
  | [] => Ok m
  | l :: lines' => do m' <- parse_xst_line l m; parse_xst_lines lines' m'
  end.
(** xst_parser.cc:44-57 ParseXst. *)
Definition newline : str := [ascii_of_N 10].
Definition parse_xst (data : str) (m : aliases) : res aliases :=
  do lines <- split_string_using data newline; parse_xst_lines lines m.

(** xsd_util.cc:54-58 CreateXsdComplexType with xsd_complex_type.h:50-57 Create; None: NULL. *)
Definition create_complex_type (name : str) : option xtype :=
  option_map (fun n => Complex n [] []) (mget (S_ "name") (mset (S_ "name") name [])).
(** xsd_util.cc:60-65 CreateXsdElement. *)
Definition create_element (name type : str) : option xelem :=
  element_create (mset (S_ "type") type (mset (S_ "name") name [])).
(** xsd_util.cc:67-73 CreateXsdSchema. *)
Definition create_schema (prefix target : str) : option (str * str) :=
  schema_create (mset (S_ "targetNamespace") target (mset (S_ "xmlns:" ++ prefix) target [])).

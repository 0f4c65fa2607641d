(** Model of kmlconvenience::CsvParser (src/kml/convenience/csv_parser.cc, csv_parser.h) and of CsvFile
    (csv_file.cc).  A Placemark is represented by the fields these functions set.  kml_factory_ is a
    null pointer (csv_parser.cc:85) through which CreatePlacemark is called; that call does not touch
    the object and is taken to create an empty Placemark. *)
From Verif Require Import Common StringsModel CoordModel.

(** csv_parser.h:40-47. *)
Inductive status := OK | BLANK_LINE | NO_LAT_LON | BAD_LAT_LON | INVALID_DATA | COMMENT.
(** The Placemark: Point latitude and longitude (the texts given to the number reader), name, description,
    id, styleUrl, Data name-value pairs of ExtendedData. *)
Record placemark := { k_point : option (str * str); k_name : option str; k_desc : option str; k_id : option str;
                      k_style : option str; k_data : list (str * str) }.
Definition empty_placemark : placemark :=
  {| k_point := None; k_name := None; k_desc := None; k_id := None; k_style := None; k_data := [] |}.

(** csv_parser.h:128-139: schema_size_ and the column numbers (None is npos); csv_schema_ lists the other
    columns in increasing order. *)
Record schema := { s_size : nat; s_name : option nat; s_desc : option nat; s_lat : option nat; s_lon : option nat;
                   s_fid : option nat; s_sid : option nat; s_other : list (nat * str) }.
Definition empty_schema : schema :=
  {| s_size := 0; s_name := None; s_desc := None; s_lat := None; s_lon := None; s_fid := None; s_sid := None; s_other := [] |}.
(** csv_parser.cc:96-111 one round of the loop. *)
Definition schema_col (s : schema) (i : nat) (c : str) : schema :=
  if string_case_equal c (S_ "name") then
    {| s_size := s_size s; s_name := Some i; s_desc := s_desc s; s_lat := s_lat s; s_lon := s_lon s; s_fid := s_fid s; s_sid := s_sid s; s_other := s_other s |}
  else if string_case_equal c (S_ "description") then
    {| s_size := s_size s; s_name := s_name s; s_desc := Some i; s_lat := s_lat s; s_lon := s_lon s; s_fid := s_fid s; s_sid := s_sid s; s_other := s_other s |}
  else if string_case_equal c (S_ "latitude") then
    {| s_size := s_size s; s_name := s_name s; s_desc := s_desc s; s_lat := Some i; s_lon := s_lon s; s_fid := s_fid s; s_sid := s_sid s; s_other := s_other s |}
  else if string_case_equal c (S_ "longitude") then
    {| s_size := s_size s; s_name := s_name s; s_desc := s_desc s; s_lat := s_lat s; s_lon := Some i; s_fid := s_fid s; s_sid := s_sid s; s_other := s_other s |}
  else if string_case_equal c (S_ "feature-id") then
    {| s_size := s_size s; s_name := s_name s; s_desc := s_desc s; s_lat := s_lat s; s_lon := s_lon s; s_fid := Some i; s_sid := s_sid s; s_other := s_other s |}
  else if string_case_equal c (S_ "style-id") then
    {| s_size := s_size s; s_name := s_name s; s_desc := s_desc s; s_lat := s_lat s; s_lon := s_lon s; s_fid := s_fid s; s_sid := Some i; s_other := s_other s |}
  else
    {| s_size := s_size s; s_name := s_name s; s_desc := s_desc s; s_lat := s_lat s; s_lon := s_lon s; s_fid := s_fid s; s_sid := s_sid s; s_other := s_other s ++ [(i, c)] |}.
Fixpoint schema_cols (s : schema) (i : nat) (l : list str) : schema :=
  match l with [] => s | c :: l' => schema_cols (schema_col s i c) (S i) l' end.
(** csv_parser.cc:90-117 SetSchema. *)
Definition set_schema (l : list str) : schema * status :=
  match l with
  | [] => (empty_schema, BLANK_LINE)
  | _ =>
      let s0 := {| s_size := length l; s_name := None; s_desc := None; s_lat := None; s_lon := None; s_fid := None; s_sid := None; s_other := [] |} in
      let s := schema_cols s0 0 l in
      (s, match s_lat s, s_lon s with Some _, Some _ => OK | _, _ => NO_LAT_LON end)
  end.
(** csv_line[i], an unchecked vector access. *)
Definition cell (l : list str) (i : nat) : res str := match nth_error l i with Some s => Ok s | None => UB end.
Definition opt_cell (l : list str) (o : option nat) : res (option str) :=
  match o with None => Ok None | Some i => do s <- cell l i; Ok (Some s) end.
Definition prefixed (pre : str) (o : option str) : option str :=
  match o with None | Some [] => None | Some s => Some (pre ++ s) end.
(** csv_parser.cc:153-158: the extended data of the columns of the line. *)
Fixpoint other_cells (l : list str) (o : list (nat * str)) : res (list (str * str)) :=
  match o with
  | [] => Ok []
  | (i, n) :: o' =>
      if (i <? length l)%nat then do v <- cell l i; do r <- other_cells l o'; Ok ((n, v) :: r) else other_cells l o'
  end.
(** csv_parser.cc:119-160 CsvLineToPlacemark, for an empty placemark. *)
Definition csv_line_to_placemark (s : schema) (l : list str) : res (status * placemark) :=
  let comment := match l with (c :: _) :: _ => aeq c "#"%char | _ => false end in
  if comment then Ok (COMMENT, empty_placemark)
  else if negb (length l =? s_size s)%nat then Ok (INVALID_DATA, empty_placemark)
  else
    match s_lat s, s_lon s with
    | Some la, Some lo =>
        if (la <? length l)%nat && (lo <? length l)%nat then
          do lat <- cell l la; do lon <- cell l lo;
          match string_to_double lat, string_to_double lon with
          | Some lat, Some lon =>
              do nm <- opt_cell l (s_name s); do ds <- opt_cell l (s_desc s);
              do fi <- opt_cell l (s_fid s); do si <- opt_cell l (s_sid s);
              do ot <- other_cells l (s_other s);
              Ok (OK, {| k_point := Some (lat, lon); k_name := nm; k_desc := ds; k_id := prefixed (S_ "feature-") fi;
                         k_style := prefixed (S_ "style.kml#style-") si; k_data := ot |})
          | _, _ => Ok (BAD_LAT_LON, empty_placemark)
          end
        else Ok (BAD_LAT_LON, empty_placemark)
    | _, _ => Ok (BAD_LAT_LON, empty_placemark)
    end.

Definition call := (N * status * option placemark)%type.
Section Handler.
(** CsvParserHandler::HandleLine (csv_parser.h:66-69): whether to go on. *)
Variable handle : call -> bool.
(** csv_parser.cc:162-175 ParseCsvData: the calls made and the returned value. *)
Fixpoint parse_csv_data (s : schema) (line : N) (l : list str) : res (list call * bool) :=
  match l with
  | [] => Ok ([], true)
  | x :: l' =>
      do cols <- split_quoted_using x ","%char;
      do r <- csv_line_to_placemark s cols;
      let c := (line, fst r, Some (snd r)) in
      if handle c then do q <- parse_csv_data s (line + 1)%N l'; Ok (c :: fst q, snd q) else Ok ([c], false)
  end.
(** csv_parser.cc:52-70 ParseCsv. *)
Definition parse_csv (data : str) : res (list call * bool) :=
  do ls <- csv_all_lines data;
  match ls with
  | [] => Ok ([], false)
  | x :: ls' =>
      do cols <- split_quoted_using x ","%char;
      match set_schema cols with
      | (s, OK) => parse_csv_data s 2 ls'
      | (_, st) => Ok ([(1%N, st, None)], false)
      end
  end.
End Handler.

(** * csv_file.cc *)
(** csv_file.cc:47-68 ParseCsvLine: the placemark pushed, if any, with its score (None: the latitude or
    longitude was not a number and stays 0). *)
Record csv_feature := { f_score : str; f_lat : option str; f_lon : option str; f_name : str; f_desc : str; f_style : option str }.
Definition parse_csv_line (line : str) : res (option csv_feature) :=
  do parts <- split_string_using line (S_ "|");
  match parts with
  | p0 :: p1 :: p2 :: p3 :: p4 :: r =>
      Ok (Some {| f_score := p0; f_lat := string_to_double p1; f_lon := string_to_double p2; f_name := p3; f_desc := p4;
                  f_style := match r with p5 :: _ => Some p5 | [] => None end |})
  | _ => Ok None
  end.
(** std::getline on a stream: the lines of the text; after a final line end, or for an empty text, one more
    empty line is read. *)
Fixpoint getlines (cur : str) (s : str) : list str :=
  match s with
  | [] => [rev cur]
  | c :: s' => if aeq c "010"%char then rev cur :: getlines [] s' else getlines (c :: cur) s'
  end.
(** csv_file.cc:71-82 ParseCsvFile: returns at the first empty line. *)
Fixpoint parse_csv_lines (l : list str) : res (list csv_feature) :=
  match l with
  | [] => Ok []
  | [] :: _ => Ok []
  | x :: l' => do o <- parse_csv_line x; do r <- parse_csv_lines l'; Ok (match o with Some f => f :: r | None => r end)
  end.
Definition parse_csv_file (data : str) : res (list csv_feature) := parse_csv_lines (getlines [] data).

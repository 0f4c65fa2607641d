(** Model of engine/entity_mapper.cc and engine/feature_balloon.cc: the map of a feature's entities, the
    labelled values of its extended data, and the text of its balloon. *)
From Verif Require Import Common StrMap StringsModel.

(** What the code reads of the objects. [None] is an absent attribute or child (has_...() is false; get_...()
    of an absent string is empty). dom/extendeddata.h SimpleData 49-94, SchemaData 145-211, Data 214-279;
    dom/schema.h SimpleField 45-103, Schema 127-200; dom/feature.h 50-250. *)
Record data := { d_name : option str; d_display : option str; d_value : str }.
Record simple_field := { sf_name : option str; sf_display : option str }.
Record schema := { sc_name : str; sc_fields : list simple_field }.
Record simple_data := { sd_name : option str; sd_text : str }.
Record schema_data := { sx_url : option str; sx_data : list simple_data }.
Record ext := { x_data : list data; x_schema : list schema_data }.
Record feat := { e_id : option str; e_target : option str; e_name : option str; e_address : option str; e_snippet : option str;
  e_desc : option str; e_ext : option ext }.
Definition getd (o : option str) : str := match o with Some s => s | None => [] end.

(** entity_map_, alt_markup_map_ (NULL if not given), simplefield_name_map_. *)
Record est := { st_map : @smap str; st_alt : option (list (str * str)); st_names : @smap str }.
Definition put_map (k v : str) (s : est) : est := {| st_map := mset k v (st_map s); st_alt := st_alt s; st_names := st_names s |}.
Definition put_opt (k : str) (o : option str) (s : est) : est := match o with Some v => put_map k v s | None => s end.
Definition push_alt (k v : str) (s : est) : est :=
  {| st_map := st_map s; st_alt := match st_alt s with Some l => Some (l ++ [(k, v)]) | None => None end; st_names := st_names s |}.
Definition put_name (k v : str) (s : est) : est := {| st_map := st_map s; st_alt := st_alt s; st_names := mset k v (st_names s) |}.

(** entity_mapper.cc:118-137 GatherDataFields. *)
Definition gather_data (s : est) (d : data) : est :=
  match d_name d with
  | None => s
  | Some n =>
      let s1 := put_map n (d_value d) s in
      let s2 := put_opt (n ++ S_ "/displayName") (d_display d) s1 in
      match d_display d with Some x => push_alt x (d_value d) s2 | None => push_alt n (d_value d) s2 end
  end.
(** entity_mapper.cc:171-178 GatherSimpleFieldFields. *)
Definition gather_field (sc : schema) (s : est) (f : simple_field) : est :=
  match sf_name f, sf_display f with
  | Some n, Some d => put_map (sc_name sc ++ S_ "/" ++ n ++ S_ "/displayName") d s
  | _, _ => s
  end.
(** entity_mapper.cc:202-216 PopulateSimpleFieldNameMap. *)
Definition name_field (sc : schema) (s : est) (f : simple_field) : est :=
  match sf_name f with
  | Some n => put_name n (sc_name sc ++ S_ ":" ++ match sf_display f with Some d => d | None => n end) s
  | None => s
  end.
(** entity_mapper.cc:181-199 GatherSimpleDataFields; the operator[] of line 196 inserts an empty string for a
    name that is not in the map. *)
Definition gather_simple (prefix : str) (s : est) (d : simple_data) : est :=
  let s1 := match sd_name d with Some n => put_map (prefix ++ n) (sd_text d) s | None => s end in
  match st_alt s1 with
  | None => s1
  | Some _ =>
      match st_names s1 with
      | [] => push_alt (getd (sd_name d)) (sd_text d) s1
      | _ =>
          match mget (getd (sd_name d)) (st_names s1) with
          | Some l => push_alt l (sd_text d) s1
          | None => push_alt [] (sd_text d) (put_name (getd (sd_name d)) [] s1)
          end
      end
  end.
Section Mapper.
  (** SplitUriFragment (engine/kml_uri.cc) and KmlFile::GetObjectById followed by AsSchema: arbitrary partial functions. *)
  Variable frag : str -> option str.
  Variable by_id : str -> option schema.
  (** entity_mapper.cc:140-168 GatherSchemaDataFields. *)
  Definition gather_schema (s : est) (x : schema_data) : est :=
    let found := match sx_url x with Some u => match frag u with Some i => by_id i | None => None end | None => None end in
    match found with
    | Some sc =>
        let s1 := fold_left (gather_field sc) (sc_fields sc) s in
        let s2 := match st_alt s1 with Some _ => fold_left (name_field sc) (sc_fields sc) s1 | None => s1 end in
        fold_left (gather_simple (sc_name sc ++ S_ "/")) (sx_data x) s2
    | None => fold_left (gather_simple (S_ "/")) (sx_data x) s
    end.
  (** entity_mapper.cc:59-115 GetEntityFields, GatherObjectFields, GatherFeatureFields, GatherExtendedDataFields. *)
  Definition get_entity_fields (s : est) (f : feat) : est :=
    let s := put_opt (S_ "id") (e_id f) s in
    let s := put_opt (S_ "targetId") (e_target f) s in
    let s := put_opt (S_ "name") (e_name f) s in
    let s := put_opt (S_ "address") (e_address f) s in
    let s := put_opt (S_ "Snippet") (e_snippet f) s in
    let s := put_opt (S_ "description") (e_desc f) s in
    match e_ext f with
    | Some x => fold_left gather_schema (x_schema x) (fold_left gather_data (x_data x) s)
    | None => s
    end.
  (** entity_mapper.cc:219-223 CreateExpandedEntities. *)
  Definition expand_entities (t : str) (m : @smap str) : res str := create_expanded t m (S_ "$[") (S_ "]").
  (** feature_balloon.cc:43-93 CreateBalloonText; [style_text]: the text of the BalloonStyle of the resolved style, if any. *)
  Definition balloon (style_text : option str) (f : feat) : res str :=
    let s := get_entity_fields {| st_map := []; st_alt := Some []; st_names := [] |} f in
    match style_text with
    | Some t => expand_entities t (st_map s)
    | None =>
        let head := match e_name f with Some n => S_ "<h3>" ++ n ++ S_ "</h3><br/><br/>" | None => [] end in
        do d <- (match e_desc f with Some d => expand_entities d (st_map s) | None => Ok [] end);
        let tab := match e_ext f with
          | Some _ => S_ "
<table border=""1"">
" ++ flat_map (fun kv => S_ "<tr><td>" ++ fst kv ++ S_ "</td><td>" ++ snd kv ++ S_ "</tr>
") (match st_alt s with Some l => l | None => [] end) ++ S_ "</table>
"
          | None => [] end in
        Ok (head ++ d ++ tab)
    end.
End Mapper.

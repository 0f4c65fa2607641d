(** Model of what engine/kml_file.cc collects while it parses: the observers in
    engine/object_id_parser_observer.h, engine/shared_style_parser_observer.h, engine/get_link_parents.{h,cc},
    engine/get_links.{h,cc} and engine/schema_parser_observer.h, on the parser of HandlerModel.v.  An observer there decides from the
    notifications made so far; its containers are functions of the notifications it got. *)
From Verif Require Import Common StrMap AttributesModel XsdTables XsdModel XmlSpec HandlerModel DomTables UriModel.
Local Open Scope N_scope.

(** The notifications observer number [i] got, in order. *)
Definition notes_of (i : nat) (tr : list (nat * note)) : list note :=
  flat_map (fun x => if (fst x =? i)%nat then [snd x] else []) (rev tr).
(** object.h:46-59, object.cc:53-61: an Object's id (AsObject, has_id, get_id). *)
Definition object_id (ty : N) (a : option attrs) : option str :=
  if is_a ty Type_Object then match a with Some a => find_value (S_ "id") a | None => None end else None.
Definition new_elements (l : list note) : list (N * option attrs) :=
  flat_map (fun n => match n with NNew ty a => [(ty, a)] | _ => [] end) l.
(** object_id_parser_observer.h:58-71 NewElement: object_id_map_; a pointer to an element is its number
    in the order of creation. *)
Fixpoint id_map_from (k : nat) (l : list (N * option attrs)) (m : list (str * nat)) : list (str * nat) :=
  match l with
  | [] => m
  | (ty, a) :: r => id_map_from (S k) r (match object_id ty a with Some id => mset id k m | None => m end)
  end.
Definition object_id_map (i : nat) (tr : list (nat * note)) : list (str * nat) := id_map_from 0 (new_elements (notes_of i tr)) [].
Definition id_observer (i : nat) (strict : bool) : observer := fun tr n =>
  match n with
  | NNew ty a => match object_id ty a with Some id => negb (match mget id (object_id_map i tr) with Some _ => strict | None => false end) | None => true end
  | _ => true
  end.
(** shared_style_parser_observer.h:56-75 AddChild: shared_style_map_. *)
Definition is_shared (p : N) (c : node) : bool := is_a p Type_Document && is_a (nty c) Type_StyleSelector.
Definition get_id (c : node) : str := match object_id (nty c) (natts c) with Some id => id | None => [] end.
Definition style_map_of (l : list note) : list (str * node) :=
  fold_left (fun m n => match n with NAdd p c => if is_shared p c then mset (get_id c) c m else m | _ => m end) l [].
Definition shared_style_map (i : nat) (tr : list (nat * note)) : list (str * node) := style_map_of (notes_of i tr).
Definition style_observer (i : nat) (strict : bool) : observer := fun tr n =>
  match n with
  | NAdd p c =>
      if is_shared p c then
        match object_id (nty c) (natts c) with
        | Some id => negb (strict && match mget id (shared_style_map i tr) with Some _ => true | None => false end)
        | None => true
        end
      else true
  | _ => true
  end.
(** get_link_parents.cc:35-57, get_link_parents.h:49-54. *)
Definition is_link_parent (ty : N) : bool :=
  existsb (N.eqb ty) [Type_PhotoOverlay; Type_GroundOverlay; Type_ScreenOverlay; Type_ItemIcon; Type_IconStyle; Type_NetworkLink; Type_Model].
Definition link_parents_of (l : list note) : list (N * option attrs) := filter (fun e => is_link_parent (fst e)) (new_elements l).
Definition passive : observer := fun _ _ => true.
(** get_links.h:49-76 AddChild. *)
Definition links_at (p : N) (c : node) : list str :=
  if nty c =? Type_href then [ncd c]
  else if nty c =? Type_targetHref then if Type_Alias =? p then [ncd c] else []
  else if nty c =? Type_styleUrl then [ncd c]
  else if nty c =? Type_SchemaData then
    match natts c with Some a => match find_value (S_ "schemaUrl") a with Some u => [u] | None => [] end | None => [] end
  else [].
Definition links_of (l : list note) : list str := flat_map (fun n => match n with NAdd p c => links_at p c | _ => [] end) l.
(** schema_parser_observer.h:59-70 AddChild. *)
Definition schema_map_of (l : list note) : list (str * node) :=
  fold_left (fun m n => match n with
    | NAdd p c => if is_a p Type_Document && is_a (nty c) Type_Schema then
                    match natts c with Some a => match find_value (S_ "name") a with Some v => mset v c m | None => m end | None => m end
                  else m
    | _ => m end) l [].

(** A parse with observers: the root (NULL when the parse fails) and what each observer was told. *)
Definition parse_with (obs : list observer) (t : xml) : res (option node * (nat -> list note)) :=
  do h <- events obs h0 (xevents t); Ok (pop_root h, fun i => notes_of i (trace h)).
(** kml_file.cc:102-131 ParseFromString; [strict] is strict_parse_ (false in every KmlFile,
    kml_file.cc:95-99). *)
Definition file_observers (strict : bool) : list observer := [id_observer 0 strict; style_observer 1 strict; passive].
(** get_links.cc:35-65 GetLinks and GetRelativeLinks on a document. *)
Definition get_links (t : xml) : res (option (list str)) :=
  do r <- parse_with [passive] t; Ok (match fst r with Some _ => Some (links_of (snd r 0%nat)) | None => None end).
Definition is_relative_path (s : str) : bool :=
  let h := href_parse s in (eqs (h_scheme h) []) && (eqs (h_net_loc h) []) && negb (eqs (h_path h) []).
Definition get_relative_links (t : xml) : res (option (list str)) :=
  do r <- get_links t; Ok (match r with Some l => Some (filter is_relative_path l) | None => None end).

(** Model of convenience/kml_feature_list_saver.h and convenience/element_counter.h, observers of a parse
    (HandlerModel.v) which fill a container of their own. *)
From Verif Require Import Common StrMap AttributesModel XsdTables XsdModel XmlSpec HandlerModel DomTables DomModel FileModel StyleModel SplitModel.
Local Open Scope N_scope.

(** ** KmlFeatureListSaver *)
(** kml_feature_list_saver.h:79-80: a Feature which is not a Container. *)
Definition plain_feature (ty : N) : bool := is_a ty Type_Feature && negb (is_a ty Type_Container).
(** kml_feature_list_saver.h:91-98: a style selector with an id in a Document; [styles]: a
    SharedStyleMap was given. *)
Definition saved_style (styles : bool) (p : N) (c : node) : bool :=
  styles && is_a (nty c) Type_StyleSelector && is_a p Type_Document &&
  match object_id (nty c) (natts c) with Some _ => true | None => false end.
(** kml_feature_list_saver.h:70-100 EndElement: whether it answers true.  Its in_update_ is set by a method
    StartElement (lines 63-68), which is none of ParserObserver (dom/parser_observer.h:41-62) and is
    called by nobody, so it stays false. *)
Definition saver_keeps (styles : bool) (p : N) (c : node) : bool :=
  if nty c =? Type_Update then false
  else if plain_feature (nty c) then false
  else negb (saved_style styles p c).
Definition saver (styles : bool) : observer := fun _ n => match n with NEnd p c => saver_keeps styles p c | _ => true end.
(** kml_feature_list_saver.h:79-90: the elements given to FeatureList::PushBack, before the change of
    their styleUrl. *)
Definition pushed (l : list note) : list node :=
  flat_map (fun n => match n with NEnd p c => if (nty c =? Type_Update) then [] else if plain_feature (nty c) then [c] else [] | _ => [] end) l.
(** kml_feature_list_saver.h:82-87: the styleUrl of a saved feature. *)
Definition rebase (base : str) (f : obj) : obj :=
  if eqs base [] then f
  else if has_style_url f then
    let u := style_url f in
    if (2 <? length u)%nat && prefixb (S_ "#") u then put f Type_styleUrl [field Type_styleUrl (base ++ u)] else f
  else f.
Fixpoint list_features (E : env) (base : str) (l : list node) : res (list obj) :=
  match l with [] => Ok [] | n :: r => do o <- build E n; do os <- list_features E base r; Ok (rebase base o :: os) end.
(** kml_feature_list_saver.h:91-98: the shared style map. *)
Definition saved_styles (styles : bool) (l : list note) : list (str * node) :=
  fold_left (fun m n => match n with
    | NEnd p c => if nty c =? Type_Update then m else if plain_feature (nty c) then m
                  else if saved_style styles p c then mset (get_id c) c m else m
    | _ => m end) l [].
(** The usage in kml_feature_list_saver.h:43-49: the features listed, the shared styles and the root of the
    parse. *)
Definition save_features (E : env) (styles : bool) (base : str) (t : xml) : res (option node * list obj * list (str * node)) :=
  do r <- parse_with [saver styles] t;
  let l := snd r 0%nat in
  do fs <- list_features E base (pushed l);
  Ok (fst r, fs, saved_styles styles l).

(** ** ElementCounter *)
(** element_counter.h:46-53 NewElement on the map from types to counts (std::map, ascending).  The counts
    are int there and unbounded here. *)
Fixpoint count_in (ty : N) (m : list (N * N)) : list (N * N) :=
  match m with
  | [] => [(ty, 1)]
  | (k, v) :: r => if ty <? k then (ty, 1) :: m else if ty =? k then (k, v + 1) :: r else (k, v) :: count_in ty r
  end.
Definition count_map (l : list note) : list (N * N) := fold_left (fun m e => count_in (fst e) m) (new_elements l) [].
Definition count_elements (t : xml) : res (option node * list (N * N)) :=
  do r <- parse_with [passive] t; Ok (fst r, count_map (snd r 0%nat)).

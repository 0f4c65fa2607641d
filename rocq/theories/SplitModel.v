(** Model of engine/style_splitter.cc and engine/style_inliner.cc.  Both are observers of a parse that change the
    elements while they are put together; here they work on the tree of the parser (HandlerModel.v) when its elements are
    made (DomModel.build): children in the order of the text, NewElement before the children of an
    element, EndElement and AddChild when it is handed to its parent.  Neither stops the parse. *)
From Coq Require Import DecimalString.
From Verif Require Import Common StrMap AttributesModel XsdTables XsdModel HandlerModel DomTables DomModel CloneModel MergeModel IdModel StyleModel.
Local Open Scope N_scope.

(** style_splitter.cc:52-60, style_inliner.cc:52-60 AsNonDocumentFeature. *)
Definition non_document_feature (ty : N) : bool := is_a ty Type_Feature && negb (is_a ty Type_Document).
(** Feature::has_styleurl. *)
Definition has_style_url (o : obj) : bool := match get o Type_styleUrl with [] => false | _ => true end.
(** Entries of a parent's log other than a child, as in DomModel.build. *)
Definition add_entry (E : env) (e : entry) (o : obj) : res obj :=
  match e with
  | LChild _ => Ok o
  | LUnknown s => Ok (set_unk o (ounk o ++ [s]))
  | LSelf s => add_self E o s
  | LSchemaId s => Ok (set_ka o (mset (S_ "id") s (oka o)))
  | LExtendedData url sd => Ok (put o Type_ExtendedData [old_data url sd])
  end.

(** ** SplitStyles *)
(** document_: not seen, being parsed, complete. *)
Inductive home := NoHome | OpenHome | ClosedHome.
(** shared_style_map_, the selectors added to document_ so far, id_counter_, document_, in_update_. *)
Record splitter := { made : list (str * obj); added : list obj; counter : N; doc : home; updating : bool }.
Definition splitter0 : splitter := {| made := []; added := []; counter := 0; doc := NoHome; updating := false |}.
(** style_splitter_internal.h:66-71 CreateUniqueId. *)
Definition unique_id (n : N) : str := S_ "_" ++ String.list_ascii_of_string (NilEmpty.string_of_uint (N.to_uint n)).
(** style_splitter.cc:40-50 NewElement. *)
Definition split_new (ty : N) (s : splitter) : splitter :=
  {| made := made s; added := added s; counter := counter s;
     doc := match doc s with NoHome => if is_a ty Type_Document then OpenHome else NoHome | d => d end;
     updating := updating s || is_a ty Type_Update |}.
Section Split.
  Variable E : env.
  (** style_splitter.cc:75-112 EndElement and then AddElement if it returned true: parent [p] and child
      [c].  MergeElements undefined, or outside of MergeModel.v: UB. *)
  Definition split_end (p c : obj) (s : splitter) : res (obj * splitter) :=
    let id := unique_id (counter s) in
    let add := do p' <- add_element E p c;
               Ok (p', if is_a (oty c) Type_Update then {| made := made s; added := added s; counter := counter s; doc := doc s; updating := false |} else s) in
    match updating s, doc s with
    | true, _ | _, NoHome => add
    | false, d =>
        if is_a (oty c) Type_StyleSelector && non_document_feature (oty p) && negb (has_style_url p) then
          match mget id (made s) with
          | Some _ => add
          | None =>
              match merge E c (set_id id (create (oty c))) with
              | None => UB
              | Some shared =>
                  let key := match id_of shared with Some i => i | None => [] end in
                  Ok (put p Type_styleUrl [field Type_styleUrl (S_ "#" ++ id)],
                      {| made := mset key shared (made s); added := added s ++ [shared]; counter := (counter s + 1) mod 2 ^ 32; doc := d; updating := false |})
              end
          end
        else add
    end.
  (** document_->add_styleselector of the selectors made inside of a child. *)
  Definition receive (o : obj) (l : list obj) : obj := put o Type_StyleSelector (get o Type_StyleSelector ++ l).
  (** The selectors which document_ gets after it is complete itself, from features behind it: it is a pointer to an element
      of the tree, so they are appended at last, whatever has become of it. *)
  Variable late : list obj.
  Definition receive_late (o : obj) : obj := match late with [] => o | _ => receive o late end.
  Fixpoint split_build (n : node) (s : splitter) : res (obj * splitter) :=
    let 'Node ty a cd log := n in
    let mine := match doc s with NoHome => is_a ty Type_Document | _ => false end in
    do (o, s') <-
      (fix go (l : list entry) (o : obj) (s : splitter) : res (obj * splitter) :=
         match l with
         | [] => Ok (o, s)
         | LChild c :: r =>
             do (c', s1) <- split_build c s;
             let o1 := if mine then receive o (skipn (length (added s)) (added s1)) else o in
             do (o2, s2) <- split_end o1 c' s1;
             go r o2 s2
         | e :: r => do o1 <- add_entry E e o; go r o1 s
         end) log (start E ty a cd) (split_new ty s);
    Ok (if mine then receive_late o else o, if mine then {| made := made s'; added := []; counter := counter s'; doc := ClosedHome; updating := updating s' |} else s').
End Split.
(** style_splitter.cc:114-121 SplitStyles, from the tree of the parse.  The first run finds the selectors which are appended to the
    Document after it is complete; nothing looks at them during the parse. *)
Definition split_styles (E : env) (n : node) : res obj :=
  do (o, s) <- split_build E [] n splitter0;
  match added s with [] => Ok o | late => do (o', _) <- split_build E late n splitter0; Ok o' end.

(** ** InlineStyles *)
Section Inline.
  Variable E : env.
  Variable split_uri : str -> option (str * str).
  (** shared_styles_, in_update_. *)
  Record inliner := { captured : list (str * obj); in_update : bool }.
  Definition inliner0 : inliner := {| captured := []; in_update := false |}.
  (** style_resolver.cc:72-90 CreateResolvedStyleSelector; no cache. *)
  Definition resolved_pair (shared : list (str * obj)) (highlight : bool) (u : str) : res obj :=
    do m <- resolve E split_uri (fun _ => None) shared highlight max_urls u None;
    Ok (put (put (create Type_Pair) Type_key [field Type_key (if highlight then S_ "highlight" else S_ "normal")]) Type_StyleSelector [clear_ids (style m)]).
  Definition resolved_selector (shared : list (str * obj)) (u : str) : res obj :=
    do n <- resolved_pair shared false u; do h <- resolved_pair shared true u;
    Ok (put (create Type_StyleMap) Type_Pair [n; h]).
  (** style_inliner.cc:41-50 NewElement. *)
  Definition inline_new (ty : N) (s : inliner) : inliner := {| captured := captured s; in_update := in_update s || is_a ty Type_Update |}.
  (** style_inliner.cc:63-99 EndElement, AddElement if it returned true, 101-107 AddChild. *)
  Definition inline_end (p c : obj) (s : inliner) : res (obj * inliner) :=
    let after := if is_a (oty c) Type_Update then {| captured := captured s; in_update := false |} else s in
    let add := do p' <- add_element E p c; Ok (p', after) in
    if in_update s then add
    else if is_a (oty p) Type_Document && is_a (oty c) Type_StyleSelector && match id_of c with Some _ => true | None => false end then
      Ok (p, {| captured := mset (match id_of c with Some i => i | None => [] end) c (captured s); in_update := in_update after |})
    else if non_document_feature (oty p) && (oty c =? Type_styleUrl) then
      match split_uri (char_data c) with
      | Some ([], id) =>
          match mget id (captured s) with
          | Some _ => do m <- resolved_selector (captured s) (char_data c); Ok (put p Type_StyleSelector [m], after)
          | None => add
          end
      | _ => add
      end
    else add.
  Fixpoint inline_build (n : node) (s : inliner) : res (obj * inliner) :=
    let 'Node ty a cd log := n in
    (fix go (l : list entry) (o : obj) (s : inliner) : res (obj * inliner) :=
       match l with
       | [] => Ok (o, s)
       | LChild c :: r =>
           do (c', s1) <- inline_build c s;
           do (o2, s2) <- inline_end o c' s1;
           go r o2 s2
       | e :: r => do o1 <- add_entry E e o; go r o1 s
       end) log (start E ty a cd) (inline_new ty s).
  (** style_inliner.cc:109-115 InlineStyles. *)
  Definition inline_styles (n : node) : res obj := do (o, _) <- inline_build n inliner0; Ok o.
End Inline.

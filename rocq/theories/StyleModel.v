(** Model of engine/style_merger.cc and engine/style_resolver.cc: the style of a feature. *)
From Verif Require Import Common StrMap AttributesModel XsdTables XsdModel HandlerModel DomTables DomModel CloneModel MergeModel IdModel.
Local Open Scope N_scope.

(** stylemap.h:50-68: the key of a Pair; one without a key is of the normal state. *)
Definition highlights (p : obj) : bool :=
  match pick (cls (oty p)) (oslots p) Type_key with k :: _ => eqs (char_data k) (S_ "highlight") | [] => false end.
(** stylemap.h:71-85, feature.h: get_styleurl, empty if there is none; get_styleselector. *)
Definition style_url (p : obj) : str := match pick (cls (oty p)) (oslots p) Type_styleUrl with u :: _ => char_data u | [] => [] end.
Definition selector {A} (ty : N) (sl : list (list A)) : option A := match pick (cls ty) sl Type_StyleSelector with s :: _ => Some s | [] => None end.

(** Feature::get_styleselector (feature.h:207).  The selectors in a Document are kept elsewhere (document.cc:43-44); that of the Document
    itself can only be set by a program, which is not modelled. *)
Definition inline_style (f : obj) : option obj := if oty f =? Type_Document then None else selector (oty f) (oslots f).

Section Style.
  Variable E : env.
  (** kmlbase::SplitUri (base/uri_parser.cc, by the uriparser library): path and fragment, empty if there is none. *)
  Variable split_uri : str -> option (str * str).
  (** KmlCache::FetchKmlRelative (base_url_ is the same throughout) and KmlFile::get_shared_style_map of the file; None also
      without a cache. *)
  Variable fetch : str -> option (list (str * obj)).
  Variable shared : list (str * obj).
  (** style_merger.cc:87-121, the part of MergeStyleUrl which finds the style. *)
  Definition find_style (u : str) : option obj :=
    match u with
    | [] => None
    | _ => match split_uri u with
           | Some (path, (_ :: _) as id) =>
               match path with
               | [] => mget id shared
               | _ => match fetch u with Some m => mget id m | None => None end
               end
           | _ => None
           end
    end.
  Variable highlight : bool.
  (** The state of a StyleMerger: how many more style URLs are followed (nesting_depth_, 0 also when it is
      negative), the URLs followed, resolved_style_. *)
  Record merger := { budget : nat; followed : list str; style : obj }.
  Definition with_style (m : merger) (s : obj) : merger := {| budget := budget m; followed := followed m; style := s |}.
  (** MergeElements is defined and inside of MergeModel.v, or UB. *)
  Definition merge_in (s : obj) (m : merger) : res merger := match merge E s (style m) with Some r => Ok (with_style m r) | None => UB end.
  Section Selector.
    (** MergeStyleUrl *)
    Variable url : str -> merger -> res merger.
    Fixpoint run_all (l : list (merger -> res merger)) (m : merger) : res merger :=
      match l with [] => Ok m | f :: r => do m' <- f m; run_all r m' end.
    (** style_merger.cc:124-163 MergeStyle, MergeStyleMap and MergeStyleSelector: what is done for a selector, and for a Pair. *)
    Fixpoint select (s : obj) : merger -> res merger :=
      let 'Obj ty _ _ _ _ sl _ _ := s in
      if ty =? Type_Style then merge_in s
      else if ty =? Type_StyleMap then run_all (pick (cls ty) (map (map (fun p : obj => let 'Obj pt pa pe px pv psl pm pu := p in
             if Bool.eqb (highlights (Obj pt pa pe px pv psl pm pu)) highlight then
               fun m => do m' <- url (style_url (Obj pt pa pe px pv psl pm pu)) m; match selector pt (map (map select) psl) with Some f => f m' | None => Ok m' end
             else fun m => Ok m)) sl) Type_Pair)
      else fun m => Ok m.
  End Selector.
  (** style_merger.cc:83-121 MergeStyleUrl. *)
  Fixpoint merge_url (fuel : nat) (u : str) (m : merger) : res merger :=
    match budget m with
    | O => Ok m
    | S b =>
        match fuel with
        | O => Fuel
        | S fuel' =>
            let m := {| budget := b; followed := followed m ++ [u]; style := style m |} in
            match find_style u with Some s => select (merge_url fuel') s m | None => Ok m end
        end
    end.
  (** engine_constants.h:36 *)
  Definition max_urls : nat := 5.
  Definition fresh (b : nat) : merger := {| budget := b; followed := []; style := create Type_Style |}.
  (** style_resolver.cc:60-73 CreateResolvedStyle *)
  Definition resolve (fuel : nat) (u : str) (s : option obj) : res merger :=
    do m <- merge_url fuel u (fresh max_urls); match s with Some s => select (merge_url fuel) s m | None => Ok m end.
  (** style_resolver.cc:46-57 *)
  Definition resolve_feature (fuel : nat) (f : obj) : res merger := resolve fuel (style_url f) (inline_style f).
End Style.

(** Reading and writing KML texts through the element classes, and the conditions under which an
    element is read back unchanged. *)
From Verif Require Import Common StrMap StringsModel ColorModel AttributesModel XsdTables XsdModel XmlSpec XmlSpecProofs.
From Verif Require Import SerializerModel SerializerProofs CoordModel HandlerModel HandlerSpec HandlerProps DomTables DomModel.
Local Open Scope N_scope.

(** parser.cc ParseKml without observers: the element for a text (None: NULL). *)
Definition read_kml (E : env) (s : str) : res (option obj) :=
  do n <- parse_text [] s;
  match n with None => Ok None | Some n => do o <- build E n; Ok (Some o) end.
(** xml_serializer.cc:46-69. *)
Definition write (nl ind : str) (o : obj) : res str := serialize_with nl ind (ser o).
Definition write_pretty (o : obj) : res str := serialize_pretty (ser o).
Definition write_raw (o : obj) : res str := serialize_raw (ser o).

Definition opt_str_eqb (a b : option str) : bool :=
  match a, b with Some x, Some y => eqs x y | None, None => true | _, _ => false end.
Fixpoint attrs_eqb (a b : attrs) : bool :=
  match a, b with
  | [], [] => true
  | (k, v) :: a', (k', v') :: b' => eqs k k' && eqs v v' && attrs_eqb a' b'
  | _, _ => false
  end.
Definition opt_attrs_eqb (a b : option attrs) : bool :=
  match a, b with Some x, Some y => attrs_eqb x y | None, None => true | _, _ => false end.
Definition ea_eqb (a b : elem_attrs) : bool := opt_attrs_eqb (unknown a) (unknown b) && opt_attrs_eqb (xmlns a) (xmlns b).
Definition nilb {A} (l : list A) : bool := match l with [] => true | _ => false end.

Section Keeps.
  Variable E : env.
  Variables nl ind : str.

  (** The text the reader reports inside of an element written at depth [d]. *)
  Definition inner_text (d : nat) (ks : list item) : str := direct_text (content nl ind d ks).
  Definition tuples_eqb (a b : list (str * str * str)) : bool :=
    (length a =? length b)%nat &&
    forallb (fun p => let '((a1, a2, a3), (b1, b2, b3)) := p in eqs a1 b1 && eqs a2 b2 && eqs a3 b3) (combine a b).
  Definition same_tuples (r : res (list vec3)) (v : list (str * str * str)) : bool :=
    match r with Ok l => tuples_eqb (map (vec_text E) l) v | _ => false end.
  (** A value that is read as itself. *)
  Definition reads_same (p : N) (f : fkind) (ty : N) (v : str) : bool :=
    match norm E p f ty None v with Ok (Some w) => eqs w v | _ => false end.
  (** Markup kept as text is read as one element with the same text. *)
  Definition unknown_same (p : N) (u : str) : bool :=
    match markup u with
    | Some [XElem n a ks; XChar c] =>
        match known_type p n with None => eqs (raw (XElem n a ks) ++ ["010"%char]) u && aeq c "010"%char | Some _ => false end
    | _ => false
    end.
  (** What a slot may contain. *)
  Definition slot_fits (p : N) (i : nat) (s : slot) (l : list obj) : bool :=
    forallb (fun c => match find_slot (oty c) (c_slots (cls p)) 0 with Some (j, _) => (j =? i)%nat | None => false end) l &&
    match s_kind s with
    | KField f => (length l <=? 1)%nat && forallb (fun c => is_simple (oty c) && reads_same p f (oty c) (char_data c)) l
    | KFields f => forallb (fun c => is_simple (oty c) && reads_same p f (oty c) (char_data c)) l
    | KChild => (length l <=? 1)%nat
    | KChildren => true
    end.
  Fixpoint slots_fit (p : N) (i : nat) (ss : list slot) (sl : list (list obj)) : bool :=
    match ss, sl with
    | [], [] => true
    | s :: ss', l :: sl' => slot_fits p i s l && slots_fit p (S i) ss' sl'
    | _, _ => false
    end.
  Definition item_kids (i : item) : list item := match i with IElem _ _ ks => ks | _ => [] end.
  Definition no_own_text (ty : N) : bool := negb (snippet_type ty || (ty =? Type_SimpleData)).
  (** An element [o] in a parent of type [p] at depth [d] that is read back as it is. *)
  Fixpoint keeps (d : nat) (p : N) (o : obj) : bool :=
    let 'Obj ty ka ea tx vec sl mis unk := o in
    match known_type p (tag_name ty) with Some t => t =? ty | None => false end &&
    if is_simple ty then
      match tx with Some _ => true | None => false end &&
      nilb ka && ea_eqb ea no_attrs && nilb vec && nilb sl && nilb mis && nilb unk
    else if ty =? Type_coordinates then
      nilb ka && ea_eqb ea no_attrs && opt_str_eqb tx None && nilb sl && nilb mis && nilb unk &&
      same_tuples (coordinates_parse (inner_text d (map vec_item vec))) vec
    else
      nilb vec && creatable ty &&
      (let '(ka', ea') := (let o' := parse_attributes E (create ty) (out_attributes o) in (oka o', oea o')) in
       attrs_eqb ka' ka && ea_eqb ea' ea) &&
      (if no_own_text ty then opt_str_eqb tx None
       else opt_str_eqb tx (Some (inner_text d (item_kids (ser o))))) &&
      (if snippet_type ty then nilb mis else true) &&
      slots_fit ty 0 (c_slots (cls ty)) sl &&
      forallb (fun kl => match kl with
                         | (k, []) => true
                         | (k, _) => existsb (N.eqb k) (c_ser (cls ty))
                         end) (combine (keys (c_slots (cls ty))) sl) &&
      forallb (fun c => match find_slot (oty c) (c_slots (cls ty)) 0 with None => true | Some _ => false end &&
                        negb ((ty =? Type_SimpleData) && (oty c =? Type_SimpleData))) mis &&
      forallb (unknown_same ty) unk &&
      forallb (forallb (keeps (S d) ty)) sl && forallb (keeps (S d) ty) mis.
End Keeps.

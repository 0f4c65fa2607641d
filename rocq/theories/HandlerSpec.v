(** What parsing a document should yield, as recursive functions on the document tree; no parse stack,
    counters or events. *)
From Verif Require Import Common AttributesModel XsdTables XsdModel XmlSpec HandlerModel.
Local Open Scope N_scope.

(** Markup kept as text. *)
Fixpoint raw (t : xml) : str :=
  match t with
  | XElem n a ks => S_ "<" ++ n ++ flat_map (fun kv => S_ " " ++ fst kv ++ S_ "=""" ++ snd kv ++ S_ """") a ++ S_ ">" ++
                    flat_map raw ks ++ S_ "</" ++ n ++ S_ ">"
  | XChar c => [c]
  end.

(** The type of an element named [n] inside a parent of type [p]; None when it is not a KML element
    that can be instantiated. *)
Definition known_type (p : N) (n : str) : option N :=
  let ty := element_id n in
  if creatable ty then Some (if (ty =? Type_Icon) && (p =? Type_IconStyle) then Type_IconStyleIcon else ty)
  else if is_simple ty then Some ty
  else None.
(** Attributes reach complex elements only. *)
Definition node_atts (n : str) (a : list (str * str)) : option attrs :=
  if is_simple (element_id n) then None else match a with [] => None | _ => Some (attrs_of a) end.
Definition self_entry (ty : N) (text : str) : list entry := if self_parsed ty then [LSelf text] else [].
Definition direct_text (ks : list xml) : str := flat_map (fun k => match k with XChar c => [c] | _ => [] end) ks.

Section Tree.
  (** Which finished children are given to their parent. *)
  Variable keep : N -> node -> bool.
  (** What a parent of type [p] receives for the child [t]. *)
  Fixpoint received (p : N) (t : xml) : list entry :=
    match t with
    | XChar _ => []
    | XElem n a ks =>
        match known_type p n with
        | None => [LUnknown (raw t ++ ["010"%char])]
        | Some ty =>
            let child :=
              if ty =? Type_description then Node ty (node_atts n a) (flat_map raw ks) []
              else Node ty (node_atts n a) (direct_text ks) (flat_map (received ty) ks ++ self_entry ty (direct_text ks)) in
            if keep p child then [LChild child] else []
        end
    end.
  Definition tree (t : xml) : option node :=
    match t with
    | XChar _ => None
    | XElem n a ks =>
        match known_type Type_Unknown n with
        | None => None
        | Some ty =>
            Some (if ty =? Type_description then Node ty (node_atts n a) (flat_map raw ks) []
                  else Node ty (node_atts n a) (direct_text ks) (flat_map (received ty) ks ++ self_entry ty (direct_text ks)))
        end
    end.
  (** Notifications about the child [t] of a parent of type [p], in order. *)
  Fixpoint notes (p : N) (t : xml) : list note :=
    match t with
    | XChar _ => []
    | XElem n a ks =>
        match known_type p n with
        | None => []
        | Some ty =>
            let child :=
              if ty =? Type_description then Node ty (node_atts n a) (flat_map raw ks) []
              else Node ty (node_atts n a) (direct_text ks) (flat_map (received ty) ks ++ self_entry ty (direct_text ks)) in
            NNew ty (node_atts n a) :: (if ty =? Type_description then [] else flat_map (notes ty) ks) ++
            [NEnd p child; NAdd p child]
        end
    end.
  Definition all_notes (t : xml) : list note :=
    match t with
    | XChar _ => []
    | XElem n a ks =>
        match known_type Type_Unknown n with
        | None => []
        | Some ty => NNew ty (node_atts n a) :: (if ty =? Type_description then [] else flat_map (notes ty) ks)
        end
    end.
End Tree.
Definition keep_all (p : N) (n : node) : bool := true.

(** The same with arbitrary observers: what the parent has received, the direct text, the notifications
    so far (latest first) and whether parsing goes on. *)
Record kst := { klog : list entry; ktext : str; ktr : list (nat * note); krun : bool }.
Section Observed.
  Variable obs : list observer.
  Fixpoint observed (p : N) (t : xml) (s : kst) {struct t} : kst :=
    if negb (krun s) then s else
    match t with
    | XChar c => {| klog := klog s; ktext := ktext s ++ [c]; ktr := ktr s; krun := true |}
    | XElem n a ks =>
        match known_type p n with
        | None => {| klog := klog s ++ [LUnknown (raw t ++ ["010"%char])]; ktext := ktext s; ktr := ktr s; krun := true |}
        | Some ty =>
            let '(ok, tr) := call_observers obs 0 (NNew ty (node_atts n a)) (ktr s) in
            let s1 := {| klog := []; ktext := []; ktr := tr; krun := ok |} in
            let s2 := if ty =? Type_description
                      then {| klog := []; ktext := flat_map raw ks; ktr := tr; krun := ok |}
                      else fold_left (fun s k => observed ty k s) ks s1 in
            if krun s2 then
              let child := Node ty (node_atts n a) (ktext s2) (klog s2 ++ self_entry ty (ktext s2)) in
              let '(kp, tr) := call_observers obs 0 (NEnd p child) (ktr s2) in
              let '(go, tr) := call_observers obs 0 (NAdd p child) tr in
              {| klog := klog s ++ (if kp then [LChild child] else []); ktext := ktext s; ktr := tr; krun := go |}
            else {| klog := klog s; ktext := ktext s; ktr := ktr s2; krun := false |}
        end
    end.
  (** Result and notifications for a whole document. *)
  Definition observed_doc (t : xml) : option node * list (nat * note) :=
    match t with
    | XChar _ => (None, [])
    | XElem n a ks =>
        match known_type Type_Unknown n with
        | None => (None, [])
        | Some ty =>
            let '(ok, tr) := call_observers obs 0 (NNew ty (node_atts n a)) [] in
            let s1 := {| klog := []; ktext := []; ktr := tr; krun := ok |} in
            let s2 := if ty =? Type_description
                      then {| klog := []; ktext := flat_map raw ks; ktr := tr; krun := ok |}
                      else fold_left (fun s k => observed ty k s) ks s1 in
            (if krun s2 then Some (Node ty (node_atts n a) (ktext s2) (klog s2 ++ self_entry ty (ktext s2))) else None, ktr s2)
        end
    end.
End Observed.

(** Depth of element nesting. *)
Fixpoint xdepth (t : xml) : nat :=
  match t with XElem _ _ ks => S (list_max (map xdepth ks)) | XChar _ => 0 end.
Fixpoint xsize (t : xml) : nat :=
  match t with XElem _ _ ks => S (list_sum (map xsize ks)) | XChar _ => 0 end.

(** No element named Schema declares a parent and a name (KML 2.1 style Schema). *)
Fixpoint no_old_schema (t : xml) : bool :=
  match t with
  | XElem n a ks => (negb (eqs n (S_ "Schema")) || eqs (find_old_schema a []) []) && forallb no_old_schema ks
  | XChar _ => true
  end.
Fixpoint no_description (t : xml) : bool :=
  match t with
  | XElem n _ ks => negb (eqs n (S_ "description")) && forallb no_description ks
  | XChar _ => true
  end.
(** No description element inside of an element that is not KML. *)
Fixpoint descriptions_ok (t : xml) : bool :=
  match t with
  | XElem n _ ks =>
      match known_type Type_Unknown n with
      | None => forallb no_description ks
      | Some ty => if ty =? Type_description then true else forallb descriptions_ok ks
      end
  | XChar _ => true
  end.

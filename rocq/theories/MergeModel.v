(** Model of engine/merge.cc (MergeFields, MergeElements) and of GetChildElements (engine/find.cc) without
    recursion.  Elements are the objects of DomModel.v; the merged target is returned. *)
From Verif Require Import Common StrMap AttributesModel XsdTables XsdModel HandlerModel SerializerModel DomTables DomModel CloneModel.
Local Open Scope N_scope.

Definition complex (o : obj) : bool := negb (is_simple (oty o)).
(** The children of an element in the order of Serialize. *)
Definition children {A} (ty : N) (sl : list (list A)) : list A := flat_map (pick (cls ty) sl) (c_ser (cls ty)).
(** find.cc:62-85, 99-109 GetChildElements(element, false, ...): the complex children in the order of
    Serialize.  (A misplaced complex child is not handed to SaveElement, its own children are; such elements
    are outside of this model, see [merge].) *)
Definition kids (o : obj) : list obj := filter complex (children (oty o) (oslots o)).
(** Where the first complex child of type [ty] is: slot and index. *)
Fixpoint pos_of (ty : N) (l : list obj) (j : nat) : option nat :=
  match l with [] => None | c :: r => if oty c =? ty then Some j else pos_of ty r (S j) end.
Fixpoint scan (ty : N) (ks : list N) (t : obj) : option (nat * nat) :=
  match ks with
  | [] => None
  | k :: r =>
      match index_of_key k (c_slots (cls (oty t))) 0 with
      | Some i => match pos_of ty (nth i (oslots t) []) 0 with Some j => Some (i, j) | None => scan ty r t end
      | None => scan ty r t
      end
  end.
Definition kid_at (ty : N) (t : obj) : option (nat * nat) := scan ty (c_ser (cls (oty t))) t.
Fixpoint replace (j : nat) (c : obj) (l : list obj) : list obj :=
  match l, j with [], _ => [] | _ :: r, O => c :: r | x :: r, S j' => x :: replace j' c r end.
(** Change the child at a place (the pointer in target_children). *)
Definition modify (t : obj) (ij : nat * nat) (m : obj -> option obj) : option obj :=
  let '(i, j) := ij in
  match nth_error (nth i (oslots t) []) j with
  | Some c => match m c with Some c' => Some (set_slots t (update i (replace j c' (nth i (oslots t) [])) (oslots t))) | None => None end
  | None => None
  end.
Definition opt_res {A} (r : res A) : option A := match r with Ok a => Some a | _ => None end.

Section Merge.
  Variable E : env.
  Definition add_fields (l : list obj) (t : obj) : option obj :=
    fold_left (fun t c => match t with Some t => opt_res (add_element E t (field (oty c) (char_data c))) | None => None end) l (Some t).
  (** merge.cc:48-118 FieldMerger and MergeFields, source and target different, source a complex element
      without misplaced complex children: BeginById merges the source's attributes over the target's
      and clears coordinates (geometry.cc:184-192 passes no attributes); SaveStringFieldById adds each field; SaveVec3 adds
      tuples; text (SaveContent) is not overridden and so is ignored. *)
  Definition merge_fields (s t : obj) : option obj :=
    let a := if oty s =? Type_coordinates then [] else out_attributes s in
    let t := parse_attributes E t (merge_attributes (out_attributes t) a) in
    let t := if oty t =? Type_coordinates then set_vec t (if oty s =? Type_coordinates then ovec s else []) else t in
    add_fields (filter (fun c => is_simple (oty c)) (children (oty s) (oslots s)) ++ filter (fun c => is_simple (oty c)) (omis s)) t.
  (** merge.cc:123-157 MergeElements.  The children of the target are collected before anything is added.
      None: undefined, or outside of the model (a simple element, or complex misplaced children).  An
      added child that replaces another one of its group leaves the replaced one in target_children; no
      later child of the source can have its type, as the source has one child of that group. *)
  Definition merge_kids (t0 : obj) (l : list (obj * (obj -> option obj))) (t : obj) : option obj :=
    fold_left (fun t cm =>
      match t with
      | None => None
      | Some t =>
          match kid_at (oty (fst cm)) t0 with
          | Some ij => modify t ij (snd cm)
          | None => match clone E (fst cm) with Done c => opt_res (add_element E t c) | _ => None end
          end
      end) l (Some t).
  Definition simple_mis (o : obj) : bool := forallb (fun c => is_simple (oty c)) (omis o).
  Fixpoint merge (s : obj) : obj -> option obj :=
    let 'Obj ty _ _ _ _ sl mis _ := s in
    fun t =>
      if is_simple ty || is_simple (oty t) || negb (forallb (fun c => is_simple (oty c)) mis) || negb (simple_mis t) then None
      else
        match merge_kids t (filter (fun cm => complex (fst cm)) (children ty (map (map (fun c => (c, merge c))) sl))) t with
        | Some t1 => merge_fields s t1
        | None => None
        end.
End Merge.

(** Model of engine/clone.cc: Clone() replays the calls Serialize makes (the items of DomModel.ser) on newly
    created elements. *)
From Verif Require Import Common StrMap AttributesModel XsdTables XsdModel SerializerModel DomTables DomModel.
Local Open Scope N_scope.

(** [Cyclic]: an element was made its own child; [Undefined]: top() of an empty stack was used, or an
    element could not take a value. *)
Inductive cres (A : Type) := Done (a : A) | Cyclic | Undefined.
Arguments Done {A} a.
Arguments Cyclic {A}.
Arguments Undefined {A}.
Definition cbind {A B} (r : cres A) (f : A -> cres B) : cres B := match r with Done a => f a | Cyclic => Cyclic | Undefined => Undefined end.
Definition of_res {A} (r : res A) : cres A := match r with Ok a => Done a | _ => Undefined end.

Section Clone.
  Variable E : env.
  (** clone.cc:71-88, first half of End(): the collected character data is given to the element, which
      is then added to itself.  Coordinates (geometry.cc:178-182), Snippet, linkSnippet (snippet.cc:63-68) and
      SimpleData (extendeddata.cc:68-78) take their own text that way; all other classes make
      themselves their own child (or misplaced child, element.cc:53-55). *)
  Definition finish (c : obj) (cd : str) : cres obj :=
    match cd with
    | [] => Done c
    | _ => if (oty c =? Type_coordinates) || (snippet_type (oty c) || (oty c =? Type_SimpleData)) then of_res (add_self E c cd) else Cyclic
    end.
  (** clone.cc:61-149 ElementReplicator; the state is the element on top of the stack and char_data_, which is
      shared by all elements.  BeginById 61-66, End 69-95, SaveStringFieldById 98-103, BeginElementArray,
      EndElementArray and SaveContent 108-139, SaveVec3 142-146, SaveColor 149-151. *)
  Fixpoint replay (i : item) (st : obj * str) : cres (obj * str) :=
    let '(p, cd) := st in
    match i with
    | IField ty v | IColor ty v => cbind (of_res (add_element E p (field ty v))) (fun p' => Done (p', cd))
    | IVec3 a b c => Done (if oty p =? Type_coordinates then set_vec p (ovec p ++ [(a, b, c)]) else p, cd)
    | IContent s => Done (p, cd ++ s)
    | IUnknown s => Done (set_unk p (ounk p ++ [s]), cd)
    | IElem ty a ks =>
        cbind ((fix go (l : list item) (st : obj * str) : cres (obj * str) :=
                  match l with [] => Done st | k :: r => cbind (replay k st) (go r) end) ks (parse_attributes E (create ty) a, cd))
          (fun st' => cbind (finish (fst st') (snd st')) (fun c => cbind (of_res (add_element E p c)) (fun p' => Done (p', []))))
    end.
  Fixpoint replays (l : list item) (st : obj * str) : cres (obj * str) :=
    match l with [] => Done st | k :: r => cbind (replay k st) (replays r) end.
  (** clone.cc:163-174 Clone: the root element stays on the stack; a simple element finds the stack empty. *)
  Definition clone (o : obj) : cres obj :=
    match ser o with
    | IElem ty a ks => cbind (replays ks (parse_attributes E (create ty) a, [])) (fun st => finish (fst st) (snd st))
    | _ => Undefined
    end.
End Clone.

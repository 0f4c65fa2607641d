(** Model of element ownership: intrusive reference counts (src/kml/base/referent.h:38-75), the parent
    pointer (src/kml/base/xml_element.h:63-100) and the setters every element class uses
    (src/kml/dom/element.h:186-231).  Elements are numbered; a freed number is never used again (address
    reuse is not modelled). *)
From Verif Require Import Common.
Local Open Scope N_scope.

(** The heap.  [kids n]: slot and child of the child pointers held by element [n], in order; [ext n]:
    pointers to [n] held by the caller; [file n]: the XmlFile it is associated with. *)
Record heap := {
  parent : N -> option N; file : N -> option N; kids : N -> list (N * N);
  ext : N -> nat; alive : N -> bool; next : N }.
Definition heap0 : heap :=
  {| parent := fun _ => None; file := fun _ => None; kids := fun _ => []; ext := fun _ => 0%nat;
     alive := fun _ => false; next := 0 |}.
Definition upd {A} (f : N -> A) (n : N) (v : A) : N -> A := fun m => if m =? n then v else f m.

(** Calls a user can make on elements. *)
Inductive op :=
| New                                    (* create an element; the caller holds it *)
| SetChild (p k : N) (c : option N)      (* p->set_k(c), or p->clear_k() for None *)
| AddChild (p k c : N)                   (* p->add_k(c) *)
| DeleteAt (p k : N) (i : nat)           (* p->DeleteKAt(i); the caller holds the result *)
| Retain (n : N)                         (* copy a pointer *)
| Release (n : N)                        (* drop a pointer *)
| SetFile (n f : N).

Definition ids (h : heap) : list N := map N.of_nat (seq 0 (N.to_nat (next h))).
(** base/referent.h: pointers of the caller plus child pointers of living elements. *)
Definition refcount (h : heap) (n : N) : nat :=
  (ext h n + list_sum (map (fun p => if alive h p then length (filter (fun e => N.eqb (snd e) n) (kids h p)) else 0%nat) (ids h)))%nat.
(** base/referent.cc: an element whose count drops to zero is deleted, which drops its own children. *)
Definition free (h : heap) (n : N) : heap :=
  {| parent := parent h; file := file h; kids := upd (kids h) n []; ext := ext h; alive := upd (alive h) n false; next := next h |}.
Definition garbage (h : heap) : option N := List.find (fun n => alive h n && (refcount h n =? 0)%nat) (ids h).
Fixpoint collect (fuel : nat) (h : heap) : heap :=
  match fuel with
  | O => h
  | S f => match garbage h with Some n => collect f (free h n) | None => h end
  end.
Definition sweep (h : heap) : heap := collect (N.to_nat (next h)) h.

Definition oeq (a b : option N) : bool :=
  match a, b with Some x, Some y => x =? y | None, None => true | _, _ => false end.
(** xml_element.h:94-100 SetParent; :68-70 InSameXmlFile. *)
Definition can_set_parent (h : heap) (c p : N) : bool :=
  match parent h c with Some _ => false | None => oeq (file h c) (file h p) end.
Definition link (h : heap) (p c : N) (ks : list (N * N)) : heap :=
  {| parent := upd (parent h) c (Some p); file := file h; kids := upd (kids h) p ks; ext := ext h; alive := alive h; next := next h |}.
Definition set_kids (h : heap) (p : N) (ks : list (N * N)) : heap :=
  {| parent := parent h; file := file h; kids := upd (kids h) p ks; ext := ext h; alive := alive h; next := next h |}.
Definition set_ext (h : heap) (n : N) (e : nat) : heap :=
  {| parent := parent h; file := file h; kids := kids h; ext := upd (ext h) n e; alive := alive h; next := next h |}.

(** The caller holds a pointer to [n]. *)
Definition held (h : heap) (n : N) : bool := alive h n && negb (ext h n =? 0)%nat.
Definition in_slot (k : N) (e : N * N) : bool := fst e =? k.
(** Erase the i-th entry of slot k. *)
Fixpoint erase (k : N) (i : nat) (ks : list (N * N)) : option (N * list (N * N)) :=
  match ks with
  | [] => None
  | e :: ks' =>
      if in_slot k e then
        match i with
        | O => Some (snd e, ks')
        | S j => option_map (fun r => (fst r, e :: snd r)) (erase k j ks')
        end
      else option_map (fun r => (fst r, e :: snd r)) (erase k i ks')
  end.

(** One call: new heap and whether the call succeeded.  Using a pointer one does not hold is
    undefined. *)
Definition step (h : heap) (o : op) : res (heap * bool) :=
  match o with
  | New =>
      let n := next h in
      Ok ({| parent := upd (parent h) n None; file := upd (file h) n None; kids := upd (kids h) n [];
             ext := upd (ext h) n 1%nat; alive := upd (alive h) n true; next := n + 1 |}, true)
  (* element.h:186-197 *)
  | SetChild p k None =>
      if held h p then Ok (sweep (set_kids h p (filter (fun e => negb (in_slot k e)) (kids h p))), true) else UB
  | SetChild p k (Some c) =>
      if held h p && held h c then
        if can_set_parent h c p then
          Ok (sweep (link h p c (filter (fun e => negb (in_slot k e)) (kids h p) ++ [(k, c)])), true)
        else Ok (h, false)
      else UB
  (* element.h:200-208 *)
  | AddChild p k c =>
      if held h p && held h c then
        if can_set_parent h c p then Ok (link h p c (kids h p ++ [(k, c)]), true) else Ok (h, false)
      else UB
  (* element.h:220-231: the parent pointer of the removed child is left as it is *)
  | DeleteAt p k i =>
      if held h p then
        match erase k i (kids h p) with
        | None => Ok (h, false)
        | Some (c, ks) => let h := set_kids h p ks in Ok (set_ext h c (S (ext h c)), true)
        end
      else UB
  | Retain n => if held h n then Ok (set_ext h n (S (ext h n)), true) else UB
  | Release n => if held h n then Ok (sweep (set_ext h n (ext h n - 1)), true) else UB
  (* xml_element.h:75-81 *)
  | SetFile n f =>
      if held h n then
        match file h n with
        | Some _ => Ok (h, false)
        | None => Ok ({| parent := parent h; file := upd (file h) n (Some f); kids := kids h; ext := ext h; alive := alive h; next := next h |}, true)
        end
      else UB
  end.
Fixpoint run (h : heap) (ops : list op) : res heap :=
  match ops with
  | [] => Ok h
  | o :: ops' => do (h', _) <- step h o; run h' ops'
  end.
(** Dereferencing GetParent() (xml_element.h:51-53), as UpdateProcessor::DeleteFeatureById does. *)
Definition deref_parent (h : heap) (n : N) : res (option N) :=
  match parent h n with
  | None => Ok None
  | Some p => if alive h p then Ok (Some p) else UB
  end.

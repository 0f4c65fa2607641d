(** Model of kmldom::Xsd (src/kml/dom/xsd.cc) and of kmlDomTypeToString (kml22.h). *)
From Verif Require Import Common StrMap XsdTables.
Local Open Scope N_scope.

(** xsd.cc:43-47 Xsd::Xsd: entries 0 .. Type_Invalid-1 into a map. *)
Fixpoint fill (l : list (str * xsd_type)) (i : N) (n : nat) (m : smap N) : smap N :=
  match n, l with
  | S n', (name, _) :: l' => fill l' (i + 1) n' (mset name i m)
  | _, _ => m
  end.
Definition tag_to_id : smap N := fill kml22_elements 0 (N.to_nat Type_Invalid) [].
(** The same map, evaluated (equal by tag_to_id_eval in XsdProofs.v). *)
Definition tag_map : smap N := Eval vm_compute in tag_to_id.

(** xsd.cc:49-55 ElementId. *)
Definition element_id (name : str) : N :=
  match mget name tag_map with Some i => i | None => Type_Unknown end.
(** xsd.cc:57-59 is_valid.  The id is a C int; [Z] keeps negative arguments. *)
Definition is_valid (id : Z) : bool := (Z.of_N Type_Unknown <? id)%Z && (id <? Z.of_N Type_Invalid)%Z.
(** xsd.cc:61-72 ElementName. *)
Definition element_name (id : Z) : str :=
  if is_valid id then
    if (id =? Z.of_N Type_IconStyleIcon)%Z then S_ "Icon"
    else fst (nth (Z.to_nat id) kml22_elements ([], XSD_UNKNOWN))
  else [].
(** xsd.cc:74-80 ElementType. *)
Definition element_type (id : Z) : xsd_type :=
  if is_valid id then snd (nth (Z.to_nat id) kml22_elements ([], XSD_UNKNOWN)) else XSD_UNKNOWN.

Fixpoint index_of (s : str) (l : list str) (i : Z) : option Z :=
  match l with
  | [] => None
  | x :: l' => if eqs x s then Some i else index_of s l' (i + 1)%Z
  end.
(** xsd.cc:82-101 EnumId: continues with later tables of the same type id when not found. *)
Fixpoint enum_id_in (tables : list (N * list str)) (type_id : N) (v : str) : Z :=
  match tables with
  | [] => (-1)%Z
  | (t, vals) :: r => if t =? type_id then match index_of v vals 0%Z with Some i => i | None => enum_id_in r type_id v end
                      else enum_id_in r type_id v
  end.
Definition enum_id (type_id : N) (v : str) : Z := enum_id_in kml22_enums type_id v.
(** xsd.cc:103-115 EnumValue: indexing the value list at its NULL constructs a string from NULL and
    indexing beyond reads outside of the array; both are [UB]. *)
Fixpoint enum_value_in (tables : list (N * list str)) (type_id : N) (i : nat) : res str :=
  match tables with
  | [] => Ok []
  | (t, vals) :: r => if t =? type_id then match nth_error vals i with Some s => Ok s | None => UB end
                      else enum_value_in r type_id i
  end.
Definition enum_value (type_id : N) (id : Z) : res str :=
  if (id <? 0)%Z then Ok [] else enum_value_in kml22_enums type_id (Z.to_nat id).

(** kml22.h:276-502 kmlDomTypeToString: no bounds check. *)
Definition dom_type_to_string (t : N) : res str :=
  match nth_error dom_type_strings (N.to_nat t) with Some s => Ok s | None => UB end.

(** Model of kmlbase::Attributes (src/kml/base/attributes.h, attributes.cc) and of the attribute
    handling of kmldom::Element (src/kml/dom/element.cc). *)
From Verif Require Import Common StrMap.

Definition attrs := smap str.

(** attributes.cc:54-61 Parse(const char** ): name, value, ... ; an unpaired last item is ignored. *)
Fixpoint parse_cstrings (l : list str) (m : attrs) : attrs :=
  match l with
  | k :: v :: l' => parse_cstrings l' (mset k v m)
  | _ => m
  end.
(** attributes.cc:63-72 Parse(const StringVector&): vector::at(i+1) throws for an unpaired last item
    (the size check at line 65 never fires). *)
Fixpoint parse_vector (l : list str) (m : attrs) : res attrs :=
  match l with
  | [] => Ok m
  | [_] => Throw
  | k :: v :: l' => parse_vector l' (mset k v m)
  end.

(** attributes.cc:100-109 FindValue, attributes.h:70-80 GetValue<string>. *)
Definition find_value (k : str) (m : attrs) : option str := mget k m.
(** attributes.cc:111-122 FindKey: first entry in key order with this value. *)
Fixpoint find_key (v : str) (m : attrs) : option str :=
  match m with
  | [] => None
  | (k, v') :: m' => if eqs v v' then Some k else find_key v m'
  end.
(** attributes.h:83-90 CutValue<string>. *)
Definition cut_value (k : str) (m : attrs) : option str * attrs :=
  match mget k m with
  | Some v => (Some v, mdel k m)
  | None => (None, m)
  end.
(** attributes.h:95-98 SetValue<string>. *)
Definition set_value (k v : str) (m : attrs) : attrs := mset k v m.
(** attributes.cc:93-98 MergeAttributes. *)
Definition merge_attributes (m input : attrs) : attrs :=
  fold_left (fun acc kv => mset (fst kv) (snd kv) acc) input m.
(** attributes.cc:74-85 Serialize (appends to output). *)
Definition serialize1 (kv : str * str) : str :=
  S_ " " ++ fst kv ++ S_ "=""" ++ snd kv ++ S_ """".
Definition serialize (m : attrs) : str := flat_map serialize1 m.

(** attributes.cc:133-156 SplitByPrefix: (split or NULL, remaining). *)
Definition has_prefix (prefix k : str) : bool := prefixb (prefix ++ S_ ":") k.
Definition split_by_prefix (prefix : str) (m : attrs) : option attrs * attrs :=
  let n := length prefix + 1 in
  let split := fold_left (fun acc kv => if has_prefix prefix (fst kv)
                                        then mset (skipn n (fst kv)) (snd kv) acc else acc) m [] in
  let erase := map fst (filter (fun kv => has_prefix prefix (fst kv)) m) in
  match split with
  | [] => (None, m)
  | _ => (Some split, fold_left (fun acc k => mdel k acc) erase m)
  end.

(** element.h:242-247: the two attribute holders of an Element. *)
Record elem_attrs := { unknown : option attrs; xmlns : option attrs }.
Definition no_attrs : elem_attrs := {| unknown := None; xmlns := None |}.

(** element.cc:89-116 AddUnknownAttributes (non-NULL argument). *)
Definition add_unknown_attributes (e : elem_attrs) (a : attrs) : elem_attrs :=
  let '(sp, a) := split_by_prefix (S_ "xmlns") a in
  let x := match sp with
           | Some s => match xmlns e with Some x0 => Some (merge_attributes x0 s) | None => Some s end
           | None => xmlns e
           end in
  let '(dflt, a) := cut_value (S_ "xmlns") a in
  let x := match dflt with
           | Some v => Some (set_value (S_ "xmlns") v (match x with Some x0 => x0 | None => [] end))
           | None => x
           end in
  match a with
  | [] => {| unknown := unknown e; xmlns := x |}
  | _ => {| unknown := Some a; xmlns := x |}
  end.

(** element.cc:126-140 SerializeAttributes onto [out]. *)
Definition xmlns_key (k : str) : str := if eqs k (S_ "xmlns") then k else S_ "xmlns:" ++ k.
Definition serialize_attributes (e : elem_attrs) (out : attrs) : attrs :=
  let out := match unknown e with Some u => merge_attributes out u | None => out end in
  match xmlns e with
  | Some x => fold_left (fun acc kv => mset (xmlns_key (fst kv)) (snd kv) acc) x out
  | None => out
  end.

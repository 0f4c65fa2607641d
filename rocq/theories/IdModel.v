(** Model of engine/id_mapper.cc (MapIds, ClearIds, RemapIds).  A pointer to an element below a root is the
    way to it: the number of the list of children and the position in it, for each step.  The
    misplaced children (unknown_legal_elements_array_) are one more list behind the class's own. *)
From Verif Require Import Common StrMap AttributesModel XsdTables XsdModel HandlerModel DomTables DomModel.
Local Open Scope N_scope.

Definition address := list (nat * nat).
Definition lists (o : obj) : list (list obj) := oslots o ++ [omis o].
Definition set_lists (o : obj) (ls : list (list obj)) : obj :=
  set_mis (set_slots o (firstn (length (oslots o)) ls)) (nth (length (oslots o)) ls []).
Fixpoint at_address (o : obj) (p : address) : option obj :=
  match p with
  | [] => Some o
  | (i, j) :: r => match nth_error (nth i (lists o) []) j with Some c => at_address c r | None => None end
  end.
Fixpoint set_nth {A} (i : nat) (v : A) (l : list A) : list A :=
  match l, i with [], _ => [] | _ :: r, O => v :: r | x :: r, S i' => x :: set_nth i' v r end.
(** The root after a change made through a pointer. *)
Fixpoint change_at (p : address) (f : obj -> obj) (o : obj) : obj :=
  match p with
  | [] => f o
  | (i, j) :: r =>
      match nth_error (nth i (lists o) []) j with
      | Some c => set_lists o (set_nth i (set_nth j (change_at r f c) (nth i (lists o) [])) (lists o))
      | None => o
      end
  end.

(** object.h:46-60 has_id, get_id, set_id, clear_id; AsObject. *)
Definition id_of (o : obj) : option str := if is_a (oty o) Type_Object then find_value (S_ "id") (oka o) else None.
Definition set_id (v : str) (o : obj) : obj := set_ka o (mset (S_ "id") v (oka o)).
Definition clear_id (o : obj) : obj := set_ka o (mdel (S_ "id") (oka o)).

(** The elements IdMapper::SaveElement is called with (id_mapper.cc:42-59), in order, when SaveElement is called with [o]: [o], then what its
    Serialize passes on: the children in the order of Serialize, then the children of misplaced
    children (element.cc:66-71 calls Serialize of these and not SaveElement). *)
Definition numbered {A} (l : list A) : list (nat * A) := combine (seq 0 (length l)) l.
Definition steps (i : nat) (l : list (list address)) : list address :=
  flat_map (fun js => map (cons (i, fst js)) (snd js)) (numbered l).
Fixpoint saved (o : obj) : list address :=
  let 'Obj ty _ _ _ _ sl mis _ := o in
  [] :: flat_map (fun k => match index_of_key k (c_slots (cls ty)) 0 with Some i => steps i (nth i (map (map saved) sl) []) | None => [] end) (c_ser (cls ty))
     ++ steps (length sl) (map (fun c => tl (saved c)) mis).
(** The map of MapIds (id_mapper.cc:62-69), and the elements put into dup_id_vector. *)
Definition id_at (o : obj) (p : address) : option str := match at_address o p with Some x => id_of x | None => None end.
Definition map_step (o : obj) (m : list (str * address)) (p : address) : list (str * address) :=
  match id_at o p with Some id => mset id p m | None => m end.
Definition map_ids (o : obj) : list (str * address) := fold_left (map_step o) (saved o) [].
Definition dup_step (o : obj) (md : list (str * address) * list address) (p : address) : list (str * address) * list address :=
  match id_at o p with
  | Some id => (mset id p (fst md), snd md ++ match mget id (fst md) with Some q => [q] | None => [] end)
  | None => md
  end.
Definition dup_ids (o : obj) : list address := snd (fold_left (dup_step o) (saved o) ([], [])).
(** id_mapper.cc:71-81 ClearIds. *)
Definition clear_ids (o : obj) : obj := fold_left (fun o e => change_at (snd e) clear_id o) (map_ids o) o.
(** id_mapper.cc:83-105 RemapIds with the objects [m] of the root [o]: the root, the number of ids cleared, and
    output_object_id_map (empty at first). *)
Definition remap_step (id_map : list (str * str)) (s : obj * nat * list (str * address)) (e : str * address) : obj * nat * list (str * address) :=
  let '(o, n, out) := s in
  match id_at o (snd e) with
  | Some id =>
      match mget id id_map with
      | None => (change_at (snd e) clear_id o, S n, out)
      | Some v => (change_at (snd e) (set_id v) o, n, mset v (snd e) out)
      end
  | None => s
  end.
Definition remap_ids (m : list (str * address)) (id_map : list (str * str)) (o : obj) : obj * nat * list (str * address) :=
  fold_left (remap_step id_map) m (o, 0%nat, []).

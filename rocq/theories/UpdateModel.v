(** Model of engine/update_processor.cc and engine/update.cc: applying Change, Create and Delete to a file.  A file is its root
    element and the objects it knows by id (KmlFile::object_id_map_, filled once and never changed by an update). *)
From Verif Require Import Common StrMap AttributesModel XsdTables XsdModel HandlerModel DomTables DomModel CloneModel MergeModel IdModel.
Local Open Scope N_scope.

(** Where an object of the map is: in the tree; taken out of the element at [q] (its parent_ still refers to that one,
    container.cc:66-78 and element.h:187-191 do not reset it); inside of a part taken out, with its parent alive; or with a
    parent whose storage was freed (xml_element.h:104 parent_ does not count as a reference). *)
Inductive place := Here (p : address) | Out (q : address) | Away | Orphan.
Definition file := (obj * list (str * place))%type.

(** update_processor.cc:133-152 GetTargetId; [id_map] None is NULL. *)
Definition target_of (o : obj) : option str := if is_a (oty o) Type_Object then find_value (S_ "targetId") (oka o) else None.
Definition target_id (id_map : option (list (str * str))) (o : obj) : option str :=
  match target_of o with
  | None => None
  | Some t => match id_map with None => Some t | Some m => mget t m end
  end.

(** [under q p]: the way from [q] to [p], if [q] is [p] or above it. *)
Fixpoint under (q p : address) : option address :=
  match q, p with
  | [], _ => Some p
  | (i, j) :: q', (i', j') :: p' => if (i =? i')%nat && (j =? j')%nat then under q' p' else None
  | _ :: _, [] => None
  end.
(** An element is alive without its parent if the map refers to it. *)
Definition held (m : list (str * place)) (d p : address) : bool :=
  existsb (fun e => match snd e with
                    | Here a => match under d a, under a p with Some _, Some (_ :: _) => true | _, _ => false end
                    | _ => false
                    end) m.
(** Where the objects of the map are after child [j] of list [i] of the element at [q] was taken out. *)
Definition moved (m : list (str * place)) (q : address) (i j : nat) (w : place) : place :=
  match w with
  | Here p =>
      match under q p with
      | Some ((i', j') :: r) =>
          if (i' =? i)%nat then
            if (j' =? j)%nat then match r with [] => Out q | _ => if held m (q ++ [(i, j)]) p then Away else Orphan end
            else Here (if (j <? j')%nat then q ++ (i, (j' - 1)%nat) :: r else p)
          else Here p
      | _ => Here p
      end
  | Out p =>
      match under q p with
      | Some ((i', j') :: r) =>
          if (i' =? i)%nat then
            if (j' =? j)%nat then Away
            else Out (if (j <? j')%nat then q ++ (i, (j' - 1)%nat) :: r else p)
          else Out p
      | _ => Out p
      end
  | Away => Away
  | Orphan => Orphan
  end.
Fixpoint remove_nth {A} (j : nat) (l : list A) : list A :=
  match l, j with [], _ => [] | _ :: r, O => r | x :: r, S j' => x :: remove_nth j' r end.
Definition take_out (q : address) (i j : nat) (f : file) : file :=
  (change_at q (fun y => set_slots y (update i (remove_nth j (nth i (oslots y) [])) (oslots y))) (fst f),
   map (fun e => (fst e, moved (snd f) q i j (snd e))) (snd f)).
Definition slot_of (k : N) (y : obj) : option nat := index_of_key k (c_slots (cls (oty y))) 0.
(** container.cc:66-78 DeleteFeatureById: the first feature with the id. *)
Fixpoint first_with (id : str) (l : list obj) (j : nat) : option nat :=
  match l with
  | [] => None
  | c :: r => if match id_of c with Some i => eqs id i | None => false end then Some j else first_with id r (S j)
  end.
(** update_processor.cc:118-129 DeleteFeatureById, from the parent on. *)
Definition delete_in (q : address) (id : str) (f : file) : file :=
  match at_address (fst f) q with
  | Some y =>
      match slot_of Type_Feature y with
      | Some i =>
          if is_a (oty y) Type_Container then match first_with id (nth i (oslots y) []) 0 with Some j => take_out q i j f | None => f end
          else if oty y =? Type_kml then match nth i (oslots y) [] with [] => f | _ => take_out q i 0 f end
          else f
      | None => f
      end
  | None => f
  end.
(** The parent of the element at [p]: a misplaced element has none (element.cc:54-56 does not set it), nor has the root. *)
Definition parent_at (o : obj) (p : address) : option address :=
  match rev p with
  | [] => None
  | (i, _) :: r => match at_address o (rev r) with
                   | Some y => if (i <? length (oslots y))%nat then Some (rev r) else None
                   | None => None
                   end
  end.
(** update_processor.cc:118-129.  [Away]: what happens inside of a part taken out is not followed; the document is not changed by it. *)
Definition delete_by_id (id : str) (f : file) : res file :=
  match mget id (snd f) with
  | Some (Here p) =>
      match at_address (fst f) p with
      | Some x => if is_a (oty x) Type_Feature then match parent_at (fst f) p with Some q => Ok (delete_in q id f) | None => Ok f end else Ok f
      | None => Ok f
      end
  | Some (Out q) => Ok (delete_in q id f)
  | Some Away => Ok f
  | Some Orphan => UB
  | None => Ok f
  end.
(** update_processor.cc:107-116 ProcessUpdateDelete: the features of a Delete. *)
Fixpoint process_delete (id_map : option (list (str * str))) (l : list obj) (f : file) : res file :=
  match l with
  | [] => Ok f
  | c :: r => do f' <- match target_id id_map c with Some id => delete_by_id id f | None => Ok f end; process_delete id_map r f'
  end.

Section Update.
  Variable E : env.
  Definition clear_targetid (o : obj) : obj := set_ka o (mdel (S_ "targetId") (oka o)).
  (** update_processor.cc:73-91 ProcessUpdateChange for one object of the Change.  None: the merge is undefined or outside
      of MergeModel.v.  Only the tree is given back: a merge may replace children the map refers to. *)
  Definition change_object (id_map : option (list (str * str))) (s : obj) (f : file) : option obj :=
    match target_id id_map s with
    | Some id =>
        match mget id (snd f) with
        | Some (Here p) =>
            match at_address (fst f) p with
            | Some t => match merge E s t with Some t' => Some (change_at p (fun _ => clear_targetid t') (fst f)) | None => None end
            | None => Some (fst f)
            end
        | _ => Some (fst f)
        end
    | None => Some (fst f)
    end.
  (** update_processor.cc:154-161 CopyFeatures, for a target container. *)
  Definition features (y : obj) : list obj := match slot_of Type_Feature y with Some i => nth i (oslots y) [] | None => [] end.
  Fixpoint copy_all (l : list obj) : option (list obj) :=
    match l with
    | [] => Some []
    | c :: r => match clone E c, copy_all r with Done c', Some r' => Some (c' :: r') | _, _ => None end
    end.
  Definition add_features (l : list obj) (y : obj) : obj :=
    match slot_of Type_Feature y with Some i => set_slots y (update i (nth i (oslots y) [] ++ l) (oslots y)) | None => y end.
  (** update_processor.cc:93-105 ProcessUpdateCreate for one container of the Create. *)
  Definition create_in (id_map : option (list (str * str))) (s : obj) (f : file) : option file :=
    match target_id id_map s with
    | Some id =>
        match mget id (snd f) with
        | Some (Here p) =>
            match at_address (fst f) p with
            | Some t =>
                if is_a (oty t) Type_Container then
                  match copy_all (features s) with Some l => Some (change_at p (add_features l) (fst f), snd f) | None => None end
                else Some f
            | None => Some f
            end
        | _ => Some f
        end
    | None => Some f
    end.
End Update.

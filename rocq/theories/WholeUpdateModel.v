(** Model of UpdateProcessor::ProcessUpdate (engine/update_processor.cc:58-71): the operations of an Update, in turn. *)
From Verif Require Import Common StrMap AttributesModel XsdTables XsdModel HandlerModel DomTables DomModel CloneModel MergeModel MergeProofs MergeProps IdModel UpdateModel.
Local Open Scope N_scope.

(** What an update comes to: a file, undefined behaviour, or something the models do not follow. *)
Inductive outcome := Done (f : file) | Undefined | Outside.
Definition after (r : outcome) (k : file -> outcome) : outcome := match r with Done f => k f | Undefined => Undefined | Outside => Outside end.
Fixpoint each {A} (k : A -> file -> outcome) (l : list A) (f : file) : outcome :=
  match l with [] => Done f | a :: r => after (k a f) (each k r) end.

Section Whole.
  Variable E : env.
  Variable id_map : option (list (str * str)).
  (** update_processor.cc:73-91 ProcessUpdateChange, one object.  The objects of the map stay where they are if the merge
      replaces no child, which is so for the elements of [mergeable] (MergeProofs.v); other changes are Outside.  A change of
      an object taken out of the document does not change the document. *)
  Definition change_one (s : obj) (f : file) : outcome :=
    match target_id id_map s with
    | Some id =>
        match mget id (snd f) with
        | Some (Here p) =>
            match at_address (fst f) p with
            | Some t => if goodb E t && mergeable s t then match change_object E id_map s f with Some o => Done (o, snd f) | None => Outside end else Outside
            | None => Done f
            end
        | _ => Done f
        end
    | None => Done f
    end.
  (** update_processor.cc:93-105 ProcessUpdateCreate, one container. *)
  Definition create_one (s : obj) (f : file) : outcome := match create_in E id_map s f with Some f' => Done f' | None => Outside end.
  (** update_processor.cc:107-116 ProcessUpdateDelete, one feature. *)
  Definition delete_one (s : obj) (f : file) : outcome :=
    match process_delete id_map [s] f with Ok f' => Done f' | _ => Undefined end.
  (** The elements of an array of a class. *)
  Definition array (k : N) (y : obj) : list obj := match slot_of k y with Some i => nth i (oslots y) [] | None => [] end.
  (** update_processor.cc:58-71: an operation is a Change, a Create or a Delete (networklinkcontrol.cc:153-174 takes no
      others; the three arrays are those of networklinkcontrol.h:96, 132, 168, that of Update is at 216). *)
  Definition operation (op : obj) (f : file) : outcome :=
    if oty op =? Type_Change then each change_one (array Type_Object op) f
    else if oty op =? Type_Create then each create_one (array Type_Container op) f
    else if oty op =? Type_Delete then each delete_one (array Type_Feature op) f
    else Done f.
  Definition process_update (u : obj) (f : file) : outcome := each operation (array Type_Create u) f.
End Whole.

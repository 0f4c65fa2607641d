(** Documents without the styles of their features: what splitting and inlining styles must leave alone. *)
From Verif Require Import Common AttributesModel XsdTables XsdModel HandlerModel DomTables DomModel.
Local Open Scope N_scope.

(** The places of a feature for its styles and for the reference to one. *)
Definition for_styles (ty : N) (s : slot) : bool := is_a ty Type_Feature && ((s_key s =? Type_styleUrl) || (s_key s =? Type_StyleSelector)).
Fixpoint blank (hs : list bool) (l : list (list obj)) : list (list obj) :=
  match hs, l with
  | h :: hs, x :: l => (if h then [] else x) :: blank hs l
  | _, _ => l
  end.
(** An element in which every feature, at whatever depth, has lost its styles and its styleUrl and nothing else. *)
Fixpoint bare (o : obj) : obj :=
  let 'Obj ty ka ea tx vec sl mis unk := o in
  Obj ty ka ea tx vec (blank (map (for_styles ty) (c_slots (cls ty))) (map (map bare) sl)) (map bare mis) unk.
(** No element of the abstract type Feature; the parser makes none. *)
Fixpoint concrete (n : node) : bool :=
  let 'Node ty _ _ log := n in negb (ty =? Type_Feature) && forallb (fun e => match e with LChild c => concrete c | _ => true end) log.

(** XML documents as trees: specification vocabulary, independent of the library.  The events of a tree
    are what a conforming parser reports for the document (character data byte by byte). *)
From Verif Require Import Common XmlSpec.

Inductive xt := XT (name : str) (atts : list (str * str)) (kids : list xt) | XChar (c : ascii).
Fixpoint xevents (t : xt) : list ev :=
  match t with
  | XT n a k => EStart n a :: flat_map xevents k ++ [EEnd n]
  | XChar c => [EChar c]
  end.
Lemma xt_ind' (P : xt -> Prop) : (forall c, P (XChar c)) -> (forall n a k, Forall P k -> P (XT n a k)) -> forall t, P t.
Proof.
  intros HC HT. fix IH 1. intros [n a k|c]; [|apply HC]. apply HT. induction k as [|t k IHk]; constructor; [apply IH|apply IHk].
Qed.

(** Property theorems about XML attribute sets (C09, C10, C53). *)
From Verif Require Import Common StrMap AttributesModel AttributesProofs.

(** C09. Any sequence of set, cut, merge, split and parse calls on an initially empty attribute set
    behaves as on a plain function from names to optional values. *)
Theorem attributes_are_maps : forall os k,
  find_value k (fold_left step os []) = fold_left sstep os (fun _ => None) k.
Proof. exact (fun os => steps_spec os [] msorted_nil). Qed.
Print Assumptions attributes_are_maps.

(** C09. Cutting returns the value that was there. *)
Theorem attributes_cut_returns : forall k m, fst (cut_value k m) = find_value k m.
Proof. exact (fun k m => proj1 (proj2 (cut_value_view k m))). Qed.
Print Assumptions attributes_cut_returns.

(** C09. Splitting by prefix returns exactly the prefixed attributes, without the prefix, and
    nothing (NULL) exactly if there are none. *)
Theorem attributes_split_returns : forall p m, msorted m ->
  (forall k, sp_view (fst (split_by_prefix p m)) k = find_value (p ++ S_ ":" ++ k) m) /\
  (fst (split_by_prefix p m) = None <-> forall t, find_value (p ++ S_ ":" ++ t) m = None).
Proof. exact split_returns. Qed.
Print Assumptions attributes_split_returns.

(** C09. Searching by value finds an attribute with that value if and only if there is one. *)
Theorem attributes_find_key : forall v m, msorted m ->
  (forall k, find_key v m = Some k -> find_value k m = Some v) /\
  (find_key v m = None -> forall k, find_value k m <> Some v).
Proof. exact (fun v m H => conj (fun k => find_key_spec v m k H) (find_key_none v m)). Qed.
Print Assumptions attributes_find_key.

(** C09. Creating from a vector: pairs are read with the last duplicate winning; a vector of odd
    length raises an exception instead of returning nothing. *)
Theorem attributes_from_vector : forall l, exists m, parse_vector (flatten l) [] = Ok m /\
  (forall k, find_value k m = last_value l k) /\ forall x, parse_vector (flatten l ++ [x]) [] = Throw.
Proof. exact from_vector. Qed.
Print Assumptions attributes_from_vector.

(** Non-vacuity: reachable attribute sets are sorted maps, and a run with every operation. *)
Example attributes_reachable_sorted : forall os, msorted (fold_left step os []).
Proof. exact (fun os => steps_sorted os [] msorted_nil). Qed.
Example attributes_run : fold_left step
  [OParse [(S_ "b", S_ "1"); (S_ "a", S_ "2"); (S_ "xmlns:k", S_ "u")]; OSet (S_ "b") (S_ "3");
   OCut (S_ "a"); OMerge [(S_ "c", S_ "4"); (S_ "b", S_ "5")]; OSplit (S_ "xmlns")] [] =
  [(S_ "b", S_ "5"); (S_ "c", S_ "4")].
Proof. reflexivity. Qed.

(** C10. Attributes with XML names and values free of quote, '<', '&', TAB, LF and CR are read back
    from their serialization by an XML attribute reader, in the same order. *)
Theorem attributes_serialize_read_back : forall m, forallb clean m = true ->
  read_attributes (serialize m) = Some m.
Proof. exact read_serialize. Qed.
Print Assumptions attributes_serialize_read_back.
Example attributes_serialize_nonvacuous :
  forallb clean [(S_ "id", S_ "a b>'c"); (S_ "xmlns", S_ "http://x")] = true.
Proof. reflexivity. Qed.

(** C10. Refuted: a value with a quote is read back as two attributes (attribute injection). *)
Theorem attributes_serialize_quote_refuted : exists m, msorted m /\ read_attributes (serialize m) <> Some m /\
  exists l, read_attributes (serialize m) = Some l /\ length l = 2 /\ length m = 1.
Proof. exact serialize_quote_wit. Qed.
Print Assumptions attributes_serialize_quote_refuted.

(** C10. Refuted: a value with an ampersand gives text that is not well-formed. *)
Theorem attributes_serialize_ampersand_refuted : exists m, msorted m /\ read_attributes (serialize m) = None.
Proof. exact serialize_amp_wit. Qed.
Print Assumptions attributes_serialize_ampersand_refuted.

(** C53. Attributes an element does not know, and its namespace declarations, are all written back
    unchanged, unless one is named xmlns:xmlns. *)
Theorem unknown_attributes_survive : forall a, msorted a -> find_value (S_ "xmlns:xmlns") a = None ->
  serialize_attributes (add_unknown_attributes no_attrs a) [] = a.
Proof. exact attrs_survive. Qed.
Print Assumptions unknown_attributes_survive.
Example unknown_attributes_nonvacuous :
  let a := [(S_ "foo", S_ "1"); (S_ "xmlns", S_ "u"); (S_ "xmlns:gx", S_ "v")] in
  msorted a /\ find_value (S_ "xmlns:xmlns") a = None /\
  add_unknown_attributes no_attrs a =
    {| unknown := Some [(S_ "foo", S_ "1")]; xmlns := Some [(S_ "gx", S_ "v"); (S_ "xmlns", S_ "u")] |}.
Proof. vm_compute. repeat split; repeat constructor. Qed.

(** C53. Refuted: the reserved name xmlns:xmlns turns into a default namespace. *)
Theorem unknown_attributes_reserved_refuted : exists a, msorted a /\
  serialize_attributes (add_unknown_attributes no_attrs a) [] <> a.
Proof. exact attrs_survive_wit. Qed.
Print Assumptions unknown_attributes_reserved_refuted.

(** C53. Refuted for a second batch: adding further unknown attributes drops the earlier ones. *)
Theorem unknown_attributes_second_batch_refuted : exists a b, msorted a /\ msorted b /\
  find_value (S_ "foo") (serialize_attributes (add_unknown_attributes (add_unknown_attributes no_attrs a) b) []) = None /\
  find_value (S_ "foo") a <> None /\ find_value (S_ "foo") b = None.
Proof. exact attrs_second_wit. Qed.
Print Assumptions unknown_attributes_second_batch_refuted.

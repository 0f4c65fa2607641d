(** Property theorems about writing XML (C19, C20, C56). *)
From Verif Require Import Common StrMap AttributesModel XsdTables XsdModel XmlSpec XmlSpecProofs SerializerModel SerializerProofs.

(** C19. Whatever an element consists of, serializing it succeeds (never pops an empty tag stack), for
    any line break and indentation. *)
Theorem serializer_total : forall nl ind i, exists s, serialize_with nl ind i = Ok s.
Proof. exact (fun nl ind i => ex_intro _ _ (serialize_ok nl ind i)). Qed.
Print Assumptions serializer_total.

(** C19. Raw output is a well-formed document whose tree is exactly the element: same names,
    attributes, order, nesting and text. *)
Theorem serialize_raw_well_formed : forall ty a ks, readable (IElem ty a ks) = true ->
  exists s, serialize_raw (IElem ty a ks) = Ok s /\
    xml_tree s = Some (XElem (tag_name ty) a (flat_map plain ks)).
Proof.
  exact (fun ty a ks H => eq_ind _ (fun F => exists s, serialize_raw (IElem ty a ks) = Ok s /\ xml_tree s = Some (XElem (tag_name ty) a F))
    (serialize_reads [] [] ty a ks eq_refl eq_refl H) _ (content_raw 0 ks)).
Qed.
Print Assumptions serialize_raw_well_formed.

(** C19. With any white space for line breaks and indentation (in particular pretty output) the
    document is well-formed, has the same elements and attributes in the same places, and its exact
    content is [content]: white space is added around child elements only. *)
Theorem serialize_indented_well_formed : forall nl ind ty a ks, forallb wsp nl = true -> forallb wsp ind = true ->
  readable (IElem ty a ks) = true ->
  exists s, serialize_with nl ind (IElem ty a ks) = Ok s /\
    xml_tree s = Some (XElem (tag_name ty) a (content nl ind 0 ks)) /\
    elems (content nl ind 0 ks) = elems (flat_map plain ks).
Proof.
  exact (fun nl ind ty a ks Hn Hi Hr => match serialize_reads nl ind ty a ks Hn Hi Hr with
    | ex_intro _ s (conj H1 H2) => ex_intro _ s (conj H1 (conj H2 (content_elems nl ind 0 ks))) end).
Qed.
Print Assumptions serialize_indented_well_formed.

(** Non-vacuity: an element with attributes, fields, text, tuples, unknown markup and children. *)
Example serializer_sample : item :=
  IElem Type_Placemark [(S_ "id", S_ "a b")]
    [IField Type_name (S_ "x < ""y"" & z"); IField Type_visibility (S_ "1"); IField Type_address [];
     IElem Type_Snippet [(S_ "maxLines", S_ "2")] [IContent (S_ "hi")];
     IElem Type_LineString [] [IElem Type_coordinates [] [IVec3 (S_ "1") (S_ "-2.5") (S_ "0")]];
     IUnknown (S_ "<q a=""1"">t</q>")].
Example serializer_sample_readable : readable serializer_sample = true.
Proof. vm_compute. reflexivity. Qed.
Example serializer_sample_pretty : exists s, serialize_pretty serializer_sample = Ok s /\ xml_tree s <> None.
Proof. eexists. split; [vm_compute; reflexivity|]. vm_compute. discriminate. Qed.

(** C19. An End without a Begin reads the empty tag stack. *)
Theorem unbalanced_end_refuted : forall nl ind, step nl ind ser0 CEnd = UB.
Proof. exact end_without_begin. Qed.
Print Assumptions unbalanced_end_refuted.

(** C20. A simple element's text is read back exactly, for every value of legal characters that does
    not contain "]]>" or, if it contains "<![CDATA[", has at most one ampersand and that before any
    quotation mark. *)
Theorem field_value_survives : forall nl ind d ty v, forallb wsp nl = true -> forallb wsp ind = true ->
  valid_type ty = true -> value_ok v = true ->
  frag (snd (render nl ind d (IField ty v)))
    (map EChar (indent ind d) ++ [EStart (tag_name ty) []] ++ map EChar v ++ [EEnd (tag_name ty)] ++ map EChar nl).
Proof. exact field_survives. Qed.
Print Assumptions field_value_survives.

(** C20. The same for the quoting function itself. *)
Theorem quoted_value_survives : forall v, value_ok v = true -> exists q, maybe_quote v = Ok q /\ frag q (map EChar v).
Proof. exact (fun v H => ex_intro _ _ (conj (maybe_quote_eq v) (quote_frag v H))). Qed.
Print Assumptions quoted_value_survives.
Example value_ok_samples : map value_ok [S_ "plain"; S_ "a<b>&""c'"; S_ "<![CDATA[x & ""y"" <z>]]>"; S_ "a]]>b"; []] =
  [true; true; true; false; true].
Proof. reflexivity. Qed.

(** C20. Refuted: a value with "]]>" gives a document that is not well-formed. *)
Theorem value_with_cdata_end_refuted : exists v s, forallb legal v = true /\ serialize_raw (name_item v) = Ok s /\ xml_tree s = None.
Proof. exact value_cdata_end_wit. Qed.
Print Assumptions value_with_cdata_end_refuted.

(** C20. Refuted: a value with "<![CDATA[" and two ampersands gives a document that is not well-formed. *)
Theorem value_cdata_two_ampersands_refuted : exists v s, forallb legal v = true /\ serialize_raw (name_item v) = Ok s /\ xml_tree s = None.
Proof. exact value_cdata_amp_wit. Qed.
Print Assumptions value_cdata_two_ampersands_refuted.

(** C20. Refuted: a value with "<![CDATA[" and a quotation mark is read back as another value. *)
Theorem value_cdata_quote_refuted : exists v s w, forallb legal v = true /\ serialize_raw (name_item v) = Ok s /\
  reads_name s = Some w /\ w <> v.
Proof. exact value_cdata_quote_wit. Qed.
Print Assumptions value_cdata_quote_refuted.

(** C20. Refuted: a carriage return does not survive; a control character makes the document unreadable. *)
Theorem value_carriage_return_refuted : exists v s w, serialize_raw (name_item v) = Ok s /\ reads_name s = Some w /\ w <> v.
Proof. exact value_cr_wit. Qed.
Print Assumptions value_carriage_return_refuted.
Theorem value_control_character_refuted : exists v s, serialize_raw (name_item v) = Ok s /\ xml_tree s = None.
Proof. exact value_control_wit. Qed.
Print Assumptions value_control_character_refuted.

(** C56. Refuted: pretty-printed Snippet text never reads back as it was: a line break and the
    indentation of the end tag are added to it, for every text. *)
Theorem pretty_text_content_refuted : forall t, value_ok t = true -> exists s, serialize_pretty (snippet_item t) = Ok s /\
  snippet_text s = Some (["010"%char] ++ t ++ S_ "  ") /\ ["010"%char] ++ t ++ S_ "  " <> t.
Proof. exact snippet_pretty_all. Qed.
Print Assumptions pretty_text_content_refuted.

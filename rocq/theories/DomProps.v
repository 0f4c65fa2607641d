(** Property theorems about elements: visiting, reading and writing whole documents (C27, C60-C66). *)
From Verif Require Import Common StrMap StringsModel ColorModel AttributesModel XsdTables XsdModel XmlSpec XmlSpecProofs.
From Verif Require Import SerializerModel SerializerProofs CoordModel CoordProofs HandlerModel HandlerSpec HandlerProps.
From Verif Require Import DomTables DomModel DomSpec DomProofs DomProofs2 DomParsed DomVisit.
Local Open Scope N_scope.

(** An environment for examples: numbers are printed as they are read. *)
Definition E0 : env :=
  {| e_dbl := fun s => if CoordProofs.number s && (length s <=? 100)%nat then s else S_ "0";
     e_int := fun s => Some s; e_dflt := fun _ _ => S_ "0"; e_idflt := fun _ _ => S_ "0";
     e_adflt := fun _ _ => S_ "0"; e_aidflt := fun _ _ => S_ "0" |}.
Lemma E0_stable : numbers_stable E0.
Proof.
  assert (H : forall t, CoordProofs.number (e_dbl E0 t) = true /\ e_dbl E0 (e_dbl E0 t) = e_dbl E0 t /\ (length (e_dbl E0 t) <= 100)%nat).
  { intros t. cbn [e_dbl E0]. destruct (CoordProofs.number t && (length t <=? 100)%nat) eqn:E.
    - rewrite E. apply andb_true_iff in E as [E1 E2]. repeat split; auto. now apply Nat.leb_le.
    - split; [reflexivity|]. split; [reflexivity|]. cbn. lia. }
  split; auto.
  - intros p ty. exists (S_ "0"). reflexivity.
  - intros p k. exists (S_ "0"). reflexivity.
Qed.

(** C27. A visitor driver goes through positions of the element tree without repetition: exactly the
    positions each step of which goes through a child list the class hands to visitors; the elements
    visited are those at these positions; parents come before their children (after them in
    post-order). *)
Theorem preorder_visits : forall o, exists ps, map (at_path o) ps = map Some (preorder o) /\ NoDup ps /\
  (forall p, In p ps <-> reached o p = true) /\
  (forall p s q, reached o (p ++ s :: q) = true -> before p (p ++ s :: q) ps).
Proof.
  intros o. exists (positions false (size o) o).
  exact (conj (positions_at false (size o) o (Nat.le_refl _)) (conj (positions_nodup false _ o)
    (conj (fun p => positions_in false (size o) o p (Nat.le_refl _)) (fun p s q => positions_order false (size o) o p s q (Nat.le_refl _))))).
Qed.
Print Assumptions preorder_visits.
Theorem postorder_visits : forall o, exists ps, map (at_path o) ps = map Some (postorder o) /\ NoDup ps /\
  (forall p, In p ps <-> reached o p = true) /\
  (forall p s q, reached o (p ++ s :: q) = true -> before (p ++ s :: q) p ps).
Proof.
  intros o. exists (positions true (size o) o).
  exact (conj (positions_at true (size o) o (Nat.le_refl _)) (conj (positions_nodup true _ o)
    (conj (fun p => positions_in true (size o) o p (Nat.le_refl _)) (fun p s q => positions_order true (size o) o p s q (Nat.le_refl _))))).
Qed.
Print Assumptions postorder_visits.
(** The child lists that are not handed to visitors are exactly these. *)
Definition feature_types : list N :=
  [Type_Document; Type_Folder; Type_GroundOverlay; Type_NetworkLink; Type_PhotoOverlay; Type_Placemark; Type_ScreenOverlay; Type_GxTour].
Definition unvisited (ty k : N) : bool :=
  existsb (N.eqb ty) feature_types && existsb (N.eqb k) [Type_AtomAuthor; Type_AtomLink; Type_XalAddressDetails] ||
  (ty =? Type_AtomEntry) && existsb (N.eqb k) [Type_AtomContent; Type_AtomCategory; Type_AtomLink] ||
  (ty =? Type_AtomFeed) && existsb (N.eqb k) [Type_AtomEntry; Type_AtomCategory; Type_AtomLink] ||
  existsb (N.eqb ty) [Type_XalAddressDetails; Type_XalAdministrativeArea; Type_XalCountry; Type_XalLocality; Type_XalSubAdministrativeArea].
Lemma unvisited_table : forallb (fun p => forallb (fun s => negb (is_child_slot s) ||
    Bool.eqb (existsb (N.eqb (s_key s)) (c_acc (snd p))) (negb (unvisited (fst p) (s_key s)))) (c_slots (snd p))) classes = true.
Proof. vm_compute. reflexivity. Qed.
Theorem visited_child_lists : forall ty s, creatable ty = true -> In s (c_slots (cls ty)) -> is_child_slot s = true ->
  (In (s_key s) (c_acc (cls ty)) <-> unvisited ty (s_key s) = false).
Proof.
  intros ty s _ Hs Hc. unfold cls, class_of in *. destruct (lookup ty classes) as [c|] eqn:El; [|destruct Hs].
  apply lookup_in in El. pose proof unvisited_table as H. rewrite forallb_forall in H. specialize (H _ El). cbn [fst snd] in H.
  rewrite forallb_forall in H. specialize (H s Hs). rewrite Hc in H. cbn [negb orb] in H. apply eqb_prop in H. rewrite <- negb_true_iff, <- H.
  rewrite existsb_exists. split; [intros K; exists (s_key s); split; auto; apply N.eqb_refl|].
  intros (x & Hx & Ex). apply N.eqb_eq in Ex. now subst.
Qed.
Print Assumptions visited_child_lists.
(** An author of a feature is written but not visited. *)
Theorem visit_author_refuted : exists o c,
  (exists i, at_path o [(i, 0%nat)] = Some c) /\ oty c = Type_AtomAuthor /\ ~ In c (preorder o) /\
  (exists s, write_raw o = Ok s /\ find (S_ "<atom:author>") s <> None).
Proof.
  pose (s := S_ "<Placemark><atom:author><atom:name>a</atom:name></atom:author></Placemark>").
  destruct (read_kml E0 s) as [[o|]| | |] eqn:Eo; try (vm_compute in Eo; discriminate).
  exists o. vm_compute in Eo. inversion Eo; subst o; clear Eo.
  eexists. split; [exists 7%nat; vm_compute; reflexivity|].
  split; [reflexivity|]. split.
  - vm_compute. intuition congruence.
  - eexists. split; [vm_compute; reflexivity|]. vm_compute. discriminate.
Qed.
Print Assumptions visit_author_refuted.

(** C60. For every text that is a well-formed document (at most 100 levels, no old-style Schema, no
    description inside foreign markup, no attribute named xmlns:xmlns): the elements it gives are given
    again by the text they are written as, provided they are intact ([intact]: nothing but text in simple
    elements and coordinates, links without CDATA marks, no locality name, foreign markup that reads as itself, own
    text of Snippet and SimpleData reads as itself) and the written text is readable. *)
Theorem read_write_read : forall E nl ind s t o ty a ks, numbers_stable E -> forallb wsp nl = true -> forallb wsp ind = true ->
  xml_tree s = Some t -> regular t -> no_xmlns_xmlns t = true -> read_kml E s = Ok (Some o) ->
  intact E nl ind 0 Type_Unknown o = true -> ser o = IElem ty a ks -> readable (ser o) = true ->
  regular (XElem (tag_name ty) a (content nl ind 0 ks)) ->
  exists s', write nl ind o = Ok s' /\ read_kml E s' = Ok (Some o).
Proof. exact (fun E nl ind s t o ty a ks HE => parsed_round_trip E HE nl ind s t o ty a ks). Qed.
Print Assumptions read_write_read.
(** For pretty printing coordinates may have any number of tuples. *)
Theorem read_pretty_read : forall E s t o ty a ks, numbers_stable E ->
  xml_tree s = Some t -> regular t -> no_xmlns_xmlns t = true -> read_kml E s = Ok (Some o) ->
  plain E Type_Unknown o = true -> ser o = IElem ty a ks -> readable (ser o) = true ->
  regular (XElem (tag_name ty) a (content lf (S_ "  ") 0 ks)) ->
  exists s', write_pretty o = Ok s' /\ read_kml E s' = Ok (Some o).
Proof. exact pretty_again. Qed.
Print Assumptions read_pretty_read.
(** Not only what was parsed: any element that satisfies the conditions is read back. *)
Theorem write_read : forall E nl ind o ty a ks, forallb wsp nl = true -> forallb wsp ind = true ->
  ser o = IElem ty a ks -> keeps E nl ind 0 Type_Unknown o = true -> readable (ser o) = true ->
  regular (XElem (tag_name ty) a (content nl ind 0 ks)) ->
  exists s, write nl ind o = Ok s /\ read_kml E s = Ok (Some o).
Proof. exact keeps_document. Qed.
Print Assumptions write_read.
(** Elements that come from a text are always well formed: each child is where AddElement would put it,
    single-valued children occur once, and printed values read as themselves. *)
Theorem parsed_well_formed : forall E s t o, numbers_stable E -> xml_tree s = Some t -> regular t -> no_xmlns_xmlns t = true ->
  read_kml E s = Ok (Some o) -> wf E o = true.
Proof. exact (fun E s t o HE => parsed_wf E HE s t o). Qed.
Print Assumptions parsed_well_formed.
Definition sample : str := S_ "<kml xmlns=""u""><Document><name>d</name><Placemark id=""a"" foo=""b""><name>hi &amp; x</name><visibility>true</visibility><Style><IconStyle><color>#ff</color><Icon><href>h</href></Icon></IconStyle></Style><foo>u<b/></foo><Point><coordinates>1,2 3,4,5</coordinates></Point><LookAt><range>5</range></LookAt><Lod/></Placemark></Document></kml>".
Example sample_pretty : exists t o ty a ks, xml_tree sample = Some t /\ regular t /\ no_xmlns_xmlns t = true /\ read_kml E0 sample = Ok (Some o) /\
  plain E0 Type_Unknown o = true /\ ser o = IElem ty a ks /\ readable (ser o) = true /\
  regular (XElem (tag_name ty) a (content lf (S_ "  ") 0 ks)).
Proof.
  do 5 eexists. repeat match goal with |- _ /\ _ => split end.
  all: try (vm_compute; reflexivity).
  - split; [do 3 eexists; reflexivity|]. repeat split; vm_compute; try reflexivity. lia.
  - split; [do 3 eexists; reflexivity|]. repeat split; vm_compute; try reflexivity. lia.
Qed.

(** Reading a text and writing it, and whether a piece of text is in the result. *)
Definition rewrite_pretty (s : str) : option str :=
  match read_kml E0 s with Ok (Some o) => match write_pretty o with Ok w => Some w | _ => None end | _ => None end.
Definition mentions (x : str) (s : option str) : bool :=
  match s with Some w => match find x w with Some _ => true | None => false end | None => false end.
(** Once written, writing again what is read gives the same text. *)
Theorem pretty_is_stable : forall E s t o ty a ks s1, numbers_stable E ->
  xml_tree s = Some t -> regular t -> no_xmlns_xmlns t = true -> read_kml E s = Ok (Some o) ->
  plain E Type_Unknown o = true -> ser o = IElem ty a ks -> readable (ser o) = true ->
  regular (XElem (tag_name ty) a (content lf (S_ "  ") 0 ks)) ->
  write_pretty o = Ok s1 -> exists o1, read_kml E s1 = Ok (Some o1) /\ write_pretty o1 = Ok s1.
Proof.
  intros E s t o ty a ks s1 HE H1 H2 H3 H4 H5 H6 H7 H8 Hw. destruct (pretty_again E s t o ty a ks HE H1 H2 H3 H4 H5 H6 H7 H8) as (s' & W & R).
  rewrite W in Hw. inversion Hw; subst. eauto.
Qed.
Print Assumptions pretty_is_stable.

(** C61. The name of an xal:Locality is read but not written. *)
Theorem locality_name_lost_refuted : exists s, mentions (S_ "<xal:LocalityName>Town</xal:LocalityName>") (Some s) = true /\
  mentions (S_ "<xal:Locality") (rewrite_pretty s) = true /\ mentions (S_ "Town") (rewrite_pretty s) = false.
Proof.
  exists (S_ "<xal:Locality><xal:LocalityName>Town</xal:LocalityName><xal:PostalCode/></xal:Locality>"). vm_compute. auto.
Qed.
Print Assumptions locality_name_lost_refuted.
(** It is the only value no class writes. *)
Lemma written_table : forallb (fun p => forallb (fun s => existsb (N.eqb (s_key s)) (c_ser (snd p)) ||
    ((fst p =? Type_XalLocality) && (s_key s =? Type_xalLocalityName))) (c_slots (snd p))) classes = true.
Proof. vm_compute. reflexivity. Qed.
Theorem every_other_slot_written : forall ty s, In s (c_slots (cls ty)) ->
  In (s_key s) (c_ser (cls ty)) \/ (ty = Type_XalLocality /\ s_key s = Type_xalLocalityName).
Proof.
  intros ty s Hs. unfold cls, class_of in *. destruct (lookup ty classes) as [c|] eqn:El; [|destruct Hs].
  apply lookup_in in El. pose proof written_table as H. rewrite forallb_forall in H. specialize (H _ El). cbn [fst snd] in H.
  rewrite forallb_forall in H. specialize (H s Hs). apply orb_true_iff in H as [H|H].
  - left. apply existsb_exists in H as (x & Hx & Ex). apply N.eqb_eq in Ex. now subst.
  - right. apply andb_true_iff in H as [H1 H2]. apply N.eqb_eq in H1, H2. auto.
Qed.
Print Assumptions every_other_slot_written.

(** C62. An enumeration value that is not in the schema is dropped, and takes a value given before with
    it. *)
Theorem enum_value_lost_refuted : exists s, mentions (S_ "<altitudeMode>aboveGround</altitudeMode>") (Some s) = true /\
  mentions (S_ "<Point") (rewrite_pretty s) = true /\ mentions (S_ "altitudeMode") (rewrite_pretty s) = false.
Proof.
  exists (S_ "<Point><altitudeMode>absolute</altitudeMode><altitudeMode>aboveGround</altitudeMode></Point>"). vm_compute. auto.
Qed.
Print Assumptions enum_value_lost_refuted.
(** Exactly the values of the schema are kept. *)
Theorem enum_value_kept : forall E p ty prev s, norm E p FEnum ty prev s = Ok (if valid_enum ty s then Some s else None).
Proof. reflexivity. Qed.
Print Assumptions enum_value_kept.

(** C63. Markup inside of a simple element is lost. *)
Theorem simple_markup_lost_refuted : exists s, mentions (S_ "<b>bold</b>") (Some s) = true /\
  mentions (S_ "<name>a c</name>") (rewrite_pretty s) = true /\ mentions (S_ "bold") (rewrite_pretty s) = false.
Proof. exists (S_ "<Placemark><name>a <b>bold</b>c</name></Placemark>"). vm_compute. auto. Qed.
Print Assumptions simple_markup_lost_refuted.
(** So are attributes of simple elements and of coordinates. *)
Theorem simple_attributes_lost_refuted : exists s, mentions (S_ "lang=") (Some s) = true /\ mentions (S_ "note=") (Some s) = true /\
  mentions (S_ "<name>a</name>") (rewrite_pretty s) = true /\ mentions (S_ "<coordinates>") (rewrite_pretty s) = true /\
  mentions (S_ "lang=") (rewrite_pretty s) = false /\ mentions (S_ "note=") (rewrite_pretty s) = false.
Proof.
  exists (S_ "<Placemark><name lang=""en"">a</name><Point><coordinates note=""b"">1,2</coordinates></Point></Placemark>"). vm_compute. auto 10.
Qed.
Print Assumptions simple_attributes_lost_refuted.

(** C64. A link whose text carries CDATA marks inside its CDATA section loses one pair of marks each time it is read:
    the written text does not read as the same elements. *)
Theorem link_marks_drift_refuted : exists s o w o', read_kml E0 s = Ok (Some o) /\ write_pretty o = Ok w /\
  read_kml E0 w = Ok (Some o') /\ o' <> o.
Proof.
  exists (S_ "<Icon><href>&lt;![CDATA[&lt;![CDATA[a]]&gt;]]&gt;</href></Icon>").
  do 3 eexists. split; [vm_compute; reflexivity|]. split; [vm_compute; reflexivity|]. split; [vm_compute; reflexivity|]. vm_compute. congruence.
Qed.
Print Assumptions link_marks_drift_refuted.
(** Without the marks the link is kept. *)
Theorem link_without_marks_kept : forall E p ty prev s, prefixb (S_ "<![CDATA[") s = false -> norm E p FHref ty prev s = Ok (Some s).
Proof. intros E p ty prev s H. cbn [norm]. unfold inside_cdata. now rewrite H. Qed.
Print Assumptions link_without_marks_kept.
Theorem link_unmarked_once : forall E p ty prev s, norm E p FHref ty prev (S_ "<![CDATA[" ++ s ++ S_ "]]>") = Ok (Some s).
Proof.
  intros E p ty prev s. cbn [norm]. unfold inside_cdata. rewrite prefixb_app.
  rewrite !app_length. change (length (S_ "<![CDATA[")) with 9%nat. change (length (S_ "]]>")) with 3%nat.
  destruct (12 <=? 9 + (length s + 3))%nat eqn:El; [|apply Nat.leb_gt in El; lia].
  replace (9 + (length s + 3) - 12)%nat with (length s) by lia.
  change (skipn 9 (S_ "<![CDATA[" ++ s ++ S_ "]]>")) with (s ++ S_ "]]>"). now rewrite firstn_app, firstn_all, Nat.sub_diag, firstn_O, app_nil_r.
Qed.
Print Assumptions link_unmarked_once.

(** C65. A single-valued child given twice: the last one counts, for element children.  *)
Theorem last_child_wins : forall E o c1 c2 i s o1, ordinary (oty o) = true ->
  find_slot (oty c1) (c_slots (cls (oty o))) 0 = Some (i, s) -> find_slot (oty c2) (c_slots (cls (oty o))) 0 = Some (i, s) -> s_kind s = KChild ->
  add_element E o c1 = Ok o1 -> add_element E o1 c2 = add_element E o c2.
Proof.
  intros E o c1 c2 i s o1 Hord H1 H2 Hk Ha. rewrite (add_slot E o c1 i s Hord H1), Hk in Ha. inversion Ha; subst o1.
  rewrite (add_slot E o c2 i s Hord H2), Hk.
  rewrite (add_slot E _ c2 i s); rewrite ?set_slots_ty; auto. cbv zeta. rewrite Hk, set_slots_slots, set_slots_twice, update_twice. reflexivity.
Qed.
Print Assumptions last_child_wins.
(** For simple children the last one counts unless it is a number and blank. *)
Theorem last_value_wins : forall E p f ty prev s, f <> FDouble -> f <> FInt -> norm E p f ty prev s = norm E p f ty None s.
Proof. intros E p f ty prev s H1 H2. destruct f; try reflexivity; congruence. Qed.
Print Assumptions last_value_wins.
Theorem blank_number_keeps_previous : forall E p ty v s, from_string_double s = None -> norm E p FDouble ty (Some v) s = Ok (Some v).
Proof. intros E p ty v s H. cbn [norm]. now rewrite H. Qed.
Print Assumptions blank_number_keeps_previous.
Theorem last_value_wins_refuted : exists s, mentions (S_ "<range>5</range>") (rewrite_pretty s) = true /\
  mentions (S_ "<range></range></LookAt>") (Some s) = true.
Proof. exists (S_ "<LookAt><range>5</range><range></range></LookAt>"). vm_compute. auto. Qed.
Print Assumptions last_value_wins_refuted.

(** C66. An element of a wrong place is kept and written after all others; no known element is lost by
    AddElement except in Snippet, linkSnippet, coordinates and SimpleData. *)
Theorem child_is_kept : forall E o c o', ordinary (oty o) = true -> oty o <> Type_SimpleData -> length (oslots o) = length (c_slots (cls (oty o))) ->
  is_simple (oty c) = false -> add_element E o c = Ok o' ->
  In c (omis o') \/ exists i, In c (nth i (oslots o') []).
Proof.
  intros E o c o' Hord Hnsd Hlen Hc Ha. destruct (find_slot (oty c) (c_slots (cls (oty o))) 0) as [[i s]|] eqn:Ef.
  - right. exists i. rewrite (add_slot E o c i s Hord Ef) in Ha. pose proof (find_slot_spec _ _ _ _ _ Ef) as [_ Hn]. rewrite Nat.sub_0_r in Hn.
    assert (Hi : (i < length (oslots o))%nat) by (rewrite Hlen; apply nth_error_Some; congruence).
    destruct (s_kind s) as [f|f| |] eqn:Ek.
    + destruct (field_slot_simple (oty o) i s (oty c) Ef) as [K _]; [eauto|congruence].
    + destruct (field_slot_simple (oty o) i s (oty c) Ef) as [K _]; [eauto|congruence].
    + inversion Ha. rewrite set_slots_slots, update_nth by auto. now left.
    + inversion Ha. rewrite set_slots_slots, update_nth by auto. apply in_or_app. right. now left.
  - left. rewrite (add_mis E o c Hord Ef) in Ha; [|].
    + inversion Ha. destruct o; cbn [set_mis omis]. apply in_or_app. right. now left.
    + apply N.eqb_neq in Hnsd. now rewrite Hnsd.
Qed.
Print Assumptions child_is_kept.
Theorem snippet_child_lost_refuted : exists s, mentions (S_ "<Point>") (Some s) = true /\ mentions (S_ "<Snippet>") (rewrite_pretty s) = true /\
  mentions (S_ "Point") (rewrite_pretty s) = false.
Proof. exists (S_ "<Snippet>a<Point></Point></Snippet>"). vm_compute. auto. Qed.
Print Assumptions snippet_child_lost_refuted.

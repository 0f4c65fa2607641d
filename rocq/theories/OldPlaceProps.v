(** Properties of parsing documents with an old-style Schema (C116). *)
From Coq Require Import ZArith Lia.
From Verif Require Import Common AttributesModel XsdTables XsdModel XsdProofs XmlSpec XmlSpecProofs HandlerModel HandlerSpec HandlerProofs HandlerProps OldPlaceSpec OldPlaceProofs.
From Verif Require Import SerializerModel DomTables DomModel DomSpec DomProofs SplitProofs2 SplitProofs3.
Local Open Scope N_scope.

(** C116. A document with an old-style Schema (it has a parent and a name) among its children: the parser gives the tree in which the elements behind it
    that have the name the Schema declares are Placemarks, whose children of the names of its fields are extended data. *)
Theorem old_schema_document : forall S sa sk c r,
  S <> [] -> S <> S_ "Schema" -> S <> S_ "description" ->
  (exists p, find_value (S_ "parent") (attrs_of sa) = Some p) -> find_value (S_ "name") (attrs_of sa) = Some S ->
  forallb (fits S [] true) sk = true -> forallb (around_ok S (field_names sk)) (c :: r) = true ->
  (xdepth (plug (c :: r) (XElem (S_ "Schema") sa sk)) <= 100)%nat ->
  exists root, parse_events [] (xevents (plug (c :: r) (XElem (S_ "Schema") sa sk))) = Ok (Some root) /\
               place_around S (field_names sk) sa sk Type_Unknown (c :: r) = [LChild root].
Proof.
  intros S sa sk [n a b ks] r H1 H2 H3 [p H4] H5 H6 H7 H8. apply parse_old; auto.
  - destruct (eqs S (S_ "Schema")) eqn:E; [apply eqs_spec in E; contradiction|reflexivity].
  - unfold is_description. destruct (eqs S (S_ "description")) eqn:E; [apply eqs_spec in E; contradiction|reflexivity].
  - unfold find_old_schema. now rewrite H4, H5.
Qed.
Print Assumptions old_schema_document.
(** C116. The same for the text of a document. *)
Theorem old_schema_text : forall s S sa sk c r, xml_tree s = Some (plug (c :: r) (XElem (S_ "Schema") sa sk)) ->
  S <> [] -> S <> S_ "Schema" -> S <> S_ "description" ->
  (exists p, find_value (S_ "parent") (attrs_of sa) = Some p) -> find_value (S_ "name") (attrs_of sa) = Some S ->
  forallb (fits S [] true) sk = true -> forallb (around_ok S (field_names sk)) (c :: r) = true ->
  (xdepth (plug (c :: r) (XElem (S_ "Schema") sa sk)) <= 100)%nat ->
  exists root, parse_text [] s = Ok (Some root) /\ place_around S (field_names sk) sa sk Type_Unknown (c :: r) = [LChild root].
Proof. intros s S sa sk c r Hs. unfold parse_text. rewrite Hs. intros. now apply old_schema_document. Qed.
Print Assumptions old_schema_text.
Definition old_text : str := S_ "<kml><Document id=""d""><name>n</name><Schema parent=""Placemark"" name=""S""><SimpleField name=""f"" type=""string""/><SimpleField name=""g""/></Schema><Folder><S id=""p""><f>1</f><name>x</name>t<g>2</g><u/></S></Folder><S/></Document></kml>".
Definition old_outer : around := {| ar_name := S_ "kml"; ar_atts := []; ar_before := []; ar_after := [] |}.
Definition old_sa : list (str * str) := [(S_ "parent", S_ "Placemark"); (S_ "name", S_ "S")].
Definition old_sk : list xml := [XElem (S_ "SimpleField") [(S_ "name", S_ "f"); (S_ "type", S_ "string")] []; XElem (S_ "SimpleField") [(S_ "name", S_ "g")] []].
Definition chars (s : str) : list xml := map XChar s.
Definition old_inner : around :=
  {| ar_name := S_ "Document"; ar_atts := [(S_ "id", S_ "d")]; ar_before := [XElem (S_ "name") [] (chars (S_ "n"))];
     ar_after := [XElem (S_ "Folder") [] [XElem (S_ "S") [(S_ "id", S_ "p")]
                    [XElem (S_ "f") [] (chars (S_ "1")); XElem (S_ "name") [] (chars (S_ "x")); XChar "t"%char; XElem (S_ "g") [] (chars (S_ "2")); XElem (S_ "u") [] []]];
                  XElem (S_ "S") [] []] |}.
Example old_schema_witness :
  xml_tree old_text = Some (plug [old_outer; old_inner] (XElem (S_ "Schema") old_sa old_sk)) /\
  forallb (fits (S_ "S") [] true) old_sk = true /\ forallb (around_ok (S_ "S") (field_names old_sk)) [old_outer; old_inner] = true /\
  field_names old_sk = [S_ "f"; S_ "g"] /\ find_value (S_ "name") (attrs_of old_sa) = Some (S_ "S").
Proof. repeat split; vm_compute; reflexivity. Qed.
(** C116. In particular: what becomes of an element named like the Schema. *)
Theorem instance_becomes_placemark : forall S fs p a ks,
  place_received S fs p (XElem S a ks) =
  [LChild (Node Type_Placemark (match a with [] => None | _ => Some (attrs_of a) end) (direct_text ks)
     (flat_map (fun k => if is_data S fs k then [] else place_received S fs Type_Placemark k) ks ++ [LExtendedData (S ++ S_ "_id") (flat_map (data_of S fs) ks)]))].
Proof. intros. cbn [place_received]. now rewrite eqs_refl. Qed.
Print Assumptions instance_becomes_placemark.
(** C116. The data are the texts of the children with the names of fields, in their order. *)
Theorem instance_data : forall S fs ks n v, In (n, v) (flat_map (data_of S fs) ks) <->
  exists a k, In (XElem n a k) ks /\ v = direct_text k /\ n <> S /\ In n fs /\ is_unknown_type (element_id n) = true.
Proof.
  intros S fs ks n v. rewrite in_flat_map. split.
  - intros ([m a k|x] & Hin & H); [|destruct H]. cbn [data_of] in H. destruct (eqs m S) eqn:E1; [destruct H|]. cbn [negb andb] in H.
    destruct (data_name fs m) eqn:E2; [|destruct H]. destruct H as [H|[]]. injection H as -> <-. unfold data_name in E2. apply andb_prop in E2 as [U X].
    apply existsb_exists in X as (y & Hy & Ey). apply eqs_spec in Ey. subst y. exists a, k. repeat split; auto. intros ->. rewrite eqs_refl in E1. discriminate.
  - intros (a & k & Hin & -> & Hn & Hf & Hu). exists (XElem n a k). split; [exact Hin|]. cbn [data_of]. apply eqs_neq in Hn. rewrite Hn. cbn [negb andb].
    unfold data_name. rewrite Hu. cbn [andb]. assert (existsb (eqs n) fs = true) as -> by (apply existsb_exists; exists n; split; [exact Hf|apply eqs_refl]). now left.
Qed.
Print Assumptions instance_data.
(** C116. What is written for these data: an ExtendedData with one SchemaData that refers to the Schema, with one SimpleData for each. *)
Theorem old_data_written : forall url sd,
  ser (old_data url sd) =
  IElem Type_ExtendedData [] [IElem Type_SchemaData [(S_ "schemaUrl", url)] (map (fun nv => IElem Type_SimpleData [(S_ "name", fst nv)] [IContent (snd nv)]) sd)].
Proof.
  intros url sd. unfold old_data.
  assert (M : map ser (map (fun nv => set_text (set_ka (create Type_SimpleData) [(S_ "name", fst nv)]) (Some (snd nv))) sd) =
              map (fun nv => IElem Type_SimpleData [(S_ "name", fst nv)] [IContent (snd nv)]) sd).
  { rewrite map_map. apply map_ext. intros [n v]. vm_compute. reflexivity. }
  rewrite <- M. generalize (map (fun nv => set_text (set_ka (create Type_SimpleData) [(S_ "name", fst nv)]) (Some (snd nv))) sd). intros l.
  transitivity (IElem Type_ExtendedData [] [IElem Type_SchemaData [(S_ "schemaUrl", url)] ((map ser l ++ []) ++ [])]); [vm_compute; reflexivity|now rewrite !app_nil_r].
Qed.
Print Assumptions old_data_written.
(** C116. The Placemark made for an element of the schema has these data as its ExtendedData, in place of one given by an ExtendedData element, and is the same
    as without them otherwise. *)
Theorem instance_has_data : forall E a cd log url sd o, build E (Node Type_Placemark a cd log) = Ok o ->
  exists o', build E (Node Type_Placemark a cd (log ++ [LExtendedData url sd])) = Ok o' /\ get o' Type_ExtendedData = [old_data url sd] /\
    (forall k, k <> Type_ExtendedData -> get o' k = get o k) /\ oka o' = oka o /\ oea o' = oea o /\ otext o' = otext o /\ omis o' = omis o /\ ounk o' = ounk o.
Proof.
  intros E a cd log url sd o H. destruct (build_ty E _ _ H) as [Hs Ht]. cbn [nty] in Ht. rewrite build_eq in *. rewrite steps_app, H. cbn [bind steps entry_step].
  exists (put o Type_ExtendedData [old_data url sd]). split; [reflexivity|]. split.
  { rewrite put_get by exact Hs. rewrite N.eqb_refl, Ht. reflexivity. }
  split. { intros k Hk. rewrite put_get by exact Hs. destruct (N.eqb_spec Type_ExtendedData k) as [<-|]; [contradiction|reflexivity]. }
  unfold put. destruct (index_of_key Type_ExtendedData (c_slots (cls (oty o))) 0); destruct o; repeat split; reflexivity.
Qed.
Print Assumptions instance_has_data.
(** C116. Violated for fields that are not in an element of the schema: their texts are kept and given to the next element of the schema. *)
Theorem stray_field_refuted :
  exists p, parse_text [] (S_ "<kml><Document><Schema parent=""Placemark"" name=""S""><SimpleField name=""f""/></Schema><Placemark><f>1</f></Placemark><S><f>2</f></S></Document></kml>") =
    Ok (Some (Node Type_kml None [] [LChild (Node Type_Document None [] (p ++
      [LChild (Node Type_Placemark None [] []);
       LChild (Node Type_Placemark None [] [LExtendedData (S_ "S_id") [(S_ "f", S_ "1"); (S_ "f", S_ "2")]])]))])).
Proof. eexists [_]. vm_compute. reflexivity. Qed.
Print Assumptions stray_field_refuted.
(** C116. Violated for elements of the schema in front of the Schema: they stay unknown elements. *)
Theorem instance_before_schema_refuted :
  exists p, parse_text [] (S_ "<kml><Document><S/><Schema parent=""Placemark"" name=""S""/></Document></kml>") =
    Ok (Some (Node Type_kml None [] [LChild (Node Type_Document None [] (LUnknown (S_ "<S></S>" ++ ["010"%char]) :: p))])).
Proof. eexists [_]. vm_compute. reflexivity. Qed.
Print Assumptions instance_before_schema_refuted.
(** C116. Violated with two such Schemas: elements of the first are not recognized any more behind the second. *)
Theorem second_schema_refuted :
  exists p, parse_text [] (S_ "<kml><Document><Schema parent=""Placemark"" name=""S""/><Schema parent=""Placemark"" name=""T""/><S/></Document></kml>") =
    Ok (Some (Node Type_kml None [] [LChild (Node Type_Document None [] (p ++ [LUnknown (S_ "<S></S>" ++ ["010"%char])]))])).
Proof. eexists [_; _]. vm_compute. reflexivity. Qed.
Print Assumptions second_schema_refuted.

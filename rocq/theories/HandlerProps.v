(** Property theorems about parsing documents (C21-C24, C57, C58). *)
From Verif Require Import Common StrMap AttributesModel XsdTables XsdModel XmlSpec XmlSpecProofs HandlerModel HandlerSpec HandlerProofs HandlerProofs2 HandlerProofs3.
Local Open Scope N_scope.

(** Parsing a text: the events of its document go to the handler (parser.cc:53-60). *)
Definition parse_text (obs : list observer) (s : str) : res (option node) :=
  match xml_tree s with Some t => parse_events obs (xevents t) | None => Ok None end.
(** Preconditions of the exact results below. *)
Definition regular (t : xml) : Prop :=
  (exists n a ks, t = XElem n a ks) /\ no_old_schema t = true /\ descriptions_ok t = true /\ (xdepth t <= 100)%nat.

Lemma parse_regular obs t : regular t -> parse_events obs (xevents t) = Ok (fst (observed_doc obs t)).
Proof.
  intros (H1 & H2 & H3 & H4). destruct (parse_observed obs t H2 H3 H4 H1) as (h & E & P).
  unfold parse_events. rewrite E. cbn [bind]. now rewrite <- P.
Qed.
Lemma parse_regular_trace obs t : regular t -> exists h, events obs h0 (xevents t) = Ok h /\ pop_root h = fst (observed_doc obs t) /\ trace h = snd (observed_doc obs t).
Proof.
  intros (H1 & H2 & H3 & H4). destruct (parse_observed obs t H2 H3 H4 H1) as (h & E & P). exists h. split; auto. now rewrite <- P.
Qed.
Lemma accepting_tree obs t : accepting obs -> observed_doc obs t =
  (tree keep_all t, flat_map (fun n => rev (map (fun i => (i, n)) (seq 0 (length obs)))) (rev (all_notes keep_all t))).
Proof.
  intros H. apply observed_doc_passive. intros n tr. rewrite (accepting_call obs H). destruct n; reflexivity.
Qed.
Lemma vetoing_tree ks t : fst (observed_doc (vetoing ks) t) = tree (all_keep ks) t.
Proof. rewrite (observed_doc_passive _ (all_keep ks) _ (vetoing_call ks 0)). reflexivity. Qed.

(** C21. For every document without old-style Schema, with at most 100 levels and no description
    inside foreign markup, and any accepting observers (in particular none), parsing gives exactly the
    document's tree. *)
Theorem parse_builds_tree : forall obs t, accepting obs -> regular t ->
  parse_events obs (xevents t) = Ok (tree keep_all t).
Proof. exact (fun obs t Ha Hr => eq_trans (parse_regular obs t Hr) (f_equal (fun p => Ok (fst p)) (accepting_tree obs t Ha))). Qed.
Print Assumptions parse_builds_tree.
Theorem parse_text_builds_tree : forall s t, xml_tree s = Some t -> regular t -> parse_text [] s = Ok (tree keep_all t).
Proof.
  intros s t Hs Hr. unfold parse_text. rewrite Hs. apply parse_builds_tree; auto. constructor.
Qed.
Print Assumptions parse_text_builds_tree.

(** C21. What the tree is: a known element becomes one child with its attributes, its direct text and,
    recursively, its children; other markup becomes text of the parent. *)
Theorem tree_known_child : forall p n a ks ty, known_type p n = Some ty -> ty <> Type_description ->
  received keep_all p (XElem n a ks) =
  [LChild (Node ty (node_atts n a) (direct_text ks) (flat_map (received keep_all ty) ks ++ self_entry ty (direct_text ks)))].
Proof.
  intros p n a ks ty Hk Hd. cbn [received]. rewrite Hk. rewrite (proj2 (N.eqb_neq _ _) Hd). reflexivity.
Qed.
Print Assumptions tree_known_child.
Theorem tree_unknown_child : forall p n a ks, known_type p n = None ->
  received keep_all p (XElem n a ks) = [LUnknown (raw (XElem n a ks) ++ ["010"%char])].
Proof. intros p n a ks Hk. cbn [received]. now rewrite Hk. Qed.
Print Assumptions tree_unknown_child.
Theorem tree_description : forall p a ks,
  received keep_all p (XElem (S_ "description") a ks) = [LChild (Node Type_description None (flat_map raw ks) [])].
Proof. intros p a ks. reflexivity. Qed.
Print Assumptions tree_description.

(** Non-vacuity: a document with known, unknown, nested description and icon style elements. *)
Example handler_sample : str := S_ "<kml><Placemark id=""p""><name>x</name><q z=""1""><r/>t</q><description>a<b>c</b><description>n</description></description><Style><IconStyle><Icon><href>h</href></Icon></IconStyle></Style></Placemark></kml>".
Example handler_sample_regular : exists t, xml_tree handler_sample = Some t /\ regular t.
Proof.
  eexists. split; [vm_compute; reflexivity|]. split; [do 3 eexists; reflexivity|].
  split; [vm_compute; reflexivity|]. split; [vm_compute; reflexivity|]. vm_compute. repeat constructor.
Qed.
Example handler_sample_result : parse_text [] handler_sample = Ok (Some (Node Type_kml None [] [LChild
  (Node Type_Placemark (Some [(S_ "id", S_ "p")]) []
    [LChild (Node Type_name None (S_ "x") []);
     LUnknown (S_ "<q z=""1""><r></r>t</q>" ++ ["010"%char]);
     LChild (Node Type_description None (S_ "a<b>c</b><description>n</description>") []);
     LChild (Node Type_Style None [] [LChild (Node Type_IconStyle None [] [LChild (Node Type_IconStyleIcon None [] [LChild (Node Type_href None (S_ "h") [])])])])])])).
Proof. vm_compute. reflexivity. Qed.

(** C22. Such a document with a known root always yields an element. *)
Theorem known_root_parses : forall obs n a ks ty, accepting obs -> regular (XElem n a ks) -> known_type Type_Unknown n = Some ty ->
  exists root, parse_events obs (xevents (XElem n a ks)) = Ok (Some root) /\ nty root = ty.
Proof.
  intros obs n a ks ty Ha Hr Hk. rewrite (parse_builds_tree obs _ Ha Hr). cbn [tree]. rewrite Hk.
  eexists. split; [reflexivity|]. destruct (ty =? Type_description); reflexivity.
Qed.
Print Assumptions known_root_parses.
(** C22. An unknown root yields nothing. *)
Theorem unknown_root_rejected : forall obs n a ks, regular (XElem n a ks) -> known_type Type_Unknown n = None ->
  parse_events obs (xevents (XElem n a ks)) = Ok None.
Proof.
  intros obs n a ks Hr Hk. rewrite (parse_regular obs _ Hr). cbn [observed_doc]. now rewrite Hk.
Qed.
Print Assumptions unknown_root_rejected.
(** C22. Violated: well-formed documents with a known root where nested description elements inside
    foreign markup make the parse return nothing, or lose the text of a real description. *)
Theorem nested_description_refuted :
  (exists s t, s = S_ "<kml><foo><description><description><description><description/></description></description></description></foo><Placemark><description>a</description></Placemark><Placemark><description>b</description></Placemark></kml>" /\
    xml_tree s = Some t /\ (xdepth t <= 100)%nat /\ no_old_schema t = true /\ parse_text [] s = Ok None) /\
  (exists s t log, s = S_ "<Placemark><foo><description><description/></description></foo><description>real</description></Placemark>" /\
    xml_tree s = Some t /\ (xdepth t <= 100)%nat /\ no_old_schema t = true /\
    parse_text [] s = Ok (Some (Node Type_Placemark None [] log)) /\
    ~ In (LChild (Node Type_description None (S_ "real") [])) log).
Proof.
  split.
  - do 2 eexists. split; [reflexivity|]. split; [vm_compute; reflexivity|]. split; [vm_compute; lia|]. split; vm_compute; reflexivity.
  - do 3 eexists. split; [reflexivity|]. split; [vm_compute; reflexivity|]. split; [vm_compute; lia|].
    split; [vm_compute; reflexivity|]. split; [vm_compute; reflexivity|].
    intros H. cbn in H. decompose [or] H; try discriminate; auto.
Qed.
Print Assumptions nested_description_refuted.

(** C23. A document nested deeper than 100 is rejected whatever it contains and whatever the observers
    do. *)
Theorem too_deep_rejected : forall obs t r, (100 < xdepth t)%nat -> parse_events obs (xevents t) = Ok r -> r = None.
Proof. exact too_deep. Qed.
Print Assumptions too_deep_rejected.
(** C23. The limit is exact: depth 100 is accepted (see known_root_parses); the result is no deeper
    than the document. *)
Theorem result_depth : forall obs t root, accepting obs -> regular t -> parse_events obs (xevents t) = Ok (Some root) ->
  (ndepth root <= xdepth t)%nat /\ (ndepth root <= 100)%nat.
Proof.
  intros obs t root Ha Hr H. rewrite (parse_builds_tree obs _ Ha Hr) in H. injection H as H. apply tree_depth in H.
  destruct Hr as (_ & _ & _ & Hd). lia.
Qed.
Print Assumptions result_depth.
(** C23. At no point of the parse does the stack hold more than 100 elements. *)
Theorem parse_stack_bounded : forall obs n a ks, no_old_schema (XElem n a ks) = true -> descriptions_ok (XElem n a ks) = true ->
  (xdepth (XElem n a ks) <= 100)%nat -> forall es1 es2 h, xevents (XElem n a ks) = es1 ++ es2 -> events obs h0 es1 = Ok h ->
  (length (stack h) <= 100)%nat.
Proof. exact stack_bounded. Qed.
Print Assumptions parse_stack_bounded.
Fixpoint nested (k : nat) : xml := match k with O => XElem (S_ "Folder") [] [] | S k' => XElem (S_ "Folder") [] [nested k'] end.
Example depth_100_accepted : exists r, parse_events [] (xevents (nested 99)) = Ok (Some r) /\ ndepth r = 100%nat.
Proof. eexists. split; [vm_compute; reflexivity|]. vm_compute. reflexivity. Qed.
Example depth_101_rejected : parse_events [] (xevents (nested 100)) = Ok None.
Proof. vm_compute. reflexivity. Qed.
(** C23. Violated without the condition on descriptions: a document of depth 5 can make the stack grow
    without bound (here beyond 100). *)
Definition leak : list xml :=
  [XElem (S_ "foo") [] [XElem (S_ "description") [] [XElem (S_ "description") [] []]]; XElem (S_ "description") [] [];
   XElem (S_ "description") [] []].
Definition leaky (k : nat) : xml := XElem (S_ "Folder") [] (concat (repeat leak k)).
Theorem stack_bound_refuted : exists t h, xdepth t = 4%nat /\ no_old_schema t = true /\
  events [] h0 (xevents t) = Ok h /\ (100 < length (stack h))%nat.
Proof. exists (leaky 110). eexists. split; [vm_compute; reflexivity|]. split; [vm_compute; reflexivity|]. split; [vm_compute; reflexivity|]. vm_compute. lia. Qed.
Print Assumptions stack_bound_refuted.

(** C24. Accepting observers: every observer gets, in document order, one NewElement per element, and
    EndElement and AddChild for every element but the root once it is complete. *)
Theorem notifications_in_order : forall obs t, accepting obs -> regular t ->
  exists h, events obs h0 (xevents t) = Ok h /\
    rev (trace h) = flat_map (fun n => map (fun i => (i, n)) (seq 0 (length obs))) (all_notes keep_all t).
Proof.
  intros obs t Ha Hr. destruct (parse_regular_trace obs t Hr) as (h & E & _ & T). exists h. split; auto.
  rewrite T, (accepting_tree obs t Ha). cbn [snd]. generalize (all_notes keep_all t). intros l.
  induction l as [|n l IH]; [reflexivity|]. cbn [rev flat_map]. rewrite flat_map_app, rev_app_distr, IH. cbn [flat_map].
  rewrite app_nil_r, rev_involutive. reflexivity.
Qed.
Print Assumptions notifications_in_order.
(** C24. Observers that only veto: the result is the tree without the vetoed children (a vetoed child
    is missing from its parent with everything below it). *)
Theorem veto_removes_child : forall ks t, regular t ->
  parse_events (vetoing ks) (xevents t) = Ok (tree (all_keep ks) t).
Proof. exact (fun ks t Hr => eq_trans (parse_regular _ t Hr) (f_equal Ok (vetoing_tree ks t))). Qed.
Print Assumptions veto_removes_child.
(** C24. Arbitrary observers: the result and the notifications are those of [observed_doc]. *)
Theorem observers_exact : forall obs t, regular t ->
  exists h, events obs h0 (xevents t) = Ok h /\ (pop_root h, trace h) = observed_doc obs t.
Proof. exact (fun obs t Hr => parse_observed obs t (proj1 (proj2 Hr)) (proj1 (proj2 (proj2 Hr))) (proj2 (proj2 (proj2 Hr))) (proj1 Hr)). Qed.
Print Assumptions observers_exact.
(** C24. A root is returned exactly when no observer answered false to NewElement or AddChild; after
    such an answer nobody is notified again. *)
Theorem stop_is_final : forall obs n a ks ty, regular (XElem n a ks) -> known_type Type_Unknown n = Some ty ->
  exists h, events obs h0 (xevents (XElem n a ks)) = Ok h /\
    match pop_root h with Some _ => clean obs (trace h) | None => broken obs (trace h) end.
Proof.
  intros obs n a ks ty Hr Hk. destruct (observers_exact obs _ Hr) as (h & E & P). exists h. split; auto.
  apply (observed_doc_inv obs (XElem n a ks)); auto. exists n, a, ks, ty. auto.
Qed.
Print Assumptions stop_is_final.
(** C24. AddChild is reported even for a child that was vetoed and is not in the tree. *)
Theorem add_child_after_veto_refuted : exists t root c, regular t /\
  parse_events (vetoing [fun _ _ => false]) (xevents t) = Ok (Some root) /\ nlog root = [] /\
  exists h, events (vetoing [fun _ _ => false]) h0 (xevents t) = Ok h /\ In (0%nat, NAdd Type_Folder c) (trace h).
Proof.
  exists (XElem (S_ "Folder") [] [XElem (S_ "name") [] []]). do 2 eexists.
  split. { split; [do 3 eexists; reflexivity|]. split; [reflexivity|]. split; [vm_compute; reflexivity|]. vm_compute. repeat constructor. }
  split; [vm_compute; reflexivity|]. split; [reflexivity|]. eexists. split; [vm_compute; reflexivity|]. cbn. left. reflexivity.
Qed.
Print Assumptions add_child_after_veto_refuted.

(** C57. Parsing is free of undefined behaviour for every document without an old-style Schema and with
    fewer than 2147483000 elements, whatever the observers do. *)
Theorem parse_never_crashes : forall obs t, no_old_schema t = true -> (Z.of_nat (xsize t) <= lim)%Z ->
  (exists n a ks, t = XElem n a ks) -> exists r, parse_events obs (xevents t) = Ok r.
Proof. exact parse_safe. Qed.
Print Assumptions parse_never_crashes.
Example parse_never_crashes_witness : no_old_schema (leaky 3) = true /\ (Z.of_nat (xsize (leaky 3)) <= lim)%Z.
Proof. split; [vm_compute; reflexivity|]. vm_compute. discriminate. Qed.
(** C57. Violated with an old-style Schema: a null pointer is dereferenced. *)
Theorem old_schema_crash_refuted :
  parse_text [] (S_ "<kml><Schema parent=""x"" name=""kml""/></kml>") = UB /\
  parse_text [] (S_ "<kml><Document><Schema parent=""Placemark"" name=""Schema""/></Document></kml>") = UB /\
  parse_text [] (S_ "<kml><Document><Schema parent=""Placemark"" name=""S""><SimpleField name=""f""/></Schema><S><f><u/></f></S></Document></kml>") = UB.
Proof. split; [|split]; vm_compute; reflexivity. Qed.
Print Assumptions old_schema_crash_refuted.

(** C58. Attributes of simple elements have no effect: the document with them removed gives the same
    result. *)
Theorem simple_attributes_dropped : forall obs t, accepting obs -> regular t -> regular (strip t) ->
  parse_events obs (xevents (strip t)) = parse_events obs (xevents t).
Proof.
  exact (fun obs t Ha Hr Hs => eq_trans (parse_builds_tree obs _ Ha Hs)
    (eq_trans (f_equal Ok (strip_tree keep_all t)) (eq_sym (parse_builds_tree obs _ Ha Hr)))).
Qed.
Print Assumptions simple_attributes_dropped.
Example simple_attributes_example :
  parse_text [] (S_ "<Placemark><name id=""1"">x</name></Placemark>") = parse_text [] (S_ "<Placemark><name>x</name></Placemark>") /\
  strip (XElem (S_ "Placemark") [(S_ "id", S_ "p")] [XElem (S_ "name") [(S_ "id", S_ "1")] []]) =
  XElem (S_ "Placemark") [(S_ "id", S_ "p")] [XElem (S_ "name") [] []].
Proof. split; vm_compute; reflexivity. Qed.

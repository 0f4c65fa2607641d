(** Properties of the Google Maps data client. *)
From Verif Require Import Common StrMap StringsModel PathModel PathProofs ColorModel AttributesModel AttributesProofs XsdTables XsdModel XmlSpec XmlSpecProofs.
From Verif Require Import SerializerModel SerializerProofs CoordModel CoordProofs HandlerModel HandlerSpec HandlerProps.
From Verif Require Import DomTables DomModel DomSpec DomProofs DomProofs2 DomParsed DomProps SplitProofs2 CloneModel CloneProofs CloneProps IdModel IdProofs IdProps.
From Verif Require Import NamespaceModel NamespaceProps AtomModel AtomProps HttpModel FindModel FindProps MapsModel.
Local Open Scope N_scope.

(** ** The features of a map *)
Definition entry_features (feed : obj) : list obj :=
  flat_map (fun e => match get_entry_feature e with Some f => [f] | None => [] end) (get feed Type_AtomEntry).
(** A feature that is copied faithfully (C37). *)
Definition copies (E : env) (f : obj) : Prop := wf E f = true /\ is_simple (oty f) = false /\ cloneable E f = true.
Lemma add_type c f : oty (add_to_container c f) = oty c. Proof. apply put_type. Qed.
Lemma add_get c f : sized c -> (oty c = Type_Document \/ oty c = Type_Folder) -> forall k,
  get (add_to_container c f) k = if k =? Type_Feature then get c Type_Feature ++ [f] else get c k.
Proof.
  intros Hs Hc k. unfold add_to_container. rewrite put_get by exact Hs.
  assert (Hi : match index_of_key Type_Feature (c_slots (cls (oty c))) 0 with Some _ => true | None => false end = true) by (destruct Hc as [-> | ->]; reflexivity).
  rewrite Hi, andb_true_r, (N.eqb_sym Type_Feature k). reflexivity.
Qed.
Lemma map_kml_loop_ok E entries : forall c n, sized c -> (oty c = Type_Document \/ oty c = Type_Folder) ->
  let fs := flat_map (fun e => match get_entry_feature e with Some f => [f] | None => [] end) entries in
  Forall (copies E) fs ->
  exists c', map_kml_loop E entries c n = Done (n + length fs, c')%nat /\ oty c' = oty c /\ sized c' /\ get c' Type_Feature = get c Type_Feature ++ fs /\
    forall k, k <> Type_Feature -> get c' k = get c k.
Proof.
  induction entries as [|e r IH]; intros c n Hs Hc fs Hf.
  - exists c. cbn. rewrite Nat.add_0_r, app_nil_r. auto.
  - cbn [map_kml_loop]. unfold fs in *. cbn [flat_map] in *. destruct (get_entry_feature e) as [f|]; [|exact (IH c n Hs Hc Hf)].
    cbn [app length] in *. inversion Hf as [|? ? (H1 & H2 & H3) Hr]; subst. rewrite (clone_correct E f H1 H2 H3). cbn [cbind].
    destruct (IH (add_to_container c f) (S n)) as (c' & L & T & Z & G & K); [now apply put_sized|rewrite add_type; exact Hc|exact Hr|].
    exists c'. rewrite L. split; [f_equal; f_equal; lia|]. split; [rewrite T; apply add_type|]. split; [exact Z|]. split.
    + rewrite G, add_get, N.eqb_refl by assumption. now rewrite <- app_assoc.
    + intros k Hk. rewrite K, add_get by assumption. destruct (N.eqb_spec k Type_Feature); [contradiction|reflexivity].
Qed.
(** C93. Getting the features of a map appends a copy of the feature of each entry that has one to the container, in the order of the entries, changes nothing else of
    it, and gives their number. *)
Theorem map_kml_correct : forall E feed container, sized container -> (oty container = Type_Document \/ oty container = Type_Folder) ->
  Forall (copies E) (entry_features feed) ->
  exists c, get_map_kml E feed container = Done (length (entry_features feed), c) /\ oty c = oty container /\
    get c Type_Feature = get container Type_Feature ++ entry_features feed /\ (forall k, k <> Type_Feature -> get c k = get container k).
Proof.
  intros E feed c Hs Hc Hf. destruct (map_kml_loop_ok E (get feed Type_AtomEntry) c 0 Hs Hc Hf) as (c' & L & T & _ & G & K). exists c'. auto.
Qed.
Print Assumptions map_kml_correct.

(** C93. What is appended is what Clone makes of each feature, even where that is not the same as the feature. *)
Theorem map_kml_clones : forall E feed container copied, sized container -> (oty container = Type_Document \/ oty container = Type_Folder) ->
  Forall2 (fun f f' => clone E f = Done f') (entry_features feed) copied ->
  exists c, get_map_kml E feed container = Done (length copied, c) /\ oty c = oty container /\
    get c Type_Feature = get container Type_Feature ++ copied /\ (forall k, k <> Type_Feature -> get c k = get container k).
Proof.
  intros E feed. unfold get_map_kml, entry_features. generalize (get feed Type_AtomEntry). intros entries.
  assert (G : forall copied c n, sized c -> (oty c = Type_Document \/ oty c = Type_Folder) ->
    Forall2 (fun f f' => clone E f = Done f') (flat_map (fun e => match get_entry_feature e with Some f => [f] | None => [] end) entries) copied ->
    exists c', map_kml_loop E entries c n = Done (n + length copied, c')%nat /\ oty c' = oty c /\ get c' Type_Feature = get c Type_Feature ++ copied /\
      forall k, k <> Type_Feature -> get c' k = get c k).
  { induction entries as [|e r IH]; intros copied c n Hs Hc Hf; cbn [flat_map] in Hf.
    - inversion Hf; subst. exists c. cbn. rewrite Nat.add_0_r, app_nil_r. auto.
    - cbn [map_kml_loop]. destruct (get_entry_feature e) as [f|]; [|exact (IH copied c n Hs Hc Hf)]. cbn [app] in Hf. inversion Hf as [|? f' ? cs H1 H2]; subst. rewrite H1. cbn [cbind].
      destruct (IH cs (add_to_container c f') (S n)) as (c' & L & T & G & K); [now apply put_sized|rewrite add_type; exact Hc|exact H2|].
      exists c'. rewrite L. split; [f_equal; f_equal; cbn [length]; lia|]. split; [rewrite T; apply add_type|]. split.
      + rewrite G, add_get, N.eqb_refl by assumption. now rewrite <- app_assoc.
      + intros k Hk. rewrite K, add_get by assumption. destruct (N.eqb_spec k Type_Feature); [contradiction|reflexivity]. }
  intros c copied Hs Hc Hf. exact (G copied c 0%nat Hs Hc Hf).
Qed.
Print Assumptions map_kml_clones.

(** Feeds each of which is what the next link of the one before leads to; the last has none that leads to a feed. *)
Fixpoint linked_feeds (http : str -> option str) (parse : str -> option obj) (f : obj) (l : list obj) : Prop :=
  match l with
  | [] => get_next_feed http parse f = None
  | g :: r => get_next_feed http parse f = Some g /\ linked_feeds http parse g r
  end.
(** C93. The document of the features of a map which is given in several feeds has exactly the features of all of them, in order. *)
Theorem document_of_feeds : forall E http parse feeds feed fuel, linked_feeds http parse feed feeds -> (length feeds < fuel)%nat ->
  Forall (fun f => Forall (copies E) (entry_features f)) (feed :: feeds) ->
  exists d, create_document_of_map_features E http parse fuel feed = Some (Done d) /\ oty d = Type_Document /\
    get d Type_Feature = flat_map entry_features (feed :: feeds) /\ (forall k, k <> Type_Feature -> get d k = []).
Proof.
  intros E http parse feeds feed fuel Hl Hn Hf. unfold create_document_of_map_features.
  assert (G : forall feeds feed fuel d, linked_feeds http parse feed feeds -> (length feeds < fuel)%nat ->
    Forall (fun f => Forall (copies E) (entry_features f)) (feed :: feeds) -> sized d -> oty d = Type_Document ->
    exists d', document_loop E http parse fuel feed d = Some (Done d') /\ oty d' = Type_Document /\
      get d' Type_Feature = get d Type_Feature ++ flat_map entry_features (feed :: feeds) /\ (forall k, k <> Type_Feature -> get d' k = get d k)).
  { clear. induction feeds as [|g r IH]; intros feed fuel d Hl Hn Hf Hs Ht; destruct fuel as [|fuel]; try (cbn in Hn; lia); cbn [document_loop];
      inversion Hf as [|? ? Hf1 Hf2]; subst;
      destruct (map_kml_loop_ok E (get feed Type_AtomEntry) d 0 Hs (or_introl Ht) Hf1) as (d1 & L & T & Z & F & K); unfold get_map_kml; rewrite L; cbn [linked_feeds] in Hl.
    - rewrite Hl. exists d1. split; [reflexivity|]. split; [congruence|]. cbn [flat_map]. rewrite app_nil_r. auto.
    - destruct Hl as [-> Hl]. destruct (IH g fuel d1 Hl) as (d' & A & B & C & D'); [cbn in Hn; lia|assumption|exact Z|congruence|].
      exists d'. split; [exact A|]. split; [exact B|]. split.
      + rewrite C, F. cbn [flat_map]. now rewrite <- app_assoc.
      + intros k Hk. rewrite D', K by exact Hk. reflexivity. }
  destruct (G feeds feed fuel (create Type_Document) Hl Hn Hf (sized_create _) eq_refl) as (d & A & B & C & D').
  exists d. split; [exact A|]. split; [exact B|]. split; [exact C|]. intros k Hk. rewrite D' by exact Hk. unfold get.
  destruct (index_of_key k (c_slots (cls (oty (create Type_Document)))) 0) as [i|]; [|reflexivity]. cbn [create oslots].
  clear. generalize (c_slots (cls Type_Document)). intros l. revert i. induction l as [|s l IH]; intros [|i]; try reflexivity. apply IH.
Qed.
Print Assumptions document_of_feeds.

Definition map_feed : obj := entry_parsed (S_ "<atom:feed><atom:link rel=""next"" href=""u""/><atom:entry><atom:content><Placemark id=""p""><name>a</name></Placemark></atom:content></atom:entry><atom:entry/></atom:feed>").
Example map_sample : sized (create Type_Folder) /\ Forall (copies E0) (entry_features map_feed) /\ length (entry_features map_feed) = 1%nat /\
  linked_feeds (fun _ => None) (fun _ => None) map_feed [].
Proof.
  split; [apply sized_create|]. split; [|split; vm_compute; reflexivity].
  destruct (entry_features map_feed) as [|f [|]] eqn:F; try (vm_compute in F; discriminate). constructor; [|constructor].
  vm_compute in F. inversion F. subst. vm_compute. repeat split.
Qed.
(** C93. The loop over the feeds does not end if the next link of a feed leads to itself. *)
Theorem feed_loop_refuted : exists http parse, forall fuel, create_document_of_map_features E0 http parse fuel map_feed = None.
Proof.
  exists (fun _ => Some []), (fun _ => Some map_feed). intros fuel. unfold create_document_of_map_features.
  destruct map_sample as (_ & Hc & _ & _).
  assert (G : forall fuel d, sized d -> oty d = Type_Document -> document_loop E0 (fun _ => Some []) (fun _ => Some map_feed) fuel map_feed d = None).
  { clear fuel. induction fuel as [|fuel IH]; intros d Hs Ht; [reflexivity|]. cbn [document_loop].
    destruct (map_kml_loop_ok E0 (get map_feed Type_AtomEntry) d 0 Hs (or_introl Ht) Hc) as (d1 & L & T & Z & _). unfold get_map_kml. rewrite L.
    assert (N : get_next_feed (fun _ => Some []) (fun _ => Some map_feed) map_feed = Some map_feed) by (vm_compute; reflexivity).
    rewrite N. apply IH; [exact Z|congruence]. }
  apply G; [apply sized_create|reflexivity].
Qed.
Print Assumptions feed_loop_refuted.

(** ** Requests *)
Definition entry_with (t s : str) (f : obj) : obj :=
  put (create_basic_entry t s) Type_AtomContent [set_ka (set_mis (create Type_AtomContent) [f]) [(S_ "type", kml_mime)]].
Lemma entry_saved t s f : IdModel.saved (entry_with t s f) =
  [] :: [(3, 0)%nat] :: [(0, 0)%nat] :: [(1, 0)%nat] :: map (fun p => (1, 0)%nat :: (0, 0)%nat :: p) (tl (IdModel.saved f)).
Proof.
  assert (H : IdModel.saved (entry_with t s f) = [] :: [(3, 0)%nat] :: [(0, 0)%nat] :: [(1, 0)%nat] ::
    (((map (cons (1, 0)%nat) (map (cons (0, 0)%nat) (tl (IdModel.saved f)) ++ []) ++ []) ++ []) ++ [])) by (vm_cast_no_check (eq_refl (IdModel.saved (entry_with t s f)))).
  rewrite H, !app_nil_r, map_map. reflexivity.
Qed.
(** The ids of the elements below a feature. *)
Definition ids_below (f : obj) : list str := flat_map (fun p => match id_at f p with Some i => [i] | None => [] end) (tl (IdModel.saved f)).
Lemma entry_dups t s f : dup_ids (entry_with t s f) = [] <-> NoDup (ids_below f).
Proof.
  unfold dup_ids. destruct (dup_fold (entry_with t s f) (IdModel.saved (entry_with t s f)) [] [] msorted_nil) as (_ & H & _). rewrite H. clear H.
  assert (E : flat_map (fun p => match id_at (entry_with t s f) p with Some i => [i] | None => [] end) (IdModel.saved (entry_with t s f)) = ids_below f).
  { rewrite entry_saved. cbn [flat_map]. 
    assert (A : id_at (entry_with t s f) [] = None) by (vm_compute; reflexivity). rewrite A.
    assert (A1 : id_at (entry_with t s f) [(3, 0)%nat] = None) by (vm_compute; reflexivity). rewrite A1.
    assert (A2 : id_at (entry_with t s f) [(0, 0)%nat] = None) by (vm_compute; reflexivity). rewrite A2.
    assert (A3 : id_at (entry_with t s f) [(1, 0)%nat] = None) by (vm_compute; reflexivity). rewrite A3.
    cbn [app]. unfold ids_below. induction (tl (IdModel.saved f)) as [|p l IH]; [reflexivity|]. cbn [map flat_map]. rewrite IH. reflexivity. }
  rewrite E. split; [intros [H _]; exact H|]. intros H. split; [exact H|]. intros p id _ _. reflexivity.
Qed.
Lemma file_text_ok o : exists t, write_pretty (insert_namespaces o) = Ok t /\ file_text o = Ok (S_ "<?xml version=""1.0"" encoding=""utf-8""?>" ++ ["010"%char] ++ t).
Proof.
  unfold file_text, serialize_to_string, write_pretty. generalize (ser (insert_namespaces o)) as i. intros i. unfold serialize_pretty.
  rewrite serialize_ok. eexists. split; [reflexivity|]. cbn [bind snd]. unfold xml_header. rewrite <- !app_assoc. reflexivity.
Qed.
Lemma entry_facts t s f : oty (entry_with t s f) = Type_AtomEntry /\ field_value (entry_with t s f) Type_atomTitle = t /\ field_value (entry_with t s f) Type_atomSummary = s /\
  get (entry_with t s f) Type_AtomContent = [set_ka (set_mis (create Type_AtomContent) [f]) [(S_ "type", kml_mime)]].
Proof. split; [vm_compute; reflexivity|]. split; [vm_compute; reflexivity|]. split; vm_compute; reflexivity. Qed.
(** C93. Posting a feature is defined exactly if no id occurs twice below the feature; then one request is made, a POST of an Atom document to the given URI:
    a file with an entry with the name as title and the description as summary, which contains the feature. *)
Theorem add_feature_correct : forall uri f, is_a (oty f) Type_Feature = true -> NoDup (ids_below f) ->
  exists q e t, add_feature uri f = Ok q /\ q_method q = HTTP_POST /\ q_uri q = uri /\ q_headers q = [(S_ "Content-Type", S_ "application/atom+xml")] /\
    q_data q = Some (S_ "<?xml version=""1.0"" encoding=""utf-8""?>" ++ ["010"%char] ++ t) /\ write_pretty (insert_namespaces e) = Ok t /\
    oty e = Type_AtomEntry /\ field_value e Type_atomTitle = field_value f Type_name /\ field_value e Type_atomSummary = field_value f Type_description /\
    get_entry_feature e = Some f /\ (forall c, In c (get e Type_AtomContent) -> mget (S_ "type") (oka c) = Some (S_ "application/vnd.google-earth.kml+xml")).
Proof.
  intros uri f Hf Hd. unfold add_feature, create_from_import, feature_entry.
  change (put (create_basic_entry (field_value f Type_name) (field_value f Type_description)) Type_AtomContent
    [set_ka (set_mis (create Type_AtomContent) [f]) [(S_ "type", kml_mime)]]) with (entry_with (field_value f Type_name) (field_value f Type_description) f).
  rewrite (proj2 (entry_dups _ _ f) Hd). destruct (entry_facts (field_value f Type_name) (field_value f Type_description) f) as (F1 & F2 & F3 & F4).
  revert F1 F2 F3 F4. generalize (entry_with (field_value f Type_name) (field_value f Type_description) f) as e. intros e F1 F2 F3 F4.
  destruct (file_text_ok e) as (t & Ht & Ef). rewrite Ef. cbn [bind]. eexists _, e, t. split; [reflexivity|]. cbn [q_method q_uri q_headers q_data].
  split; [reflexivity|]. split; [reflexivity|]. split; [reflexivity|]. split; [reflexivity|]. split; [exact Ht|]. split; [exact F1|]. split; [exact F2|]. split; [exact F3|].
  unfold get_entry_feature. rewrite F4. split; [cbn [omis set_ka set_mis create]; now rewrite Hf|]. intros c [<-|[]]. reflexivity.
Qed.
Print Assumptions add_feature_correct.
Theorem add_feature_defined : forall uri f, (exists q, add_feature uri f = Ok q) <-> NoDup (ids_below f).
Proof.
  intros uri f. rewrite <- (entry_dups (field_value f Type_name) (field_value f Type_description) f). unfold add_feature, create_from_import.
  change (feature_entry f) with (entry_with (field_value f Type_name) (field_value f Type_description) f).
  generalize (entry_with (field_value f Type_name) (field_value f Type_description) f) as e. intros e. destruct (dup_ids e); [|split; [intros (q & H); discriminate|discriminate]].
  split; [reflexivity|]. intros _. destruct (file_text_ok e) as (t & _ & Ef). rewrite Ef. cbn [bind]. eauto.
Qed.
Print Assumptions add_feature_defined.
(** C93. Violated: posting a feature in which an id occurs twice is undefined behaviour. *)
Theorem post_duplicate_refuted : exists f, oty f = Type_Placemark /\
  write_raw f = Ok (S_ "<Placemark><MultiGeometry><Point id=""a""/><Point id=""a""/></MultiGeometry></Placemark>") /\ forall uri, add_feature uri f = UB.
Proof.
  exists (read0 (S_ "<Placemark><MultiGeometry><Point id=""a""/><Point id=""a""/></MultiGeometry></Placemark>")). split; [vm_compute; reflexivity|].
  split; [vm_compute; reflexivity|]. intros uri. unfold add_feature. assert (E : create_from_import (feature_entry (read0 (S_ "<Placemark><MultiGeometry><Point id=""a""/><Point id=""a""/></MultiGeometry></Placemark>"))) = None) by (vm_compute; reflexivity).
  now rewrite E.
Qed.
Print Assumptions post_duplicate_refuted.
(** C93. Making a map posts one entry with its title and summary. *)
Theorem create_map_correct : forall scope title summary, exists q e t, create_map scope title summary = Ok (Some q) /\
  q_method q = HTTP_POST /\ q_uri q = scope ++ S_ "/maps/feeds/maps/default/full" /\ q_headers q = [(S_ "Content-Type", S_ "application/atom+xml")] /\
  q_data q = Some (S_ "<?xml version=""1.0"" encoding=""utf-8""?>" ++ ["010"%char] ++ t) /\ write_pretty (insert_namespaces e) = Ok t /\
  oty e = Type_AtomEntry /\ field_value e Type_atomTitle = title /\ field_value e Type_atomSummary = summary /\ get e Type_AtomContent = [].
Proof.
  intros scope title summary. unfold create_map, create_from_import. assert (E : dup_ids (create_basic_entry title summary) = []) by (vm_compute; reflexivity). rewrite E.
  assert (F : oty (create_basic_entry title summary) = Type_AtomEntry /\ field_value (create_basic_entry title summary) Type_atomTitle = title /\
    field_value (create_basic_entry title summary) Type_atomSummary = summary /\ get (create_basic_entry title summary) Type_AtomContent = [])
    by (split; [vm_compute; reflexivity|]; split; [vm_compute; reflexivity|]; split; vm_compute; reflexivity).
  clear E. revert F. generalize (create_basic_entry title summary) as e. intros e (F1 & F2 & F3 & F4). destruct (file_text_ok e) as (t & Ht & Ef). rewrite Ef. cbn [bind].
  eexists _, e, t. split; [reflexivity|]. cbn [q_method q_uri q_headers q_data]. repeat (split; [reflexivity|]). auto.
Qed.
Print Assumptions create_map_correct.
(** C93. Posting the placemarks of a feature makes one request for each placemark with a geometry below it in document order; the result is the number of those the
    server accepted. *)
Theorem post_placemarks_correct : forall send root uri,
  (forall p, In p (get_elements_by_id root Type_Placemark) -> NoDup (ids_below p)) -> oty root <> Type_Placemark ->
  exists qs, post_placemarks send root uri = Ok (qs, length (filter send qs)) /\
    Forall2 (fun p q => add_feature uri p = Ok q) (filter (fun p => negb (nilb (get p Type_Geometry))) (get_elements_by_id root Type_Placemark)) qs.
Proof.
  intros send root uri Hd Hr. unfold post_placemarks, posted. destruct (N.eqb_spec (oty root) Type_Placemark); [contradiction|].
  assert (E : filter has_geometry (get_elements_by_id root Type_Placemark) = filter (fun p => negb (nilb (get p Type_Geometry))) (get_elements_by_id root Type_Placemark)).
  { apply filter_ext. intros p. unfold has_geometry, nilb. now destruct (get p Type_Geometry). }
  rewrite E. clear E. assert (Hd' : forall p, In p (filter (fun p => negb (nilb (get p Type_Geometry))) (get_elements_by_id root Type_Placemark)) -> NoDup (ids_below p)).
  { intros p Hp. apply filter_In in Hp as [Hp _]. auto. }
  assert (G : exists qs, all_ok (add_feature uri) (filter (fun p => negb (nilb (get p Type_Geometry))) (get_elements_by_id root Type_Placemark)) = Ok qs /\
    Forall2 (fun p q => add_feature uri p = Ok q) (filter (fun p => negb (nilb (get p Type_Geometry))) (get_elements_by_id root Type_Placemark)) qs).
  { induction (filter _ _) as [|p l IH]; [exists []; split; [reflexivity|constructor]|]. destruct (proj2 (add_feature_defined uri p) (Hd' p (or_introl eq_refl))) as (q & Hq).
    destruct IH as (qs & A & B); [intros p' Hp'; apply Hd'; now right|]. exists (q :: qs). cbn [all_ok]. rewrite Hq. cbn [bind]. rewrite A. cbn [bind]. split; [reflexivity|]. now constructor. }
  destruct G as (qs & A & B). exists qs. rewrite A. cbn [bind]. split; [reflexivity|exact B].
Qed.
Print Assumptions post_placemarks_correct.
Theorem post_placemark_root : forall send p uri q, oty p = Type_Placemark -> add_feature uri p = Ok q -> post_placemarks send p uri = Ok ([q], if send q then 1 else 0)%nat.
Proof.
  intros send p uri q Hp Hq. unfold post_placemarks, posted. rewrite Hp. change (Type_Placemark =? Type_Placemark) with true. cbv beta iota. cbn [all_ok]. rewrite Hq.
  cbn [bind filter]. now destruct (send q).
Qed.
Print Assumptions post_placemark_root.
Example post_sample :
  let root := read0 (S_ "<Folder><Placemark><name>a</name><Point id=""i""/></Placemark><Placemark/><Folder><Placemark><Point id=""i""/></Placemark></Folder></Folder>") in
  oty root <> Type_Placemark /\ (forall p, In p (get_elements_by_id root Type_Placemark) -> NoDup (ids_below p)) /\
  match post_placemarks (fun q => true) root (S_ "u") with Ok (_, n) => n = 2%nat | _ => False end.
Proof.
  cbv zeta. split; [vm_compute; discriminate|]. split; [|vm_compute; reflexivity].
  assert (E : map ids_below (get_elements_by_id (read0 (S_ "<Folder><Placemark><name>a</name><Point id=""i""/></Placemark><Placemark/><Folder><Placemark><Point id=""i""/></Placemark></Folder></Folder>")) Type_Placemark) =
    [[S_ "i"]; []; [S_ "i"]]) by (vm_compute; reflexivity).
  intros p Hp. apply (in_map ids_below) in Hp. rewrite E in Hp. destruct Hp as [<-|[<-|[<-|[]]]]; repeat constructor; cbn; tauto.
Qed.
(** C93. A placemark without geometry is posted if it is the root, but not below a folder. *)
Theorem post_no_geometry_refuted : exists p, oty p = Type_Placemark /\ get p Type_Geometry = [] /\ posted p = [p] /\
  posted (add_to_container (create Type_Folder) p) = [].
Proof. exists (create Type_Placemark). vm_compute. repeat split. Qed.
Print Assumptions post_no_geometry_refuted.

(** ** URIs *)
(** C93. The URI of the search feed is that of the feature feed with what follows the last slash replaced; without a slash there is none. *)
Theorem search_feed_uri_correct : forall e a b, get_content_src e = Some (a ++ "/"%char :: b) -> ~ In "/"%char b ->
  get_search_feed_uri e = Some (a ++ S_ "/snippet").
Proof.
  intros e a b He Hb. unfold get_search_feed_uri, get_feature_feed_uri. rewrite He.
  rewrite find_last_app; [|apply aeq_refl|].
  - f_equal. rewrite firstn_app, firstn_all2 by lia. replace (length a + 1 - length a)%nat with 1%nat by lia. rewrite <- app_assoc. reflexivity.
  - apply forallb_forall. intros c Hc. destruct (aeq "/"%char c) eqn:E; [|reflexivity]. apply aeq_spec in E. subst. contradiction.
Qed.
Print Assumptions search_feed_uri_correct.
Theorem search_feed_uri_none : forall e, get_search_feed_uri e = None <-> (forall u, get_content_src e = Some u -> ~ In "/"%char u).
Proof.
  intros e. unfold get_search_feed_uri, get_feature_feed_uri. destruct (get_content_src e) as [u|]; [|split; [discriminate|reflexivity]].
  destruct (find_last (aeq "/"%char) u) as [i|] eqn:F.
  - split; [discriminate|]. intros H. exfalso. apply find_last_some in F as (d & c & f & -> & _ & Hc & _). apply aeq_spec in Hc. subst. apply (H _ eq_refl). apply in_or_app. right. now left.
  - split; [|reflexivity]. intros _ v Hv. injection Hv as <-. apply find_last_none in F. intros Hi. rewrite forallb_forall in F. specialize (F _ Hi). now rewrite aeq_refl in F.
Qed.
Print Assumptions search_feed_uri_none.
Definition map_entry (src : str) : obj := put (create Type_AtomEntry) Type_AtomContent [set_ka (create Type_AtomContent) [(S_ "src", src)]].
Example search_sample : get_search_feed_uri (map_entry (S_ "http://h/maps/1/full")) = Some (S_ "http://h/maps/1/snippet").
Proof. vm_compute. reflexivity. Qed.
(** C93. A slash in the query of the feature feed is taken for that before its last segment. *)
Theorem search_feed_query_refuted : get_search_feed_uri (map_entry (S_ "http://h/maps/1/full?v=1/2")) = Some (S_ "http://h/maps/1/full?v=1/snippet").
Proof. vm_compute. reflexivity. Qed.
Print Assumptions search_feed_query_refuted.
(** C93. The request of a search for a box. *)
Theorem search_box_uri : forall u n s e w, q_uri (search_request u (append_box_parameter n s e w [])) = u ++ S_ "?box=" ++ w ++ S_ "," ++ s ++ S_ "," ++ e ++ S_ "," ++ n.
Proof. reflexivity. Qed.
Print Assumptions search_box_uri.
(** C93. Parameters that are there already are not separated from that of the box. *)
Theorem search_box_append_refuted : forall n s e w, append_box_parameter n s e w (S_ "q=x") = S_ "q=xbox=" ++ w ++ S_ "," ++ s ++ S_ "," ++ e ++ S_ "," ++ n.
Proof. reflexivity. Qed.
Print Assumptions search_box_append_refuted.
(** C93. The URI of the KML of a map is its alternate link, found as C87 says, with a parameter appended; there is one exactly if there is such a link. *)
Theorem kml_uri_correct : forall e, get_kml_uri e = match find_rel_url e (S_ "alternate") with Some u => Some (u ++ S_ "&output=kml") | None => None end.
Proof. intros e. unfold get_kml_uri. destruct (find_rel_url e (S_ "alternate")); reflexivity. Qed.
Print Assumptions kml_uri_correct.
(** C93. The parameter is no parameter if the link has no query. *)
Theorem kml_uri_no_query_refuted : get_kml_uri (entry_parsed (S_ "<atom:entry><atom:link rel=""alternate"" href=""http://h/map""/></atom:entry>")) = Some (S_ "http://h/map&output=kml").
Proof. vm_compute. reflexivity. Qed.
Print Assumptions kml_uri_no_query_refuted.
(** C93. A spreadsheet is asked for with its resource id and the format. *)
Theorem download_correct : forall scope e fmt id, get_gd_resource_id e = Some id ->
  exists q, download_spreadsheet scope e fmt = Some q /\ q_method q = HTTP_GET /\ q_uri q = scope ++ S_ "/feeds/download/spreadsheets/Export?key=" ++ id ++ S_ "&exportFormat=" ++ fmt.
Proof. intros scope e fmt id H. unfold download_spreadsheet. rewrite H. eexists. split; [reflexivity|]. split; reflexivity. Qed.
Print Assumptions download_correct.
Theorem download_none : forall scope e fmt, get_gd_resource_id e = None -> download_spreadsheet scope e fmt = None.
Proof. intros scope e fmt H. unfold download_spreadsheet. now rewrite H. Qed.
Print Assumptions download_none.
(** C93. A table and a KML file are posted unchanged to the feed of the maps, with the title as slug and the type of their data. *)
Theorem post_table_correct : forall scope title data, post_csv scope title data =
  {| q_method := HTTP_POST; q_uri := scope ++ S_ "/maps/feeds/maps/default/full"; q_headers := [(S_ "Content-Type", S_ "text/csv"); (S_ "Slug", title)]; q_data := Some data |}.
Proof. reflexivity. Qed.
Print Assumptions post_table_correct.
Theorem post_kml_correct : forall scope title data, post_kml scope title data =
  {| q_method := HTTP_POST; q_uri := scope ++ S_ "/maps/feeds/maps/default/full"; q_headers := [(S_ "Content-Type", S_ "application/vnd.google-earth.kml+xml"); (S_ "Slug", title)]; q_data := Some data |}.
Proof. reflexivity. Qed.
Print Assumptions post_kml_correct.
(** C93. A feature of the feeds that cannot be copied: the result is what copying gives. *)
Theorem document_not_copied : forall E http parse fuel feed, (0 < fuel)%nat ->
  (get_map_kml E feed (create Type_Document) = Cyclic -> create_document_of_map_features E http parse fuel feed = Some Cyclic) /\
  (get_map_kml E feed (create Type_Document) = Undefined -> create_document_of_map_features E http parse fuel feed = Some Undefined).
Proof. intros E http parse [|fuel] feed H; [lia|]. unfold create_document_of_map_features. cbn [document_loop]. split; intros ->; reflexivity. Qed.
Print Assumptions document_not_copied.

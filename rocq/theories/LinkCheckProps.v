(** Properties of the check of an archive's links (C85). *)
From Verif Require Import Common StrMap AttributesModel XsdTables XsdModel XmlSpec XmlSpecProofs HandlerModel HandlerSpec HandlerProofs HandlerProofs2 HandlerProofs3 HandlerProps.
From Verif Require Import DomTables StringsModel PathModel UriModel UriProps FileModel FileProofs FileProps KmzModel KmzProps LinkCheckModel.

(** The archive has a file of this name which can be read: not empty, not larger than the limit. *)
Definition readable (max : N) (a : archive) (p : str) : Prop :=
  exists d, locate a p = Some d /\ d <> [] /\ (N.of_nat (length d) <= max)%N.
(** A link of the document which names something relative to the document, and that file cannot be read. *)
Definition missing_link (max : N) (a : archive) (root : node) (u : str) : Prop :=
  link_in root u /\ h_scheme (href_parse u) = [] /\ h_net_loc (href_parse u) = [] /\ ~ readable max a (h_path (href_parse u)).

Lemma readable_spec max a p : readable max a p <-> exists d, read_file max a p = Some d.
Proof.
  rewrite read_file_spec. unfold readable. destruct (locate a p) as [d|].
  - split.
    + intros (d' & H & Hd & Hl). inversion H; subst d'. exists d. destruct d; [congruence|]. destruct (N.eqb_spec (N.of_nat (length (a0 :: d))) 0) as [E|_]; [cbn in E; lia|].
      destruct (N.ltb_spec max (N.of_nat (length (a0 :: d)))); [lia|reflexivity].
    + intros (d' & H). exists d. split; [reflexivity|]. destruct (N.eqb_spec (N.of_nat (length d)) 0) as [E|E]; [discriminate|].
      destruct (N.ltb_spec max (N.of_nat (length d))); [discriminate|]. split; [|assumption]. intros ->. now apply E.
  - split; [intros (d & H & _); discriminate|intros (d & H); discriminate].
Qed.
Definition lacks (max : N) (a : archive) (u : str) : bool :=
  is_relative u && match read_file max a (h_path (href_parse u)) with Some _ => false | None => true end.
Lemma check_each_spec max a l : forall ret m, check_each max a l ret m =
  (ret && negb (existsb (lacks max a) l), m ++ filter (lacks max a) l).
Proof.
  induction l as [|u l IH]; intros ret m; cbn [check_each existsb filter].
  - now rewrite andb_true_r, app_nil_r.
  - unfold lacks at 1 3. destruct (is_relative u); cbn [andb orb].
    + destruct (read_file max a (h_path (href_parse u))); cbn [orb negb]; rewrite IH; [reflexivity|]. now rewrite andb_false_r, <- app_assoc.
    + now rewrite IH.
Qed.
Lemma lacks_spec max a u : lacks max a u = true <->
  h_scheme (href_parse u) = [] /\ h_net_loc (href_parse u) = [] /\ ~ readable max a (h_path (href_parse u)).
Proof.
  unfold lacks, is_relative. rewrite !andb_true_iff, !eqs_spec, readable_spec. destruct (read_file max a (h_path (href_parse u))) as [d|].
  - split; [intros [_ H]; discriminate|]. intros (_ & _ & H). elim H. eauto.
  - split; [intros [[H1 H2] _]; repeat split; auto; intros (d & H); discriminate|tauto].
Qed.

(** C85. The links reported missing are exactly the links of the document, in its order, which have neither a scheme nor a host and
    whose path names no readable file of the archive; the check succeeds exactly if there are none. *)
Theorem links_checked : forall max a kml p t root,
  read_kml max a = Some (kml, p) -> xml_tree kml = Some t -> regular t -> tree keep_all t = Some root ->
  exists ok missing, check_links max a = Ok (ok, missing) /\
    (forall u, In u missing <-> missing_link max a root u) /\ (ok = true <-> forall u, ~ missing_link max a root u) /\
    exists l, get_links t = Ok (Some l) /\ exists sel, missing = filter sel l.
Proof.
  intros max a kml p t root Hk Ht Hr Hroot. unfold check_links. rewrite Hk, Ht.
  destruct (get_links_correct t root Hr Hroot) as (l & Hl & Hin & _). rewrite Hl. cbn [bind]. rewrite check_each_spec. cbn [app].
  assert (G : forall u, In u (filter (lacks max a) l) <-> missing_link max a root u).
  { intros u. rewrite filter_In, lacks_spec, Hin. reflexivity. }
  eexists. eexists. split; [reflexivity|]. split; [exact G|]. split; [|eexists; split; [reflexivity|eexists; reflexivity]].
  cbn [andb]. rewrite negb_true_iff. split.
  - intros H u Hu. apply G in Hu. apply filter_In in Hu as [H1 H2]. assert (existsb (lacks max a) l = true) by (apply existsb_exists; eauto). congruence.
  - intros H. destruct (existsb (lacks max a) l) eqn:E; [|reflexivity]. apply existsb_exists in E as (u & H1 & H2). elim (H u). apply G, filter_In. auto.
Qed.
Print Assumptions links_checked.
(** C85. Without a document, or with one which cannot be parsed, the check fails and reports no link. *)
Theorem links_check_no_document : forall max a, (read_kml max a = None \/ exists kml p, read_kml max a = Some (kml, p) /\ xml_tree kml = None) ->
  check_links max a = Ok (false, []).
Proof. intros max a [H|(kml & p & H & Hx)]; unfold check_links; rewrite H; [|rewrite Hx]; reflexivity. Qed.
Print Assumptions links_check_no_document.
Definition doc1 : str := S_ "<Document><GroundOverlay><Icon><href>a.png</href></Icon></GroundOverlay><GroundOverlay><Icon><href>b/c.png#x</href></Icon></GroundOverlay><NetworkLink><Link><href>http://h/x</href></Link></NetworkLink></Document>".
Example links_check_sample :
  check_links 100000 [(S_ "doc.kml", doc1); (S_ "a.png", S_ "data")] = Ok (false, [S_ "b/c.png#x"]) /\
  check_links 100000 [(S_ "doc.kml", doc1); (S_ "a.png", S_ "data"); (S_ "b/c.png", S_ "data")] = Ok (true, []) /\
  (exists t root, xml_tree doc1 = Some t /\ regular t /\ tree keep_all t = Some root).
Proof.
  split; [vm_compute; reflexivity|]. split; [vm_compute; reflexivity|].
  exists (doc_of doc1). eexists. split; [vm_compute; reflexivity|]. split; [apply regularb_spec; vm_compute; reflexivity|vm_compute; reflexivity].
Qed.

(** C85. A reference within the document, such as a styleUrl of #id, is reported as a missing file, whatever the document contains. *)
Theorem own_reference_missing_refuted : forall max a kml p t root id,
  read_kml max a = Some (kml, p) -> xml_tree kml = Some t -> regular t -> tree keep_all t = Some root ->
  link_in root (S_ "#" ++ id) -> ~ occurs (S_ "://") (S_ "#" ++ id) -> ~ In [] (map fst a) ->
  exists missing, check_links max a = Ok (false, missing) /\ In (S_ "#" ++ id) missing.
Proof.
  intros max a kml p t root id Hk Ht Hr Hroot Hl Ho Hn. destruct (links_checked max a kml p t root Hk Ht Hr Hroot) as (ok & m & Hc & Hm & Hok & _).
  assert (Hh : href_parse (S_ "#" ++ id) = {| h_scheme := []; h_net_loc := []; h_path := []; h_fragment := id |}) by exact (href_relative [] id (fun x => x) Ho).
  assert (Hmiss : missing_link max a root (S_ "#" ++ id)).
  { split; [exact Hl|]. rewrite Hh. cbn [h_scheme h_net_loc h_path]. split; [reflexivity|]. split; [reflexivity|]. intros (d & Hd & _). apply Hn.
    unfold locate in Hd. destruct (List.find _ a) as [[q e]|] eqn:E; [|discriminate]. apply List.find_some in E as [Hi He]. cbn in He. apply eqs_spec in He. subst q.
    change (@nil ascii) with (fst (@nil ascii, e)). now apply in_map. }
  exists m. rewrite Hc. destruct ok; [elim (proj1 Hok eq_refl _ Hmiss)|]. split; [reflexivity|]. now apply Hm.
Qed.
Print Assumptions own_reference_missing_refuted.
Definition doc2 : str := S_ "<Document><Style id=""s""/><Placemark><styleUrl>#s</styleUrl></Placemark></Document>".
Example own_reference_sample : check_links 100000 [(S_ "doc.kml", doc2)] = Ok (false, [S_ "#s"]).
Proof. vm_compute. reflexivity. Qed.

Lemma in_first_occurrences l : forall seen n, In n l -> In n seen \/ In n (first_occurrences seen l).
Proof.
  induction l as [|y l IH]; intros seen n; cbn [first_occurrences]; [intros []|]. destruct (existsb (eqs y) seen) eqn:E.
  - intros [->|H]; [|now apply IH]. left. apply existsb_exists in E as (z & Hz & He). apply eqs_spec in He. now subst.
  - intros [->|H]; [right; now left|]. destruct (IH (y :: seen) n H) as [[->|Hs]|Hf]; [right; now left|now left|right; now right].
Qed.
Lemma locate_in (l : archive) n d : NoDup (map fst l) -> In (n, d) l -> locate l n = Some d.
Proof.
  unfold locate. induction l as [|[q e] l IH]; [intros _ []|]. cbn [map fst List.find]. intros H Hi. inversion H as [|? ? H1 H2]; subst.
  destruct (eqs q n) eqn:E.
  - apply eqs_spec in E. subst q. destruct Hi as [Hi|Hi]; [now inversion Hi|]. elim H1. change n with (fst (n, d)). now apply in_map.
  - destruct Hi as [Hi|Hi]; [inversion Hi; subst; now rewrite eqs_refl in E|]. now apply IH.
Qed.
(** C85. An archive packed with the files its document links to passes the check, if every link without scheme and host has a path, is already
    normalized, does not lead out of the archive, is not the name of the document itself and names a file which can be read. *)
Theorem packed_archive_checked : forall normalize read max kml t root links,
  kml <> [] -> (N.of_nat (length kml) <= max)%N -> xml_tree kml = Some t -> regular t -> tree keep_all t = Some root ->
  get_relative_links t = Ok (Some links) ->
  (forall u, link_in root u -> h_scheme (href_parse u) = [] -> h_net_loc (href_parse u) = [] ->
     let p := h_path (href_parse u) in
     p <> [] /\ normalize p = Some p /\ firstn 2 p <> S_ ".." /\ add_entry_accepts p = true /\ p <> S_ "doc.kml" /\
     exists d, read p = Some d /\ d <> [] /\ (N.of_nat (length d) <= max)%N) ->
  check_links max (kmz_create normalize read kml links) = Ok (true, []).
Proof.
  intros normalize read max kml t root links Hk Hl Ht Hr Hroot Hrel Hall.
  pose proof (kmz_document normalize read kml links max Hk Hl) as Hdoc.
  destruct (links_checked max _ kml (S_ "doc.kml") t root Hdoc Ht Hr Hroot) as (ok & m & Hc & Hm & Hok & _).
  destruct (get_links_correct t root Hr Hroot) as (l & Hg & Hin & _).
  destruct (get_relative_links_correct t root l Hr Hroot Hg) as (rl & Hrl & Hrin). rewrite Hrel in Hrl. inversion Hrl; subst rl.
  assert (Hnone : forall u, ~ missing_link max (kmz_create normalize read kml links) root u).
  { intros u (Hu & Hs & Hn & Hnr). apply Hnr. destruct (Hall u Hu Hs Hn) as (Hp & Hnorm & Hdd & Hacc & Hnd & d & Hd & Hd0 & Hdl).
    set (p := h_path (href_parse u)) in *. exists d. split; [|split; assumption].
    destruct (kmz_files_once normalize read kml links) as (files & Hf & Hnod & _). rewrite Hf. unfold locate. cbn [List.find fst].
    replace (eqs (S_ "doc.kml") p) with false by (symmetry; apply eqs_neq; congruence). fold (locate files p). apply locate_in; [exact Hnod|].
    rewrite kmz_packed in Hf. injection Hf as <-. unfold entries. apply in_flat_map. exists p. split.
    - destruct (in_first_occurrences (candidates normalize links) [] p) as [[]|H]; [|exact H]. unfold candidates. apply filter_In. split.
      + apply in_flat_map. exists u. split; [apply Hrin; rewrite Hin; auto|]. fold p. rewrite Hnorm. now left.
      + destruct (eqs (firstn 2 p) (S_ "..")) eqn:E; [|reflexivity]. apply eqs_spec in E. contradiction.
    - rewrite Hacc, Hd. now left. }
  rewrite Hc. destruct ok; [|now assert (false = true) by now apply Hok]. destruct m as [|u m]; [reflexivity|]. elim (Hnone u). apply Hm. now left.
Qed.
Print Assumptions packed_archive_checked.
Example packed_archive_sample : exists t root links, xml_tree doc1 = Some t /\ regular t /\ tree keep_all t = Some root /\ get_relative_links t = Ok (Some links) /\
  links = [S_ "a.png"; S_ "b/c.png#x"] /\ check_links 100000 (kmz_create (fun p => Some p) (fun _ => Some (S_ "data")) doc1 links) = Ok (true, []).
Proof.
  exists (doc_of doc1). eexists. eexists. split; [vm_compute; reflexivity|]. split; [apply regularb_spec; vm_compute; reflexivity|]. split; [vm_compute; reflexivity|].
  split; [vm_compute; reflexivity|]. split; vm_compute; reflexivity.
Qed.
(** C85. A link with a path which is not normalized is stored under another name when it is packed, and then reported missing although the file is there;
    [normalize] is any normalization which removes the leading dot segment of this path. *)
Definition doc3 : str := S_ "<GroundOverlay><Icon><href>./a.png</href></Icon></GroundOverlay>".
Theorem packed_archive_refuted : forall normalize, normalize (S_ "./a.png") = Some (S_ "a.png") ->
  exists links, get_relative_links (doc_of doc3) = Ok (Some links) /\
    let a := kmz_create normalize (fun _ => Some (S_ "data")) doc3 links in
    a = [(S_ "doc.kml", doc3); (S_ "a.png", S_ "data")] /\ check_links 100000 a = Ok (false, [S_ "./a.png"]).
Proof.
  intros normalize H. exists [S_ "./a.png"]. split; [vm_compute; reflexivity|].
  assert (Ha : kmz_create normalize (fun _ => Some (S_ "data")) doc3 [S_ "./a.png"] = [(S_ "doc.kml", doc3); (S_ "a.png", S_ "data")]).
  { rewrite kmz_packed. unfold candidates. cbn [flat_map]. change (h_path (href_parse (S_ "./a.png"))) with (S_ "./a.png"). rewrite H. reflexivity. }
  cbn zeta. rewrite Ha. split; [reflexivity|]. vm_compute. reflexivity.
Qed.
Print Assumptions packed_archive_refuted.

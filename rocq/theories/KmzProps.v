(** Properties of KMZ archives and of fetching through them. *)
From Verif Require Import Common StringsModel PathModel UriModel UriProps KmzModel.

(** C68. Fetching through archives. *)

(** A file in the archive wins over a file beside the archive. *)
Theorem fetch_inside_first : forall parse resolve get_file get_kmz max n u a d,
  k_is_kmz u = true -> get_kmz (k_kmz_url u) = Some a -> k_path_in_kmz u <> [] ->
  read_file max a (k_path_in_kmz u) = Some d ->
  do_fetch parse resolve get_file get_kmz max (S n) u = Ok (Some (d, k_url u)).
Proof.
  intros parse resolve get_file get_kmz max n u a d H1 H2 H3 H4. cbn [do_fetch].
  rewrite H1, H2. unfold fetch_from_archive.
  destruct (k_path_in_kmz u) as [|c p]; [congruence|]. now rewrite H4.
Qed.
Print Assumptions fetch_inside_first.

(** A URL that is not in an archive is fetched as it is. *)
Theorem fetch_plain : forall parse resolve get_file get_kmz max n u, k_is_kmz u = false ->
  do_fetch parse resolve get_file get_kmz max (S n) u =
  Ok (option_map (fun d => (d, k_url u)) (get_file (k_url u))).
Proof.
  intros. cbn [do_fetch]. rewrite H. now destruct (get_file (k_url u)).
Qed.
Print Assumptions fetch_plain.

(** A file not in the archive is looked for beside the archive. *)
Theorem fetch_beside : forall parse resolve get_file get_kmz max n u a r,
  k_is_kmz u = true -> get_kmz (k_kmz_url u) = Some a -> k_path_in_kmz u <> [] ->
  read_file max a (k_path_in_kmz u) = None ->
  create_relative parse resolve (k_kmz_url u) (k_target u) = Some r -> k_is_kmz r = false ->
  do_fetch parse resolve get_file get_kmz max (S (S n)) u =
  Ok (option_map (fun d => (d, k_url r)) (get_file (k_url r))).
Proof.
  intros parse resolve get_file get_kmz max n u a r H1 H2 H3 H4 H5 H6.
  assert (Hr := fetch_plain parse resolve get_file get_kmz max n r H6).
  remember (S n) as m eqn:Em. cbn [do_fetch]. rewrite H1, H2. unfold fetch_from_archive.
  destruct (k_path_in_kmz u) as [|c p]; [congruence|]. rewrite H4, H5, Hr.
  cbn. destruct (get_file (k_url r)); reflexivity.
Qed.
Print Assumptions fetch_beside.

(** A URL of an archive as such is for the KML document in it, and the URL reported is that of the document. *)
Theorem fetch_archive_document : forall parse resolve get_file get_kmz max n u a d p,
  k_is_kmz u = true -> get_kmz (k_kmz_url u) = Some a -> k_path_in_kmz u = [] -> read_kml max a = Some (d, p) ->
  do_fetch parse resolve get_file get_kmz max (S n) u = Ok (Some (d, k_kmz_url u ++ S_"/" ++ p)).
Proof.
  intros parse resolve get_file get_kmz max n u a d p H1 H2 H3 H4. cbn [do_fetch]. rewrite H1, H2. unfold fetch_from_archive.
  rewrite H3, H4. reflexivity.
Qed.
Print Assumptions fetch_archive_document.

Lemma self_loop parse resolve get_file get_kmz max u a :
  k_is_kmz u = true -> get_kmz (k_kmz_url u) = Some a -> fetch_from_archive max a u = None ->
  create_relative parse resolve (k_kmz_url u) (k_target u) = Some u ->
  forall n, do_fetch parse resolve get_file get_kmz max n u = Fuel.
Proof.
  intros H1 H2 H3 H4. induction n as [|n IH]; [reflexivity|].
  cbn [do_fetch]. rewrite H1, H2, H3, H4, IH. reflexivity.
Qed.

(** Asking for a missing file of an existing archive by its absolute URL recurses for ever,
    whatever the base: the fallback resolves the same absolute target again. *)
Theorem fetch_missing_absolute_refuted :
  forall parse resolve get_file get_kmz max url u kmz p a base,
  parse url = Some u -> (forall b, resolve b url = Some url) ->
  kmz_split (fetchable u) = Some (kmz, p) -> p <> [] ->
  get_kmz kmz = Some a -> read_file max a p = None ->
  forall n, fetch_data_relative parse resolve get_file get_kmz max n base url = Fuel.
Proof.
  intros parse resolve get_file get_kmz max url u kmz p a base H1 H2 H3 H4 H5 H6 n.
  set (k := {| k_target := url; k_url := url; k_is_kmz := true; k_kmz_url := kmz; k_path_in_kmz := p |}).
  assert (Hc : forall b, create_relative parse resolve b url = Some k).
  { intros b. unfold create_relative. now rewrite H1, (H2 b), H1, H3. }
  unfold fetch_data_relative. rewrite Hc.
  rewrite (self_loop parse resolve get_file get_kmz max k a); auto.
  unfold fetch_from_archive. cbn [k_path_in_kmz k]. destruct p; [congruence|now rewrite H6].
Qed.
Print Assumptions fetch_missing_absolute_refuted.

(** The hypotheses hold, for a URL whose archive has only a document. *)
Example fetch_missing_absolute_example : forall n,
  let url := S_"http://h/a.kmz/b.kml" in
  let comps := {| u_scheme := S_"http"; u_user := []; u_host := S_"h"; u_port := [];
                  u_path := S_"a.kmz/b.kml"; u_query := None; u_fragment := None |} in
  fetch_absolute (fun s => if eqs s url then Some comps else None) (fun _ t => Some t) (fun _ => None)
    (fun s => if eqs s (S_"http://h/a.kmz") then Some [(S_"doc.kml", S_"<kml/>")] else None) 1000 n url = Fuel.
Proof.
  intros n url comps. unfold fetch_absolute.
  eapply (fetch_missing_absolute_refuted _ _ _ _ _ url comps (S_"http://h/a.kmz") (S_"b.kml")); try reflexivity.
  discriminate.
Qed.

(** C69. Archives give back what was put in. *)

Lemma locate_app a b p : locate (a ++ b) p = match locate a p with Some d => Some d | None => locate b p end.
Proof.
  unfold locate. induction a as [|[q d] a IH]; [reflexivity|]. cbn [app List.find fst].
  destruct (eqs q p); [reflexivity|exact IH].
Qed.
Lemma in_toc a p : is_in_toc p (map fst a) = match locate a p with Some _ => true | None => false end.
Proof.
  unfold locate, is_in_toc. induction a as [|[q d] a IH]; [reflexivity|]. cbn [map existsb List.find fst].
  destruct (eqs q p); [reflexivity|exact IH].
Qed.
Lemma read_file_spec max a p : read_file max a p =
  match locate a p with
  | Some d => if (N.of_nat (length d) =? 0)%N || (max <? N.of_nat (length d))%N then None else Some d
  | None => None
  end.
Proof. unfold read_file, get_entry. rewrite in_toc. now destruct (locate a p). Qed.

(** A new name with non-empty contents within the size limit is read back, and the other
    entries are as before. *)
Theorem archive_read_back : forall max a d p a', add_file a d p = Some a' -> ~ In p (map fst a) ->
  d <> [] -> (N.of_nat (length d) <= max)%N ->
  read_file max a' p = Some d /\ forall q, q <> p -> read_file max a' q = read_file max a q.
Proof.
  intros max a d p a' Ha Hn Hd Hl. unfold add_file in Ha.
  destruct (add_entry_accepts p); [|discriminate]. inversion Ha; subst; clear Ha.
  assert (Hnone : locate a p = None).
  { unfold locate. destruct (List.find _ a) as [[q e]|] eqn:E; [|reflexivity].
    apply find_some in E as [Hi He] || apply List.find_some in E as [Hi He].
    simpl in He. apply eqs_spec in He; subst. elim Hn. change p with (fst (p, e)). now apply in_map. }
  split.
  - rewrite read_file_spec, locate_app, Hnone. unfold locate. cbn [List.find fst]. rewrite eqs_refl. cbn [option_map snd].
    destruct (N.eqb_spec (N.of_nat (length d)) 0) as [E|E].
    + destruct d; [congruence|]. simpl in E. lia.
    + destruct (N.ltb_spec max (N.of_nat (length d))); [lia|reflexivity].
  - intros q Hq. rewrite !read_file_spec, locate_app. destruct (locate a q); [reflexivity|].
    unfold locate. cbn [List.find fst]. replace (eqs p q) with false; [reflexivity|].
    symmetry. apply eqs_neq. congruence.
Qed.
Print Assumptions archive_read_back.

Example archive_read_back_example : exists a', add_file [(S_"doc.kml", S_"k")] (S_"img") (S_"a/b.png") = Some a' /\
  read_file 100 a' (S_"a/b.png") = Some (S_"img").
Proof. eexists. split; reflexivity. Qed.

(** An empty file is accepted and listed, but cannot be read. *)
Theorem archive_empty_file_refuted : forall max a p a', add_file a [] p = Some a' -> ~ In p (map fst a) ->
  In p (map fst a') /\ read_file max a' p = None.
Proof.
  intros max a p a' Ha Hn. unfold add_file in Ha.
  destruct (add_entry_accepts p); [|discriminate]. inversion Ha; subst; clear Ha. split.
  - rewrite map_app, in_app_iff. right. now left.
  - rewrite read_file_spec, locate_app.
    assert (Hnone : locate a p = None).
    { unfold locate. destruct (List.find _ a) as [[q e]|] eqn:E; [|reflexivity].
      apply List.find_some in E as [Hi He].
      simpl in He. apply eqs_spec in He; subst. elim Hn. change p with (fst (p, e)). now apply in_map. }
    rewrite Hnone. unfold locate. cbn [List.find fst]. rewrite eqs_refl. reflexivity.
Qed.
Print Assumptions archive_empty_file_refuted.

(** A second file of the same name is accepted but never read. *)
Theorem archive_same_name_refuted : forall max a p d0 d a', read_file max a p = Some d0 ->
  add_file a d p = Some a' -> read_file max a' p = Some d0.
Proof.
  intros max a p d0 d a' Hr Ha. unfold add_file in Ha. destruct (add_entry_accepts p); [|discriminate].
  inversion Ha; subst. rewrite read_file_spec in *. rewrite locate_app. destruct (locate a p); [exact Hr|discriminate].
Qed.
Print Assumptions archive_same_name_refuted.

(** Specification: a slash separated path stays below its start when no prefix of its segments
    has more parent steps than other steps. *)
Fixpoint stays_below (depth : nat) (segs : list str) : bool :=
  match segs with
  | [] => true
  | s :: r =>
      if eqs s (S_"..") then match depth with 0 => false | S d => stays_below d r end
      else if eqs s (S_".") || eqs s [] then stays_below depth r
      else stays_below (S depth) r
  end.
Fixpoint segments (cur s : str) : list str :=
  match s with
  | [] => [cur]
  | c :: r => if aeq c "/"%char then cur :: segments [] r else segments (cur ++ [c]) r
  end.

(** The test of the name lets names through that leave the archive's directory, and refuses
    names that do not. *)
Theorem archive_name_test_refuted :
  (exists p, add_file [] (S_"x") p <> None /\ stays_below 0 (segments [] p) = false) /\
  (exists p, add_file [] (S_"x") p = None /\ stays_below 0 (segments [] p) = true /\ hd_error p <> Some "/"%char).
Proof.
  split.
  - exists (S_"a/../../b"). split; [discriminate|reflexivity].
  - exists (S_"..a/b"). repeat split; discriminate.
Qed.
Print Assumptions archive_name_test_refuted.

(** C70. Packing a document with its files. *)

(** Specification of the entries for the linked files: the normalized names in order, without
    repetitions, those starting with two dots, those not readable and those not accepted. *)
Fixpoint first_occurrences (seen l : list str) : list str :=
  match l with
  | [] => []
  | x :: r => if existsb (eqs x) seen then first_occurrences seen r else x :: first_occurrences (x :: seen) r
  end.
Definition opt_list {A} (o : option A) : list A := match o with Some x => [x] | None => [] end.
Definition candidates (normalize : str -> option str) (files : list str) : list str :=
  filter (fun n => negb (eqs (firstn 2 n) (S_"..")))
    (flat_map (fun f => opt_list (normalize (h_path (href_parse f)))) files).
Definition entries (read : str -> option str) (names : list str) : archive :=
  flat_map (fun n => if add_entry_accepts n then map (fun d => (n, d)) (opt_list (read n)) else []) names.

Lemma add_file_list_spec normalize read files : forall stored errs a,
  snd (add_file_list normalize read stored files errs a) =
  a ++ entries read (first_occurrences stored (candidates normalize files)).
Proof.
  induction files as [|f fs IH]; intros stored errs a.
  - simpl. now rewrite app_nil_r.
  - cbn [add_file_list]. unfold candidates in *. cbn [flat_map].
    destruct (normalize (h_path (href_parse f))) as [n|]; cbn [opt_list app].
    2:{ apply IH. }
    cbn [filter]. destruct (eqs (firstn 2 n) (S_"..")) eqn:Ed; cbn [negb].
    { apply IH. }
    cbn [first_occurrences]. destruct (existsb (eqs n) stored) eqn:Es.
    { apply IH. }
    unfold entries in *. cbn [flat_map].
    unfold add_file. destruct (read n) as [d|].
    2:{ rewrite IH. now destruct (add_entry_accepts n). }
    destruct (add_entry_accepts n); rewrite IH; cbn [opt_list map app].
    + now rewrite <- app_assoc.
    + reflexivity.
Qed.

(** C70. The number of errors reported: the references whose path cannot be normalized or starts with two dots, and the
    different names which cannot be read or not be stored. *)
Definition storable (read : str -> option str) (n : str) : bool := add_entry_accepts n && match read n with Some _ => true | None => false end.
Lemma filter_length {A} (f : A -> bool) l : (length (filter f l) <= length l)%nat.
Proof. induction l as [|x l IH]; cbn; [lia|]. destruct (f x); cbn; lia. Qed.
Lemma candidates_length normalize files : (length (candidates normalize files) <= length files)%nat.
Proof.
  unfold candidates. eapply Nat.le_trans; [apply filter_length|].
  induction files as [|f fs IH]; [cbn; lia|]. cbn [flat_map length]. rewrite app_length. destruct (normalize (h_path (href_parse f))); cbn [opt_list length]; lia.
Qed.
Theorem pack_error_count : forall normalize read files stored errs a,
  fst (fst (add_file_list normalize read stored files errs a)) =
  (errs + (length files - length (candidates normalize files)) +
    length (filter (fun n => negb (storable read n)) (first_occurrences stored (candidates normalize files))))%nat.
Proof.
  intros normalize read. induction files as [|f fs IH]; intros stored errs a.
  - cbn. lia.
  - pose proof (candidates_length normalize fs) as L. cbn [add_file_list]. unfold candidates in *. cbn [flat_map].
    destruct (normalize (h_path (href_parse f))) as [n|]; cbn [opt_list app length].
    2:{ rewrite IH. lia. }
    cbn [filter]. destruct (eqs (firstn 2 n) (S_"..")) eqn:Ed; cbn [negb].
    { rewrite IH. lia. }
    cbn [first_occurrences length]. destruct (existsb (eqs n) stored) eqn:Es.
    { rewrite IH. lia. }
    cbn [filter]. unfold storable at 1. unfold add_file. destruct (read n) as [d|].
    2:{ rewrite IH, andb_false_r. cbn [negb length]. lia. }
    destruct (add_entry_accepts n); rewrite IH; cbn [andb negb length]; lia.
Qed.
Print Assumptions pack_error_count.

(** A packed archive is the document and then the linked files, each at most once. *)
Theorem kmz_packed : forall normalize read kml links,
  kmz_create normalize read kml links =
  (S_"doc.kml", kml) :: entries read (first_occurrences [] (candidates normalize links)).
Proof.
  intros. unfold kmz_create. change (add_file [] kml (S_"doc.kml")) with (Some [(S_"doc.kml", kml)]).
  cbv beta iota. exact (add_file_list_spec normalize read links [] 0 [(S_"doc.kml", kml)]).
Qed.
Print Assumptions kmz_packed.

Lemma first_occurrences_nodup l : forall seen, NoDup (first_occurrences seen l) /\
  forall x, In x (first_occurrences seen l) -> ~ In x seen.
Proof.
  assert (Hex : forall x seen, existsb (eqs x) seen = true <-> In x seen).
  { intros x seen. rewrite existsb_exists. split.
    - intros (y & Hy & He). apply eqs_spec in He. now subst.
    - intros H. exists x. split; [exact H | apply eqs_refl]. }
  induction l as [|x l IH]; intros seen; cbn [first_occurrences].
  - split; [constructor|]. intros ? [].
  - destruct (existsb (eqs x) seen) eqn:E; [apply IH|].
    destruct (IH (x :: seen)) as [H1 H2]. split.
    + constructor; [|exact H1]. intros Hi. apply (H2 x Hi). now left.
    + intros y [<-|Hy].
      * intros Hi. apply Hex in Hi. congruence.
      * intros Hi. apply (H2 y Hy). now right.
Qed.

(** The linked files have distinct names, and each is the contents read for that name. *)
Theorem kmz_files_once : forall normalize read kml links,
  exists files, kmz_create normalize read kml links = (S_"doc.kml", kml) :: files /\
  NoDup (map fst files) /\ forall n d, In (n, d) files -> read n = Some d /\ firstn 2 n <> S_"..".
Proof.
  intros normalize read kml links. rewrite kmz_packed. eexists. split; [reflexivity|].
  destruct (first_occurrences_nodup (candidates normalize links) []) as [Hn _].
  assert (Hc : forall n, In n (first_occurrences [] (candidates normalize links)) -> firstn 2 n <> S_"..").
  { assert (forall l seen n, In n (first_occurrences seen l) -> In n l) as Hs.
    { induction l as [|y l IH]; intros seen n; cbn [first_occurrences]; [intros []|].
      destruct (existsb (eqs y) seen); [intros H; right; eauto|]. intros [->|H]; [now left | right; eauto]. }
    intros n Hi. apply Hs in Hi. unfold candidates in Hi. apply filter_In in Hi as [_ Hi].
    intros E. rewrite E in Hi. discriminate. }
  revert Hn Hc. generalize (first_occurrences [] (candidates normalize links)). intros l.
  induction l as [|n l IH]; intros Hn Hc.
  - split; [constructor|]. intros ? ? [].
  - inversion Hn as [|? ? Hni Hn']; subst. destruct IH as [IH1 IH2]; [exact Hn' | intros; apply Hc; now right |].
    unfold entries in *. cbn [flat_map]. split.
    + destruct (add_entry_accepts n); [|exact IH1]. destruct (read n) as [d|]; cbn [opt_list map app fst]; [|exact IH1].
      constructor; [|exact IH1]. intros Hi. apply Hni. apply in_map_iff in Hi as ([m e] & Hm & Hi).
      simpl in Hm; subst. apply in_flat_map in Hi as (k & Hk & Hi).
      destruct (add_entry_accepts k); [|destruct Hi]. destruct (read k); cbn in Hi; [|destruct Hi].
      destruct Hi as [Hi|[]]. inversion Hi; subst. exact Hk.
    + intros m e Hi. apply in_app_iff in Hi as [Hi|Hi]; [|now apply IH2].
      destruct (add_entry_accepts n); [|destruct Hi]. destruct (read n) as [d|] eqn:Er; cbn in Hi; [|destruct Hi].
      destruct Hi as [Hi|[]]. inversion Hi; subst. split; [exact Er|]. apply Hc. now left.
Qed.
Print Assumptions kmz_files_once.

(** The document of a packed archive is the document that was packed. *)
Theorem kmz_document : forall normalize read kml links max, kml <> [] -> (N.of_nat (length kml) <= max)%N ->
  read_kml max (kmz_create normalize read kml links) = Some (kml, S_"doc.kml").
Proof.
  intros normalize read kml links max Hk Hl. rewrite kmz_packed. unfold read_kml.
  set (r := entries _ _).
  match goal with |- context[find_first_of ?e ?l] => change (find_first_of e l) with (Some (S_"doc.kml")) end.
  cbv beta iota. rewrite read_file_spec. unfold locate. cbn [List.find fst]. rewrite eqs_refl. cbn [option_map snd].
  destruct (N.eqb_spec (N.of_nat (length kml)) 0) as [E0|_].
  - destruct kml; [congruence|]. simpl in E0. lia.
  - destruct (N.ltb_spec max (N.of_nat (length kml))); [lia|reflexivity].
Qed.
Print Assumptions kmz_document.

(** A linked file called doc.kml is packed too, but cannot be read: its name is taken. *)
Theorem kmz_doc_link_refuted : forall read kml d, read (S_"doc.kml") = Some d ->
  let a := kmz_create (fun s => Some s) read kml [S_"doc.kml"] in
  a = [(S_"doc.kml", kml); (S_"doc.kml", d)] /\ forall max x, read_file max a (S_"doc.kml") = Some x -> x = kml.
Proof.
  intros read kml d H a. assert (Ha : a = [(S_"doc.kml", kml); (S_"doc.kml", d)]).
  { unfold a. rewrite kmz_packed. unfold entries.
    change (first_occurrences [] (candidates (fun s => Some s) [S_"doc.kml"])) with [S_"doc.kml"].
    cbn [flat_map]. change (add_entry_accepts (S_"doc.kml")) with true. now rewrite H. }
  split; [exact Ha|]. intros max x. rewrite Ha, read_file_spec. unfold locate. cbn [List.find fst].
  rewrite eqs_refl. cbn [option_map snd]. destruct (_ || _); congruence.
Qed.
Print Assumptions kmz_doc_link_refuted.

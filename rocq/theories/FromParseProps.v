(** Texts and archives given to KmlFile::CreateFromParse (C101, C118, C122). *)
From Verif Require Import Common StrMap StringsModel PathModel KmzModel KmzProps UnzipModel UnzipProofs UnzipProofs2 UnzipProps ArchiveWriteProps.
From Verif Require Import XsdTables XsdModel XmlSpec XmlSpecProofs SerializerModel SerializerProofs CoordModel CoordProofs HandlerModel HandlerSpec HandlerProps.
From Verif Require Import DomTables DomModel DomSpec DomProofs DomProofs2 DomParsed DomProps IdProofs IdProps NamespaceModel NamespaceProps SaveProps NumberDomProps.
From Verif Require Import ArchiveSaveProps DeflateRfc DeflateProps KmzDiskProps FromParseModel.
Local Open Scope N_scope.

(** C118. The first four bytes decide, and no KML text is taken for an archive: data that begin as an archive are not a KML text, all others are
    read as one. *)
Theorem text_or_archive : forall E zst (z_init : zst) z_step s,
  (is_zip_data s = true -> SaveProps.load E s = Ok None) /\
  (is_zip_data s = false -> create_from_parse zst z_init z_step obj (SaveProps.load E) s = SaveProps.load E s) /\
  (forall o, SaveProps.load E s = Ok (Some o) -> create_from_parse zst z_init z_step obj (SaveProps.load E) s = Ok (Some o)).
Proof.
  assert (H : forall E s, is_zip_data s = true -> SaveProps.load E s = Ok None).
  { intros E s H. unfold is_zip_data in H. apply eqs_spec in H. destruct s as [|c0 [|c1 [|c2 [|c3 s]]]]; try discriminate. cbn [firstn] in H. injection H as -> -> -> ->.
    unfold SaveProps.load, without_declaration. change (prefixb (S_ "<?xml") ("P" :: "K" :: "003" :: "004" :: s)%char) with false. cbv iota.
    unfold read_kml, parse_text, xml_tree, xml_parse, xml_tokens. cbn [norm_eol aeq]. reflexivity. }
  intros E zst z_init z_step s. split; [apply H|]. unfold create_from_parse. split; [intros ->; reflexivity|]. intros o Ho. destruct (is_zip_data s) eqn:Z; [|exact Ho]. rewrite (H E s Z) in Ho. discriminate.
Qed.
Print Assumptions text_or_archive.
(** C122. Data that are an archive by the ZIP format and RFC 1951, and begin with an entry, are read as the first of its files whose name ends in .kml. *)
Theorem archive_parsed : forall A (parse : str -> res (option A)) d es comment, is_zip d es comment -> es <> [] -> is_zip_data d = true -> len d <= 2147483647 -> len comment <= 65513 -> last_record d comment ->
  (forall e, In e es -> len (e_name e) < 256 /\ ~ In "000"%char (e_name e) /\ ((e_method e = 0 /\ e_raw e = e_data e) \/ (e_method e = 8 /\ inflate (e_raw e) = Some (e_data e, [])))) ->
  create_from_parse zstream (Gathering []) z_step A parse d =
  match List.find (fun e => string_ends_with (e_name e) (S_ ".kml")) es with
  | Some e => if (len (e_data e) =? 0) || (2147483647 <? len (e_data e)) then Ok None else parse (e_data e)
  | None => Ok None
  end.
Proof.
  intros A parse d es comment H1 H2 Hz H3 H4 H5 H6. unfold create_from_parse, open_and_parse, zip_open. rewrite Hz.
  set (a := map (fun e => (e_name e, e_data e)) es).
  destruct (archive_rfc1951 d es comment max_uncompressed [] H1 H2 H3 H4 H5 H6) as [T _]. fold a in T. rewrite T. cbn [bind].
  assert (F : find_first_of (S_ ".kml") (map fst a) = option_map e_name (List.find (fun e => string_ends_with (e_name e) (S_ ".kml")) es)).
  { unfold find_first_of, a. clear. induction es as [|e es IH]; [reflexivity|]. cbn [map fst List.find]. destruct (string_ends_with (e_name e) (S_ ".kml")); [reflexivity|exact IH]. }
  rewrite F. destruct (List.find _ es) as [e|] eqn:Ef; cbn [option_map]; [|reflexivity].
  destruct (archive_rfc1951 d es comment max_uncompressed (e_name e) H1 H2 H3 H4 H5 H6) as [_ G]. fold a in G. rewrite G. cbn [bind].
  assert (R : KmzModel.read_file max_uncompressed a (e_name e) = if (len (e_data e) =? 0) || (2147483647 <? len (e_data e)) then None else Some (e_data e)).
  { unfold KmzModel.read_file, get_entry, KmzModel.locate.
    assert (L : List.find (fun x => eqs (fst x) (e_name e)) a = Some (e_name e, e_data e)).
    { revert Ef. unfold a. clear. induction es as [|x es IH]; [discriminate|]. cbn [map List.find fst]. destruct (string_ends_with (e_name x) (S_ ".kml")) eqn:E.
      - intros [= ->]. now rewrite eqs_refl.
      - intros H. destruct (eqs (e_name x) (e_name e)) eqn:Q; [|now apply IH]. apply eqs_spec in Q. apply List.find_some in H as [_ H]. congruence. }
    assert (I : is_in_toc (e_name e) (map fst a) = true).
    { unfold is_in_toc. apply existsb_exists. exists (e_name e). split; [|apply eqs_refl]. apply List.find_some in L as [L _]. apply (in_map fst) in L. exact L. }
    rewrite I, L. cbn [option_map snd]. reflexivity. }
  rewrite R. destruct (_ || _); reflexivity.
Qed.
Print Assumptions archive_parsed.
(** C101. Whatever the data, reading them does no harm beyond what the parser of texts does: it ends, unless an archive has an item with an
    overlong name, with nothing or with what the parser makes of some text that is not empty. *)
Theorem any_data_parsed : forall A (parse : str -> res (option A)) zst (z_init : zst) z_step, progresses z_step ->
  forall d, let r := create_from_parse zst z_init z_step A parse d in
  r = Ok None \/ r = parse d \/ (is_zip_data d = true /\ exists s, s <> [] /\ len s <= 2147483647 /\ r = parse s) \/ (is_zip_data d = true /\ overlong_name d /\ r = UB).
Proof.
  intros A parse zst z_init z_step Hz d r. subst r. unfold create_from_parse, open_and_parse, zip_open. destruct (is_zip_data d) eqn:Z; [|now right; left].
  destruct (damaged_open d) as [(t & -> & _)|[-> H]]; cbn [bind]; [|right; right; right; auto]. destruct (find_first_of _ t) as [p|]; [|now left].
  destruct (damaged_read zst z_init z_step Hz true d t max_uncompressed p) as (x & -> & Hx). cbn [bind]. destruct x as [s|]; [|now left]. destruct (Hx s eq_refl) as [_ Hs]. right. right. left. split; [reflexivity|].
  exists s. split; [intros ->; unfold len in Hs; cbn in Hs; lia|]. split; [unfold max_uncompressed in Hs; lia|reflexivity].
Qed.
Print Assumptions any_data_parsed.
(** C101. With the inflate of RFC 1951 and a parser that never does harm: no data do harm but an archive with an overlong name. *)
Theorem any_data_rfc1951 : forall A (parse : str -> res (option A)), (forall s, exists r, parse s = Ok r) ->
  forall d, ~ overlong_name d -> exists r, create_from_parse zstream (Gathering []) z_step A parse d = Ok r.
Proof.
  intros A parse Hp d Hd. destruct (any_data_parsed A parse zstream (Gathering []) z_step rfc1951_progresses d) as [H|[H|[(_ & s & _ & _ & H)|(_ & H & _)]]]; [eauto| | |contradiction].
  - destruct (Hp d) as (r & Hr). exists r. congruence.
  - destruct (Hp s) as (r & Hr). exists r. congruence.
Qed.
Print Assumptions any_data_rfc1951.
(** C101. Refuted with such a name, as for opening the archive. *)
Theorem overlong_parsed_refuted : exists d, forall A (parse : str -> res (option A)) zst (z_init : zst) z_step, create_from_parse zst z_init z_step A parse d = UB.
Proof. exists (zip_of [(repeat "a"%char (N.to_nat 1024), S_"x", 0)] []). intros. unfold create_from_parse, open_and_parse. set (d := zip_of _ _). assert (is_zip_data d = true) as -> by (vm_compute; reflexivity). assert (zip_open d = UB) as -> by (vm_compute; reflexivity). reflexivity. Qed.
Print Assumptions overlong_parsed_refuted.
(** C118, C122. Elements read from a text, packed with the files they link to, and the bytes of the archive given to CreateFromParse: the elements, with
    all numbers. *)
Theorem packed_element_parsed : forall s t o ty a ks,
  xml_tree (without_declaration s) = Some t -> regular t -> no_xmlns_xmlns t = true -> SaveProps.load E64 s = Ok (Some o) ->
  DomParsed.plain E64 Type_Unknown o = true -> ser o = IElem ty a ks -> readable (ser o) = true ->
  regular (XElem (tag_name ty) a (content lf (S_ "  ") 0 ks)) ->
  exists w, write_pretty o = Ok w /\
    forall compress normalize read links, (forall x, inflate (compress x) = Some (x, [])) ->
    let fs := kmz_create normalize read w links in let d := written_zip compress fs in
    len d < 88821760 -> N.of_nat (length fs) < 19280 -> (forall f, In f fs -> len (fst f) < 256 /\ ~ In "000"%char (fst f) /\ len (snd f) < 4294967296) -> len w <= 2147483647 ->
    create_from_parse zstream (Gathering []) z_step obj (SaveProps.load E64) d = Ok (Some o).
Proof.
  intros s t o ty a ks Ht Hr Hx Hl Hp Hs Hre Hreg. destruct (element_written s t o ty a ks Ht Hr Hx Hl Hp Hs Hre Hreg) as (w & W1 & W2). exists w. split; [exact W1|].
  intros compress normalize read links Hc fs d Hlen Hn Hf Hm. destruct (W2 zstream (Gathering []) z_step makes compress normalize read links max_uncompressed rfc1951_inflates Hc Hlen Hn Hf Hm) as (toc & T1 & T2 & T3 & T4).
  unfold create_from_parse, open_and_parse, zip_open. assert (is_zip_data d = true) as ->. { apply zip_starts. unfold fs. rewrite kmz_packed. discriminate. }
  unfold d, fs. rewrite T1. cbn [bind]. rewrite T2, T3. cbn [bind]. exact T4.
Qed.
Print Assumptions packed_element_parsed.
(** The archive of another program, and an archive without entries, which is not taken for one. *)
Example from_parse_sample : create_from_parse zstream (Gathering []) z_step str (fun s => Ok (Some s)) other_zip = Ok (Some (S_ "<kml><Document><Placemark/><Placemark/><Placemark/></Document></kml>")) /\
  create_from_parse zstream (Gathering []) z_step obj (SaveProps.load E64) (written_zip deflate_stored [(S_ "a.png", S_ "PNG"); (S_ "x/b.kml", sample64); (S_ "c.kml", S_ "bad")]) = SaveProps.load E64 sample64 /\
  create_from_parse zstream (Gathering []) z_step obj (SaveProps.load E64) (written_zip deflate_stored [(S_ "c.kml", S_ "bad"); (S_ "x/b.kml", sample64)]) = Ok None /\
  create_from_parse zstream (Gathering []) z_step obj (SaveProps.load E64) (written_zip deflate_stored []) = Ok None.
Proof. repeat split; vm_compute; reflexivity. Qed.

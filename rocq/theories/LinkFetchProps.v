(** Links followed through the caches, with the URIs as RFC 3986 has them. *)
From Verif Require Import Common StrMap StringsModel PathModel UriModel UriProps UriRfc UriRfcProofs UriTextModel UriTextProps
  KmzModel KmzProps LinkCheckProps NetCacheModel XsdTables DomTables DomModel FindModel KmlCacheModel KmlCacheProps.

(** Specification: a web address with a plain host and a path, and no query. *)
Definition address (u : str) : Prop := exists s a l, good_scheme s = true /\ plain_host a /\ Forall segment l /\ u = web s a l.

Lemma address_parse u : address u -> exists p, uri_parse u = Some p /\ fetchable p = u.
Proof.
  intros (s & a & l & Hs & Hh & Hl & ->). pose proof (web_parse s a l Hs (plain_good _ Hh) Hl) as P. exists (components (web_parts s a l)).
  unfold uri_parse. rewrite (parse_text _ _ P), P. split; [reflexivity|]. now apply web_fetchable.
Qed.
Lemma find_before p x n : find p x = Some n -> ~ occurs p (firstn n x) \/ p = [].
Proof.
  intros E. destruct p as [|c p]; [now right|left]. intros (u & v & Eu). pose proof (find_some _ _ _ E) as [Hl _].
  assert (Hn : length (firstn n x) = n) by (rewrite firstn_length; cbn [length] in Hl; lia). rewrite Eu, !app_length in Hn. cbn [length] in Hn.
  assert (Hf : prefixb (c :: p) (skipn (length u) x) = false) by (apply (find_first _ _ _ E); lia).
  rewrite <- (firstn_skipn n x), Eu, <- !app_assoc, skipn_app, skipn_all, Nat.sub_diag in Hf. cbn [app skipn] in Hf. change (c :: p ++ v ++ skipn n x) with ((c :: p) ++ v ++ skipn n x) in Hf.
  rewrite prefixb_app in Hf. discriminate.
Qed.
Lemma kmz_split_some x k q : kmz_split x = Some (k, q) -> exists z, k = z ++ S_ ".kmz" /\ ~ occurs (S_ ".kmz") z.
Proof.
  intros H. destruct (find (S_ ".kmz") x) as [n|] eqn:E; [|unfold kmz_split in H; rewrite E in H; discriminate].
  pose proof (find_some _ _ _ E) as [_ Ex]. destruct (find_before _ _ _ E) as [Hz|Hz]; [|discriminate].
  rewrite <- Ex, (UriProps.kmz_at _ _ Hz) in H. injection H as <- _. eauto.
Qed.
Lemma relative_inv b t u : create_relative uri_parse resolve_uri b t = Some u -> exists p, uri_parse (k_url u) = Some p /\
  match kmz_split (fetchable p) with
  | Some (k, q) => k_is_kmz u = true /\ k_kmz_url u = k /\ k_path_in_kmz u = q
  | None => k_is_kmz u = false
  end.
Proof.
  unfold create_relative. destruct (uri_parse t); [|discriminate]. destruct (resolve_uri b t) as [url|]; [|discriminate]. destruct (uri_parse url) as [p|] eqn:E; [|discriminate].
  intros H. exists p. destruct (kmz_split (fetchable p)) as [[k q]|]; injection H as <-; cbn; auto.
Qed.

(** A link up [k] directories and then down [r], in the file [name] in [dirs]. *)
Definition up_down (k : nat) (r : list str) : str := join (S_ "/") (repeat (S_ "..") k ++ r).
Definition good_link (k : nat) (r : list str) : Prop := Forall segment r /\ Forall no_dot r /\ r <> [] /\ (k = 0 -> hd [] r <> [] /\ ~ In ":"%char (hd [] r)).
Definition good_place (s a : str) (dirs : list str) (name : str) : Prop :=
  good_scheme s = true /\ plain_host a /\ Forall segment dirs /\ Forall no_dot dirs /\ segment name.
Lemma relative_web s a dirs name k r : good_place s a dirs name -> good_link k r -> let url := web s a (firstn (length dirs - k) dirs ++ r) in
  address url /\ create_relative uri_parse resolve_uri (web s a (dirs ++ [name])) (up_down k r) =
  Some (match kmz_split url with
        | Some (z, p) => {| k_target := up_down k r; k_url := url; k_is_kmz := true; k_kmz_url := z; k_path_in_kmz := p |}
        | None => {| k_target := up_down k r; k_url := url; k_is_kmz := false; k_kmz_url := []; k_path_in_kmz := [] |}
        end).
Proof.
  intros (Hs & Hh & D1 & D2 & Hn) (R1 & R2 & R3 & R4) url. assert (Ha := plain_good _ Hh).
  assert (A : address url). { exists s, a, (firstn (length dirs - k) dirs ++ r). repeat split; auto. apply Forall_app. split; auto. rewrite Forall_forall in *. intros x Hx. apply D1. rewrite <- (firstn_skipn (length dirs - k) dirs). apply in_or_app. now left. }
  split; [exact A|]. destruct (address_parse _ A) as (p & Hp & Fp).
  assert (P : exists q, uri_parse (up_down k r) = Some q).
  { assert (Su : Forall segment (repeat (S_ "..") k ++ r)) by (apply Forall_app; split; [apply Forall_forall; intros x Hx; apply repeat_spec in Hx; subst; reflexivity|auto]).
    assert (Nu : repeat (S_ "..") k ++ r <> []) by (intros E; destruct (app_eq_nil _ _ E) as [_ E2]; exact (R3 E2)).
    assert (Hu : hd [] (repeat (S_ "..") k ++ r) <> [] /\ ~ In ":"%char (hd [] (repeat (S_ "..") k ++ r))).
    { destruct k; [apply R4; reflexivity|]. cbn. split; [discriminate|]. intros [H|[H|[]]]; discriminate. }
    destruct Hu as [H1 H2]. pose proof (rel_parse _ Nu Su H1 H2) as Q. eexists. unfold uri_parse, up_down. rewrite (parse_text _ _ Q), Q. reflexivity. }
  destruct P as [q Hq]. unfold create_relative. rewrite Hq. unfold up_down at 1. rewrite (link_resolved s a dirs name k r); auto. fold url. rewrite Hp, Fp. destruct (kmz_split url) as [[]|]; reflexivity.
Qed.
Lemma relative_address b s a l : (exists c, rfc_parse b = Some c /\ p_scheme c <> None) -> good_scheme s = true -> plain_host a -> Forall segment l -> Forall no_dot l -> l <> [] ->
  create_relative uri_parse resolve_uri b (web s a l) =
  Some (match kmz_split (web s a l) with
        | Some (z, p) => {| k_target := web s a l; k_url := web s a l; k_is_kmz := true; k_kmz_url := z; k_path_in_kmz := p |}
        | None => {| k_target := web s a l; k_url := web s a l; k_is_kmz := false; k_kmz_url := []; k_path_in_kmz := [] |}
        end).
Proof.
  intros (c & Hb & Hc) Hs Hh Hl Nl Ll. assert (A : address (web s a l)) by (exists s, a, l; auto). destruct (address_parse _ A) as (p & Hp & Fp).
  pose proof (web_parse s a l Hs (plain_good _ Hh) Hl) as P. unfold create_relative. rewrite Hp.
  rewrite (absolute_link b (web s a l) c (web_parts s a l) Hb Hc P); [|discriminate|].
  - rewrite Hp, Fp. destruct (kmz_split (web s a l)) as [[]|]; reflexivity.
  - unfold web_parts. cbn [p_path UriRfc.segments]. rewrite aeq_refl. constructor; [split; discriminate|]. rewrite segments_join; auto. eapply Forall_impl; [|exact Hl]. apply segment_no_slash.
Qed.

Section Fetching.
  Variable fetch_url : str -> option str.
  Variable open_kmz : str -> option archive.
  Variable file : Type.
  Variable make_file : str -> str -> option file.
  Variable max : N.
  Variable max_size : N.
  Local Notation relative := (create_relative uri_parse resolve_uri).
  Local Notation reached := (reached uri_parse resolve_uri fetch_url open_kmz file make_file max max_size).
  Local Notation kml_of := (fetch_kml uri_parse resolve_uri fetch_url open_kmz file make_file max max_size).
  Local Notation content_at := (content_at fetch_url open_kmz max).
  Local Notation archive_at := (KmlCacheProps.kmz_at fetch_url open_kmz).

  Lemma address_split b t u : relative b t = Some u -> address (k_url u) -> split_at uri_parse resolve_uri fetch_url open_kmz max u.
  Proof.
    intros Hu Ha b' t' w a d p Hw Hk Hp Hz Hr Ek. destruct (address_parse _ Ha) as (y & Hy & Fy). destruct (relative_inv _ _ _ Hu) as (y' & Hy' & HM).
    rewrite Hy in Hy'. injection Hy' as <-. destruct (relative_inv _ _ _ Hw) as (v & _ & HW). destruct (kmz_split (fetchable v)) as [[k q]|] eqn:Ev; [|congruence].
    destruct HW as (_ & Hkw & _). destruct (kmz_split_some _ _ _ Ev) as (z & Ez & Nz). rewrite Fy, Ek, Hkw, Ez, <- app_assoc in HM.
    change (S_ ".kmz" ++ S_ "/" ++ p) with (S_ ".kmz/" ++ p) in HM. rewrite (kmz_split_path z p Nz) in HM. rewrite Hkw, Ez. exact HM.
  Qed.

(** C99. A reference to a web address, from wherever it is made and whatever was fetched before, gives the file made of what is at that
      address: no assumption about how addresses are put together and taken apart is left. *)
Theorem address_fetched n b t s u d : reached s -> relative b t = Some u -> address (k_url u) -> content_at u = Some d ->
    exists x s' k, kml_of (S n) b t s = Ok (x, s') /\ option_map snd x = make_file d k /\ place_of fetch_url open_kmz max u k.
  Proof. intros Hr Hu Ha Hc. eapply content_at_split; eauto using address_split. Qed.
(** C99. A network link in a file on the web, up some directories and down others, gives the file made of what is at the URL that RFC 3986 says,
      whatever was fetched before. *)
Theorem link_followed n s a dirs name k r o st d : reached st -> good_place s a dirs name -> good_link k r ->
    get_link_parent_href o = Some (up_down k r) -> let url := web s a (firstn (length dirs - k) dirs ++ r) in
    ~ occurs (S_ ".kmz") url -> fetch_url url = Some d ->
    exists x st', fetch_link uri_parse resolve_uri fetch_url open_kmz file make_file max max_size (S n) (web s a (dirs ++ [name])) o st = Ok (x, st') /\
      option_map snd x = make_file d url.
  Proof.
    intros Hr Hp Hl Ho url Nk Hd. destruct (relative_web s a dirs name k r Hp Hl) as [A R]. fold url in A, R. apply kmz_split_none in Nk. rewrite Nk in R.
    destruct (address_fetched n _ _ st _ d Hr R A Hd) as (x & st' & u & Hx & Hf & Hu). exists x, st'. unfold fetch_link. rewrite Ho. split; [exact Hx|].
    destruct Hu as [->|(? & ? & ? & Hz & _)]; [exact Hf|discriminate].
  Qed.
(** C99. A network link to an archive gives the file made of the document of that archive; a link into an archive gives the file made of
      the file of that name in it. *)
Theorem link_to_archive n s a dirs name k r o st c d p : reached st -> good_place s a dirs name -> good_link k r ->
    get_link_parent_href o = Some (up_down k r) -> forall z, web s a (firstn (length dirs - k) dirs ++ r) = z ++ S_ ".kmz" -> ~ occurs (S_ ".kmz") z ->
    archive_at (z ++ S_ ".kmz") = Some c -> read_kml max c = Some (d, p) ->
    exists x st' u, fetch_link uri_parse resolve_uri fetch_url open_kmz file make_file max max_size (S n) (web s a (dirs ++ [name])) o st = Ok (x, st') /\
      option_map snd x = make_file d u /\ (u = z ++ S_ ".kmz" \/ u = z ++ S_ ".kmz/" ++ p).
  Proof.
    intros Hr Hp Hl Ho z Ez Nz Hc Hd. destruct (relative_web s a dirs name k r Hp Hl) as [A R]. rewrite Ez in A, R. rewrite (kmz_split_archive _ Nz) in R.
    destruct (address_fetched n _ _ st _ d Hr R A) as (x & st' & u & Hx & Hf & Hu).
    { unfold KmlCacheProps.content_at. cbn [k_is_kmz k_kmz_url k_path_in_kmz]. now rewrite Hc, Hd. }
    exists x, st', u. unfold fetch_link. rewrite Ho. split; [exact Hx|]. split; [exact Hf|]. destruct Hu as [->|(c' & d' & p' & _ & _ & Hc' & Hd' & ->)]; [now left|right].
    cbn [k_kmz_url] in *. rewrite Hc in Hc'. injection Hc' as <-. rewrite Hd in Hd'. injection Hd' as _ <-. now rewrite <- app_assoc.
  Qed.
Theorem link_into_archive n s a dirs name k r o st c d : reached st -> good_place s a dirs name -> good_link k r ->
    get_link_parent_href o = Some (up_down k r) -> forall z p, web s a (firstn (length dirs - k) dirs ++ r) = z ++ S_ ".kmz/" ++ p -> ~ occurs (S_ ".kmz") z -> p <> [] ->
    archive_at (z ++ S_ ".kmz") = Some c -> read_file max c p = Some d ->
    exists x st', fetch_link uri_parse resolve_uri fetch_url open_kmz file make_file max max_size (S n) (web s a (dirs ++ [name])) o st = Ok (x, st') /\
      option_map snd x = make_file d (z ++ S_ ".kmz/" ++ p).
  Proof.
    intros Hr Hp Hl Ho z p Ez Nz Np Hc Hd. destruct (relative_web s a dirs name k r Hp Hl) as [A R]. rewrite Ez in A, R. rewrite (kmz_split_path _ _ Nz) in R.
    destruct (address_fetched n _ _ st _ d Hr R A) as (x & st' & u & Hx & Hf & Hu).
    { unfold KmlCacheProps.content_at. cbn [k_is_kmz k_kmz_url k_path_in_kmz]. rewrite Hc. destruct p; [congruence|exact Hd]. }
    exists x, st'. unfold fetch_link. rewrite Ho. split; [exact Hx|]. destruct Hu as [->|(? & ? & ? & _ & Hn & _)]; [exact Hf|cbn in Hn; congruence].
  Qed.
(** C98. The icon of an overlay is what is at the URL that RFC 3986 says; in a file in an archive, it is the file in the archive at the
      path that is meant, whatever was fetched before. *)
Theorem icon_followed n s a dirs name k r o st : reached st -> good_place s a dirs name -> good_link k r ->
    get_icon_parent_href o = Some (up_down k r) -> let url := web s a (firstn (length dirs - k) dirs ++ r) in ~ occurs (S_ ".kmz") url ->
    (do x <- fetch_icon uri_parse resolve_uri fetch_url open_kmz file max max_size (S n) (web s a (dirs ++ [name])) o st; Ok (fst x)) = Ok (fetch_url url).
  Proof.
    intros Hr Hp Hl Ho url Nk. rewrite (cached_icon_same _ _ _ _ _ make_file) by exact Hr. rewrite Ho. unfold fetch_data_relative.
    destruct (relative_web s a dirs name k r Hp Hl) as [A R]. fold url in A, R. apply kmz_split_none in Nk. rewrite Nk in R. rewrite R. cbn. destruct (fetch_url url); reflexivity.
  Qed.
Theorem icon_in_archive n s a dirs name k r o st c d : reached st -> good_place s a dirs name -> good_link k r ->
    get_icon_parent_href o = Some (up_down k r) -> forall z p, web s a (firstn (length dirs - k) dirs ++ r) = z ++ S_ ".kmz/" ++ p -> ~ occurs (S_ ".kmz") z -> p <> [] ->
    archive_at (z ++ S_ ".kmz") = Some c -> read_file max c p = Some d ->
    (do x <- fetch_icon uri_parse resolve_uri fetch_url open_kmz file max max_size (S n) (web s a (dirs ++ [name])) o st; Ok (fst x)) = Ok (Some d).
  Proof.
    intros Hr Hp Hl Ho z p Ez Nz Np Hc Hd. rewrite (cached_icon_same _ _ _ _ _ make_file) by exact Hr. rewrite Ho. unfold fetch_data_relative.
    destruct (relative_web s a dirs name k r Hp Hl) as [A R]. rewrite Ez in A, R. rewrite (kmz_split_path _ _ Nz) in R. rewrite R. cbn [do_fetch k_is_kmz k_kmz_url]. rewrite Hc.
    unfold fetch_from_archive. cbn [k_path_in_kmz]. destruct p; [congruence|]. rewrite Hd. reflexivity.
  Qed.
(** C99. A URL on the web, fetched as such or linked to from any file on the web, gives the file made of what is there, whatever was fetched before;
      the URL of an archive made of a document and the files it links to gives the file made of that document. *)
Theorem url_fetched n b s a l st d : reached st -> (exists c, rfc_parse b = Some c /\ p_scheme c <> None) ->
    good_scheme s = true -> plain_host a -> Forall segment l -> Forall no_dot l -> l <> [] -> ~ occurs (S_ ".kmz") (web s a l) -> fetch_url (web s a l) = Some d ->
    exists x st', kml_of (S n) b (web s a l) st = Ok (x, st') /\ option_map snd x = make_file d (web s a l).
  Proof.
    intros Hr Hb Hs Hh Hl Nl Ll Nk Hd. assert (A : address (web s a l)) by (exists s, a, l; auto). pose proof (relative_address b s a l Hb Hs Hh Hl Nl Ll) as R.
    apply kmz_split_none in Nk. rewrite Nk in R. destruct (address_fetched n _ _ st _ d Hr R A Hd) as (x & st' & u & Hx & Hf & Hu). exists x, st'. split; [exact Hx|].
    destruct Hu as [->|(? & ? & ? & Hz & _)]; [exact Hf|discriminate].
  Qed.
Theorem packed_document n b s a l st normalize read kml links : reached st -> (exists c, rfc_parse b = Some c /\ p_scheme c <> None) ->
    good_scheme s = true -> plain_host a -> Forall segment l -> Forall no_dot l -> l <> [] -> forall z, web s a l = z ++ S_ ".kmz" -> ~ occurs (S_ ".kmz") z ->
    archive_at (z ++ S_ ".kmz") = Some (kmz_create normalize read kml links) -> kml <> [] -> (N.of_nat (length kml) <= max)%N ->
    exists x st' u, kml_of (S n) b (z ++ S_ ".kmz") st = Ok (x, st') /\ option_map snd x = make_file kml u /\ (u = z ++ S_ ".kmz" \/ u = z ++ S_ ".kmz/doc.kml").
  Proof.
    intros Hr Hb Hs Hh Hl Nl Ll z Ez Nz Hc Hk Hm. assert (A : address (web s a l)) by (exists s, a, l; auto). pose proof (relative_address b s a l Hb Hs Hh Hl Nl Ll) as R.
    rewrite Ez in A, R. rewrite (kmz_split_archive _ Nz) in R. pose proof (kmz_document normalize read kml links max Hk Hm) as HD.
    destruct (address_fetched n _ _ st _ kml Hr R A) as (x & st' & u & Hx & Hf & Hu).
    { unfold KmlCacheProps.content_at. cbn [k_is_kmz k_kmz_url k_path_in_kmz]. now rewrite Hc, HD. }
    exists x, st', u. split; [exact Hx|]. split; [exact Hf|]. destruct Hu as [->|(c' & d' & p' & _ & _ & Hc' & Hd' & ->)]; [now left|right].
    cbn [k_kmz_url] in *. rewrite Hc in Hc'. injection Hc' as <-. rewrite HD in Hd'. injection Hd' as _ <-. now rewrite <- app_assoc.
  Qed.
(** C98. In an archive made of a document and the files it links to, put on the web, the icon of an overlay in that document is the file it
      was on the disk, whatever was fetched before. *)
Theorem packed_icon n s a arch r o st normalize read kml links d :
    reached st -> good_place s a arch (S_ "doc.kml") -> good_link 0 r -> arch <> [] -> forall z, web s a arch = z ++ S_ ".kmz" -> ~ occurs (S_ ".kmz") z ->
    archive_at (z ++ S_ ".kmz") = Some (kmz_create normalize read kml links) ->
    let p := join (S_ "/") r in
    get_icon_parent_href o = Some p -> In p links -> ~ occurs (S_ "://") p -> normalize p = Some p -> add_entry_accepts p = true -> firstn 2 p <> S_ ".." ->
    p <> S_ "doc.kml" -> read p = Some d -> d <> [] -> (N.of_nat (length d) <= max)%N ->
    (do x <- fetch_icon uri_parse resolve_uri fetch_url open_kmz file max max_size (S n) (z ++ S_ ".kmz/doc.kml") o st; Ok (fst x)) = Ok (Some d).
  Proof.
    intros Hr Hp Hl Na z Ez Nz Hc p Ho Hi Ho2 Hn Hacc Hdd Hnd Hd Hd0 Hdm. assert (W : forall l, l <> [] -> web s a (arch ++ l) = z ++ S_ ".kmz/" ++ join (S_ "/") l).
    { intros l Hll. change (S_ ".kmz/" ++ join (S_ "/") l) with (S_ ".kmz" ++ S_ "/" ++ join (S_ "/") l). rewrite app_assoc, <- Ez. unfold web. rewrite <- !app_assoc. do 4 f_equal. destruct l as [|x l]; [congruence|]. rewrite join_app.
      destruct arch as [|y k]; [congruence|]. now rewrite <- app_assoc. }
    assert (Hpn : p <> []). { destruct Hl as (_ & _ & R3 & R4). destruct (R4 eq_refl) as [R _]. destruct r as [|[|c x] [|y r]]; cbn in *; congruence. }
    assert (Hh : h_path (href_parse p) = p).
    { rewrite href_relative_path; [reflexivity| |auto]. destruct Hl as (R1 & _). apply (escaped_notin _ _ _ (segments_valid _ R1)); [reflexivity|discriminate|reflexivity]. }
    pose proof (icon_in_archive n s a arch (S_ "doc.kml") 0 r o st (kmz_create normalize read kml links) d Hr Hp Hl Ho z p) as HI. rewrite Nat.sub_0_r, firstn_all in HI.
    rewrite !W in HI; [|discriminate|apply Hl]. apply HI; auto. clear HI.
    rewrite read_file_spec. destruct (kmz_files_once normalize read kml links) as (files & Hf & Hnod & _). rewrite Hf. unfold locate. cbn [List.find fst].
    replace (eqs (S_ "doc.kml") p) with false by (symmetry; apply eqs_neq; congruence). fold (locate files p).
    rewrite (locate_in files p d Hnod).
    - destruct d; [congruence|]. cbn [length] in *. destruct (N.eqb_spec (N.of_nat (S (length d))) 0) as [E|_]; [lia|]. destruct (N.ltb_spec max (N.of_nat (S (length d)))); [lia|reflexivity].
    - rewrite kmz_packed in Hf. injection Hf as <-. unfold entries. apply in_flat_map. exists p. split.
      + destruct (in_first_occurrences (candidates normalize links) [] p) as [[]|H]; [|exact H]. unfold candidates. apply filter_In. split.
        * apply in_flat_map. exists p. split; [exact Hi|]. rewrite Hh, Hn. now left.
        * destruct (eqs (firstn 2 p) (S_ "..")) eqn:E; [|reflexivity]. apply eqs_spec in E. contradiction.
      + rewrite Hacc, Hd. now left.
  Qed.
End Fetching.

(** ** A small network *)
Module SmallWeb.
  Definition net (u : str) : option str :=
    if eqs u (S_ "http://h/a/x.kmz") then Some (S_ "A") else if eqs u (S_ "http://h/a/b/d.kml") then Some (S_ "D") else None.
  Definition unzip (d : str) : option archive :=
    if eqs d (S_ "A") then Some (kmz_create (fun p => Some p) (fun p => if eqs p (S_ "img/i.png") then Some (S_ "picture") else None) (S_ "<kml/>") [S_ "img/i.png"]) else None.
  Definition mk (d k : str) : option (str * str) := Some (d, k).
  Definition fresh := no_caches (str * str).
  Definition follow u t := fetch_kml uri_parse resolve_uri net unzip (str * str) mk 1000 10 5 u t fresh.
  Definition follow_data u t := fetch_data uri_parse resolve_uri net unzip (str * str) 1000 10 5 u t fresh.
End SmallWeb.
Import SmallWeb.
Example small_place : good_place (S_ "http") (S_ "h") [S_ "a"; S_ "x.kmz"] (S_ "doc.kml") /\ good_link 0 [S_ "img"; S_ "i.png"] /\ good_link 2 [S_ "b"; S_ "d.kml"] /\
  web (S_ "http") (S_ "h") [S_ "a"; S_ "x.kmz"] = S_ "http://h/a/x" ++ S_ ".kmz" /\ ~ occurs (S_ ".kmz") (S_ "http://h/a/x") /\
  up_down 2 [S_ "b"; S_ "d.kml"] = S_ "../../b/d.kml".
Proof.
  split; [|split; [|split; [|split; [reflexivity|split; [|reflexivity]]]]].
  - split; [reflexivity|]. split; [exists (S_ "h"), None; repeat split; discriminate|]. repeat split; repeat constructor; discriminate.
  - split; [repeat constructor|]. split; [repeat constructor; discriminate|]. split; [discriminate|]. intros _. split; [discriminate|]. cbn. intuition discriminate.
  - split; [repeat constructor|]. split; [repeat constructor; discriminate|]. split; discriminate.
  - now apply find_none.
Qed.
(** From the document of the archive: its picture, and a file up two levels; the archive itself from a file beside it. *)
Example small_follow : exists s1 s2 s3,
  follow_data (S_ "http://h/a/x.kmz/doc.kml") (S_ "img/i.png") = Ok (Some (S_ "picture"), s1) /\
  follow (S_ "http://h/a/x.kmz/doc.kml") (S_ "../b/d.kml") = Ok (Some (0%N, (S_ "D", S_ "http://h/a/b/d.kml")), s2) /\
  follow (S_ "http://h/a/b/d.kml") (S_ "../x.kmz") = Ok (Some (0%N, (S_ "<kml/>", S_ "http://h/a/x.kmz/doc.kml")), s3).
Proof. do 3 eexists. split; [|split]; vm_compute; reflexivity. Qed.

Print Assumptions address_fetched.
Print Assumptions link_followed.
Print Assumptions link_to_archive.
Print Assumptions link_into_archive.
Print Assumptions icon_followed.
Print Assumptions icon_in_archive.
Print Assumptions url_fetched.
Print Assumptions packed_document.
Print Assumptions packed_icon.

(** Properties of href parsing and KMZ URL splitting. *)
From Verif Require Import Common UriModel.

(** A byte string without self overlap is found where it was put, if it does not occur before. *)
Lemma occurs_cons p c s : occurs p s -> occurs p (c :: s).
Proof. intros (u & v & ->). now exists (c :: u), v. Qed.

Lemma find_app_gen p s : (forall u v w, u ++ v = p -> u <> [] -> v <> [] -> ~ (exists z, v ++ w = p ++ z)) ->
  p <> [] -> forall a, ~ occurs p a -> find p (a ++ p ++ s) = Some (length a).
Proof.
  intros Hb Hp. induction a as [|c a IH]; intros Ha.
  - simpl. destruct (p ++ s) eqn:E.
    + destruct p; [congruence|discriminate].
    + rewrite <- E. simpl. rewrite E. cbn [find]. rewrite <- E, prefixb_app. reflexivity.
  - assert (H : prefixb p ((c :: a) ++ p ++ s) = false).
    { apply prefixb_false. intros t Ht.
      destruct (Nat.le_gt_cases (length p) (length (c :: a))) as [Hl|Hl].
      - apply Ha. exists [], (skipn (length p) (c :: a)).
        rewrite <- (firstn_skipn (length p) (c :: a)) at 1. simpl app. f_equal.
        assert (firstn (length p) ((c :: a) ++ p ++ s) = p).
        { rewrite Ht, firstn_app, Nat.sub_diag, firstn_all. simpl. apply app_nil_r. }
        rewrite firstn_app in H. replace (length p - length (c :: a)) with 0 in H by lia.
        simpl firstn at 2 in H. rewrite app_nil_r in H. exact H.
      - apply (Hb (c :: a) (skipn (length (c :: a)) p) t).
        + rewrite <- (firstn_skipn (length (c :: a)) p) at 2. f_equal.
          assert (firstn (length (c :: a)) ((c :: a) ++ p ++ s) = c :: a).
          { rewrite firstn_app, Nat.sub_diag, firstn_all. simpl. now rewrite app_nil_r. }
          rewrite Ht, firstn_app in H. replace (length (c :: a) - length p) with 0 in H by lia.
          simpl firstn at 2 in H. rewrite app_nil_r in H. symmetry. exact H.
        + discriminate.
        + intros E. assert (length (skipn (length (c :: a)) p) = 0) by now rewrite E.
          rewrite skipn_length in H. lia.
        + exists s.
          assert (skipn (length (c :: a)) ((c :: a) ++ p ++ s) = p ++ s).
          { now rewrite skipn_app, Nat.sub_diag, skipn_all. }
          rewrite Ht, skipn_app in H. replace (length (c :: a) - length p) with 0 in H by lia.
          exact H. }
    cbn [app find] in *. rewrite H, IH; [reflexivity|].
    intros Ho. apply Ha. now apply occurs_cons.
Qed.

Lemma border_kmz u v w : u ++ v = S_".kmz" -> u <> [] -> v <> [] -> ~ (exists z, v ++ w = S_".kmz" ++ z).
Proof.
  intros E Hu Hv [z Hz].
  destruct u as [|c u]; [congruence|]. injection E as _ E.
  destruct u as [|c1 u]; [simpl in E; subst v; discriminate|]. injection E as _ E.
  destruct u as [|c2 u]; [simpl in E; subst v; discriminate|]. injection E as _ E.
  destruct u as [|c3 u]; [simpl in E; subst v; discriminate|]. injection E as _ E.
  destruct u as [|c4 u]; [simpl in E; congruence|]. discriminate.
Qed.
Lemma border_css u v w : u ++ v = S_"://" -> u <> [] -> v <> [] -> ~ (exists z, v ++ w = S_"://" ++ z).
Proof.
  intros E Hu Hv [z Hz].
  destruct u as [|c u]; [congruence|]. injection E as _ E.
  destruct u as [|c1 u]; [simpl in E; subst v; discriminate|]. injection E as _ E.
  destruct u as [|c2 u]; [simpl in E; subst v; discriminate|]. injection E as _ E.
  destruct u as [|c3 u]; [simpl in E; congruence|]. discriminate.
Qed.

Lemma find_kmz a s : ~ occurs (S_".kmz") a -> find (S_".kmz") (a ++ S_".kmz" ++ s) = Some (length a).
Proof. apply find_app_gen; [exact border_kmz | discriminate]. Qed.
Lemma find_css a s : ~ occurs (S_"://") a -> find (S_"://") (a ++ S_"://" ++ s) = Some (length a).
Proof. apply find_app_gen; [exact border_css | discriminate]. Qed.

Lemma kmz_at a s : ~ occurs (S_".kmz") a ->
  kmz_split (a ++ S_".kmz" ++ s) = Some (a ++ S_".kmz", tl s).
Proof.
  intros H. unfold kmz_split. rewrite (find_kmz a s H).
  assert (E1 : firstn (length a + 4) (a ++ S_".kmz" ++ s) = a ++ S_".kmz").
  { rewrite firstn_app. replace (length a + 4 - length a) with 4 by lia.
    rewrite firstn_all2 by lia. reflexivity. }
  rewrite E1.
  assert (E2 : skipn (length a + 4 + 1) (a ++ S_".kmz" ++ s) = tl s).
  { rewrite skipn_app. replace (length a + 4 + 1 - length a) with 5 by lia.
    rewrite skipn_all2 by lia. cbn. destruct s; reflexivity. }
  rewrite E2.
  destruct (Nat.ltb_spec (length a + 4) (length (a ++ S_".kmz" ++ s))) as [Hl|Hl]; [reflexivity|].
  rewrite !app_length in Hl. cbn in Hl. destruct s; [reflexivity|]. simpl in Hl. lia.
Qed.

(** C38. KMZ URL splitting. *)

(** A path inside an archive: archive URL and path, for every archive URL whose first part has
    no archive name itself. The path may hold further archive names. *)
Theorem kmz_split_path : forall u p, ~ occurs (S_".kmz") u ->
  kmz_split (u ++ S_".kmz/" ++ p) = Some (u ++ S_".kmz", p).
Proof.
  intros u p H. change (S_".kmz/" ++ p) with (S_".kmz" ++ ("/"%char :: p)).
  now rewrite (kmz_at u ("/"%char :: p) H).
Qed.
Print Assumptions kmz_split_path.

(** The archive itself: empty path. *)
Theorem kmz_split_archive : forall u, ~ occurs (S_".kmz") u ->
  kmz_split (u ++ S_".kmz") = Some (u ++ S_".kmz", []).
Proof. intros u H. rewrite <- (app_nil_r (S_".kmz")) at 1. now rewrite (kmz_at u [] H). Qed.
Print Assumptions kmz_split_archive.

(** Not a KMZ URL exactly when the four bytes occur nowhere. *)
Theorem kmz_split_none : forall u, kmz_split u = None <-> ~ occurs (S_".kmz") u.
Proof.
  intros u. rewrite <- find_none. unfold kmz_split.
  destruct (find (S_".kmz") u); split; congruence.
Qed.
Print Assumptions kmz_split_none.

(** What every split looks like: the archive ends at the first occurrence, and the archive and
    the path are the URL less at most one byte between them. *)
Theorem kmz_split_shape : forall u a p, kmz_split u = Some (a, p) ->
  (exists b, a = b ++ S_".kmz" /\ ~ occurs (S_".kmz") b) /\
  (u = a /\ p = [] \/ exists c, u = a ++ c :: p).
Proof.
  intros u a p H.
  assert (Ho : exists b s, u = b ++ S_".kmz" ++ s /\ ~ occurs (S_".kmz") b).
  { unfold kmz_split in H. destruct (find (S_".kmz") u) as [k|] eqn:E; [|discriminate].
    destruct (find_some _ _ _ E) as [Hl Hs].
    exists (firstn k u), (skipn (k + 4) u). split; [symmetry; exact Hs|].
    intros (x & y & Hx).
    pose proof (find_first _ _ _ E (length x)) as Hf.
    assert (length x < k).
    { assert (length (firstn k u) <= k) by (rewrite firstn_length; lia).
      rewrite Hx in H0. rewrite !app_length in H0. cbn in H0. lia. }
    specialize (Hf H0). rewrite <- Hs in Hf. rewrite Hx in Hf.
    rewrite <- app_assoc, skipn_app, skipn_all, Nat.sub_diag in Hf. simpl skipn in Hf.
    cbn in Hf. discriminate. }
  destruct Ho as (b & s & -> & Hb). rewrite (kmz_at b s Hb) in H. inversion H; subst.
  split; [eauto|]. rewrite app_assoc. destruct s as [|c s].
  - left. split; [apply app_nil_r | reflexivity].
  - right. exists c. reflexivity.
Qed.
Print Assumptions kmz_split_shape.

(** The byte between them is dropped even when it is not a slash: two different URLs get the
    same split, and the path is not what follows the archive name. *)
Theorem kmz_split_lost_byte_refuted : exists u v, u <> v /\ kmz_split u = kmz_split v /\
  exists a p, kmz_split u = Some (a, p) /\ u <> a /\ u <> a ++ S_"/" ++ p.
Proof.
  exists (S_"http://h/a.kmzdoc.kml"), (S_"http://h/a.kmz?oc.kml"). repeat split; try discriminate.
  exists (S_"http://h/a.kmz"), (S_"oc.kml"). repeat split; discriminate.
Qed.
Print Assumptions kmz_split_lost_byte_refuted.

Example kmz_split_example : kmz_split (S_"http://h/a.kmz/b.kmz/c.kml") = Some (S_"http://h/a.kmz", S_"b.kmz/c.kml").
Proof. reflexivity. Qed.

(** C39. Href parsing. *)

Lemma css_none_frag s : (find (S_"://") s = None \/ find (S_"://") s = Some 0) -> parse_scheme s = ([], 0).
Proof. unfold parse_scheme. intros [-> | ->]; reflexivity. Qed.

Lemma scheme_at sc s : sc <> [] -> ~ occurs (S_"://") sc ->
  parse_scheme (sc ++ S_"://" ++ s) = (sc, length sc + 3).
Proof.
  intros H1 H2. unfold parse_scheme. rewrite (find_css sc s H2).
  destruct sc as [|c sc]; [congruence|]. cbn [length].
  f_equal. change (S (length sc)) with (length (c :: sc)).
  rewrite firstn_app, firstn_all, Nat.sub_diag. simpl. now rewrite app_nil_r.
Qed.

Lemma skip_past (a : str) c f : skipn (length a + 1) (a ++ c :: f) = f.
Proof.
  rewrite skipn_app, skipn_all2 by lia. replace (length a + 1 - length a) with 1 by lia. reflexivity.
Qed.

(** A relative href: path and fragment. *)
Theorem href_relative : forall p f, ~ In "#"%char p -> ~ occurs (S_"://") (p ++ S_"#" ++ f) ->
  href_parse (p ++ S_"#" ++ f) = {| h_scheme := []; h_net_loc := []; h_path := p; h_fragment := f |}.
Proof.
  intros p f Hp Ho. unfold href_parse. rewrite css_none_frag by (left; now apply find_none).
  change (p ++ S_"#" ++ f) with (p ++ "#"%char :: f). rewrite (find_char_app _ _ _ Hp).
  change (skipn 0 (p ++ "#"%char :: f)) with (p ++ "#"%char :: f). rewrite firstn_app, firstn_all, Nat.sub_diag. simpl firstn. rewrite app_nil_r.
  rewrite skipn_app. rewrite skipn_all2 by lia. replace (length p + 1 - length p) with 1 by lia. reflexivity.
Qed.
Print Assumptions href_relative.

(** A relative href without a fragment is all path. *)
Theorem href_relative_path : forall p, ~ In "#"%char p -> ~ occurs (S_"://") p ->
  href_parse p = {| h_scheme := []; h_net_loc := []; h_path := p; h_fragment := [] |}.
Proof.
  intros p Hp Ho. unfold href_parse. rewrite css_none_frag by (left; now apply find_none).
  apply find_char_none in Hp. rewrite Hp. simpl skipn. now rewrite firstn_all.
Qed.
Print Assumptions href_relative_path.

(** What an absolute href gives in every case, with the wrong length spelled out: the path is
    cut at the position of the fragment in the whole href, counted from the path's start. *)
Theorem href_absolute_exact : forall sc h p, sc <> [] -> ~ occurs (S_"://") sc -> ~ In "/"%char h ->
  let s := sc ++ S_"://" ++ h ++ S_"/" ++ p in
  h_scheme (href_parse s) = sc /\ h_net_loc (href_parse s) = h /\
  (~ In "#"%char s -> h_path (href_parse s) = p /\ h_fragment (href_parse s) = []) /\
  (forall q f, p = q ++ S_"#" ++ f -> ~ In "#"%char (sc ++ h ++ q) ->
     h_fragment (href_parse s) = f /\
     h_path (href_parse s) = firstn (length sc + 3 + length h + 1 + length q) p).
Proof.
  intros sc h p H1 H2 H3 s. unfold href_parse.
  assert (Hsch : parse_scheme s = (sc, length sc + 3)) by exact (scheme_at sc _ H1 H2).
  rewrite Hsch.
  assert (Hk : skipn (length sc + 3) s = h ++ S_"/" ++ p).
  { unfold s. rewrite skipn_app. rewrite skipn_all2 by lia.
    replace (length sc + 3 - length sc) with 3 by lia. reflexivity. }
  destruct (length sc + 3) as [|k] eqn:Ek; [lia|]. rewrite Hk. unfold parse_net_loc.
  assert (Hc : find_char "/"%char (h ++ S_"/" ++ p) = Some (length h)) by exact (find_char_app "/"%char h p H3).
  rewrite Hc.
  assert (Hn : firstn (length h) (h ++ S_"/" ++ p) = h).
  { rewrite firstn_app, firstn_all, Nat.sub_diag. simpl. now rewrite app_nil_r. }
  assert (Hp : skipn (length h + 1 + S k) s = p).
  { rewrite <- Ek. unfold s. rewrite !app_assoc, skipn_app. rewrite !app_length. cbn [length String.list_ascii_of_string].
    replace (length h + 1 + (length sc + 3) - (length sc + 3 + length h + 1)) with 0 by lia.
    rewrite skipn_all2; [reflexivity|]. rewrite !app_length. cbn. lia. }
  destruct (find_char "#"%char s) as [i|] eqn:Ei.
  - cbn [h_scheme h_net_loc h_path h_fragment]. rewrite Hn. split; [reflexivity|]. split; [reflexivity|].
    split.
    + intros Hni. apply find_char_none in Hni. congruence.
    + intros q f -> Hni.
      assert (Hs : s = (sc ++ S_"://" ++ h ++ S_"/" ++ q) ++ "#"%char :: f).
      { unfold s. rewrite <- !app_assoc. reflexivity. }
      assert (Hni' : ~ In "#"%char (sc ++ S_"://" ++ h ++ S_"/" ++ q)).
      { intros Hi. apply Hni. rewrite !in_app_iff in *. cbn in Hi.
        destruct Hi as [Hi|[Hi|[Hi|[Hi|Hi]]]]; auto;
        repeat (destruct Hi as [Hi|Hi]; [discriminate|]); destruct Hi. }
      pose proof (find_char_app "#"%char _ f Hni') as Hf. rewrite <- Hs, Ei in Hf.
      injection Hf as Hi. subst i. split.
      * rewrite Hs. exact (skip_past (sc ++ S_"://" ++ h ++ S_"/" ++ q) "#"%char f).
      * rewrite Hp. f_equal. rewrite <- Ek. rewrite app_length. cbn [length]. rewrite app_length. cbn [length]. lia.
  - cbn [h_scheme h_net_loc h_path h_fragment]. rewrite Hn. split; [reflexivity|]. split; [reflexivity|].
    split.
    + intros _. rewrite Hp. split; [|reflexivity]. apply firstn_all2. rewrite <- Hp.
      rewrite skipn_length. lia.
    + intros q f -> _. apply find_char_none in Ei. elim Ei. unfold s. rewrite !in_app_iff.
      right; right; right; right; right; left. now left.
Qed.
Print Assumptions href_absolute_exact.

(** So an absolute href with a fragment never gets the right path: the path always has the
    fragment mark in it. *)
Theorem href_absolute_fragment_refuted : forall sc h q f,
  sc <> [] -> ~ occurs (S_"://") sc -> ~ In "/"%char h -> ~ In "#"%char (sc ++ h ++ q) ->
  In "#"%char (h_path (href_parse (sc ++ S_"://" ++ h ++ S_"/" ++ q ++ S_"#" ++ f))).
Proof.
  intros sc h q f H1 H2 H3 H4.
  destruct (href_absolute_exact sc h (q ++ S_"#" ++ f) H1 H2 H3) as (_ & _ & _ & H).
  destruct (H q f eq_refl H4) as [_ Hp]. rewrite Hp. rewrite firstn_app.
  rewrite in_app_iff. right.
  match goal with |- In _ (firstn ?n _) => destruct n as [|m] eqn:E; [lia|] end.
  left. reflexivity.
Qed.
Print Assumptions href_absolute_fragment_refuted.

Example href_absolute_fragment_example :
  href_parse (S_"http://h/a.kml#style") =
    {| h_scheme := S_"http"; h_net_loc := S_"h"; h_path := S_"a.kml#style"; h_fragment := S_"style" |}.
Proof. reflexivity. Qed.

(** A host without a path becomes the path. *)
Theorem href_host_only_refuted : forall sc h, sc <> [] -> ~ occurs (S_"://") sc -> ~ In "/"%char h ->
  ~ In "#"%char (sc ++ h) ->
  href_parse (sc ++ S_"://" ++ h) = {| h_scheme := sc; h_net_loc := []; h_path := h; h_fragment := [] |}.
Proof.
  intros sc h H1 H2 H3 H4. unfold href_parse. rewrite (scheme_at sc h H1 H2).
  assert (Hk : skipn (length sc + 3) (sc ++ S_"://" ++ h) = h).
  { rewrite skipn_app. rewrite skipn_all2 by lia.
    replace (length sc + 3 - length sc) with 3 by lia. reflexivity. }
  destruct (length sc + 3) as [|k] eqn:Ek; [lia|]. rewrite Hk. unfold parse_net_loc.
  apply find_char_none in H3. rewrite H3. simpl plus. rewrite Hk.
  assert (E : find_char "#"%char (sc ++ S_"://" ++ h) = None).
  { apply find_char_none. intros Hi. apply H4. rewrite !in_app_iff in *. cbn in Hi.
    destruct Hi as [Hi|[Hi|Hi]]; auto. repeat (destruct Hi as [Hi|Hi]; [discriminate|]). destruct Hi. }
  rewrite E. f_equal. apply firstn_all2. rewrite !app_length. lia.
Qed.
Print Assumptions href_host_only_refuted.

(** The fragment is right for every href: everything after the first mark. *)
Theorem href_fragment : forall p f, ~ In "#"%char p -> h_fragment (href_parse (p ++ S_"#" ++ f)) = f.
Proof.
  intros p f Hp. unfold href_parse.
  destruct (parse_scheme _) as [sc n].
  destruct (match n with 0 => _ | _ => _ end) as [nl ps].
  change (p ++ S_"#" ++ f) with (p ++ "#"%char :: f). rewrite (find_char_app _ _ _ Hp).
  cbn [h_fragment]. rewrite skipn_app, skipn_all2 by lia.
  replace (length p + 1 - length p) with 1 by lia. reflexivity.
Qed.
Print Assumptions href_fragment.

(** C67. URLs fetched for archives. *)

(** RFC 3986 section 5.3 for a URI with scheme and host, without its fragment. *)
Definition recompose_no_fragment (u : uri) : str :=
  u_scheme u ++ S_"://" ++ (match u_user u with [] => [] | x => x ++ S_"@" end) ++ u_host u ++
  (match u_port u with [] => [] | x => S_":" ++ x end) ++ S_"/" ++ u_path u ++
  (match u_query u with None => [] | Some q => S_"?" ++ q end).

(** A URI with scheme and host but no user and no query is fetched whole, less its fragment. *)
Theorem fetchable_plain : forall u, u_scheme u <> [] -> u_host u <> [] -> u_user u = [] -> u_query u = None ->
  fetchable u = recompose_no_fragment u.
Proof.
  intros [sc us h po pa q f]; simpl. intros H1 H2 -> ->. unfold fetchable, recompose_no_fragment; simpl.
  destruct sc as [|c sc]; [congruence|]. destruct h as [|d h]; [congruence|]. simpl.
  rewrite app_nil_r, <- !app_assoc. simpl. rewrite <- !app_assoc. simpl.
  rewrite <- ?app_assoc. reflexivity.
Qed.
Print Assumptions fetchable_plain.

(** The query and the user never matter. *)
Theorem fetchable_ignores : forall sc us h po pa q f us' q' f',
  fetchable {| u_scheme := sc; u_user := us; u_host := h; u_port := po; u_path := pa; u_query := q; u_fragment := f |} =
  fetchable {| u_scheme := sc; u_user := us'; u_host := h; u_port := po; u_path := pa; u_query := q'; u_fragment := f' |}.
Proof. reflexivity. Qed.
Print Assumptions fetchable_ignores.

(** So two links to archives that differ only in the query (or the user) are the same archive
    to the cache: whatever the resolver does, the archive URL and the path inside agree. *)
Theorem archive_query_lost_refuted : forall parse resolve base t1 t2 url1 url2 sc us h po pa q1 q2 f k1 k2,
  resolve base t1 = Some url1 -> resolve base t2 = Some url2 ->
  parse url1 = Some {| u_scheme := sc; u_user := us; u_host := h; u_port := po; u_path := pa; u_query := q1; u_fragment := f |} ->
  parse url2 = Some {| u_scheme := sc; u_user := us; u_host := h; u_port := po; u_path := pa; u_query := q2; u_fragment := f |} ->
  create_relative parse resolve base t1 = Some k1 -> create_relative parse resolve base t2 = Some k2 ->
  k_is_kmz k1 = k_is_kmz k2 /\ k_kmz_url k1 = k_kmz_url k2 /\ k_path_in_kmz k1 = k_path_in_kmz k2.
Proof.
  intros parse resolve base t1 t2 url1 url2 sc us h po pa q1 q2 f k1 k2 R1 R2 P1 P2.
  unfold create_relative. destruct (parse t1); [|discriminate]. destruct (parse t2); [|discriminate].
  rewrite R1, R2, P1, P2.
  rewrite (fetchable_ignores sc us h po pa q1 f us q2 f).
  destruct (kmz_split _) as [[a p]|]; intros E1 E2; inversion E1; inversion E2; subst; auto.
Qed.
Print Assumptions archive_query_lost_refuted.

Example archive_query_lost_example :
  let parse s := if eqs s (S_"http://h/a.kmz?v=1")
    then Some {| u_scheme := S_"http"; u_user := []; u_host := S_"h"; u_port := []; u_path := S_"a.kmz"; u_query := Some (S_"v=1"); u_fragment := None |}
    else if eqs s (S_"http://h/a.kmz?v=2")
    then Some {| u_scheme := S_"http"; u_user := []; u_host := S_"h"; u_port := []; u_path := S_"a.kmz"; u_query := Some (S_"v=2"); u_fragment := None |}
    else None in
  option_map k_kmz_url (create_relative parse (fun _ t => Some t) (S_"http://h/") (S_"http://h/a.kmz?v=1")) = Some (S_"http://h/a.kmz") /\
  option_map k_kmz_url (create_relative parse (fun _ t => Some t) (S_"http://h/") (S_"http://h/a.kmz?v=2")) = Some (S_"http://h/a.kmz").
Proof. split; reflexivity. Qed.

(** A local archive whose URI has no host: the scheme and the leading slash are lost. *)
Theorem fetchable_no_host_refuted : exists u, u_scheme u = S_"file" /\ u_path u = S_"tmp/a.kmz" /\
  kmz_split (fetchable u) = Some (S_"tmp/a.kmz", []).
Proof.
  exists {| u_scheme := S_"file"; u_user := []; u_host := []; u_port := []; u_path := S_"tmp/a.kmz"; u_query := None; u_fragment := None |}.
  repeat split; reflexivity.
Qed.
Print Assumptions fetchable_no_host_refuted.

(** C38. The URL of a texture of a model is relative to the URL of the model and not to that of the file with the Model. *)
Theorem texture_relative_to_model : forall resolve base geometry texture g u,
  resolve base geometry = Some g -> resolve g texture = Some u -> resolve_model_target resolve base geometry texture = Some u.
Proof. intros resolve base geometry texture g u H1 H2. unfold resolve_model_target. now rewrite H1. Qed.
Print Assumptions texture_relative_to_model.
(** No URL for the model, no URL for the texture. *)
Theorem texture_without_model : forall resolve base geometry texture,
  resolve base geometry = None -> resolve_model_target resolve base geometry texture = None.
Proof. intros resolve base geometry texture H. unfold resolve_model_target. now rewrite H. Qed.
Print Assumptions texture_without_model.
Definition beside (base target : str) : option str :=
  let r := drop_while (fun c => negb (aeq c "/"%char)) (rev base) in Some (rev r ++ target).
Example texture_sample : beside (S_ "http://h/a/b.kml") (S_ "m/x.dae") = Some (S_ "http://h/a/m/x.dae") /\
  resolve_model_target beside (S_ "http://h/a/b.kml") (S_ "m/x.dae") (S_ "t.png") = Some (S_ "http://h/a/m/t.png").
Proof. split; vm_compute; reflexivity. Qed.
(** C38. The parts a cache uses: the target, the resolved URL, and if the URL is that of an archive the URL of the archive and the path in it; there are none if a step fails. *)
Theorem uri_parts : forall parse resolve base target k, create_relative parse resolve base target = Some k <->
  exists v url u, parse target = Some v /\ resolve base target = Some url /\ parse url = Some u /\ k_target k = target /\ k_url k = url /\
    match kmz_split (fetchable u) with
    | Some (a, p) => k_is_kmz k = true /\ k_kmz_url k = a /\ k_path_in_kmz k = p
    | None => k_is_kmz k = false /\ k_kmz_url k = [] /\ k_path_in_kmz k = []
    end.
Proof.
  intros parse resolve base target k. unfold create_relative. destruct (parse target) as [v|]; [|split; [discriminate|intros (? & ? & ? & H & _); discriminate]].
  destruct (resolve base target) as [url|]; [|split; [discriminate|intros (? & ? & ? & _ & H & _); discriminate]].
  destruct (parse url) as [u|] eqn:Eu; [|split; [discriminate|intros (? & ? & ? & _ & [= <-] & H & _); congruence]]. split.
  - intros H. exists v, url, u. split; [reflexivity|]. split; [reflexivity|]. split; [exact Eu|]. destruct (kmz_split (fetchable u)) as [[a p]|]; injection H as <-; cbn; auto.
  - intros (v' & url' & u' & _ & [= <-] & Hu & H1 & H2 & H3). assert (u' = u) as -> by congruence. destruct k as [kt ku kz kk kp]. cbn in *. subst kt ku.
    destruct (kmz_split (fetchable u)) as [[a p]|]; destruct H3 as (-> & -> & ->); reflexivity.
Qed.
Print Assumptions uri_parts.

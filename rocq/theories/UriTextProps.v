(** Links resolved on texts, and file names made into URIs. *)
From Verif Require Import Common StrMap DomModel UriModel UriRfc UriRfcProofs UriTextModel StyleModel UriProps.

Lemma c_string_id s : ~ In "000"%char s -> c_string s = s.
Proof.
  unfold c_string. induction s as [|c s IH]; intros H; [auto|]. cbn [take_while]. destruct (aeq c (chr 0)) eqn:E.
  - apply aeq_spec in E. subst c. exfalso. apply H. now left.
  - cbn [negb]. rewrite IH; [auto|]. intros Hi; apply H; now right.
Qed.
Lemma parse_text s c : rfc_parse s = Some c -> c_string s = s.
Proof. intros H. apply rfc_parse_inv in H. destruct H as (Hv & _ & <-). apply c_string_id. now apply valid_no_nul. Qed.
Lemma resolve_text b r cb cr t : rfc_parse b = Some cb -> rfc_parse r = Some cr -> transform cb cr = Some t -> resolve_uri b r = Some (recompose t).
Proof. intros Hb Hr Ht. unfold resolve_uri, rfc_resolve. now rewrite (parse_text _ _ Hb), (parse_text _ _ Hr), Hb, Hr, Ht. Qed.

(** Specification: a URL of scheme [s] and authority [a] with a path of given segments; what a segment can be. *)
Definition web (s a : str) (l : list str) : str := s ++ S_ "://" ++ a ++ S_ "/" ++ join (S_ "/") l.
Definition segment (x : str) : Prop := escaped pchar x = true.

Lemma pchar_path c : pchar c = true -> path_char c = true.
Proof. unfold path_char. now intros ->. Qed.
Lemma segment_no_slash x : segment x -> no_slash x.
Proof. intros H. apply (escaped_notin _ _ _ H); [reflexivity|discriminate|reflexivity]. Qed.
Lemma segments_valid l : Forall segment l -> escaped path_char (join (S_ "/") l) = true.
Proof. intros H. apply escaped_join. eapply Forall_impl; [|exact H]. intros x Hx. eapply escaped_weaken; [|exact Hx]. apply pchar_path. Qed.
Definition web_parts (s a : str) (l : list str) : parts :=
  {| p_scheme := Some s; p_auth := Some a; p_path := "/"%char :: join (S_ "/") l; p_query := None; p_fragment := None |}.
Lemma web_recompose s a l : recompose (web_parts s a l) = web s a l.
Proof.
  unfold recompose, web, web_parts. cbn [p_scheme p_auth p_path p_query p_fragment]. rewrite !app_nil_r. rewrite <- app_assoc. f_equal.
Qed.
Lemma web_parse s a l : good_scheme s = true -> good_auth a = true -> Forall segment l -> rfc_parse (web s a l) = Some (web_parts s a l).
Proof.
  intros Hs Ha Hl. rewrite <- web_recompose. apply parse_recompose.
  - unfold valid_parts, web_parts. cbn [p_scheme p_auth p_path p_query p_fragment opt_all]. rewrite Hs, Ha. cbn [escaped]. change (aeq "/" "%") with false. cbn iota.
    rewrite path_char_slash, (segments_valid _ Hl). reflexivity.
  - right. cbn. eauto.
Qed.
Definition rel_parts (p : str) : parts := {| p_scheme := None; p_auth := None; p_path := p; p_query := None; p_fragment := None |}.
Lemma rel_parse l : l <> [] -> Forall segment l -> hd [] l <> [] -> ~ In ":"%char (hd [] l) -> rfc_parse (join (S_ "/") l) = Some (rel_parts (join (S_ "/") l)).
Proof.
  intros Hl Hs Hh Hc. replace (join (S_ "/") l) with (recompose (rel_parts (join (S_ "/") l))) at 1 by (unfold recompose, rel_parts; cbn; now rewrite app_nil_r).
  destruct l as [|x l]; [congruence|]. cbn [hd] in *. inversion Hs as [|? ? Hx Hr]; subst. assert (E : exists t, join (S_ "/") (x :: l) = x ++ t /\ (t = [] \/ exists r, t = "/"%char :: r)).
  { destruct l as [|y l]; [exists []; cbn; rewrite app_nil_r; auto|]. exists ("/"%char :: join (S_ "/") (y :: l)). split; [reflexivity|eauto]. }
  apply parse_recompose.
  - unfold valid_parts, rel_parts. cbn [p_scheme p_auth p_path p_query p_fragment opt_all]. rewrite (segments_valid (x :: l)) by auto. cbn [andb]. apply negb_true_iff, existsb_notin.
    destruct E as (t & -> & Ht). unfold first_segment. destruct (take_drop_app (fun c => negb (aeq c "/")) x t) as [-> _]; [apply notin_forallb; now apply segment_no_slash| |auto].
    destruct Ht as [->|(r & ->)]; [auto|]. now rewrite aeq_refl.
  - unfold shaped, rel_parts. cbn [p_auth p_path]. destruct E as (t & -> & Ht). destruct x as [|c x]; [congruence|]. assert (Ec : c <> "/"%char) by (intros ->; apply (segment_no_slash _ Hx); now left).
    change ((c :: x) ++ t) with (c :: (x ++ t)). change (S_ "//") with ["/"; "/"]%char. cbn [prefixb]. destruct (aeq "/" c) eqn:E1; [apply aeq_spec in E1; congruence|auto].
Qed.

(** C119. A link which goes up [k] directories and then down leads to what RFC 3986 says, from the directory of the file it is
    in, at most up to the root. *)
Theorem link_resolved : forall s a dirs name k r, good_scheme s = true -> good_auth a = true ->
  Forall segment dirs -> Forall no_dot dirs -> segment name -> Forall segment r -> Forall no_dot r -> r <> [] ->
  (k = 0 -> hd [] r <> [] /\ ~ In ":"%char (hd [] r)) ->
  resolve_uri (web s a (dirs ++ [name])) (join (S_ "/") (repeat (S_ "..") k ++ r)) = Some (web s a (firstn (length dirs - k) dirs ++ r)).
Proof.
  intros s a dirs name k r Hs Ha Hd Nd Hn Hr Nr Rr Hk.
  assert (Sb : Forall segment (dirs ++ [name])) by (apply Forall_app; auto).
  assert (Su : Forall segment (repeat (S_ "..") k ++ r)) by (apply Forall_app; split; [apply Forall_forall; intros x Hx; apply repeat_spec in Hx; subst; reflexivity|auto]).
  assert (Nu : repeat (S_ "..") k ++ r <> []) by (intros E; destruct (app_eq_nil _ _ E) as [_ E2]; exact (Rr E2)).
  assert (Hu : hd [] (repeat (S_ "..") k ++ r) <> [] /\ ~ In ":"%char (hd [] (repeat (S_ "..") k ++ r))).
  { destruct k; [cbn [repeat app]; auto|]. cbn. split; [discriminate|]. intros [E|[E|[]]]; discriminate. }
  destruct Hu as [Hu1 Hu2]. rewrite <- (web_recompose s a (firstn (length dirs - k) dirs ++ r)).
  eapply resolve_text; [now apply web_parse|now apply rel_parse|].
  unfold transform, web_parts, rel_parts. cbn [p_scheme p_auth p_path p_query p_fragment].
  destruct (join (S_ "/") (repeat (S_ "..") k ++ r)) as [|c t] eqn:Ej.
  { exfalso. destruct (repeat (S_ "..") k ++ r) as [|x l]; [congruence|]. cbn [hd] in Hu1. destruct l; cbn in Ej; [congruence|]. destruct x; [congruence|discriminate]. }
  f_equal. f_equal. assert (Ec : aeq c "/" = false).
  { apply aeq_neq. intros ->. destruct (repeat (S_ "..") k ++ r) as [|x l]; [congruence|]. cbn [hd] in Hu1. inversion Su; subst. destruct x as [|d x]; [congruence|].
    assert (d = "/"%char) by (destruct l; cbn in Ej; congruence). subst. apply (segment_no_slash (("/"%char) :: x)); [auto|now left]. }
  rewrite Ec. unfold merge_paths. cbn [p_auth p_path]. rewrite <- Ej. clear c t Ej Ec.
  assert (NS : Forall no_slash (dirs ++ repeat (S_ "..") k ++ r)).
  { apply Forall_app. split; [eapply Forall_impl; [|exact Hd]|eapply Forall_impl; [|exact Su]]; apply segment_no_slash. }
  assert (E : directory ("/"%char :: join (S_ "/") (dirs ++ [name])) ++ join (S_ "/") (repeat (S_ "..") k ++ r) = "/"%char :: join (S_ "/") (dirs ++ repeat (S_ "..") k ++ r)).
  { unfold directory. cbn [segments]. rewrite aeq_refl. rewrite segments_join; [|destruct dirs; discriminate|eapply Forall_impl; [|exact Sb]; apply segment_no_slash].
    change ([] :: dirs ++ [name]) with (([] :: dirs) ++ [name]). rewrite removelast_last. destruct (repeat (S_ "..") k ++ r) as [|x l]; [congruence|]. rewrite !join_app.
    destruct dirs as [|d ds]; [reflexivity|]. change (join (S_ "/") ([] :: d :: ds)) with ("/"%char :: join (S_ "/") (d :: ds)). change (join (S_ "/") [[]]) with (@nil ascii). rewrite app_nil_r.
    cbn [app]. reflexivity. }
  rewrite E. cbn [remove_dots]. rewrite aeq_refl. f_equal. rewrite segments_join; [|destruct dirs; [auto|discriminate]|auto].
  rewrite no_dots_prefix, no_dots_up, app_nil_r, no_dots_id by auto. rewrite skipn_rev, rev_involutive. reflexivity.
Qed.
Example link_resolved_sample : resolve_uri (S_ "http://h:80/maps/europe/doc.kml") (S_ "images/x%20y.png") = Some (S_ "http://h:80/maps/europe/images/x%20y.png") /\
  resolve_uri (S_ "http://h:80/maps/europe/doc.kml") (S_ "../asia/a.kml") = Some (S_ "http://h:80/maps/asia/a.kml") /\
  resolve_uri (S_ "http://h:80/maps/europe/doc.kml") (S_ "../../../../a.kml") = Some (S_ "http://h:80/a.kml") /\
  resolve_uri (S_ "maps/doc.kml") (S_ "a.kml") = None /\ resolve_uri (S_ "http://h/doc.kml") (S_ "a b.kml") = None.
Proof. repeat split; reflexivity. Qed.
Example link_resolved_case : good_scheme (S_ "http") = true /\ good_auth (S_ "h:80") = true /\ Forall segment [S_ "maps"; S_ "europe"] /\ Forall no_dot [S_ "maps"; S_ "europe"] /\
  web (S_ "http") (S_ "h:80") ([S_ "maps"; S_ "europe"] ++ [S_ "doc.kml"]) = S_ "http://h:80/maps/europe/doc.kml".
Proof. repeat split; try reflexivity; repeat constructor; discriminate. Qed.

(** C119. A complete URL leads to itself, whatever file it is in. *)
Theorem absolute_link : forall base u b c, rfc_parse base = Some b -> p_scheme b <> None -> rfc_parse u = Some c -> p_scheme c <> None ->
  Forall no_dot (segments (p_path c)) -> resolve_uri base u = Some u.
Proof.
  intros base u b c Hb Sb Hc Sc Nc. destruct (rfc_parse_inv _ _ Hc) as (_ & _ & E). rewrite <- E at 2. eapply resolve_text; eauto.
  unfold transform. destruct (p_scheme b) as [sb|]; [|congruence]. destruct (p_scheme c) as [s|] eqn:Es; [|congruence]. rewrite remove_dots_id by auto. rewrite <- Es. now destruct c.
Qed.
Example absolute_link_sample : resolve_uri (S_ "http://h/doc.kml") (S_ "https://example.com/a/b.kmz?x#y") = Some (S_ "https://example.com/a/b.kmz?x#y").
Proof. reflexivity. Qed.

(** C119. A link that is only a fragment leads into the same document. *)
Theorem fragment_link : forall base b id, rfc_parse base = Some b -> p_scheme b <> None -> escaped query_char id = true ->
  resolve_uri base ("#"%char :: id) = Some (fst (cut_at "#" base) ++ "#"%char :: id).
Proof.
  intros base b id Hb Sb Hi. pose (f := {| p_scheme := None; p_auth := None; p_path := []; p_query := None; p_fragment := Some id |}).
  assert (Hf : rfc_parse ("#"%char :: id) = Some f).
  { change ("#"%char :: id) with (recompose f). apply parse_recompose; [|reflexivity]. unfold valid_parts, f. cbn [p_scheme p_auth p_path p_query p_fragment opt_all]. now rewrite Hi. }
  destruct (p_scheme b) as [s|] eqn:Es; [|congruence].
  erewrite resolve_text; [|exact Hb|exact Hf|unfold transform; rewrite Es; reflexivity]. f_equal.
  destruct (rfc_parse_inv _ _ Hb) as (Hv & Hs & E).
  assert (K : fst (cut_at "#" base) = recompose {| p_scheme := p_scheme b; p_auth := p_auth b; p_path := p_path b; p_query := p_query b; p_fragment := None |}).
  { unfold rfc_parse in Hb. destruct (valid_parts (split_parts base)); [|discriminate]. injection Hb as Hb. destruct (cut_at "#" base) as [u fr] eqn:Ec.
    pose proof (cut_at_join _ _ _ _ Ec) as [E1 _]. assert (Ef : p_fragment b = fr).
    { rewrite <- Hb. unfold split_parts. rewrite Ec. destruct (cut_at "?" u) as [s2 q]. destruct (split_scheme s2) as [sc s3]. destruct (split_auth s3). reflexivity. }
    cbn [fst]. rewrite <- E in E1. unfold recompose in *. rewrite Ef in E1. cbn [p_scheme p_auth p_path p_query p_fragment]. rewrite app_nil_r.
    change (match fr with Some f0 => "#"%char :: f0 | None => [] end) with (tail_of "#" fr) in E1. rewrite !app_assoc in E1. apply app_inv_tail in E1. rewrite <- E1. now rewrite <- !app_assoc. }
  rewrite K. unfold recompose. cbn [p_scheme p_auth p_path p_query p_fragment f]. rewrite app_nil_r, Es, <- !app_assoc. reflexivity.
Qed.
Example fragment_link_sample : resolve_uri (S_ "http://h/a/doc.kml?v=1#p") (S_ "#q") = Some (S_ "http://h/a/doc.kml?v=1#q").
Proof. reflexivity. Qed.

(** C119. What a relative link is resolved to is a complete URL that is not changed by resolving it again. *)
Theorem resolved_again : forall base r b c u base' b', rfc_parse base = Some b -> p_auth b <> None -> Forall no_dot (segments (p_path b)) ->
  rfc_parse r = Some c -> p_scheme c = None -> resolve_uri base r = Some u ->
  rfc_parse base' = Some b' -> p_scheme b' <> None -> resolve_uri base' u = Some u.
Proof.
  intros base r b c u base' b' Hb Ab Nb Hc Sc Hu Hb' Sb'. destruct (rfc_parse_inv _ _ Hb) as (V1 & S1 & _). destruct (rfc_parse_inv _ _ Hc) as (V2 & S2 & _).
  unfold resolve_uri, rfc_resolve in Hu. rewrite (parse_text _ _ Hb), (parse_text _ _ Hc), Hb, Hc in Hu. destruct (transform b c) as [t|] eqn:Et; [|discriminate]. injection Hu as <-.
  destruct (transform_valid b c t) as (V3 & S3 & A3 & E3 & N3); auto.
  eapply absolute_link; [exact Hb'|auto|now apply parse_recompose|congruence|].
  unfold transform in Et. destruct (p_scheme b) as [s|] eqn:Es; [|congruence]. rewrite Sc in Et. unfold shaped in *.
  destruct (p_auth c) as [ca|] eqn:Eca.
  - injection Et as <-. cbn [p_path]. destruct S2 as [->|S2]; [repeat constructor; discriminate|]. now apply remove_dots_clean.
  - destruct (p_path c) as [|x q] eqn:Ep; injection Et as <-; cbn [p_path]; [auto|]. apply remove_dots_clean. destruct (aeq x "/") eqn:Ex; [apply aeq_spec in Ex; subst; eauto|].
    unfold merge_paths. destruct (p_auth b); [|congruence]. destruct S1 as [->|(r0 & ->)]; [eauto|]. destruct (directory_slash r0) as (t0 & ->). cbn [app]. eauto.
Qed.
Example resolved_again_sample : resolve_uri (S_ "http://h/a/doc.kml") (S_ "./b/../c?d") = Some (S_ "http://h/a/c?d") /\ resolve_uri (S_ "https://x") (S_ "http://h/a/c?d") = Some (S_ "http://h/a/c?d").
Proof. split; reflexivity. Qed.

(** The URL an authority of host and port is fetched by. *)
Lemma host_text a h p : split_authority a = Some {| a_user := None; a_literal := false; a_host := h; a_port := p |} -> a = h ++ tail_of ":" p.
Proof.
  unfold split_authority. destruct (cut_at "@" a) as [u [v|]] eqn:E.
  - destruct (escaped user_char u); [|discriminate]. destruct (split_host v) as [[[l k] q]|]; cbn; discriminate.
  - destruct (split_host a) as [[[l k] q]|] eqn:Eh; [|discriminate]. cbn. intros H; injection H as -> -> ->. unfold split_host in Eh.
    destruct a as [|d t]; [injection Eh as <- <-; reflexivity|]. destruct (aeq d "[").
    + destruct (cut_at "]" t) as [x [[|y z]|]]; try discriminate; [destruct (forallb literal_char x); discriminate|]. destruct (aeq y ":" && forallb literal_char x && forallb digit z); discriminate.
    + destruct (cut_at ":" (d :: t)) as [x q'] eqn:Ec. apply cut_at_join in Ec. destruct Ec as [Ec _]. destruct (escaped name_char x && _); [|discriminate]. injection Eh as <- <-. exact Ec.
Qed.
(** Specification: an authority that is a host and perhaps a port. *)
Definition plain_host (a : str) : Prop := exists h p, h <> [] /\ p <> Some [] /\ split_authority a = Some {| a_user := None; a_literal := false; a_host := h; a_port := p |}.
Lemma plain_good a : plain_host a -> good_auth a = true.
Proof. intros (h & p & _ & _ & E). unfold good_auth. now rewrite E. Qed.
Lemma web_fetchable s a l : good_scheme s = true -> plain_host a -> fetchable (components (web_parts s a l)) = web s a l.
Proof.
  intros Hs (h & p & Hh & Hp & E). pose proof (host_text _ _ _ E) as Et. unfold fetchable, components, web_parts, web. cbn [p_auth p_scheme p_path p_query p_fragment opt_text u_scheme u_host u_port u_path].
  rewrite E. cbn [a_user a_host a_port a_literal u_scheme u_host u_port u_path]. destruct s as [|c s]; [discriminate|]. destruct h as [|d h]; [congruence|]. unfold without_slash. rewrite aeq_refl.
  rewrite Et. rewrite <- !app_assoc. f_equal. f_equal. destruct p as [[|e p]|]; [congruence| |]; cbn [opt_text tail_of]; rewrite <- ?app_assoc; reflexivity.
Qed.

(** C119. A link in a file in an archive leads to a file in the same archive, at the path that is meant. *)
Theorem link_in_archive : forall s a archive inner name r, good_scheme s = true -> plain_host a ->
  Forall segment archive -> Forall no_dot archive -> Forall segment inner -> Forall no_dot inner -> segment name -> Forall segment r -> Forall no_dot r -> r <> [] ->
  hd [] r <> [] -> ~ In ":"%char (hd [] r) ->
  (exists z, web s a archive = z ++ S_ ".kmz" /\ ~ occurs (S_ ".kmz") z) -> archive <> [] ->
  create_relative uri_parse resolve_uri (web s a (archive ++ inner ++ [name])) (join (S_ "/") r) =
  Some {| k_target := join (S_ "/") r; k_url := web s a (archive ++ inner ++ r); k_is_kmz := true;
          k_kmz_url := web s a archive; k_path_in_kmz := join (S_ "/") (inner ++ r) |}.
Proof.
  intros s a archive inner name r Hs Hh A1 A2 I1 I2 Hn R1 R2 R3 R4 R5 (z & Ez & Hz) A3. assert (Ha := plain_good _ Hh).
  assert (E : resolve_uri (web s a (archive ++ inner ++ [name])) (join (S_ "/") r) = Some (web s a (archive ++ inner ++ r))).
  { rewrite app_assoc. etransitivity; [apply (link_resolved s a (archive ++ inner) name 0 r); auto; apply Forall_app; auto|]. now rewrite Nat.sub_0_r, firstn_all, <- app_assoc. }
  assert (Sa : Forall segment (archive ++ inner ++ r)) by (repeat (apply Forall_app; split); auto).
  assert (P1 := rel_parse r R3 R1 R4 R5). assert (P2 := web_parse s a _ Hs Ha Sa).
  unfold create_relative. unfold uri_parse at 1. rewrite (parse_text _ _ P1), P1. cbn [option_map]. rewrite E. unfold uri_parse. rewrite (parse_text _ _ P2), P2. cbn [option_map].
  rewrite web_fetchable by auto.
  assert (W : web s a (archive ++ inner ++ r) = web s a archive ++ S_ "/" ++ join (S_ "/") (inner ++ r)).
  { unfold web. rewrite <- !app_assoc. do 4 f_equal. destruct (inner ++ r) as [|x l] eqn:El; [destruct (app_eq_nil _ _ El); congruence|]. rewrite join_app.
    destruct archive as [|y k]; [congruence|]. now rewrite <- app_assoc. }
  assert (K : kmz_split (web s a (archive ++ inner ++ r)) = Some (web s a archive, join (S_ "/") (inner ++ r))).
  { rewrite W, Ez, <- app_assoc. apply (kmz_split_path z (join (S_ "/") (inner ++ r)) Hz). }
  now rewrite K.
Qed.
Example link_in_archive_sample : create_relative uri_parse resolve_uri (S_ "http://h/a.kmz/kml/doc.kml") (S_ "img/x.png") =
  Some {| k_target := S_ "img/x.png"; k_url := S_ "http://h/a.kmz/kml/img/x.png"; k_is_kmz := true; k_kmz_url := S_ "http://h/a.kmz"; k_path_in_kmz := S_ "kml/img/x.png" |} /\
  plain_host (S_ "h") /\ web (S_ "http") (S_ "h") [S_ "a.kmz"] = S_ "http://h/a" ++ S_ ".kmz" /\ ~ occurs (S_ ".kmz") (S_ "http://h/a").
Proof.
  split; [reflexivity|]. split; [exists (S_ "h"), None; repeat split; discriminate|]. split; [reflexivity|]. now apply find_none.
Qed.

(** C119. What is fetched for a complete URL of a host: all but the query and the fragment. *)
Theorem fetched_url : forall s a l q f, good_scheme s = true -> plain_host a -> Forall segment l -> opt_all (escaped query_char) q = true -> opt_all (escaped query_char) f = true ->
  get_fetchable (web s a l ++ tail_of "?" q ++ tail_of "#" f) = Some (web s a l).
Proof.
  intros s a l q f Hs Hh Hl Hq Hf. pose (c := {| p_scheme := Some s; p_auth := Some a; p_path := "/"%char :: join (S_ "/") l; p_query := q; p_fragment := f |}).
  assert (E : recompose c = web s a l ++ tail_of "?" q ++ tail_of "#" f).
  { unfold recompose, web, c. cbn [p_scheme p_auth p_path p_query p_fragment]. unfold tail_of. rewrite <- !app_assoc. reflexivity. }
  assert (P : rfc_parse (recompose c) = Some c).
  { apply parse_recompose; [|right; cbn; eauto]. unfold valid_parts, c. cbn [p_scheme p_auth p_path p_query p_fragment]. cbn [opt_all escaped]. rewrite Hs, (plain_good _ Hh), Hq, Hf. change (aeq "/" "%") with false. cbn iota.
    rewrite path_char_slash, (segments_valid _ Hl). reflexivity. }
  rewrite <- E. unfold get_fetchable, uri_parse. rewrite (parse_text _ _ P), P. cbn [option_map]. f_equal. rewrite <- web_fetchable by auto. reflexivity.
Qed.
Example fetched_url_sample : get_fetchable (S_ "http://h:8080/a/b.kmz?v=1#x") = Some (S_ "http://h:8080/a/b.kmz").
Proof. reflexivity. Qed.
(** C119. It is not so for a host given by its number in brackets: the brackets are lost, and what is left is no URL. *)
Theorem fetched_literal_refuted : exists u, get_fetchable u <> Some u /\ rfc_parse u <> None /\ u = S_ "http://[::1]/a.kml" /\
  get_fetchable u = Some (S_ "http://::1/a.kml") /\ rfc_parse (S_ "http://::1/a.kml") = None.
Proof. exists (S_ "http://[::1]/a.kml"). repeat split; try discriminate. Qed.

(** C119. A style URL that is only a fragment names a shared style of the same file, if the id is made of what a fragment can
    be made of. *)
Theorem local_style_url : forall fetch shared id, id <> [] -> escaped query_char id = true -> find_style split_uri fetch shared ("#"%char :: id) = mget id shared.
Proof.
  intros fetch shared id Hn Hi. pose (f := {| p_scheme := None; p_auth := None; p_path := []; p_query := None; p_fragment := Some id |}).
  assert (Hf : rfc_parse ("#"%char :: id) = Some f).
  { change ("#"%char :: id) with (recompose f). apply parse_recompose; [|reflexivity]. unfold valid_parts, f. cbn [p_scheme p_auth p_path p_query p_fragment opt_all]. now rewrite Hi. }
  unfold find_style, split_uri, uri_parse. rewrite (parse_text _ _ Hf), Hf. cbn. destruct id; [congruence|reflexivity].
Qed.
Example local_style_url_sample : forall fetch o, find_style split_uri fetch [(S_ "s1", o)] (S_ "#s1") = Some o.
Proof. reflexivity. Qed.
(** C119. Not for all ids: a style with an id that is not in ASCII, as XML allows, or with a space, is never found. *)
Theorem style_id_refuted : exists id, forall fetch shared, mget id shared <> None -> find_style split_uri fetch shared ("#"%char :: id) = None.
Proof. exists (S_ "m" ++ [chr 195; chr 188]). intros fetch shared _. reflexivity. Qed.
Theorem style_id_space_refuted : forall fetch o, find_style split_uri fetch [(S_ "my style", o)] (S_ "#my style") = None.
Proof. reflexivity. Qed.
(** C119. And a style URL with a host but no path, or only a query, is taken for one of the same file, though it leads to
    another one. *)
Theorem style_of_host_refuted : exists url base, resolve_uri base url = Some (S_ "http://example.com#s1") /\ base = S_ "http://h/doc.kml" /\
  forall fetch shared, find_style split_uri fetch shared url = mget (S_ "s1") shared.
Proof. exists (S_ "http://example.com#s1"), (S_ "http://h/doc.kml"). repeat split; reflexivity. Qed.
Theorem style_of_query_refuted : exists url base, resolve_uri base url = Some (S_ "http://h/doc?v=2#s1") /\ base = S_ "http://h/doc?v=1" /\
  forall fetch shared, find_style split_uri fetch shared url = mget (S_ "s1") shared.
Proof. exists (S_ "?v=2#s1"), (S_ "http://h/doc?v=1"). repeat split; reflexivity. Qed.
Print Assumptions link_resolved.
Print Assumptions absolute_link.
Print Assumptions fragment_link.
Print Assumptions resolved_again.
Print Assumptions link_in_archive.
Print Assumptions fetched_url.
Print Assumptions fetched_literal_refuted.
Print Assumptions local_style_url.
Print Assumptions style_id_refuted.
Print Assumptions style_id_space_refuted.
Print Assumptions style_of_host_refuted.
Print Assumptions style_of_query_refuted.

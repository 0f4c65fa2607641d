(** File names made into URIs and back. *)
From Verif Require Import Common UriModel UriRfc UriRfcProofs UriTextModel UriTextProps.

Lemma all_bytes (P : ascii -> bool) : forallb (fun n => P (ascii_of_nat n)) (seq 0 256) = true -> forall c, P c = true.
Proof.
  intros H c. rewrite <- (ascii_nat_embedding c). rewrite forallb_forall in H. apply (H (nat_of_ascii c)). apply in_seq. split; [lia|]. pose proof (nat_ascii_bounded c). lia.
Qed.
Lemma escape_byte_length c : 1 <= length (escape_byte c) <= 3.
Proof. unfold escape_byte. destruct (unreserved c); cbn; lia. Qed.
Lemma escape_name_length sep first s : length (escape_name sep first s) <= 3 * length s.
Proof.
  revert first. induction s as [|c s IH]; intros first; [auto|]. cbn [escape_name length]. destruct (aeq c sep); [cbn [length]; specialize (IH false); lia|].
  rewrite app_length. specialize (IH first). destruct first; [cbn [length]; lia|]. pose proof (escape_byte_length c). lia.
Qed.
Lemma unescape_length_le n : forall s, length s <= n -> length (unescape s) <= length s.
Proof.
  induction n as [|n IH]; intros [|c r] H; cbn [length] in H; try (cbn; lia). cbn [unescape]. destruct r as [|a [|b r]]; [cbn; lia|cbn [length unescape]; lia|].
  assert (K := IH (a :: b :: r)). cbn [length] in *. destruct (aeq c "%" && hexdig a && hexdig b); cbn [length]; [assert (K' := IH r); lia|]. lia.
Qed.
Lemma unescape_length s : length (unescape s) <= length s.
Proof. now apply (unescape_length_le (length s)). Qed.
Lemma c_string_length s : length (c_string s) <= length s.
Proof. unfold c_string. induction s as [|c s IH]; [auto|]. cbn [take_while]. destruct (negb (aeq c (chr 0))); cbn [length]; lia. Qed.
Lemma to_int_small n : (n < 2147483648)%N -> to_int n = Z.of_N n.
Proof. intros H. unfold to_int. rewrite Z.mod_small by lia. destruct (Z.of_N n <? 2147483648)%Z eqn:E; lia. Qed.
Lemma skipn_len {A} k (l : list A) : length (skipn k l) <= length l.
Proof. rewrite skipn_length. lia. Qed.

Lemma unix_to_uri_length s : length (unix_to_uri s) <= 7 + 3 * length s.
Proof. unfold unix_to_uri. rewrite app_length. pose proof (escape_name_length "/" false s). destruct (prefixb (S_ "/") s); cbn [length String.list_ascii_of_string]; lia. Qed.
Lemma windows_to_uri_length s : length (windows_to_uri s) <= 8 + 3 * length s.
Proof.
  unfold windows_to_uri. cbv zeta. rewrite app_length. pose proof (escape_name_length "\" (prefixb (S_ "\\") s || match s with _ :: c :: _ => aeq c ":" | _ => false end) s).
  destruct (prefixb (S_ "\\") s); [cbn [length String.list_ascii_of_string]; lia|]. destruct (match s with _ :: c :: _ => aeq c ":" | _ => false end); cbn [length String.list_ascii_of_string]; lia.
Qed.
Lemma unix_from_uri_length s : length (unix_from_uri s) <= length s.
Proof. unfold unix_from_uri. etransitivity; [apply unescape_length|apply skipn_len]. Qed.
Lemma windows_from_uri_length s : length (windows_from_uri s) <= length s.
Proof.
  unfold windows_from_uri. rewrite map_length. destruct (prefixb (S_ "file:///") s); [etransitivity; [apply unescape_length|apply skipn_len]|].
  destruct (prefixb (S_ "file://") s) eqn:E; [|etransitivity; [apply unescape_length|apply skipn_len]]. apply prefixb_length in E. rewrite app_length. pose proof (unescape_length (skipn 7 s)) as K. rewrite skipn_length in K.
  cbn [length String.list_ascii_of_string] in *. lia.
Qed.
Lemma to_uri_ok extra conv f : (extra = 7 \/ extra = 8)%Z -> (forall s, Z.of_nat (length (conv s)) <= extra + 3 * Z.of_nat (length s))%Z -> (slen f < 715827880)%N ->
  to_uri extra conv f = Ok (Some (c_string (conv (c_string f)))).
Proof.
  intros He Hc Hf. unfold to_uri, slen in *. rewrite to_int_small by lia. unfold is_int. pose proof (c_string_length f). specialize (Hc (c_string f)).
  destruct (((-2147483648 <=? 3 * Z.of_N (N.of_nat (length f))) && (3 * Z.of_N (N.of_nat (length f)) <=? 2147483647))%Z) eqn:E1; [|lia].
  destruct (((-2147483648 <=? extra + 3 * Z.of_N (N.of_nat (length f))) && (extra + 3 * Z.of_N (N.of_nat (length f)) <=? 2147483647))%Z) eqn:E2; [|lia].
  destruct (((-2147483648 <=? extra + 3 * Z.of_N (N.of_nat (length f)) + 1) && (extra + 3 * Z.of_N (N.of_nat (length f)) + 1 <=? 2147483647))%Z) eqn:E3; [|lia].
  cbn [andb]. unfold write_into. destruct (extra + 3 * Z.of_N (N.of_nat (length f)) + 1 <? 0)%Z eqn:E4; [lia|].
  destruct (extra + 3 * Z.of_N (N.of_nat (length f)) + 1 <? Z.of_N (N.of_nat (length (conv (c_string f))) + 1))%Z eqn:E5; [lia|]. reflexivity.
Qed.
Lemma from_uri_ok conv u : (forall s, length (conv s) <= length s) -> (slen u < 2147483647)%N -> from_uri conv u = Ok (Some (c_string (conv (c_string u)))).
Proof.
  intros Hc Hu. unfold from_uri, slen in *. rewrite to_int_small by lia. unfold is_int. pose proof (c_string_length u). specialize (Hc (c_string u)).
  destruct (((-2147483648 <=? Z.of_N (N.of_nat (length u)) + 1) && (Z.of_N (N.of_nat (length u)) + 1 <=? 2147483647))%Z) eqn:E1; [|lia].
  unfold write_into. destruct (Z.of_N (N.of_nat (length u)) + 1 <? 0)%Z eqn:E4; [lia|].
  destruct (Z.of_N (N.of_nat (length u)) + 1 <? Z.of_N (N.of_nat (length (conv (c_string u))) + 1))%Z eqn:E5; [lia|]. reflexivity.
Qed.

(** C120. No conversion of a file name of less than 715827880 bytes, or of a URI of less than 2147483647, writes more than
    was allocated. *)
Theorem names_in_bounds : (forall f, (slen f < 715827880)%N -> exists u, filename_to_uri f = Ok (Some u)) /\
  (forall u, (slen u < 2147483647)%N -> exists f, uri_to_filename u = Ok (Some f)) /\
  (forall u, (slen u < 2147483647)%N -> exists f, uri_to_windows_filename u = Ok (Some f)).
Proof.
  repeat split; intros s Hs.
  - unfold filename_to_uri, windows_filename_to_uri, unix_filename_to_uri. destruct (existsb (aeq "\") s); rewrite to_uri_ok; eauto; intros t; [pose proof (windows_to_uri_length t)|pose proof (unix_to_uri_length t)]; lia.
  - unfold uri_to_filename, uri_to_unix_filename. rewrite from_uri_ok; eauto. apply unix_from_uri_length.
  - unfold uri_to_windows_filename. rewrite from_uri_ok; eauto. apply windows_from_uri_length.
Qed.
(** C120. It is not so for longer ones: the size of what is to be allocated is computed as an int. *)
Theorem long_name_refuted : exists f, slen f = 715827880%N /\ filename_to_uri f = UB.
Proof.
  exists (repeat "a"%char (N.to_nat 715827880)). assert (L : slen (repeat "a"%char (N.to_nat 715827880)) = 715827880%N) by (unfold slen; rewrite repeat_length; lia).
  split; [exact L|]. unfold filename_to_uri. assert (E : existsb (aeq "\") (repeat "a"%char (N.to_nat 715827880)) = false).
  { apply existsb_notin. intros Hi. apply repeat_spec in Hi. discriminate. }
  rewrite E. unfold unix_filename_to_uri, to_uri. rewrite L. reflexivity.
Qed.

(** Escapes. *)
Lemma unescape_escape c t : unescape (escape_byte c ++ t) = c :: unescape t.
Proof.
  unfold escape_byte. destruct (unreserved c) eqn:E.
  - assert (N : aeq c "%" = false) by (apply aeq_neq; intros ->; vm_compute in E; discriminate). cbn [app unescape]. destruct t as [|a [|b r]]; auto. now rewrite N.
  - cbn [app unescape]. rewrite aeq_refl.
    assert (K : (hexdig (hex_digit (code c / 16)) && hexdig (hex_digit (code c mod 16)) && aeq (chr (16 * hex_value (hex_digit (code c / 16)) + hex_value (hex_digit (code c mod 16)))) c = true)).
    { clear E. revert c. apply (all_bytes (fun c => hexdig (hex_digit (code c / 16)) && hexdig (hex_digit (code c mod 16)) && aeq (chr (16 * hex_value (hex_digit (code c / 16)) + hex_value (hex_digit (code c mod 16)))) c)). vm_compute. reflexivity. }
    apply andb_true_iff in K. destruct K as [K1 K2]. cbn [andb]. rewrite K1. apply aeq_spec in K2. now rewrite K2.
Qed.
Lemma unescape_slash t : unescape ("/"%char :: t) = "/"%char :: unescape t.
Proof. destruct t as [|a [|b r]]; reflexivity. Qed.
Lemma unescape_name s : unescape (escape_name "/" false s) = s.
Proof.
  induction s as [|c s IH]; [auto|]. cbn [escape_name]. destruct (aeq c "/") eqn:E.
  - apply aeq_spec in E. subst c. now rewrite unescape_slash, IH.
  - now rewrite unescape_escape, IH.
Qed.
Lemma escape_byte_set c d : In d (escape_byte c) -> unreserved d = true \/ d = "%"%char.
Proof.
  unfold escape_byte. destruct (unreserved c) eqn:E; [intros [<-|[]]; auto|]. intros [<-|[<-|[<-|[]]]]; [now right| |]; left.
  - clear E. revert c. apply (all_bytes (fun c => unreserved (hex_digit (code c / 16)))). vm_compute. reflexivity.
  - clear E. revert c. apply (all_bytes (fun c => unreserved (hex_digit (code c mod 16)))). vm_compute. reflexivity.
Qed.
Lemma escape_name_set s d : In d (escape_name "/" false s) -> unreserved d = true \/ d = "%"%char \/ d = "/"%char.
Proof.
  induction s as [|c s IH]; [intros []|]. cbn [escape_name]. destruct (aeq c "/").
  - intros [<-|H]; auto.
  - intros H. apply in_app_iff in H. destruct H as [H|H]; [|auto]. apply escape_byte_set in H. tauto.
Qed.
Lemma escape_name_valid s : escaped path_char (escape_name "/" false s) = true.
Proof.
  induction s as [|c s IH]; [auto|]. cbn [escape_name]. destruct (aeq c "/"); [cbn [escaped]; change (aeq "/" "%") with false; cbn iota; now rewrite path_char_slash|].
  apply escaped_app; [|auto]. apply (all_bytes (fun c => escaped path_char (escape_byte c))). vm_compute. reflexivity.
Qed.
Lemma prefix_slash s : prefixb (S_ "/") s = match s with c :: _ => aeq c "/" | [] => false end.
Proof. destruct s as [|c s]; [auto|]. change (S_ "/") with ["/"%char]. cbn [prefixb]. rewrite andb_true_r. apply Ascii.eqb_sym. Qed.
Lemma c_string_no_nul s : ~ In "000"%char (c_string s).
Proof.
  unfold c_string. intros H. pose proof (take_while_all (fun c => negb (aeq c (chr 0))) s) as K. rewrite forallb_forall in K. specialize (K _ H). discriminate.
Qed.
Lemma unix_to_uri_text s : c_string (unix_to_uri s) = unix_to_uri s.
Proof.
  apply c_string_id. unfold unix_to_uri. intros H. apply in_app_iff in H. destruct H as [H|H].
  - destruct (prefixb (S_ "/") s); [|destruct H]. cbn in H. repeat (destruct H as [H|H]; [discriminate|]). destruct H.
  - apply escape_name_set in H. destruct H as [H|[H|H]]; discriminate.
Qed.
Lemma unix_there_back s : unix_from_uri (unix_to_uri s) = s.
Proof.
  unfold unix_to_uri. rewrite prefix_slash. destruct s as [|c s]; [reflexivity|]. destruct (aeq c "/") eqn:E.
  - apply aeq_spec in E. subst c. unfold unix_from_uri. rewrite prefixb_app. change (skipn 7 (S_ "file://" ++ escape_name "/" false ("/"%char :: s))) with (escape_name "/" false ("/"%char :: s)). apply unescape_name.
  - cbn [app]. unfold unix_from_uri. assert (K : forall p, In ":"%char p -> prefixb p (escape_name "/" false (c :: s)) = false).
    { intros p Hp. apply prefixb_false. intros t Et. assert (Hi : In ":"%char (escape_name "/" false (c :: s))) by (rewrite Et; apply in_app_iff; now left).
      apply escape_name_set in Hi. destruct Hi as [Hi|[Hi|Hi]]; discriminate. }
    rewrite !K by (cbn; tauto). cbn [skipn]. apply unescape_name.
Qed.

(** C120. The URI of a file name without a backslash (and, as in all C strings, without a NUL) is converted back to the
    name, whatever bytes are in it. *)
Theorem name_there_and_back : forall f, (slen f < 715827880)%N -> ~ In "\"%char f -> ~ In "000"%char f ->
  exists u, filename_to_uri f = Ok (Some u) /\ ((slen u < 2147483647)%N /\ uri_to_filename u = Ok (Some f)).
Proof.
  intros f Hf Hb Hn. unfold filename_to_uri. apply existsb_notin in Hb. rewrite Hb. unfold unix_filename_to_uri. rewrite to_uri_ok; auto; [|intros t; pose proof (unix_to_uri_length t); lia].
  eexists. split; [reflexivity|]. rewrite (c_string_id f Hn), unix_to_uri_text. pose proof (unix_to_uri_length f) as K. assert (L : (slen (unix_to_uri f) < 2147483647)%N) by (unfold slen in *; lia). split; [exact L|].
  unfold uri_to_filename, uri_to_unix_filename. rewrite from_uri_ok by (auto; apply unix_from_uri_length). now rewrite unix_to_uri_text, unix_there_back, (c_string_id f Hn).
Qed.
Example name_there_sample : filename_to_uri (S_ "/maps/my map?.kml") = Ok (Some (S_ "file:///maps/my%20map%3F.kml")) /\ filename_to_uri (S_ "a:b/c") = Ok (Some (S_ "a%3Ab/c")) /\
  uri_to_filename (S_ "file:///maps/my%20map%3F.kml") = Ok (Some (S_ "/maps/my map?.kml")).
Proof. repeat split; reflexivity. Qed.

(** C120. What a name without a backslash is made into is a URI: a file URL with the path for one that begins with a slash, a
    relative reference otherwise. *)
Theorem name_is_uri : forall f, (slen f < 715827880)%N -> ~ In "\"%char f -> ~ In "000"%char f ->
  exists u c, filename_to_uri f = Ok (Some u) /\ rfc_parse u = Some c /\ unescape (p_path c) = f /\ p_query c = None /\ p_fragment c = None /\
  (if prefixb (S_ "/") f then p_scheme c = Some (S_ "file") /\ p_auth c = Some [] else p_scheme c = None /\ p_auth c = None).
Proof.
  intros f Hf Hb Hn. unfold filename_to_uri. apply existsb_notin in Hb. rewrite Hb. unfold unix_filename_to_uri. rewrite to_uri_ok; auto; [|intros t; pose proof (unix_to_uri_length t); lia].
  rewrite (c_string_id f Hn), unix_to_uri_text.
  pose (c := if prefixb (S_ "/") f then {| p_scheme := Some (S_ "file"); p_auth := Some []; p_path := escape_name "/" false f; p_query := None; p_fragment := None |} else rel_parts (escape_name "/" false f)).
  assert (E : recompose c = unix_to_uri f).
  { unfold c, unix_to_uri. destruct (prefixb (S_ "/") f); unfold recompose, rel_parts; cbn [p_scheme p_auth p_path p_query p_fragment app]; now rewrite !app_nil_r. }
  exists (unix_to_uri f), c. split; [reflexivity|]. split.
  - rewrite <- E. apply parse_recompose; unfold c; rewrite prefix_slash.
    + destruct f as [|d f]; [reflexivity|]. destruct (aeq d "/"); unfold valid_parts; cbn [p_scheme p_auth p_path p_query p_fragment opt_all rel_parts]; rewrite (escape_name_valid (d :: f)).
      * reflexivity.
      * cbn [andb]. apply negb_true_iff, existsb_notin. unfold first_segment. intros Hi. assert (Hj : In ":"%char (escape_name "/" false (d :: f))).
        { rewrite <- (take_drop_while (fun c0 => negb (aeq c0 "/")) (escape_name "/" false (d :: f))). apply in_app_iff. now left. }
        apply escape_name_set in Hj. destruct Hj as [Hj|[Hj|Hj]]; discriminate.
    + destruct f as [|d f]; [reflexivity|]. destruct (aeq d "/") eqn:Ed; unfold shaped; cbn [p_auth p_path rel_parts].
      * right. cbn [escape_name]. rewrite Ed. eauto.
      * cbn [escape_name]. rewrite Ed. destruct (escape_byte d) as [|x l] eqn:Ex; [pose proof (escape_byte_length d) as K; rewrite Ex in K; cbn in K; lia|].
        assert (Nx : x <> "/"%char) by (intros ->; destruct (escape_byte_set d "/"%char) as [K|K]; [rewrite Ex; now left|discriminate|discriminate]).
        change (S_ "//") with ["/"; "/"]%char. cbn [app prefixb]. destruct (aeq "/" x) eqn:K; [apply aeq_spec in K; congruence|reflexivity].
  - unfold c. destruct (prefixb (S_ "/") f); cbn [rel_parts p_scheme p_auth p_path p_query p_fragment]; repeat split; apply unescape_name.
Qed.

(** C120. A name with a backslash, which is a byte like others in a file name here, comes back as another one; so does one with
    a drive letter. *)
Theorem backslash_refuted : exists f u, filename_to_uri f = Ok (Some u) /\ uri_to_filename u = Ok (Some (S_ "a/b")) /\ f = S_ "a\b".
Proof. exists (S_ "a\b"), (S_ "a/b"). repeat split; reflexivity. Qed.
Theorem drive_refuted : exists f u, filename_to_uri f = Ok (Some u) /\ uri_to_filename u = Ok (Some (S_ "/C:/a b")) /\ f = S_ "C:\a b" /\ uri_to_windows_filename u = Ok (Some f).
Proof. exists (S_ "C:\a b"), (S_ "file:///C:/a%20b"). repeat split; reflexivity. Qed.

(** C120. Normalizing an href that is a name without dot segments changes nothing, if what the library normalizes is
    changed only in its dot segments, its escapes and the case of letters (RFC 3986 section 6.2.2): a reference with
    only a path, of unreserved characters and upper case escapes of others, is as it is. *)
Definition normal_text (s : str) : Prop := exists f, s = escape_name "/" false f /\ Forall no_dot (segments f) /\ prefixb (S_ "/") f = false.
Theorem normalize_href_same : forall normalize f, (forall u, normal_text u -> normalize u = Some u) -> (slen f < 715827880)%N ->
  ~ In "\"%char f -> ~ In "000"%char f -> prefixb (S_ "/") f = false -> Forall no_dot (segments f) -> normalize_href normalize f = Ok (Some f).
Proof.
  intros normalize f Hn Hf Hb H0 Hs Hd. destruct (name_there_and_back f Hf Hb H0) as (u & E1 & _ & E2). unfold normalize_href. rewrite E1. cbn [bind]. rewrite Hn; [exact E2|].
  exists f. repeat split; auto. unfold filename_to_uri in E1. apply existsb_notin in Hb. rewrite Hb in E1. unfold unix_filename_to_uri in E1. rewrite to_uri_ok in E1; auto; [|intros t; pose proof (unix_to_uri_length t); lia].
  injection E1 as <-. rewrite (c_string_id f H0), unix_to_uri_text. unfold unix_to_uri. now rewrite Hs.
Qed.
Example normalize_href_sample : normalize_href (fun u => Some u) (S_ "files/my icon.png") = Ok (Some (S_ "files/my icon.png")) /\
  normalize_href (fun u => Some u) (S_ "files\my icon.png") = Ok (Some (S_ "files/my icon.png")).
Proof. split; reflexivity. Qed.
(** C120. A URI without the scheme is taken as a path; of a file URL the scheme and an empty host are left out, with one, two or
    three slashes, and for Windows the slash before the drive or the two before the host are put right. *)
Definition no_file (s : str) : Prop := forall t, s <> S_ "file:" ++ t.
Theorem uri_forms : forall t, unix_from_uri (S_ "file://" ++ t) = unescape t /\
  (prefixb (S_ "/") t = false -> unix_from_uri (S_ "file:/" ++ t) = "/"%char :: unescape t) /\
  (prefixb (S_ "/") t = false -> unix_from_uri (S_ "file:" ++ t) = unescape (S_ "file:" ++ t)) /\ (no_file t -> unix_from_uri t = unescape t).
Proof.
  intros t. unfold unix_from_uri. split; [now rewrite prefixb_app|]. split; [|split].
  - intros H. replace (prefixb (S_ "file://") (S_ "file:/" ++ t)) with (prefixb (S_ "/") t) by (destruct t; reflexivity). rewrite H, prefixb_app. change (skipn 5 (S_ "file:/" ++ t)) with ("/"%char :: t). apply unescape_slash.
  - intros H. replace (prefixb (S_ "file://") (S_ "file:" ++ t)) with (prefixb (S_ "//") t) by (destruct t as [|? [|? ?]]; reflexivity).
    replace (prefixb (S_ "file:/") (S_ "file:" ++ t)) with (prefixb (S_ "/") t) by (destruct t; reflexivity). rewrite H. replace (prefixb (S_ "//") t) with false; [reflexivity|].
    destruct t as [|c t]; [reflexivity|]. rewrite prefix_slash in H. change (S_ "//") with ["/"; "/"]%char. cbn [prefixb]. unfold aeq in *. now rewrite Ascii.eqb_sym, H.
  - intros H. assert (K : forall q, prefixb (S_ "file:" ++ q) t = false).
    { intros q. apply prefixb_false. intros r E. apply (H (q ++ r)). now rewrite app_assoc. }
    rewrite (K (S_ "//") : prefixb (S_ "file://") t = false), (K (S_ "/") : prefixb (S_ "file:/") t = false). reflexivity.
Qed.
Definition backward (s : str) : str := map (fun c => if aeq c "/" then "\"%char else c) s.
Theorem windows_uri_forms : forall t, windows_from_uri (S_ "file:///" ++ t) = backward (unescape t) /\
  (prefixb (S_ "/") t = false -> windows_from_uri (S_ "file://" ++ t) = S_ "\\" ++ backward (unescape t)) /\
  (prefixb (S_ "/") t = false -> windows_from_uri (S_ "file:/" ++ t) = backward (unescape (S_ "file:/" ++ t))) /\
  (prefixb (S_ "/") t = false -> windows_from_uri (S_ "file:" ++ t) = backward (unescape t)) /\ (no_file t -> windows_from_uri t = backward (unescape t)).
Proof.
  intros t. unfold windows_from_uri, backward. split; [now rewrite prefixb_app|].
  assert (K2 : prefixb (S_ "/") t = false -> prefixb (S_ "//") t = false).
  { intros H. destruct t as [|c t]; [reflexivity|]. rewrite prefix_slash in H. change (S_ "//") with ["/"; "/"]%char. cbn [prefixb]. unfold aeq in *. now rewrite Ascii.eqb_sym, H. }
  assert (K3 : prefixb (S_ "/") t = false -> prefixb (S_ "///") t = false).
  { intros H. destruct t as [|c t]; [reflexivity|]. rewrite prefix_slash in H. change (S_ "///") with ["/"; "/"; "/"]%char. cbn [prefixb]. unfold aeq in *. now rewrite Ascii.eqb_sym, H. }
  split; [|split; [|split]].
  - intros H. replace (prefixb (S_ "file:///") (S_ "file://" ++ t)) with (prefixb (S_ "/") t) by (destruct t; reflexivity). rewrite H, prefixb_app. change (skipn 7 (S_ "file://" ++ t)) with t. now rewrite map_app.
  - intros H. replace (prefixb (S_ "file:///") (S_ "file:/" ++ t)) with (prefixb (S_ "//") t) by (destruct t as [|? [|? ?]]; reflexivity).
    replace (prefixb (S_ "file://") (S_ "file:/" ++ t)) with (prefixb (S_ "/") t) by (destruct t; reflexivity). rewrite H, (K2 H), !prefixb_app. rewrite andb_false_r. reflexivity.
  - intros H. replace (prefixb (S_ "file:///") (S_ "file:" ++ t)) with (prefixb (S_ "///") t) by (destruct t as [|? [|? [|? ?]]]; reflexivity).
    replace (prefixb (S_ "file://") (S_ "file:" ++ t)) with (prefixb (S_ "//") t) by (destruct t as [|? [|? ?]]; reflexivity).
    replace (prefixb (S_ "file:/") (S_ "file:" ++ t)) with (prefixb (S_ "/") t) by (destruct t; reflexivity). rewrite H, (K2 H), (K3 H), prefixb_app. reflexivity.
  - intros H. assert (K : forall q, prefixb (S_ "file:" ++ q) t = false).
    { intros q. apply prefixb_false. intros r E. apply (H (q ++ r)). now rewrite app_assoc. }
    rewrite (K (S_ "///") : prefixb (S_ "file:///") t = false), (K (S_ "//") : prefixb (S_ "file://") t = false), (K [] : prefixb (S_ "file:") t = false). reflexivity.
Qed.
Example uri_forms_sample : uri_to_filename (S_ "file:/a%20b") = Ok (Some (S_ "/a b")) /\ uri_to_windows_filename (S_ "file://h/a%2fb") = Ok (Some (S_ "\\h\a\b")) /\
  uri_to_windows_filename (S_ "file:c:/x") = Ok (Some (S_ "c:\x")) /\ uri_to_filename (S_ "50%") = Ok (Some (S_ "50%")).
Proof. repeat split; reflexivity. Qed.
(** C120. A URI of 2147483647 bytes overflows the size as well. *)
Theorem long_uri_refuted : exists u, slen u = 2147483647%N /\ uri_to_filename u = UB /\ uri_to_windows_filename u = UB.
Proof.
  exists (repeat "a"%char (N.to_nat 2147483647)). assert (L : slen (repeat "a"%char (N.to_nat 2147483647)) = 2147483647%N) by (unfold slen; rewrite repeat_length; lia).
  split; [exact L|]. unfold uri_to_filename, uri_to_unix_filename, uri_to_windows_filename, from_uri. rewrite L. split; reflexivity.
Qed.
(** C120. A size that does not fit an int: just below 2^32 it is negative, and nothing is converted; a size above wraps around, and what does not fit into the
    little that is allocated is written past its end. *)
Theorem huge_uri : forall u, (2147483648 <= slen u < 4294967295)%N -> uri_to_filename u = Ok None /\ uri_to_windows_filename u = Ok None.
Proof.
  intros u H. assert (K : to_int (slen u) = (Z.of_N (slen u) - 4294967296)%Z) by (unfold to_int; rewrite Z.mod_small by lia; destruct (Z.of_N (slen u) <? 2147483648)%Z eqn:E; lia).
  unfold uri_to_filename, uri_to_unix_filename, uri_to_windows_filename, from_uri, is_int, write_into. rewrite K.
  destruct (((-2147483648 <=? Z.of_N (slen u) - 4294967296 + 1) && (Z.of_N (slen u) - 4294967296 + 1 <=? 2147483647))%Z) eqn:E1; [|lia].
  destruct (Z.of_N (slen u) - 4294967296 + 1 <? 0)%Z eqn:E2; [split; reflexivity|lia].
Qed.
Theorem wrapped_uri_refuted : forall u, slen u = 4294967295%N -> uri_to_filename u = UB /\ uri_to_windows_filename u = UB.
Proof.
  intros u H. unfold uri_to_filename, uri_to_unix_filename, uri_to_windows_filename, from_uri, is_int, write_into. rewrite H. change (to_int 4294967295) with (-1)%Z. change (-1 + 1)%Z with 0%Z.
  change ((-2147483648 <=? 0) && (0 <=? 2147483647))%Z with true. change (0 <? 0)%Z with false. cbv iota zeta.
  split; (match goal with |- (if ?b then _ else _) = _ => destruct b eqn:E; [reflexivity|lia] end).
Qed.
Theorem wrapped_size : forall u n, slen u = (4294967296 + n)%N -> (n < 2147483647)%N ->
  uri_to_filename u = if (slen (unix_from_uri (c_string u)) <=? n)%N then Ok (Some (c_string (unix_from_uri (c_string u)))) else UB.
Proof.
  intros u n H Hn. unfold uri_to_filename, uri_to_unix_filename, from_uri, is_int, write_into. rewrite H.
  assert (K : to_int (4294967296 + n) = Z.of_N n). { unfold to_int. replace (Z.of_N (4294967296 + n)) with (Z.of_N n + 1 * 4294967296)%Z by lia. rewrite Z.mod_add, Z.mod_small by lia. destruct (Z.of_N n <? 2147483648)%Z eqn:E; lia. }
  rewrite K. destruct (((-2147483648 <=? Z.of_N n + 1) && (Z.of_N n + 1 <=? 2147483647))%Z) eqn:E1; [|lia]. destruct (Z.of_N n + 1 <? 0)%Z eqn:E2; [lia|]. cbv zeta.
  destruct (N.leb_spec (slen (unix_from_uri (c_string u))) n) as [L|L]; (match goal with |- (if ?b then _ else _) = _ => destruct b eqn:E; [try reflexivity; lia|try reflexivity; lia] end).
Qed.
Example huge_uri_sample : exists u, slen u = 4294967295%N.
Proof. exists (repeat "a"%char (N.to_nat 4294967295)). unfold slen. rewrite repeat_length. lia. Qed.
(** C120. Escapes are read in either case. *)
Definition lower_digits : str := S_ "0123456789abcdef".
Definition upper_digits : str := S_ "0123456789ABCDEF".
Theorem escape_read : forall d e i j t, In d [lower_digits; upper_digits] -> In e [lower_digits; upper_digits] -> i < 16 -> j < 16 ->
  unescape ("%"%char :: nth i d " "%char :: nth j e " "%char :: t) = ascii_of_nat (16 * i + j) :: unescape t.
Proof.
  assert (V : forall d i, In d [lower_digits; upper_digits] -> i < 16 -> hexdig (nth i d " "%char) = true /\ hex_value (nth i d " "%char) = N.of_nat i).
  { intros d i [<-|[<-|[]]] Hi; do 16 (destruct i as [|i]; [split; reflexivity|]); lia. }
  intros d e i j t Hd He Hi Hj. destruct (V d i Hd Hi) as [A1 A2]. destruct (V e j He Hj) as [B1 B2]. cbn [unescape]. change (aeq "%"%char "%"%char) with true. rewrite A1, B1, A2, B2. cbn [andb].
  f_equal. unfold ascii_of_nat, chr. f_equal. rewrite Nat2N.inj_add, Nat2N.inj_mul. reflexivity.
Qed.
(** C120. The name of a file in the network of Windows comes back. *)
Lemma escape_name_set2 s d : In d (escape_name "\" false s) -> unreserved d = true \/ d = "%"%char \/ d = "/"%char.
Proof.
  induction s as [|c s IH]; [intros []|]. cbn [escape_name]. destruct (aeq c "\").
  - intros [<-|H]; auto.
  - intros H. apply in_app_iff in H. destruct H as [H|H]; [|auto]. apply escape_byte_set in H. tauto.
Qed.
Lemma unescape_backslash s : unescape (escape_name "\" false s) = map (fun c => if aeq c "\" then "/"%char else c) s.
Proof.
  induction s as [|c s IH]; [reflexivity|]. cbn [escape_name map]. destruct (aeq c "\"); [now rewrite unescape_slash, IH|]. now rewrite unescape_escape, IH.
Qed.
Theorem network_name : forall t, (slen t < 715827878)%N -> ~ In "/"%char t -> ~ In "000"%char t -> prefixb (S_ "\") t = false ->
  exists u, filename_to_uri (S_ "\\" ++ t) = Ok (Some (S_ "file://" ++ u)) /\ uri_to_windows_filename (S_ "file://" ++ u) = Ok (Some (S_ "\\" ++ t)).
Proof.
  intros t Hl Hs Hn Hp. exists (escape_name "\" false t). set (u := escape_name "\" false t). pose proof (escape_name_length "\" false t) as Lu. fold u in Lu.
  assert (Hu : ~ In "000"%char u). { intros H. apply escape_name_set2 in H. destruct H as [H|[H|H]]; discriminate. }
  assert (Hpu : prefixb (S_ "/") u = false).
  { unfold u. destruct t as [|c t]; [reflexivity|]. cbn [escape_name]. destruct (aeq c "\") eqn:E; [apply aeq_spec in E; subst c; cbn in Hp; discriminate|]. rewrite prefix_slash.
    destruct (escape_byte c) as [|d l] eqn:Eb; [pose proof (escape_byte_length c) as K; rewrite Eb in K; cbn in K; lia|]. cbn [app]. apply aeq_neq. intros ->.
    assert (K : In "/"%char (escape_byte c)) by (rewrite Eb; now left). apply escape_byte_set in K as [K|K]; discriminate. }
  assert (Hw : windows_to_uri (S_ "\\" ++ t) = S_ "file://" ++ u) by reflexivity.
  assert (C1 : c_string (S_ "\\" ++ t) = S_ "\\" ++ t) by (apply c_string_id; intros H; apply in_app_iff in H as [H|H]; [cbn in H; repeat (destruct H as [H|H]; [discriminate|]); exact H|exact (Hn H)]).
  assert (C2 : c_string (S_ "file://" ++ u) = S_ "file://" ++ u) by (apply c_string_id; intros H; apply in_app_iff in H as [H|H]; [cbn in H; repeat (destruct H as [H|H]; [discriminate|]); exact H|exact (Hu H)]).
  split.
  - unfold filename_to_uri. change (existsb (aeq "\") (S_ "\\" ++ t)) with true. cbv iota. unfold windows_filename_to_uri. rewrite to_uri_ok; [|now right|intros x; pose proof (windows_to_uri_length x); lia|].
    + now rewrite C1, Hw, C2.
    + unfold slen in *. rewrite app_length. change (length (S_ "\\")) with 2. lia.
  - unfold uri_to_windows_filename. rewrite from_uri_ok; [|apply windows_from_uri_length|].
    + rewrite C2. rewrite (proj1 (proj2 (windows_uri_forms u)) Hpu). replace (backward (unescape u)) with t; [now rewrite C1|].
      unfold u, backward. rewrite unescape_backslash, map_map. clear - Hs. induction t as [|c t IH]; [reflexivity|]. cbn [map]. rewrite <- IH by (intros H; apply Hs; now right). f_equal.
      destruct (aeq c "\") eqn:E; [apply aeq_spec in E; now subst c|]. assert (aeq c "/" = false) as ->; [apply aeq_neq; intros ->; apply Hs; now left|reflexivity].
    + unfold slen in *. rewrite app_length. change (length (S_ "file://")) with 7. lia.
Qed.
Example network_sample : filename_to_uri (S_ "\\server\my maps\a.kml") = Ok (Some (S_ "file://server/my%20maps/a.kml")).
Proof. reflexivity. Qed.
Print Assumptions names_in_bounds.
Print Assumptions long_name_refuted.
Print Assumptions name_there_and_back.
Print Assumptions name_is_uri.
Print Assumptions backslash_refuted.
Print Assumptions drive_refuted.
Print Assumptions normalize_href_same.
Print Assumptions uri_forms.
Print Assumptions windows_uri_forms.
Print Assumptions long_uri_refuted.
Print Assumptions huge_uri.
Print Assumptions wrapped_uri_refuted.
Print Assumptions wrapped_size.
Print Assumptions escape_read.
Print Assumptions network_name.

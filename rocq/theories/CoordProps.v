(** Property theorems about coordinates texts (C25, C26, C59). *)
From Verif Require Import Common StrMap StringsModel StringsProofs AttributesModel XsdTables XsdModel XmlSpec XmlSpecProofs SerializerModel SerializerProofs.
From Verif Require Import HandlerModel HandlerSpec HandlerProofs HandlerProofs2 HandlerProps CoordModel CoordProofs.

(** C25. Tuples of two or three numbers, separated by white space that contains a space, with optional
    white space around the commas, are parsed to exactly those numbers in order. *)
Theorem coordinates_parsed : forall lead l, forallb blank lead = true -> tuples_ok l = true -> l <> [] ->
  coordinates_parse (lead ++ tuples_text l) = Ok (map (fun p => tuple_vec (fst p)) l).
Proof. exact coordinates_exact. Qed.
Print Assumptions coordinates_parsed.

(** C25. Parsing ends for the empty text and for every text with a digit or a minus sign. *)
Theorem coordinates_terminate : forall s, ~ In nul s -> (s = [] \/ existsb starts s = true) -> coordinates_parse s <> Fuel.
Proof. exact coordinates_terminates. Qed.
Print Assumptions coordinates_terminate.

(** The usual way to write a number: an optional minus sign, digits, an optional fraction and an optional
    exponent with either letter and either sign. *)
Inductive decimal_literal : str -> Prop :=
  Decimal_literal sgn d ds frac e :
    (sgn = [] \/ sgn = S_ "-") -> forallb isdigit (d :: ds) = true ->
    (frac = [] \/ exists fs, frac = "."%char :: fs /\ forallb isdigit fs = true) ->
    (e = [] \/ exists m sg es, e = m :: sg ++ es /\ In m ["e"%char; "E"%char] /\ In sg [[]; S_ "+"; S_ "-"] /\ forallb isdigit es = true) ->
    decimal_literal (sgn ++ (d :: ds) ++ frac ++ e).

(** C25. Every number written in the usual way is one of the numbers of the theorems here: in particular a
    lone one is read whole as a longitude. *)
Lemma digits_num l : forallb isdigit l = true -> forallb numchar l = true.
Proof. apply forallb_imp. intros c H. unfold numchar. now rewrite H. Qed.
Lemma literal_number s : decimal_literal s -> number s = true.
Proof.
  intros [sgn d ds frac e Hs Hd Hf He].
  assert (Hf' : forallb numchar frac = true).
  { destruct Hf as [->|(fs & -> & Hf)]; [reflexivity|]. cbn [forallb]. rewrite digits_num by auto. reflexivity. }
  assert (He' : forallb numchar e = true).
  { destruct He as [->|(m & sg & es & -> & Hm & Hg & He)]; [reflexivity|]. cbn [forallb]. rewrite forallb_app, (digits_num es) by auto.
    destruct Hm as [<-|[<-|[]]]; destruct Hg as [<-|[<-|[<-|[]]]]; reflexivity. }
  pose proof (digits_num _ Hd) as Hn. cbn [forallb] in Hd. apply andb_true_iff in Hd as [Hd _]. unfold number.
  rewrite !forallb_app, Hn, Hf', He'.
  assert (Hs' : forallb numchar sgn = true) by (destruct Hs as [->| ->]; reflexivity). rewrite Hs'.
  assert (Nd : aeq d "-"%char = false /\ aeq d "."%char = false).
  { revert Hd. clear. destruct d as [[] [] [] [] [] [] [] []]; vm_compute; auto; discriminate. }
  destruct Nd as [N1 N2].
  destruct Hs as [->| ->]; unfold starts, is_decimal_double_string; cbn [list_ascii_of_string app];
    rewrite ?aeq_refl, ?N1; cbv beta iota; rewrite N2, Hd; reflexivity.
Qed.
Theorem decimal_literals_are_numbers : forall s, decimal_literal s -> number s = true /\
  (fits s = true -> coordinates_parse s = Ok [{| v_lon := s; v_lat := None; v_alt := None |}]).
Proof.
  intros s H. split; [now apply literal_number|]. intros Hf. apply literal_number in H.
  unfold coordinates_parse. destruct (number_inv s H) as (c & t & E & Hst & Hd & Hc).
  assert (Hp : parse_vec3 s = Ok (Some ({| v_lon := s; v_lat := None; v_alt := None |}, []))).
  { unfold parse_vec3. assert (skip s = s) as ->.
    { rewrite E. unfold skip. cbn [drop_while]. rewrite Hst. cbn [negb]. now rewrite andb_false_r. }
    assert (forallb lon_char s = true) by now apply num_lon.
    assert (take_while lon_char s = s /\ drop_while lon_char s = []) as [-> ->].
    { clear -H0. induction s as [|x s IH]; [auto|]. cbn in *. apply andb_true_iff in H0 as [Hx H0]. rewrite Hx.
      destruct (IH H0) as [-> ->]. auto. }
    rewrite Hf. cbn [negb]. pose proof (double_of s [] H I) as D. rewrite app_nil_r in D. rewrite D. destruct s; [discriminate E|].
    reflexivity. }
  rewrite E in *. cbn [length parse_loop]. rewrite Hp. reflexivity.
Qed.
Print Assumptions decimal_literals_are_numbers.
Example decimal_literal_samples : decimal_literal (S_ "-12.5E-3") /\ decimal_literal (S_ "7e+10") /\ decimal_literal (S_ "180").
Proof.
  split; [|split].
  - refine (Decimal_literal (S_ "-") "1"%char (S_ "2") (S_ ".5") (S_ "E-3") _ _ _ _); [auto|reflexivity|right; now exists (S_ "5")|].
    right. exists "E"%char, (S_ "-"), (S_ "3"). cbn. tauto.
  - refine (Decimal_literal [] "7"%char [] [] (S_ "e+10") _ _ _ _); [auto|reflexivity|auto|].
    right. exists "e"%char, (S_ "+"), (S_ "10"). cbn. tauto.
  - exact (Decimal_literal [] "1"%char (S_ "80") [] [] ltac:(auto) eq_refl ltac:(auto) ltac:(auto)).
Qed.

(** Non-vacuity: the documented kinds of text that do parse. *)
Definition sample_tuples : list (tuple * str) :=
  [({| lon := S_ "-1.1"; w1 := S_ " "; w2 := S_ " "; lat := S_ "2.2"; alt := Some (S_ "", S_ " ", S_ "3.3e1") |}, S_ "  ");
   ({| lon := S_ "4"; w1 := []; w2 := []; lat := S_ "-5.5"; alt := None |}, ["010"%char])].
Example sample_tuples_ok : tuples_ok sample_tuples = true /\
  tuples_text sample_tuples = S_ "-1.1 , 2.2, 3.3e1  4,-5.5" ++ ["010"%char] /\
  coordinates_parse (tuples_text sample_tuples) =
    Ok [{| v_lon := S_ "-1.1"; v_lat := Some (S_ "2.2"); v_alt := Some (S_ "3.3e1") |};
        {| v_lon := S_ "4"; v_lat := Some (S_ "-5.5"); v_alt := None |}].
Proof. repeat split; vm_compute; reflexivity. Qed.

(** C25. Refuted: a non-empty text without digit and minus sign (for instance one space) makes the
    parser loop forever, whatever the number of iterations. *)
Theorem coordinates_hang_refuted : forall s fuel, s <> [] -> existsb starts s = false -> ~ In nul s -> parse_loop fuel s = Fuel.
Proof. exact loop_spins. Qed.
Print Assumptions coordinates_hang_refuted.

(** C25. Refuted: tuples separated by line feeds only lose the longitude of the second tuple. *)
Theorem newline_separated_refuted : exists s, s = S_ "1,2" ++ ["010"%char] ++ S_ "3,4" /\
  coordinates_parse s = Ok [{| v_lon := S_ "1"; v_lat := Some (S_ "2"); v_alt := Some (S_ "4") |}].
Proof. eexists. split; [reflexivity|]. vm_compute. reflexivity. Qed.
Print Assumptions newline_separated_refuted.

(** C25. Refuted: a space before the second comma splits the tuple, although the documentation
    promises any white space around the commas. *)
Theorem space_before_comma_refuted : coordinates_parse (S_ "1.1 , 2.2 , 3.3") =
  Ok [{| v_lon := S_ "1.1"; v_lat := Some (S_ "2.2"); v_alt := None |}; {| v_lon := S_ "3.3"; v_lat := None; v_alt := None |}].
Proof. vm_compute. reflexivity. Qed.
Print Assumptions space_before_comma_refuted.

(** C25. Refuted: a leading decimal point is dropped. *)
Theorem leading_point_refuted : coordinates_parse (S_ ".5,.25") =
  Ok [{| v_lon := S_ "5"; v_lat := Some (S_ "25"); v_alt := None |}].
Proof. vm_compute. reflexivity. Qed.
Print Assumptions leading_point_refuted.

(** C25. Refuted: a lone minus sign reads an uninitialized number; a token of 1024 or more characters
    is written past the end of a buffer. *)
Theorem lone_minus_refuted : coordinates_parse (S_ "-,1,2") = UB /\ coordinates_parse (S_ "1,2,-") = UB.
Proof. split; vm_compute; reflexivity. Qed.
Print Assumptions lone_minus_refuted.
Lemma long_token n : 1024 <= n -> coordinates_parse (repeat "1"%char n) = UB.
Proof.
  intros Hn. unfold coordinates_parse. destruct n as [|m]; [lia|]. cbn [repeat parse_loop]. set (t := repeat "1"%char m).
  enough (parse_vec3 ("1"%char :: t) = UB) as ->; [reflexivity|]. unfold parse_vec3.
  change (skip ("1"%char :: t)) with ("1"%char :: t).
  assert (E : take_while lon_char ("1"%char :: t) = "1"%char :: t).
  { rewrite <- (app_nil_r ("1"%char :: t)) at 1. apply take_app; [|exact I]. apply forallb_forall. intros x Hx.
    change ("1"%char :: t) with (repeat "1"%char (S m)) in Hx. apply repeat_spec in Hx. subst. reflexivity. }
  rewrite E. assert (fits ("1"%char :: t) = false) as ->; [|reflexivity].
  unfold fits, t. cbn [length]. rewrite repeat_length. lia.
Qed.
Theorem long_token_refuted : forall n, 1024 <= n -> coordinates_parse (repeat "1"%char n) = UB.
Proof. exact long_token. Qed.
Print Assumptions long_token_refuted.

(** C25. Shorter tokens are read: a tuple of one number of up to 1023 digits has no more to it. *)
Theorem token_limit : forall n, coordinates_parse (repeat "1"%char (S n)) =
  if n <? 1023 then Ok [{| v_lon := repeat "1"%char (S n); v_lat := None; v_alt := None |}] else UB.
Proof.
  intros n. destruct (n <? 1023) eqn:Hn; [apply Nat.ltb_lt in Hn|apply Nat.ltb_ge in Hn; apply long_token; lia].
  unfold coordinates_parse. cbn [repeat parse_loop]. set (t := repeat "1"%char n).
  assert (All : forall p : ascii -> bool, p "1"%char = true -> take_while p ("1"%char :: t) = "1"%char :: t /\ drop_while p ("1"%char :: t) = []).
  { intros p Hp. change ("1"%char :: t) with (repeat "1"%char (S n)). clear Hn t. induction (S n) as [|m [I1 I2]]; [split; reflexivity|].
    cbn [repeat take_while drop_while]. rewrite Hp. now rewrite I1, I2. }
  enough (E : parse_vec3 ("1"%char :: t) = Ok (Some ({| v_lon := "1"%char :: t; v_lat := None; v_alt := None |}, []))).
  { rewrite E. cbn [bind]. destruct (length t); reflexivity. }
  unfold parse_vec3. change (skip ("1"%char :: t)) with ("1"%char :: t).
  destruct (All lon_char eq_refl) as [A1 A2]. rewrite A1, A2.
  assert (fits ("1"%char :: t) = true) as ->. { unfold fits, t. cbn [length]. rewrite repeat_length. apply N.leb_le. lia. }
  cbn [negb].
  assert (string_to_double ("1"%char :: t) = Some ("1"%char :: t)) as ->.
  { unfold string_to_double. cbn [is_decimal_double_string]. 
    destruct (All numchar eq_refl) as [N1 _]. rewrite N1. reflexivity. }
  reflexivity.
Qed.
Print Assumptions token_limit.

(** C26. The text written by the pretty printer for any list of tuples, at any nesting depth of a
    parsable document, is parsed back to the same numbers. *)
Theorem pretty_coordinates_round_trip : forall d vs, d <= 140 -> forallb vec_ok vs = true -> vs <> [] ->
  coordinates_parse (direct_text (content lf (S_ "  ") d (map vec_item vs))) = Ok (map vec_of vs).
Proof. exact pretty_round_trip. Qed.
Print Assumptions pretty_coordinates_round_trip.

Lemma numchar_plain c : numchar c = true -> plain_char c = true.
Proof. destruct c as [[] [] [] [] [] [] [] []]; vm_compute; congruence. Qed.
Lemma vecs_readable vs : forallb vec_ok vs = true -> forallb readable (map vec_item vs) = true.
Proof.
  induction vs as [|[[a b] c] vs IH]; [auto|]. cbn [forallb map vec_item readable vec_ok]. rewrite !andb_true_iff.
  intros [[[[Ha Hb] Hc] _] H]. apply number_chars in Ha, Hb, Hc. split; [|now apply IH].
  split; [split|]; match goal with H : forallb numchar ?x = true |- forallb plain_char ?x = true => revert H end;
    apply forallb_imp; apply numchar_plain.
Qed.
Lemma vecs_chars vs : vs <> [] -> content lf (S_ "  ") 0 (map vec_item vs) = chars (direct_text (content lf (S_ "  ") 0 (map vec_item vs))).
Proof.
  intros _. assert (H : forall F, Forall (fun x => exists c, x = XChar c) F -> F = chars (direct_text F)).
  { induction 1 as [|x F [c ->] HF IH]; [reflexivity|]. cbn [direct_text flat_map app chars map]. f_equal. exact IH. }
  assert (Hc : forall s, Forall (fun x => exists c, x = XChar c) (chars s)).
  { intros s. unfold chars. induction s; cbn [map]; constructor; eauto. }
  apply H. unfold content. destruct vs as [|v vs]; [constructor|]. cbn [map].
  assert (Hd : forall v, exists s, doc lf (S_ "  ") 1 (vec_item v) = ([], chars s)) by (intros [[a b] c]; eexists; reflexivity).
  apply Forall_app. split; [apply Hc|]. apply Forall_app. split; [destruct (Hd v) as [s ->]; apply Hc|]. apply Forall_app.
  split; [|apply Hc]. induction vs as [|v' vs IH]; [constructor|]. cbn [map flat_map]. apply Forall_app. split; [|exact IH].
  destruct (Hd v') as [s ->]. cbn [fst snd app]. apply Hc.
Qed.
Lemma chars_regular n s : eqs n (S_ "Schema") = false -> regular (XElem n [] (chars s)).
Proof.
  intros Hn. assert (Hf : forall (f : xml -> bool), (forall c, f (XChar c) = true) -> forallb f (chars s) = true).
  { intros f Hf. unfold chars. induction s; cbn [map forallb]; auto. now rewrite Hf. }
  split; [eauto|]. split; [|split].
  - cbn [no_old_schema]. rewrite Hn. cbn [negb orb andb]. now apply Hf.
  - cbn [descriptions_ok]. destruct (known_type Type_Unknown n) as [ty|]; [destruct (ty =? Type_description)%N; auto|]; now apply Hf.
  - cbn [xdepth]. assert (list_max (map xdepth (chars s)) = 0) as ->; [|lia].
    clear. unfold chars. induction s; cbn [map list_max fold_right xdepth]; auto.
Qed.

(** C26. Whole documents: a coordinates element written by the pretty printer is read by the parser as a
    coordinates element that parses its text to the same numbers. *)
Lemma pretty_document vs : forallb vec_ok vs = true -> vs <> [] ->
  exists s text, serialize_pretty (IElem Type_coordinates [] (map vec_item vs)) = Ok s /\
    parse_text [] s = Ok (Some (Node Type_coordinates None text [LSelf text])) /\
    coordinates_parse text = Ok (map vec_of vs).
Proof.
  intros Hv Hne. pose proof (pretty_round_trip 0 vs ltac:(lia) Hv Hne) as Hp.
  destruct (serialize_reads lf (S_ "  ") Type_coordinates [] (map vec_item vs) eq_refl eq_refl) as (s & E1 & E2).
  { cbn [readable]. rewrite vecs_readable by auto. reflexivity. }
  rewrite (vecs_chars vs Hne) in E2. set (text := direct_text _) in *.
  exists s, text. split; [exact E1|]. split; [|exact Hp].
  rewrite (parse_text_builds_tree s _ E2); [|now apply chars_regular].
  assert (Hr : forall t, flat_map (received keep_all Type_coordinates) (chars t) = []).
  { intros t. unfold chars. induction t; cbn [map flat_map received app]; auto. }
  pose proof (direct_text_chars text) as Hd.
  unfold tree. change (known_type Type_Unknown (tag_name Type_coordinates)) with (Some Type_coordinates).
  cbv beta iota. rewrite Hr, Hd. reflexivity.
Qed.
Theorem pretty_coordinates_document : forall vs, forallb vec_ok vs = true -> vs <> [] ->
  exists s text, serialize_pretty (IElem Type_coordinates [] (map vec_item vs)) = Ok s /\
    parse_text [] s = Ok (Some (Node Type_coordinates None text [LSelf text])) /\
    coordinates_parse text = Ok (map vec_of vs).
Proof. exact pretty_document. Qed.
Print Assumptions pretty_coordinates_document.
Example vec_ok_samples : forallb vec_ok [(S_ "-122.0841", S_ "37.42", S_ "0"); (S_ "1e-05", S_ "-90", S_ "8848.86")] = true.
Proof. reflexivity. Qed.

(** C26. Raw output of one tuple is read back. *)
Theorem raw_coordinates_one : forall v, vec_ok v = true -> coordinates_parse (direct_text (content [] [] 0 [vec_item v])) = Ok [vec_of v].
Proof. exact raw_one. Qed.
Print Assumptions raw_coordinates_one.

(** C26. Refuted: for any two tuples, raw output is read back with the second tuple replaced by its
    latitude and altitude taken as longitude and latitude. *)
Theorem raw_coordinates_refuted : forall v1 v2, vec_ok v1 = true -> vec_ok v2 = true ->
  coordinates_parse (direct_text (content [] [] 0 (map vec_item [v1; v2]))) =
  Ok [vec_of v1; (let '(_, b, c) := v2 in {| v_lon := b; v_lat := Some c; v_alt := None |})].
Proof. exact raw_two. Qed.
Print Assumptions raw_coordinates_refuted.

(** C59. The text written for a gx:coord or gx:angles is read back to the same three numbers. *)
Theorem gx_coord_round_trip : forall a b c, number a = true -> number b = true -> number c = true ->
  gx_parse (gx_text a b c) = Ok {| g_lon := Some a; g_lat := Some b; g_alt := Some c |}.
Proof. exact gx_round_trip. Qed.
Print Assumptions gx_coord_round_trip.

(** C59. Refuted: an extra space in a gx:coord (or an empty one) reads an uninitialized number. *)
Theorem gx_coord_spacing_refuted : gx_parse (S_ "1  2 3") = UB /\ gx_parse [] = UB.
Proof. split; vm_compute; reflexivity. Qed.
Print Assumptions gx_coord_spacing_refuted.

(** C59. A fourth number is read and dropped, whatever follows it is not read. *)
Lemma gx_more a b c d l : number a = true -> number b = true -> number c = true -> number d = true -> Forall (fun t => ~ In " "%char t) l ->
  gx_parse (join [" "%char] (a :: b :: c :: d :: l)) = Ok {| g_lon := Some a; g_lat := Some b; g_alt := Some c |}.
Proof.
  intros Ha Hb Hc Hd Hl. unfold gx_parse.
  assert (E : split_string_using (join [" "%char] (a :: b :: c :: d :: l)) (S_ " ") = Ok (a :: b :: c :: d :: l)).
  { change (S_ " ") with [" "%char]. rewrite split_string_ok. f_equal. apply split_of_join; [discriminate|].
    repeat (constructor; [now apply number_no_space|]). exact Hl. }
  rewrite E. cbn [bind gx_loop gx_set]. rewrite !number_gx by auto. reflexivity.
Qed.
Theorem gx_coord_extra_ignored : forall a b c d l, number a = true -> number b = true -> number c = true -> number d = true ->
  Forall (fun t => ~ In " "%char t) l ->
  gx_parse (join [" "%char] (a :: b :: c :: d :: l)) = Ok {| g_lon := Some a; g_lat := Some b; g_alt := Some c |}.
Proof. exact gx_more. Qed.
Print Assumptions gx_coord_extra_ignored.
Example gx_coord_extra_sample : gx_parse (S_ "1 2 3 4  x") = Ok {| g_lon := Some (S_ "1"); g_lat := Some (S_ "2"); g_alt := Some (S_ "3") |}.
Proof. reflexivity. Qed.

(** C59. Refuted: a space after the third number makes the reader look at a fourth, which is not there: an
    uninitialized number is read, for all three numbers. *)
Theorem gx_coord_trailing_space_refuted : forall a b c, number a = true -> number b = true -> number c = true ->
  gx_parse (join [" "%char] [a; b; c; []]) = UB.
Proof.
  intros a b c Ha Hb Hc. unfold gx_parse.
  assert (E : split_string_using (join [" "%char] [a; b; c; []]) (S_ " ") = Ok [a; b; c; []]).
  { change (S_ " ") with [" "%char]. rewrite split_string_ok. f_equal. apply split_of_join; [discriminate|].
    repeat constructor; auto using number_no_space. }
  rewrite E. cbn [bind gx_loop gx_set]. rewrite !number_gx by auto. reflexivity.
Qed.
Print Assumptions gx_coord_trailing_space_refuted.
Example gx_coord_trailing_space_sample : join [" "%char] [S_ "1"; S_ "2"; S_ "3"; []] = S_ "1 2 3 " /\ gx_parse (S_ "1 2 3 ") = UB.
Proof. split; reflexivity. Qed.

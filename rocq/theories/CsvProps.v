(** Properties of the CSV parser. *)
From Verif Require Import Common StringsModel StringsProofs CoordModel CsvModel CsvProofs.

(** C45. Every data line gives one call, in order, until the handler refuses; calls are numbered 2, 3, ...
    and carry what the line says under the columns of the header ([spec_line]). *)
Theorem csv_parse_correct : forall handle data x ls header, lines_spec data = x :: ls ->
  split_quoted_using x ","%char = Ok header -> last_col (S_ "latitude") header 0 <> None -> last_col (S_ "longitude") header 0 <> None ->
  exists cells, Forall2 (fun l cols => split_quoted_using l ","%char = Ok cols) ls cells /\
    parse_csv handle data = Ok (upto handle (calls_of header 2 cells), forallb handle (calls_of header 2 cells)).
Proof.
  intros handle data x ls h Hl Hx La Lo. destruct (cells_exist ls) as [cells F]. exists cells. split; auto.
  unfold parse_csv. rewrite csv_all_lines_spec, Hl. cbn [bind]. rewrite Hx. cbn [bind].
  assert (Hs : set_schema h = (fst (set_schema h), OK)).
  { apply schema_status. repeat split; auto. intros ->. now apply La. }
  rewrite Hs. now apply data_calls.
Qed.
Print Assumptions csv_parse_correct.

(** A header without a latitude or longitude column, or an empty one, is reported once as line 1. *)
Theorem csv_bad_header : forall handle data x ls header, lines_spec data = x :: ls ->
  split_quoted_using x ","%char = Ok header ->
  last_col (S_ "latitude") header 0 = None \/ last_col (S_ "longitude") header 0 = None ->
  parse_csv handle data = Ok ([(1%N, (match header with [] => BLANK_LINE | _ => NO_LAT_LON end), None)], false).
Proof.
  intros handle data x ls h Hl Hx L. unfold parse_csv. rewrite csv_all_lines_spec, Hl. cbn [bind]. rewrite Hx. cbn [bind].
  assert (E : snd (set_schema h) = match h with [] => BLANK_LINE | _ => NO_LAT_LON end).
  { unfold set_schema. destruct h as [|h0 h'] eqn:Eh; auto. rewrite <- Eh in *. cbv zeta. rewrite schema_cols_spec. cbn [snd s_lat s_lon].
    destruct L as [-> | ->]; cbn [orelse]; [reflexivity|]. destruct (orelse _ None); reflexivity. }
  destruct (set_schema h) as [s st]. cbn in E. subst st. destruct h; reflexivity.
Qed.
Print Assumptions csv_bad_header.
(** Each text has a first line, which may be blank: a blank text is reported as a blank line 1. *)
Theorem csv_blank_text : forall handle, parse_csv handle [] = Ok ([(1%N, BLANK_LINE, None)], false).
Proof. intros handle. vm_compute. reflexivity. Qed.
Print Assumptions csv_blank_text.

(** Nothing a file contains makes the parser fail. *)
Theorem csv_parse_total : forall handle data, exists calls b, parse_csv handle data = Ok (calls, b).
Proof.
  intros handle data. destruct (lines_spec data) as [|x ls] eqn:El.
  - unfold parse_csv. rewrite csv_all_lines_spec, El. cbn. eauto.
  - destruct (split_quoted_total x ","%char) as [h Hx].
    destruct (last_col (S_ "latitude") h 0) eqn:La; [destruct (last_col (S_ "longitude") h 0) eqn:Lo|].
    + destruct (csv_parse_correct handle data x ls h El Hx) as (cells & _ & ->); [congruence|congruence|]. eauto.
    + rewrite (csv_bad_header handle data x ls h El Hx) by auto. eauto.
    + rewrite (csv_bad_header handle data x ls h El Hx) by auto. eauto.
Qed.
Print Assumptions csv_parse_total.

(** A line of a text without blank lines is reported under its own line number, whatever the line ends are
    (LF, CR, CR LF; [eol] is any of them). *)
Lemma cut_line f x s : Forall (fun c => f c = false) x -> cut f (x ++ s) = match cut f s with p :: ps => (x ++ p) :: ps | [] => [x] end.
Proof.
  intros H. induction H as [|c x Hc H IH]; cbn [app].
  - pose proof (cut_shape f s) as C. destruct (cut f s); [discriminate|reflexivity].
  - cbn [cut]. rewrite Hc, IH. destruct (cut f s); reflexivity.
Qed.
Lemma cut_eol s eol : Forall (fun c => is_nl c = true) eol -> filter StringsProofs.nonempty (cut is_nl (eol ++ s)) = filter StringsProofs.nonempty (cut is_nl s).
Proof. intros H. induction H as [|c e Hc H IH]; cbn [app cut]; auto. rewrite Hc. cbn [filter StringsProofs.nonempty]. apply IH. Qed.
Lemma cut_eol_only tail : Forall (fun c => is_nl c = true) tail -> filter StringsProofs.nonempty (cut is_nl tail) = [].
Proof. intros H. rewrite <- (app_nil_r tail), cut_eol by auto. reflexivity. Qed.
Lemma lines_of_text eol tail : eol <> [] -> Forall (fun c => is_nl c = true) eol -> Forall (fun c => is_nl c = true) tail ->
  forall ls x, Forall (fun l => l <> [] /\ Forall (fun c => is_nl c = false) l) (x :: ls) ->
  lines_spec (join eol (x :: ls) ++ tail) = x :: ls.
Proof.
  intros Ne He Ht.
  assert (G : forall ls, Forall (fun l => l <> [] /\ Forall (fun c => is_nl c = false) l) ls ->
    forall x, Forall (fun c => is_nl c = false) x ->
    exists r, cut is_nl (join eol (x :: ls) ++ tail) = x :: r /\ filter StringsProofs.nonempty r = ls).
  { intros ls H. induction H as [|y ls [Hy1 Hy2] H IH]; intros x Hx.
    - cbn [join]. rewrite cut_line by auto. destruct tail as [|c t].
      + exists []. cbn. now rewrite app_nil_r.
      + inversion Ht; subst. cbn [cut]. rewrite H1. exists (cut is_nl t). rewrite app_nil_r. split; auto. now apply cut_eol_only.
    - change (join eol (x :: y :: ls)) with (x ++ eol ++ join eol (y :: ls)). rewrite <- !app_assoc, cut_line by auto.
      destruct eol as [|c e]; [congruence|]. inversion He; subst. cbn [app cut]. rewrite H2.
      rewrite app_nil_r. eexists. split; [reflexivity|]. rewrite cut_eol by auto.
      destruct (IH y Hy2) as (r & -> & F). cbn [filter]. destruct y; [congruence|]. cbn. now f_equal. }
  intros ls x H. inversion H as [|? ? [Hx1 Hx2] Hl]; subst. destruct (G ls Hl x Hx2) as (r & E & F).
  unfold lines_spec. rewrite E. now f_equal.
Qed.
Theorem csv_line_numbers : forall eol tail x ls header cells,
  eol <> [] -> Forall (fun c => c = "010"%char \/ c = "013"%char) eol -> Forall (fun c => c = "010"%char \/ c = "013"%char) tail ->
  Forall (fun l => l <> [] /\ ~ In "010"%char l /\ ~ In "013"%char l) (x :: ls) ->
  split_quoted_using x ","%char = Ok header -> last_col (S_ "latitude") header 0 <> None -> last_col (S_ "longitude") header 0 <> None ->
  Forall2 (fun l cols => split_quoted_using l ","%char = Ok cols) ls cells ->
  exists calls, parse_csv (fun _ => true) (join eol (x :: ls) ++ tail) = Ok (calls, true) /\ length calls = length ls /\
    forall i cols, nth_error cells i = Some cols ->
      nth_error calls i = Some (N.of_nat (i + 2), fst (spec_line header cols), Some (snd (spec_line header cols))).
Proof.
  intros eol tail x ls h cells Ne He Ht F Hx La Lo C.
  assert (Nl : forall c, c = "010"%char \/ c = "013"%char -> is_nl c = true) by (intros c [-> | ->]; reflexivity).
  assert (Nn : forall l, ~ In "010"%char l /\ ~ In "013"%char l -> Forall (fun c => is_nl c = false) l).
  { intros l [H1 H2]. apply Forall_forall. intros c Hc. unfold is_nl. apply orb_false_iff. split; apply aeq_neq; intros ->; auto. }
  assert (L : lines_spec (join eol (x :: ls) ++ tail) = x :: ls).
  { apply lines_of_text; auto.
    - eapply Forall_impl; [|exact He]. auto.
    - eapply Forall_impl; [|exact Ht]. auto.
    - eapply Forall_impl; [|exact F]. intros l (H1 & H2). split; auto. }
  destruct (csv_parse_correct (fun _ => true) _ x ls h L Hx La Lo) as (cells' & C' & R).
  assert (cells' = cells).
  { clear -C C'. revert cells C. induction C'; intros cells C; inversion C; subst; auto. f_equal; [congruence|auto]. }
  subst cells'. rewrite R. exists (calls_of h 2 cells).
  assert (U : forall l, upto (fun _ => true) l = l) by (induction l; cbn; congruence).
  assert (B : forall l : list call, forallb (fun _ => true) l = true) by (induction l; cbn; auto).
  rewrite U, B. split; auto.
  assert (K : forall n, length (calls_of h n cells) = length cells /\ forall i cols, nth_error cells i = Some cols ->
     nth_error (calls_of h n cells) i = Some ((n + N.of_nat i)%N, fst (spec_line h cols), Some (snd (spec_line h cols)))).
  { clear. induction cells as [|c cells IH]; intros n; cbn [calls_of length]; [split; auto; intros [|i] ?; discriminate|].
    destruct (IH (n + 1)%N) as [I1 I2]. split; [lia|]. intros [|i] cols; cbn [nth_error].
    - intros [= ->]. rewrite N.add_0_r. reflexivity.
    - intros H. rewrite (I2 i cols H). replace (n + 1 + N.of_nat i)%N with (n + N.of_nat (S i))%N by lia. reflexivity. }
  destruct (K 2%N) as [K1 K2]. split.
  - rewrite K1. symmetry. clear -C. induction C; cbn; auto.
  - intros i cols H. rewrite (K2 i cols H). replace (2 + N.of_nat i)%N with (N.of_nat (i + 2)) by lia. reflexivity.
Qed.
Print Assumptions csv_line_numbers.
Example csv_example : exists c1 c2, parse_csv (fun _ => true) (S_ "Name,LATITUDE,longitude,pop
a,1,2,77
#x
") = Ok ([c1; c2], true) /\ c1 = (2%N, OK, Some {| k_point := Some (S_ "1", S_ "2"); k_name := Some (S_ "a"); k_desc := None; k_id := None;
      k_style := None; k_data := [(S_ "pop", S_ "77")] |}) /\ fst c2 = (3%N, COMMENT).
Proof. eexists. eexists. vm_compute. repeat split. Qed.

(** With a blank line the numbers are wrong: the third line of this text is reported as line 2. *)
Theorem csv_blank_line_refuted : exists data c line, parse_csv (fun _ => true) data = Ok ([c], true) /\
  nth_error (getlines [] data) 2 = Some line /\ fst (fst c) = 2%N /\ snd c = Some (snd (spec_line [S_ "latitude"; S_ "longitude"] [S_ "1"; S_ "2"])) /\
  line = S_ "1,2".
Proof.
  exists (S_ "latitude,longitude

1,2"). eexists. eexists. vm_compute. repeat split.
Qed.
Print Assumptions csv_blank_line_refuted.

(** A quoted field holding a line end, as CSV allows, is torn apart. *)
Theorem csv_quoted_line_end_refuted : exists c1 c2, parse_csv (fun _ => true)
  (S_ "latitude,longitude,note
1,2,""a
b""") = Ok ([c1; c2], true) /\ snd (fst c2) = INVALID_DATA.
Proof. eexists. eexists. vm_compute. repeat split. Qed.
Print Assumptions csv_quoted_line_end_refuted.

(** C75. A file of |-separated lines: each line of at least five fields is one feature, with its fields in
    the order score, latitude, longitude, name, description, style. *)
Lemma csv_file_line ps : ps <> [] -> Forall (fun p => ~ In "|"%char p) ps ->
  parse_csv_line (join (S_ "|") ps) = Ok (match ps with
    | p0 :: p1 :: p2 :: p3 :: p4 :: r => Some {| f_score := p0; f_lat := string_to_double p1; f_lon := string_to_double p2; f_name := p3; f_desc := p4;
        f_style := hd_error r |}
    | _ => None end).
Proof.
  intros Ne F. unfold parse_csv_line. pose proof (eq_trans (split_string_ok "|"%char (join ["|"%char] ps)) (f_equal Ok (split_of_join "|"%char ps Ne F))) as E.
  change ["|"%char] with (S_ "|") in E. rewrite E. cbn [bind].
  destruct ps as [|p0 [|p1 [|p2 [|p3 [|p4 r]]]]]; reflexivity.
Qed.
Lemma getlines_join ls : forall x cur, Forall (fun l => ~ In "010"%char l) (x :: ls) ->
  getlines cur (join (S_ "
") (x :: ls)) = (rev cur ++ x) :: ls.
Proof.
  assert (G : forall x s cur, ~ In "010"%char x -> getlines cur (x ++ s) = getlines (rev x ++ cur) s).
  { induction x as [|c x IH]; intros s cur H; auto. cbn [app getlines].
    assert (E : aeq c "010"%char = false) by (apply aeq_neq; intros ->; apply H; now left).
    rewrite E, IH by (intros Hi; apply H; now right). cbn [rev]. now rewrite <- app_assoc. }
  induction ls as [|y ls IH]; intros x cur F; inversion F; subst.
  - cbn [join]. rewrite <- (app_nil_r x), G by auto. cbn [getlines]. rewrite app_nil_r, rev_app_distr, rev_involutive. reflexivity.
  - change (join (S_ "
") (x :: y :: ls)) with (x ++ "010"%char :: join (S_ "
") (y :: ls)). rewrite G by auto. cbn [getlines]. rewrite aeq_refl, IH by auto. cbn [rev app].
    now rewrite rev_app_distr, rev_involutive.
Qed.
Theorem csv_file_correct : forall rows : list (list str),
  Forall (fun ps => ps <> [] /\ ps <> [[]] /\ Forall (fun p => ~ In "|"%char p /\ ~ In "010"%char p) ps) rows ->
  parse_csv_file (join (S_ "
") (map (join (S_ "|")) rows)) =
  Ok (flat_map (fun ps => match ps with
    | p0 :: p1 :: p2 :: p3 :: p4 :: r => [{| f_score := p0; f_lat := string_to_double p1; f_lon := string_to_double p2; f_name := p3; f_desc := p4;
        f_style := hd_error r |}]
    | _ => [] end) rows).
Proof.
  intros rows F. unfold parse_csv_file.
  assert (NL : Forall (fun l => l <> [] /\ ~ In "010"%char l) (map (join (S_ "|")) rows)).
  { apply Forall_map. eapply Forall_impl; [|exact F]. intros ps (H1 & H2 & H3). split.
    - destruct ps as [|p [|q ps]]; [now destruct H1| |].
      + cbn [join]. intros E. apply H2. now rewrite E.
      + change (join (S_ "|") (p :: q :: ps)) with (p ++ S_ "|" ++ join (S_ "|") (q :: ps)). destruct p; discriminate.
    - clear -H3. induction H3 as [|p ps [Hp1 Hp2] H IH]; [intros []|]. destruct ps as [|q ps]; [exact Hp2|].
      change (join (S_ "|") (p :: q :: ps)) with (p ++ "|"%char :: join (S_ "|") (q :: ps)).
      rewrite in_app_iff. intros [?|[E|?]]; [auto|discriminate|now apply IH]. }
  assert (P : forall rs, Forall (fun ps => ps <> [] /\ ps <> [[]] /\ Forall (fun p => ~ In "|"%char p /\ ~ In "010"%char p) ps) rs ->
    Forall (fun l => l <> [] /\ ~ In "010"%char l) (map (join (S_ "|")) rs) ->
    parse_csv_lines (map (join (S_ "|")) rs) = Ok (flat_map (fun ps => match ps with
    | p0 :: p1 :: p2 :: p3 :: p4 :: r => [{| f_score := p0; f_lat := string_to_double p1; f_lon := string_to_double p2; f_name := p3; f_desc := p4;
        f_style := hd_error r |}]
    | _ => [] end) rs)).
  { clear. intros rs F. induction F as [|ps rs (H1 & H2 & H3) F IH]; intros N; [reflexivity|]. cbn [map] in *. inversion N as [|? ? [Hx _] N']; subst.
    cbn [parse_csv_lines]. destruct (join (S_ "|") ps) as [|c s] eqn:E; [now destruct Hx|]. rewrite <- E.
    rewrite csv_file_line; [|exact H1|eapply Forall_impl; [|exact H3]; cbn; tauto]. cbn [bind]. rewrite (IH N'). cbn [bind flat_map].
    destruct ps as [|p0 [|p1 [|p2 [|p3 [|p4 r]]]]]; reflexivity. }
  destruct rows as [|r rows]; [reflexivity|]. cbn [map] in *.
  rewrite getlines_join; [|inversion NL as [|? ? [? ?] N2]; subst; constructor; auto; eapply Forall_impl; [|exact N2]; cbn; tauto].
  cbn [rev app]. apply (P (r :: rows)); auto.
Qed.
Print Assumptions csv_file_correct.
(** Everything after an empty line is ignored, and a line with a missing number is placed at zero. *)
Theorem csv_file_empty_line_refuted : exists a b, parse_csv_file (a ++ b) = Ok [] /\ exists f, parse_csv_file b = Ok [f].
Proof. exists (S_ "
"), (S_ "9|1|2|n|d"). split; [reflexivity|]. eexists. vm_compute. reflexivity. Qed.
Print Assumptions csv_file_empty_line_refuted.
Theorem csv_file_bad_number_refuted : exists f, parse_csv_file (S_ "9|x|y|n|d") = Ok [f] /\ f_lat f = None /\ f_lon f = None.
Proof. eexists. vm_compute. repeat split. Qed.
Print Assumptions csv_file_bad_number_refuted.

(** Lemmas about the CSV parser: columns, lines, calls. *)
From Verif Require Import Common StringsModel StringsProofs CoordModel CsvModel.

(** Specification.  A column has title t when its text is t up to letter case; when a title occurs twice
    the last column counts. *)
Definition titled (t c : str) : bool := eqs (map tolower c) t.
Fixpoint last_col (t : str) (l : list str) (i : nat) : option nat :=
  match l with
  | [] => None
  | c :: l' => match last_col t l' (S i) with Some j => Some j | None => if titled t c then Some i else None end
  end.
Definition known_titles : list str :=
  [S_ "name"; S_ "description"; S_ "latitude"; S_ "longitude"; S_ "feature-id"; S_ "style-id"].
Definition known (c : str) : bool := existsb (fun t => titled t c) known_titles.
(** The cell of a line under a title. *)
Definition value (header line : list str) (t : str) : option str :=
  match last_col t header 0 with Some j => nth_error line j | None => None end.
Definition with_prefix (pre : str) (o : option str) : option str :=
  match o with Some (c :: s) => Some (pre ++ c :: s) | _ => None end.
Definition spec_line (header line : list str) : status * placemark :=
  if (match line with (c :: _) :: _ => aeq c "#"%char | _ => false end) then (COMMENT, empty_placemark)
  else if negb (length line =? length header)%nat then (INVALID_DATA, empty_placemark)
  else
    match value header line (S_ "latitude"), value header line (S_ "longitude") with
    | Some la, Some lo =>
        match string_to_double la, string_to_double lo with
        | Some lat, Some lon =>
            (OK, {| k_point := Some (lat, lon); k_name := value header line (S_ "name");
                    k_desc := value header line (S_ "description");
                    k_id := with_prefix (S_ "feature-") (value header line (S_ "feature-id"));
                    k_style := with_prefix (S_ "style.kml#style-") (value header line (S_ "style-id"));
                    k_data := filter (fun p => negb (known (fst p))) (combine header line) |})
        | _, _ => (BAD_LAT_LON, empty_placemark)
        end
    | _, _ => (BAD_LAT_LON, empty_placemark)
    end.

Lemma sce_titled t c : ~ In zero t -> map tolower t = t -> string_case_equal c t = titled t c.
Proof.
  intros N L. rewrite case_equal_sym. unfold titled. destruct (eqs (map tolower c) t) eqn:E.
  - apply eqs_spec in E. apply case_equal_lower; auto. rewrite L. auto.
  - destruct (string_case_equal t c) eqn:F; auto. apply case_equal_lower in F; auto. rewrite L in F.
    rewrite <- F, eqs_refl in E. discriminate.
Qed.
Ltac notin := let H := fresh in intros H; cbn in H; repeat (destruct H as [H|H]; [discriminate|]); destruct H.
Lemma sce_name c : string_case_equal c (S_ "name") = titled (S_ "name") c.
Proof. apply sce_titled; [notin|reflexivity]. Qed.
Lemma sce_desc c : string_case_equal c (S_ "description") = titled (S_ "description") c.
Proof. apply sce_titled; [notin|reflexivity]. Qed.
Lemma sce_lat c : string_case_equal c (S_ "latitude") = titled (S_ "latitude") c.
Proof. apply sce_titled; [notin|reflexivity]. Qed.
Lemma sce_lon c : string_case_equal c (S_ "longitude") = titled (S_ "longitude") c.
Proof. apply sce_titled; [notin|reflexivity]. Qed.
Lemma sce_fid c : string_case_equal c (S_ "feature-id") = titled (S_ "feature-id") c.
Proof. apply sce_titled; [notin|reflexivity]. Qed.
Lemma sce_sid c : string_case_equal c (S_ "style-id") = titled (S_ "style-id") c.
Proof. apply sce_titled; [notin|reflexivity]. Qed.

Fixpoint others (l : list str) (i : nat) : list (nat * str) :=
  match l with [] => [] | c :: l' => (if known c then [] else [(i, c)]) ++ others l' (S i) end.
Definition orelse {A} (a b : option A) : option A := match a with Some _ => a | None => b end.
Ltac titled_lit E := unfold titled in E; apply eqs_spec in E; unfold known, known_titles, titled; cbn [existsb]; rewrite E.
Lemma schema_cols_spec l : forall s i,
  schema_cols s i l =
  {| s_size := s_size s;
     s_name := orelse (last_col (S_ "name") l i) (s_name s);
     s_desc := orelse (last_col (S_ "description") l i) (s_desc s);
     s_lat := orelse (last_col (S_ "latitude") l i) (s_lat s);
     s_lon := orelse (last_col (S_ "longitude") l i) (s_lon s);
     s_fid := orelse (last_col (S_ "feature-id") l i) (s_fid s);
     s_sid := orelse (last_col (S_ "style-id") l i) (s_sid s);
     s_other := s_other s ++ others l i |}.
Proof.
  induction l as [|c l IH]; intros s i.
  - cbn. rewrite app_nil_r. now destruct s.
  - cbn [schema_cols]. rewrite IH. clear IH. unfold schema_col.
    rewrite sce_name, sce_desc, sce_lat, sce_lon, sce_fid, sce_sid.
    cbn [last_col others].
    assert (X : forall (t : str) (d : option nat) (b : bool), 
      orelse (last_col t l (S i)) (if b then Some i else d) =
      orelse (match last_col t l (S i) with Some j => Some j | None => if b then Some i else None end) d).
    { intros t d b. destruct (last_col t l (S i)); cbn; auto. destruct b; auto. }
    assert (Y : forall (t : str) (d : option nat), orelse (last_col t l (S i)) d =
      orelse (match last_col t l (S i) with Some j => Some j | None => None end) d).
    { intros t d. destruct (last_col t l (S i)); auto. }
    assert (Z : forall (t : str) (d : option nat), orelse (last_col t l (S i)) (Some i) =
      orelse (match last_col t l (S i) with Some j => Some j | None => Some i end) d).
    { intros t d. destruct (last_col t l (S i)); auto. }
    unfold known, known_titles. cbn [existsb].
    destruct (titled (S_ "name") c) eqn:E1.
    { unfold titled in *. apply eqs_spec in E1. rewrite E1. cbn [s_size s_name s_desc s_lat s_lon s_fid s_sid s_other orb app].
      f_equal; first [apply Z | apply Y]. }
    destruct (titled (S_ "description") c) eqn:E2.
    { unfold titled in *. apply eqs_spec in E2. rewrite E2. cbn [s_size s_name s_desc s_lat s_lon s_fid s_sid s_other orb app].
      f_equal; first [apply Z | apply Y]. }
    destruct (titled (S_ "latitude") c) eqn:E3.
    { unfold titled in *. apply eqs_spec in E3. rewrite E3. cbn [s_size s_name s_desc s_lat s_lon s_fid s_sid s_other orb app].
      f_equal; first [apply Z | apply Y]. }
    destruct (titled (S_ "longitude") c) eqn:E4.
    { unfold titled in *. apply eqs_spec in E4. rewrite E4. cbn [s_size s_name s_desc s_lat s_lon s_fid s_sid s_other orb app].
      f_equal; first [apply Z | apply Y]. }
    destruct (titled (S_ "feature-id") c) eqn:E5.
    { unfold titled in *. apply eqs_spec in E5. rewrite E5. cbn [s_size s_name s_desc s_lat s_lon s_fid s_sid s_other orb app].
      f_equal; first [apply Z | apply Y]. }
    destruct (titled (S_ "style-id") c) eqn:E6.
    { unfold titled in *. apply eqs_spec in E6. rewrite ?E6. cbn [s_size s_name s_desc s_lat s_lon s_fid s_sid s_other orb app].
      f_equal; first [apply Z | apply Y]. }
    cbn [s_size s_name s_desc s_lat s_lon s_fid s_sid s_other orb app].
    f_equal; try apply Y. rewrite <- app_assoc. reflexivity.
Qed.
Lemma last_col_bound t l : forall i j, last_col t l i = Some j -> (i <= j < i + length l)%nat.
Proof.
  induction l as [|c l IH]; intros i j; cbn; [discriminate|]. destruct (last_col t l (S i)) as [k|] eqn:E.
  - intros [= <-]. apply IH in E. lia.
  - destruct (titled t c); [|discriminate]. intros [= <-]. lia.
Qed.
Lemma other_cells_spec h : forall (pre l : list str), length l = length h ->
  other_cells (pre ++ l) (others h (length pre)) = Ok (filter (fun p => negb (known (fst p))) (combine h l)).
Proof.
  induction h as [|c h IH]; intros pre [|v l] E; cbn in E; try discriminate; [reflexivity|].
  cbn [others combine filter fst].
  assert (R : other_cells (pre ++ v :: l) (others h (S (length pre))) = Ok (filter (fun p => negb (known (fst p))) (combine h l))).
  { specialize (IH (pre ++ [v]) l). rewrite app_length in IH. cbn [length] in IH.
    replace (length pre + 1)%nat with (S (length pre)) in IH by lia. rewrite <- app_assoc in IH. apply IH. lia. }
  destruct (known c); cbn [negb app]; auto. cbn [other_cells].
  assert (L : (length pre <? length (pre ++ v :: l))%nat = true) by (apply Nat.ltb_lt; rewrite app_length; cbn; lia).
  rewrite L. unfold cell. rewrite nth_error_app2, Nat.sub_diag by lia. cbn [nth_error bind]. rewrite R. reflexivity.
Qed.
Lemma opt_cell_value h l t : length l = length h -> opt_cell l (last_col t h 0) = Ok (value h l t).
Proof.
  intros E. unfold opt_cell, value. destruct (last_col t h 0) as [j|] eqn:F; auto.
  apply last_col_bound in F. unfold cell. destruct (nth_error l j) eqn:G; auto.
  apply nth_error_None in G. lia.
Qed.
Lemma prefixed_spec p o : prefixed p o = with_prefix p o.
Proof. destruct o as [[|c s]|]; reflexivity. Qed.
Lemma line_correct h s l : set_schema h = (s, OK) -> csv_line_to_placemark s l = Ok (spec_line h l).
Proof.
  unfold set_schema. destruct h as [|h0 h'] eqn:Eh; [discriminate|]. rewrite <- Eh. cbv zeta. rewrite schema_cols_spec.
  cbn [s_size s_name s_desc s_lat s_lon s_fid s_sid s_other app].
  assert (O : forall o : option nat, orelse o None = o) by (intros []; reflexivity). rewrite !O.
  intros H. pose proof (f_equal snd H) as Hs. apply (f_equal fst) in H. cbn [fst snd] in H, Hs. rewrite <- H. unfold csv_line_to_placemark, spec_line. cbn [s_size s_name s_desc s_lat s_lon s_fid s_sid s_other].
  destruct (match l with (c :: _) :: _ => aeq c "#"%char | _ => false end); [reflexivity|].
  destruct (length l =? length h)%nat eqn:El; cbn [negb]; [|reflexivity]. apply Nat.eqb_eq in El.
  unfold value at 1 2.
  destruct (last_col (S_ "latitude") h 0) as [a|] eqn:Ea; [|discriminate].
  destruct (last_col (S_ "longitude") h 0) as [o|] eqn:Eo; [|discriminate].
  pose proof (last_col_bound _ _ _ _ Ea) as B1. pose proof (last_col_bound _ _ _ _ Eo) as B2.
  assert (L1 : (a <? length l)%nat = true) by (apply Nat.ltb_lt; lia).
  assert (L2 : (o <? length l)%nat = true) by (apply Nat.ltb_lt; lia). rewrite L1, L2. cbn [andb].
  unfold cell. destruct (nth_error l a) as [lat|] eqn:N1; [|apply nth_error_None in N1; lia].
  destruct (nth_error l o) as [lon|] eqn:N2; [|apply nth_error_None in N2; lia]. cbn [bind].
  destruct (string_to_double lat); [|reflexivity]. destruct (string_to_double lon); [|reflexivity].
  rewrite !opt_cell_value by auto. cbn [bind]. rewrite (other_cells_spec h [] l El : other_cells l (others h 0) = _).
  cbn [bind]. rewrite !prefixed_spec. reflexivity.
Qed.
Lemma schema_status h s : set_schema h = (s, OK) <->
  h <> [] /\ fst (set_schema h) = s /\ last_col (S_ "latitude") h 0 <> None /\ last_col (S_ "longitude") h 0 <> None.
Proof.
  unfold set_schema. destruct h as [|h0 h'] eqn:Eh.
  - split; [discriminate|]. intros [H _]. congruence.
  - rewrite <- Eh. cbv zeta. rewrite schema_cols_spec. cbn [s_lat s_lon fst].
    assert (O : forall o : option nat, orelse o None = o) by (intros []; reflexivity). rewrite !O.
    split.
    + intros H0. pose proof (f_equal snd H0) as H. apply (f_equal fst) in H0. cbn [fst snd] in H, H0.
      split; [congruence|]. split; [exact H0|].
      destruct (last_col (S_ "latitude") h 0); [|discriminate]. destruct (last_col (S_ "longitude") h 0); [|discriminate].
      split; discriminate.
    + intros (_ & <- & H1 & H2). destruct (last_col (S_ "latitude") h 0); [|congruence].
      destruct (last_col (S_ "longitude") h 0); [|congruence]. reflexivity.
Qed.

(** The calls for the data lines, numbered from [line]. *)
Fixpoint calls_of (header : list str) (line : N) (l : list (list str)) : list call :=
  match l with
  | [] => []
  | cols :: l' => (line, fst (spec_line header cols), Some (snd (spec_line header cols))) :: calls_of header (line + 1)%N l'
  end.
(** Calls up to and including the first one refused by the handler. *)
Fixpoint upto (handle : call -> bool) (l : list call) : list call :=
  match l with
  | [] => []
  | c :: l' => if handle c then c :: upto handle l' else [c]
  end.
Lemma data_calls handle h s : set_schema h = (s, OK) -> forall ls cells line,
  Forall2 (fun x cols => split_quoted_using x ","%char = Ok cols) ls cells ->
  parse_csv_data handle s line ls = Ok (upto handle (calls_of h line cells), forallb handle (calls_of h line cells)).
Proof.
  intros Hs. induction ls as [|x ls IH]; intros cells line F; inversion F; subst; [reflexivity|].
  cbn [parse_csv_data calls_of upto forallb]. rewrite H1. cbn [bind]. rewrite (line_correct h s y Hs). cbn [bind fst snd].
  destruct (handle _) eqn:E; [|reflexivity]. rewrite (IH l' (line + 1)%N H3). reflexivity.
Qed.
Lemma cells_exist ls : exists cells, Forall2 (fun x cols => split_quoted_using x ","%char = Ok cols) ls cells.
Proof.
  induction ls as [|x ls [cells IH]]; [exists []; constructor|].
  destruct (split_quoted_total x ","%char) as [cols H]. exists (cols :: cells). now constructor.
Qed.

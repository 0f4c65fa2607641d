(** Numbers as text in whole documents (C121): the readers and writers of numbers that DomModel.v takes as given, for the model of the streams in
    NumberModel.v. The theorems on documents hold for them without any assumption on numbers. *)
From Coq Require Import ZArith QArith Lia.
From Verif Require Import Common StrMap Doubles Rounding StringsModel StringsProofs ColorModel AttributesModel XsdTables XsdModel XsdProofs XmlSpec XmlSpecProofs SerializerModel SerializerProofs CoordModel CoordProofs.
From Verif Require Import HandlerModel HandlerSpec HandlerProps DomTables DomModel DomSpec DomProofs DomProofs2 DomParsed DomVisit DomProps CastModel AccessModel AccessProps AccessWriteProps CloneModel CloneProofs CloneProps NamespaceModel NamespaceProps SaveProps.
From Verif Require CoordProps.
From Verif Require Import NumberModel NumberProofs NumberText NumberProps.
Local Open Scope N_scope.

(** The initial value of the member that a child or an attribute sets, as text (the constructors, see AccessModel.v). *)
Definition initial (p : N) (df : option (N * fld)) : option val := match df with Some df => read (fresh p) (fst df) (f_get (snd df)) | None => None end.
Definition double_text (v : option val) : str := match v with Some (VDouble d) => print_double d | _ => S_ "0" end.
Definition int_text (v : option val) : str := match v with Some (VInt z) => print_int z | _ => S_ "0" end.
Definition E64 : env :=
  {| e_dbl := fun tok => print_double (read_double tok); e_int := fun s => option_map print_int (read_int s);
     e_dflt := fun p ty => double_text (initial p (field_of_child p ty)); e_idflt := fun p ty => int_text (initial p (field_of_child p ty));
     e_adflt := fun p k => double_text (initial p (field_named p (map tolower k))); e_aidflt := fun p k => int_text (initial p (field_named p (map tolower k))) |}.

(** * A number as it is written is one as CoordProofs.v wants it *)
Lemma take_digits s : forallb isdigit s = true -> take_while isdigit s = s.
Proof. intros H. rewrite <- (app_nil_r s) at 1. apply take_app; [exact H|exact I]. Qed.
Lemma digits_numchar s : forallb isdigit s = true -> forallb numchar s = true.
Proof. apply forallb_imp. intros c H. unfold numchar. now rewrite H. Qed.
Lemma sign_numchar g : forallb numchar (sign_text g) = true.
Proof. destruct g; reflexivity. Qed.
Lemma numeral_chars N : numeral_ok N -> forallb numchar (numeral_text N) = true.
Proof.
  intros (Hi & Hf & _ & He). unfold numeral_text. rewrite !forallb_app, sign_numchar, (digits_numchar _ Hi). cbn [andb]. apply andb_true_intro. split.
  - unfold frac_digits in Hf. destruct (n_frac N) as [f|]; [|reflexivity]. rewrite forallb_app, (digits_numchar _ Hf). reflexivity.
  - destruct (n_exp N) as [[[c g] x]|]; [|reflexivity]. destruct He as (Hc & Hx & _). cbn [forallb]. rewrite forallb_app, sign_numchar, (digits_numchar _ Hx). destruct Hc as [-> | ->]; reflexivity.
Qed.
Lemma numeral_number N : numeral_ok N -> n_int N <> [] -> n_sign N <> Plus -> CoordProofs.number (numeral_text N) = true.
Proof.
  intros Hok Hn Hs. unfold CoordProofs.number. rewrite (numeral_chars N Hok), andb_true_r. destruct Hok as (Hi & _). unfold numeral_text.
  destruct (n_int N) as [|c r]; [congruence|]. cbn [forallb] in Hi. apply andb_prop in Hi as [Hc _]. destruct (isdigit_not c Hc) as (_ & C2 & C3 & _).
  destruct (n_sign N); [| congruence |]; cbn [sign_text app].
  - unfold starts. rewrite Hc, orb_true_r. unfold is_decimal_double_string. rewrite C2, C3, Hc. reflexivity.
  - change (S_ "-") with ["-"%char]. cbn [app]. unfold is_decimal_double_string. change (aeq "-"%char "-"%char) with true. cbv beta iota. rewrite C3, Hc. reflexivity.
Qed.
Lemma printed_number x : good_double x -> CoordProofs.number (print_double x) = true /\ (length (print_double x) <= 31)%nat.
Proof. intros H. destruct (print_spec x H) as (N & N1 & N2 & N3 & <- & _ & N6). split; [now apply numeral_number|exact N6]. Qed.

(** * Integers *)
Local Open Scope Z_scope.
Lemma nat_text_spec f : forall n, 0 <= n < 10 ^ Z.of_nat f -> (f <> 0)%nat -> nat_text f n <> [] /\ forallb isdigit (nat_text f n) = true /\ number_of (nat_text f n) = n.
Proof.
  induction f as [|f IH]; intros n Hn Hf; [congruence|]. cbn [nat_text]. pose proof (Z.mod_pos_bound n 10 ltac:(lia)) as Hm. pose proof (Z.div_mod n 10 ltac:(lia)) as Hd.
  destruct (Z.ltb_spec n 10) as [L|L].
  - cbn [app]. rewrite Z.mod_small by lia. split; [discriminate|]. split; [cbn [forallb]; now rewrite digit_char_digit by lia|]. cbn [number_of length]. rewrite digit_char_code by lia. rewrite Z.pow_0_r. lia.
  - assert (f <> 0)%nat by (intros ->; change (Z.of_nat 1) with 1 in Hn; lia).
    rewrite Nat2Z.inj_succ, Z.pow_succ_r in Hn by lia. destruct (IH (n / 10)) as (I1 & I2 & I3); [split; [apply Z.div_pos; lia|apply Z.div_lt_upper_bound; lia]|assumption|].
    split; [intros H0; now apply app_eq_nil in H0 as [_ H0]|]. split; [rewrite forallb_app, I2; cbn [forallb]; now rewrite digit_char_digit by lia|].
    rewrite number_app, I3. cbn [number_of length]. rewrite digit_char_code by lia. change (Z.of_nat 1) with 1. change (Z.of_nat 0) with 0. rewrite Z.pow_1_r, Z.pow_0_r. lia.
Qed.
(** An int. *)
Definition is_int (z : Z) : Prop := - 2 ^ 31 <= z < 2 ^ 31.
Lemma digit_space c : isdigit c = true -> isspace c = false.
Proof. destruct c as [[] [] [] [] [] [] [] []]; vm_compute; congruence. Qed.
(** C121. An int is read as what it was written for. *)
Theorem int_kept : forall z, is_int z -> read_int (print_int z) = Some z.
Proof.
  intros z Hz. destruct (nat_text_spec 20 (Z.abs z)) as (H1 & H2 & H3); [unfold is_int in Hz; change (10 ^ Z.of_nat 20) with 100000000000000000000; lia|discriminate|].
  unfold print_int, read_int. destruct (nat_text 20 (Z.abs z)) as [|c r] eqn:Et; [congruence|]. assert (Hc : isdigit c = true) by (cbn [forallb] in H2; now apply andb_prop in H2).
  destruct (isdigit_not c Hc) as (C1 & C2 & _).
  destruct (Z.ltb_spec z 0) as [L|L].
  - change (S_ "-") with ["-"%char]. cbn [app drop_while]. change (isspace "-"%char) with false. cbv iota. unfold read_sign. change (aeq "-"%char "-"%char) with true. cbv iota beta.
    rewrite (take_digits (c :: r) H2), digits_number, H3. f_equal. unfold is_int in Hz. lia.
  - cbn [app drop_while]. rewrite (digit_space c Hc). unfold read_sign. rewrite C1, C2. rewrite (take_digits (c :: r) H2), digits_number, H3. f_equal. unfold is_int in Hz. lia.
Qed.
Print Assumptions int_kept.
Lemma read_int_range s z : read_int s = Some z -> is_int z.
Proof.
  unfold read_int, is_int. destruct s as [|c s]; [intros [= <-]; lia|]. destruct (drop_while isspace (c :: s)) as [|d t]; [discriminate|]. destruct (read_sign (d :: t)) as [neg u]. intros [= <-]. lia.
Qed.
(** C121. What is written for an int is the int, whatever text it was read from; the value of a text of digits is its value in the range of int. *)
Theorem int_text_stable : forall s z, read_int s = Some z -> read_int (print_int z) = Some z.
Proof. intros s z H. apply int_kept. eapply read_int_range; eauto. Qed.
Print Assumptions int_text_stable.
Theorem int_value : forall ds, forallb isdigit ds = true -> ds <> [] -> read_int ds = Some (Z.min (2 ^ 31 - 1) (number_of ds)) /\ read_int (S_ "-" ++ ds) = Some (Z.max (- 2 ^ 31) (- number_of ds)).
Proof.
  intros ds H Hn. assert (0 <= number_of ds) as P.
  { clear Hn. induction ds as [|c r IH]; [cbn; lia|]. cbn [forallb] in H. apply andb_prop in H as [Hc Hr]. cbn [number_of]. specialize (IH Hr). assert (48 <= Z.of_N (N_of_ascii c)) by (clear - Hc; destruct c as [[] [] [] [] [] [] [] []]; vm_compute in *; congruence).
    assert (0 <= (Z.of_N (N_of_ascii c) - 48) * 10 ^ Z.of_nat (length r)) by (apply Z.mul_nonneg_nonneg; [lia|apply Z.pow_nonneg; lia]). lia. }
  destruct ds as [|c r]; [congruence|]. assert (Hc : isdigit c = true) by (cbn [forallb] in H; now apply andb_prop in H). destruct (isdigit_not c Hc) as (C1 & C2 & _).
  split; unfold read_int.
  - cbn [app drop_while]. rewrite (digit_space c Hc). unfold read_sign. rewrite C1, C2. rewrite (take_digits (c :: r) H), digits_number. f_equal. lia.
  - change (S_ "-") with ["-"%char]. cbn [app drop_while]. change (isspace "-"%char) with false. cbv iota. unfold read_sign. change (aeq "-"%char "-"%char) with true. cbv iota beta.
    rewrite (take_digits (c :: r) H), digits_number. f_equal. lia.
Qed.
Print Assumptions int_value.
Example int_sample : read_int (S_ "-42") = Some (-42) /\ read_int (S_ " 7x") = Some 7 /\ read_int (S_ "  ") = None /\ print_int (-42) = S_ "-42" /\ print_int 0 = S_ "0".
Proof. vm_compute. repeat split. Qed.
(** C121. An int out of range becomes the nearest one, and a fraction loses what is behind the point. *)
Theorem int_range_refuted : read_int (S_ "4294967296") = Some 2147483647 /\ read_int (S_ "1.9") = Some 1 /\ read_int (S_ "x") = Some 0.
Proof. vm_compute. repeat split. Qed.
Print Assumptions int_range_refuted.
Local Open Scope N_scope.

(** * The initial values of members *)
Definition value_ok (v : val) : bool := match v with VDouble d => finite d && valid d | VInt z => (-2147483648 <=? z)%Z && (z <=? 2147483647)%Z | _ => true end.
Lemma initials_ok : forallb (fun e => forallb (fun f => forallb (fun mv => value_ok (snd mv)) (f_init f)) (snd e)) own_fields = true.
Proof. vm_compute. reflexivity. Qed.
Lemma field_init_ok p df : In df (fields p) -> forall mv, In mv (f_init (snd df)) -> value_ok (snd mv) = true.
Proof.
  intros H mv Hm. unfold fields in H. apply in_flat_map in H as (d & _ & H). apply in_map_iff in H as (f & <- & H). cbn [snd] in Hm. unfold fields_in in H. destruct (List.find _ own_fields) as [[c l]|] eqn:F; [|contradiction].
  apply List.find_some in F as [F _]. pose proof initials_ok as K. rewrite forallb_forall in K. specialize (K _ F). cbn [snd] in K. rewrite forallb_forall in K. specialize (K f H). rewrite forallb_forall in K. exact (K mv Hm).
Qed.
Lemma fresh_ok p d m v : read (fresh p) d m = Some v -> value_ok v = true.
Proof.
  unfold read. destruct (List.find (same d m) (fresh p)) as [[[d' m'] v']|] eqn:F; [|discriminate]. intros [= <-]. apply List.find_some in F as [F _]. unfold fresh in F. apply in_flat_map in F as (df & H1 & H2).
  apply in_map_iff in H2 as (mv & [= _ _ <-] & H2). exact (field_init_ok p df H1 mv H2).
Qed.
Lemma initial_ok p df v : initial p df = Some v -> value_ok v = true.
Proof. destruct df as [df|]; [|discriminate]. exact (fresh_ok p _ _ v). Qed.
Lemma double_text_printed p df : exists t, double_text (initial p df) = print_double (read_double t).
Proof.
  assert (Z : exists t, S_ "0" = print_double (read_double t)) by (exists (S_ "0"); vm_compute; reflexivity).
  destruct (initial p df) as [v|] eqn:Ei; [|exact Z]. destruct v as [|z|d| |]; try exact Z. apply initial_ok in Ei. cbn [value_ok] in Ei. apply andb_prop in Ei as [E1 E2]. exists (print_double d). cbn [double_text]. symmetry. now apply number_written_again.
Qed.
Lemma int_text_printed p df : option_map print_int (read_int (int_text (initial p df))) = Some (int_text (initial p df)).
Proof.
  destruct (initial p df) as [v|] eqn:Ei; [|reflexivity]. destruct v as [|z|d| |]; try reflexivity. apply initial_ok in Ei. cbn [value_ok] in Ei. apply andb_prop in Ei as [E1 E2]. cbn [int_text]. rewrite int_kept; [reflexivity|]. unfold is_int. lia.
Qed.

(** C121. Numbers are written as numbers, and writing again what was read from what was written gives the same: what the theorems on documents assume of numbers is true. *)
Theorem numbers_are_stable : numbers_stable E64.
Proof.
  constructor; cbn [e_dbl e_int e_dflt e_idflt e_adflt e_aidflt E64].
  - intros t. destruct (printed_number _ (read_good t)) as [P1 P2]. split; [exact P1|]. split; [apply number_text_stable|lia].
  - intros s v H. destruct (read_int s) as [z|] eqn:Er; [|discriminate]. injection H as <-. now rewrite (int_text_stable s z Er).
  - intros. apply double_text_printed.
  - intros. apply int_text_printed.
  - intros. apply double_text_printed.
  - intros. apply int_text_printed.
Qed.
Print Assumptions numbers_are_stable.

Lemma child_fields : forallb (fun c => forallb (fun df => match f_add (snd df) with
  | Some (ty, _, _) => match field_of_child c ty with Some df' => (fst df' =? fst df) && eqs (f_get (snd df')) (f_get (snd df)) | None => false end
  | None => true end) (fields c)) element_classes = true.
Proof. vm_compute. reflexivity. Qed.
(** FromString of a double: the variable is left as it is, or set. *)
Definition read_double_text (s : str) : option double := option_map read_double (from_string_double s).
Lemma numbers_agree_64 c : In c element_classes -> numbers_agree E64 read_double_text read_int print_double print_int c.
Proof.
  intros Hc. split; [|split].
  - intros s. unfold read_double_text. destruct (from_string_double s) as [t|]; [|reflexivity]. exists (read_double t). split; reflexivity.
  - reflexivity.
  - intros df ty h m Hi Ha. pose proof child_fields as K. rewrite forallb_forall in K. specialize (K c Hc). cbv beta in K. rewrite forallb_forall in K. specialize (K df Hi). rewrite Ha in K.
    assert (I : initial c (field_of_child c ty) = read (fresh c) (fst df) (f_get (snd df))).
    { destruct (field_of_child c ty) as [df'|]; [|discriminate]. apply andb_prop in K as [K1 K2]. apply N.eqb_eq in K1. apply eqs_spec in K2. unfold initial. now rewrite K1, K2. }
    split; intros x _ Hr; cbn [e_dflt e_idflt E64]; rewrite I, Hr; reflexivity.
Qed.
(** C112, C114, C121. Whatever simple children an element was given: it writes exactly the fields whose has function is true, with the text of the value of the get function. *)
Theorem fields_written_as_text : forall c l o, In c element_classes -> creatable c = true -> add_fields E64 (create c) l = Ok o ->
  exists st, run read_double_text read_int c (fresh c) (map (fun x => OChild (fst x) (snd x)) l) = Ok st /\
  forall n f ty, field_named c n = Some f -> child_type (snd f) = Some ty ->
    exists v h, get_field c n st = Some v /\ has_field c n st = Some (VBool h) /\
      if h then exists t, get o ty = [field ty t] /\ text_of print_double print_int (f_kind (snd f)) ty v t else get o ty = [].
Proof. intros c l o Hc Hk. apply fields_written; auto. now apply numbers_agree_64. Qed.
Print Assumptions fields_written_as_text.
Example fields_sample : match add_fields E64 (create Type_LookAt) [(Type_longitude, S_ " -122.0839597145766"); (Type_latitude, S_ "x"); (Type_range, S_ "  "); (Type_tilt, S_ "1e20")] with
  | Ok o => get o Type_longitude = [field Type_longitude (S_ "-122.083959714577")] /\ get o Type_latitude = [field Type_latitude (S_ "0")] /\ get o Type_range = [field Type_range (S_ "0")] /\
            get o Type_tilt = [field Type_tilt (S_ "1e+20")]
  | _ => False
  end.
Proof. vm_compute. repeat split; reflexivity. Qed.

(** C60, C121. A document is read again from the text it is written as. *)
Theorem document_read_again : forall s t o ty a ks,
  xml_tree s = Some t -> regular t -> no_xmlns_xmlns t = true -> read_kml E64 s = Ok (Some o) ->
  DomParsed.plain E64 Type_Unknown o = true -> ser o = IElem ty a ks -> readable (ser o) = true ->
  regular (XElem (tag_name ty) a (content lf (S_ "  ") 0 ks)) ->
  exists s', write_pretty o = Ok s' /\ read_kml E64 s' = Ok (Some o).
Proof. intros s t o ty a ks. apply read_pretty_read. exact numbers_are_stable. Qed.
Print Assumptions document_read_again.
Definition sample64 : str := S_ "<kml xmlns=""u""><Document><Placemark><LookAt><longitude>-122.0839597145766</longitude><range>5e-1</range></LookAt><Style><IconStyle><scale>1.10</scale><hotSpot x=""0.50"" y=""32"" xunits=""fraction"" yunits=""pixels""/></IconStyle></Style><Point><coordinates>-122.0839597145766,37.42200000000000001,1e3</coordinates></Point></Placemark></Document></kml>".
Example sample64_hypotheses : exists t o ty a ks, xml_tree sample64 = Some t /\ regular t /\ no_xmlns_xmlns t = true /\ read_kml E64 sample64 = Ok (Some o) /\
  DomParsed.plain E64 Type_Unknown o = true /\ ser o = IElem ty a ks /\ readable (ser o) = true /\
  regular (XElem (tag_name ty) a (content lf (S_ "  ") 0 ks)).
Proof.
  do 5 eexists. repeat match goal with |- _ /\ _ => split end.
  all: try (vm_compute; reflexivity).
  - split; [do 3 eexists; reflexivity|]. repeat split; vm_compute; try reflexivity. lia.
  - split; [do 3 eexists; reflexivity|]. repeat split; vm_compute; try reflexivity. lia.
Qed.
Definition rewritten (s : str) : option str :=
  match read_kml E64 s with Ok (Some o) => match DomSpec.write [] [] o with Ok w => Some w | _ => None end | _ => None end.
Example sample64_text : rewritten sample64 = Some (S_ "<kml xmlns=""u""><Document><Placemark><LookAt><longitude>-122.083959714577</longitude><range>0.5</range></LookAt><Style><IconStyle><scale>1.1</scale><hotSpot x=""0.5"" xunits=""fraction"" y=""32"" yunits=""pixels""/></IconStyle></Style><Point><coordinates>-122.083959714577,37.422,1000" ++ ["010"%char] ++ S_ "</coordinates></Point></Placemark></Document></kml>").
Proof. vm_compute. reflexivity. Qed.
(** C60, C121. Once written, a document stays the same text however often it is read and written. *)
Theorem document_text_stable : forall s t o ty a ks s1,
  xml_tree s = Some t -> regular t -> no_xmlns_xmlns t = true -> read_kml E64 s = Ok (Some o) ->
  DomParsed.plain E64 Type_Unknown o = true -> ser o = IElem ty a ks -> readable (ser o) = true ->
  regular (XElem (tag_name ty) a (content lf (S_ "  ") 0 ks)) ->
  write_pretty o = Ok s1 -> exists o1, read_kml E64 s1 = Ok (Some o1) /\ write_pretty o1 = Ok s1.
Proof. intros s t o ty a ks s1. apply pretty_is_stable. exact numbers_are_stable. Qed.
Print Assumptions document_text_stable.
(** C60, C121. What was read is well formed, with no assumption on numbers. *)
Theorem document_well_formed : forall s t o, xml_tree s = Some t -> regular t -> no_xmlns_xmlns t = true -> read_kml E64 s = Ok (Some o) -> wf E64 o = true.
Proof. intros s t o. apply parsed_well_formed. exact numbers_are_stable. Qed.
Print Assumptions document_well_formed.
(** C37, C121. The clone of what was read is equal to it. *)
Theorem document_cloned : forall s t o, xml_tree s = Some t -> regular t -> no_xmlns_xmlns t = true ->
  read_kml E64 s = Ok (Some o) -> is_simple (oty o) = false -> cloneable E64 o = true -> clone E64 o = Done o.
Proof. intros s t o. apply clone_parsed. exact numbers_are_stable. Qed.
Print Assumptions document_cloned.
(** C118, C121. A saved file is what is loaded again. *)
Theorem document_saved : forall s t o ty a ks,
  xml_tree (without_declaration s) = Some t -> regular t -> no_xmlns_xmlns t = true -> load E64 s = Ok (Some o) ->
  DomParsed.plain E64 Type_Unknown o = true -> ser o = IElem ty a ks -> readable (ser o) = true ->
  regular (XElem (tag_name ty) a (content lf (S_ "  ") 0 ks)) -> ty <> Type_coordinates -> xmlns_of ty <> XMLNS_NONE ->
  exists o' w, serialize_to_string (S_ "utf-8") (Some o) = Ok (Some o', true, w) /\ load E64 w = Ok (Some o') /\ declares_more o o' /\
    serialize_to_string (S_ "utf-8") (Some o') = Ok (Some o', true, w).
Proof. intros s t o ty a ks. apply saved_is_loaded. exact numbers_are_stable. Qed.
Print Assumptions document_saved.

(** * A number in a simple element *)
Lemma numeral_token N w : numeral_ok N -> forallb isspace w = true -> from_string_double (w ++ numeral_text N) = Some (numeral_text N).
Proof.
  intros Hok Hw. pose proof (numeral_chars N Hok) as Hc. assert (Hd : drop_while isspace (w ++ numeral_text N) = numeral_text N).
  { clear - Hw Hc Hok. induction w as [|c w IH]; [|cbn [forallb] in Hw; apply andb_prop in Hw as [W1 W2]; cbn [app drop_while]; rewrite W1; now apply IH].
    cbn [app]. destruct (numeral_text N) as [|c r]; [reflexivity|]. cbn [forallb] in Hc. apply andb_prop in Hc as [Hc _]. cbn [drop_while]. replace (isspace c) with false; [reflexivity|].
    clear - Hc. destruct c as [[] [] [] [] [] [] [] []]; vm_compute in *; congruence. }
  unfold from_string_double. rewrite Hd. destruct (numeral_text N) as [|c r] eqn:E.
  - exfalso. destruct Hok as (_ & _ & Hne & _). unfold numeral_text in E. apply app_eq_nil in E as [_ E]. apply app_eq_nil in E as [E1 E]. apply app_eq_nil in E as [E2 _]. rewrite E1 in Hne. unfold frac_digits in Hne. destruct (n_frac N); [discriminate|now apply Hne].
  - rewrite <- E in *. f_equal. rewrite <- (app_nil_r (numeral_text N)) at 1. apply take_app; [exact Hc|exact I].
Qed.
(** C94, C121. The number in a simple element, after any white space, is kept if it has up to 15 significant digits; its text is a numeral of the same value. *)
Theorem element_digits_kept : forall p ty prev w N n k, numeral_ok N -> forallb isspace w = true -> (0 < n < 10 ^ 15)%Z ->
  (magnitude N == inject_Z n * Qpower (inject_Z 10) k)%Q -> normal (magnitude N) ->
  exists N', numeral_ok N' /\ norm E64 p FDouble ty prev (w ++ numeral_text N) = Ok (Some (numeral_text N')) /\ (value N' == value N)%Q.
Proof.
  intros p ty prev w N n k Hok Hw Hn Hm Hr. destruct (digits_kept N n k Hok Hn Hm Hr) as (N' & H1 & H2 & H3). exists N'. split; [exact H1|]. split; [|exact H3].
  unfold norm. rewrite (numeral_token N w Hok Hw). cbn [e_dbl E64]. now rewrite H2.
Qed.
Print Assumptions element_digits_kept.

(** * Numbers in coordinates *)
(** A number of up to 15 significant digits, zero or of normal size; a text for the same number. *)
Definition short_number (s : str) : Prop :=
  exists N, numeral_ok N /\ s = numeral_text N /\ ((magnitude N == 0)%Q \/ (normal (magnitude N) /\ exists n k, (0 < n < 10 ^ 15)%Z /\ (magnitude N == inject_Z n * Qpower (inject_Z 10) k)%Q)).
Definition same_number (s t : str) : Prop := exists N N', numeral_ok N /\ numeral_ok N' /\ s = numeral_text N /\ t = numeral_text N' /\ (value N' == value N)%Q.
Lemma short_kept s : short_number s -> same_number s (print_double (read_double s)).
Proof.
  intros (N & Hok & -> & [Hz|[Hr (n & k & Hn & Hm)]]).
  - exists N, (with_sign (negative N) zero_numeral). split; [exact Hok|]. split; [destruct (negative N); (split; [reflexivity|split; [reflexivity|split; [discriminate|exact I]]])|]. split; [reflexivity|]. split.
    + rewrite (zero_kept N Hok Hz). destruct (negative N); reflexivity.
    + unfold value. destruct (negative N); cbn [negative with_sign n_sign]; rewrite Hz; vm_compute; reflexivity.
  - destruct (digits_kept N n k Hok Hn Hm Hr) as (N' & H1 & H2 & H3). exists N, N'. auto.
Qed.
(** C25, C26, C121. Whatever number of tuples: each of their numbers of up to 15 digits is written with the value it had in the text, in order; an altitude that is left out is 0. *)
Theorem coordinates_digits_kept : forall lead l, forallb blank lead = true -> tuples_ok l = true -> l <> [] ->
  Forall (fun p => short_number (lon (fst p)) /\ short_number (lat (fst p)) /\ match alt (fst p) with Some (_, _, a) => short_number a | None => True end) l ->
  exists o, add_self E64 (create Type_coordinates) (lead ++ tuples_text l) = Ok o /\
    Forall2 (fun p v => let '(x, y, z) := v in same_number (lon (fst p)) x /\ same_number (lat (fst p)) y /\ match alt (fst p) with Some (_, _, a) => same_number a z | None => z = S_ "0" end) l (ovec o).
Proof.
  intros lead l Hb Ht Hne Hs. unfold add_self. change (oty (create Type_coordinates) =? Type_coordinates) with true. cbv iota. rewrite (CoordProps.coordinates_parsed lead l Hb Ht Hne). cbn [bind].
  eexists. split; [reflexivity|]. change (ovec (set_vec (create Type_coordinates) (ovec (create Type_coordinates) ++ map (vec_text E64) (map (fun p => tuple_vec (fst p)) l)))) with (map (vec_text E64) (map (fun p => tuple_vec (fst p)) l)).
  clear - Hs. induction Hs as [|p l (S1 & S2 & S3) _ IH]; constructor; [|exact IH]. unfold vec_text, tuple_vec, num_or_zero. cbn [v_lon v_lat v_alt e_dbl E64].
  split; [now apply short_kept|]. split; [now apply short_kept|]. destruct (alt (fst p)) as [[[w3 w4] a]|]; [now apply short_kept|]. vm_compute. reflexivity.
Qed.
Print Assumptions coordinates_digits_kept.
Definition place1 : tuple * str := ({| lon := S_ "-122.082203667147"; w1 := []; w2 := []; lat := S_ "37.4220"; alt := None |}, S_ " ").
Definition numeral_of (g : sign) (i f : str) : numeral := {| n_sign := g; n_int := i; n_frac := Some f; n_exp := None |}.
Example coordinates_digits_sample : tuples_ok [place1; place1] = true /\ short_number (lon (fst place1)) /\ short_number (lat (fst place1)).
Proof.
  split; [reflexivity|]. split.
  - exists (numeral_of Minus (S_ "122") (S_ "082203667147")). split; [repeat split; discriminate|]. split; [reflexivity|]. right. split; [split; vm_compute; congruence|]. exists 122082203667147%Z, (-12)%Z. split; [lia|vm_compute; reflexivity].
  - exists (numeral_of NoSign (S_ "37") (S_ "4220")). split; [repeat split; discriminate|]. split; [reflexivity|]. right. split; [split; vm_compute; congruence|]. exists 37422%Z, (-3)%Z. split; [lia|vm_compute; reflexivity].
Qed.

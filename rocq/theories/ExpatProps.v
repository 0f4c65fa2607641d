(** C110: text arrives as UTF-8, and documents that declare entities are refused. *)
From Coq Require Import Lia.
From Verif Require Import Common StrMap AttributesModel AttributesProofs XmlSpec HandlerModel StreamModel NsModel XsdFileModel ExpatModel.
From Verif Require XmlTree XsdFileProofs XsdFileProps.
Local Open Scope N_scope.

(** UTF-8 as RFC 3629 defines it, up to three bytes: no overlong forms and no surrogates. *)
Definition tail_byte (b : N) : bool := (128 <=? b) && (b <=? 191).
Fixpoint utf8_decode (l : list N) : option (list N) :=
  match l with
  | [] => Some []
  | a :: r =>
      if a <=? 127 then option_map (cons a) (utf8_decode r)
      else if (194 <=? a) && (a <=? 223) then
        match r with
        | b :: r => if tail_byte b then option_map (cons ((a - 192) * 64 + (b - 128))) (utf8_decode r) else None
        | _ => None
        end
      else if (224 <=? a) && (a <=? 239) then
        match r with
        | b :: c :: r =>
            let v := (a - 224) * 4096 + (b - 128) * 64 + (c - 128) in
            if tail_byte b && tail_byte c && (2048 <=? v) && negb ((55296 <=? v) && (v <=? 57343))
            then option_map (cons v) (utf8_decode r) else None
        | _ => None
        end
      else None
  end.
(** A character of the Basic Multilingual Plane. *)
Definition bmp (c : N) : Prop := c < 65536 /\ (c < 55296 \/ 57343 < c).

Lemma small k (P : N -> bool) : forallb P (map N.of_nat (seq 0 k)) = true -> forall a, a < N.of_nat k -> P a = true.
Proof.
  intros H a Ha. rewrite forallb_forall in H. apply H. apply in_map_iff. exists (N.to_nat a). split; [lia|]. apply in_seq. lia.
Qed.
Lemma lor192 a : a < 32 -> N.lor 192 a = 192 + a.
Proof. intros H. apply N.eqb_eq. apply (small 32 (fun a => N.lor 192 a =? 192 + a)); [vm_compute; reflexivity|lia]. Qed.
Lemma lor224 a : a < 16 -> N.lor 224 a = 224 + a.
Proof. intros H. apply N.eqb_eq. apply (small 16 (fun a => N.lor 224 a =? 224 + a)); [vm_compute; reflexivity|lia]. Qed.
Lemma lor128 a : a < 64 -> N.lor 128 a = 128 + a.
Proof. intros H. apply N.eqb_eq. apply (small 64 (fun a => N.lor 128 a =? 128 + a)); [vm_compute; reflexivity|lia]. Qed.
Lemma land63 a : N.land a 63 = a mod 64.
Proof. change 63 with (N.ones 6). rewrite N.land_ones. reflexivity. Qed.
Lemma shift6 a : N.shiftr a 6 = a / 64.
Proof. rewrite N.shiftr_div_pow2. reflexivity. Qed.
Lemma shift12 a : N.shiftr a 12 = a / 4096.
Proof. rewrite N.shiftr_div_pow2. reflexivity. Qed.
Lemma div64 a : a = 64 * (a / 64) + a mod 64 /\ a mod 64 < 64.
Proof. split; [apply N.div_mod; lia|apply N.mod_lt; lia]. Qed.
Lemma div4096 a : a / 4096 = a / 64 / 64.
Proof. rewrite N.div_div by lia. reflexivity. Qed.

Lemma two_bytes c : 128 <= c < 2048 -> exists h l, to_utf8 true c = [192 + h; 128 + l] /\ h < 32 /\ l < 64 /\ c = 64 * h + l.
Proof.
  intros H. exists (c / 64), (c mod 64). destruct (div64 c) as [E L]. 
  assert (c / 64 < 32) by lia. unfold to_utf8. cbn [negb orb]. 
  destruct (N.ltb_spec c 128); [lia|]. destruct (N.ltb_spec c 2048); [|lia].
  rewrite shift6, land63, lor192, lor128 by lia. repeat split; lia.
Qed.
Lemma three_bytes c : 2048 <= c < 65536 -> c < 55296 \/ 56319 < c -> exists h m l, to_utf8 true c = [224 + h; 128 + m; 128 + l] /\ h < 16 /\ m < 64 /\ l < 64 /\ c = 4096 * h + 64 * m + l.
Proof.
  intros H S. exists (c / 4096), (c / 64 mod 64), (c mod 64). destruct (div64 c) as [E L]. destruct (div64 (c / 64)) as [E2 L2]. pose proof (div4096 c) as Q.
  assert (c / 64 / 64 < 16) by lia. unfold to_utf8. cbn [negb orb].
  destruct (N.ltb_spec c 128); [lia|]. destruct (N.ltb_spec c 2048); [lia|].
  replace ((c <? 55296) || (56319 <? c)) with true by (symmetry; apply Bool.orb_true_iff; rewrite !N.ltb_lt; exact S).
  rewrite shift12, shift6, !land63, lor224, !lor128 by lia. repeat split; lia.
Qed.
Lemma one_character c r : bmp c -> utf8_decode (to_utf8 true c ++ r) = option_map (cons c) (utf8_decode r).
Proof.
  intros [B S]. destruct (N.ltb_spec c 128) as [L|L].
  { unfold to_utf8. cbn [negb orb]. destruct (N.ltb_spec c 128); [|lia]. cbn. destruct (N.leb_spec c 127); [reflexivity|lia]. }
  destruct (N.ltb_spec c 2048) as [M|M].
  - destruct (two_bytes c) as (h & l & E & A1 & A2 & A3); [lia|]. rewrite E. cbn [app utf8_decode].
    destruct (N.leb_spec (192 + h) 127); [lia|].
    replace ((194 <=? 192 + h) && (192 + h <=? 223)) with true by (symmetry; apply andb_true_intro; rewrite !N.leb_le; lia).
    replace (tail_byte (128 + l)) with true by (symmetry; apply andb_true_intro; rewrite !N.leb_le; lia).
    replace ((192 + h - 192) * 64 + (128 + l - 128)) with c by lia. reflexivity.
  - destruct (three_bytes c) as (h & m & l & E & A1 & A2 & A3 & A4); [lia|lia|]. rewrite E. cbn [app utf8_decode].
    destruct (N.leb_spec (224 + h) 127); [lia|].
    replace ((194 <=? 224 + h) && (224 + h <=? 223)) with false by (symmetry; apply Bool.andb_false_iff; rewrite !N.leb_gt; lia).
    replace ((224 <=? 224 + h) && (224 + h <=? 239)) with true by (symmetry; apply andb_true_intro; rewrite !N.leb_le; lia).
    replace ((224 + h - 224) * 4096 + (128 + m - 128) * 64 + (128 + l - 128)) with c by lia.
    replace (tail_byte (128 + m)) with true by (symmetry; apply andb_true_intro; rewrite !N.leb_le; lia).
    replace (tail_byte (128 + l)) with true by (symmetry; apply andb_true_intro; rewrite !N.leb_le; lia).
    cbn [andb]. destruct (N.leb_spec 2048 c); [|lia].
    replace ((55296 <=? c) && (c <=? 57343)) with false by (symmetry; apply Bool.andb_false_iff; rewrite !N.leb_gt; lia). reflexivity.
Qed.

(** C110. Where expat reports UTF-16, a text of characters of the Basic Multilingual Plane arrives as its UTF-8 form. *)
Theorem text_utf8 : forall l rest, Forall bmp l -> exists s, xml_char_to_string_n true (length l) (l ++ rest) = Ok s /\ utf8_decode s = Some l.
Proof.
  intros l rest F. induction F as [|c l B F (s & E & D)]; [exists []; split; reflexivity|].
  exists (to_utf8 true c ++ s). cbn. rewrite E. cbn. split; [reflexivity|]. rewrite one_character by exact B. rewrite D. reflexivity.
Qed.
Print Assumptions text_utf8.
(** C110. The same for names and values, which end with a zero. *)
Theorem name_utf8 : forall l rest, Forall bmp l -> ~ In 0 l -> exists s, xml_char_to_string true (l ++ 0 :: rest) = Ok s /\ utf8_decode s = Some l.
Proof.
  intros l rest F. induction F as [|c l B F IH]; intros Z; [exists []; split; reflexivity|].
  destruct IH as (s & E & D); [intros X; apply Z; right; exact X|].
  exists (to_utf8 true c ++ s). destruct c as [|c]; [exfalso; apply Z; left; reflexivity|].
  cbn [app xml_char_to_string]. rewrite E. cbn [bind]. split; [reflexivity|]. rewrite one_character by exact B. rewrite D. reflexivity.
Qed.
Print Assumptions name_utf8.
(** C110. Where expat reports bytes, they arrive as they are. *)
Theorem bytes_kept : forall l rest, xml_char_to_string_n false (length l) (l ++ rest) = Ok l /\ (~ In 0 l -> xml_char_to_string false (l ++ 0 :: rest) = Ok l).
Proof.
  intros l rest. induction l as [|c l [E D]]; [split; reflexivity|]. split.
  - cbn. rewrite E. reflexivity.
  - intros Z. destruct c as [|c]; [exfalso; apply Z; left; reflexivity|]. cbn [app xml_char_to_string]. rewrite D; [reflexivity|].
    intros X; apply Z; right; exact X.
Qed.
Print Assumptions bytes_kept.
Example utf8_sample : xml_char_to_string true [75; 228; 8364; 0; 75] = Ok [75; 195; 164; 226; 130; 172].
Proof. reflexivity. Qed.

(** C110. Characters outside of it, reported as a pair of surrogates, are not dropped: the second half arrives in a form that is not UTF-8. *)
Theorem surrogates_refuted : forall hi lo l r, 55296 <= hi <= 56319 -> 56320 <= lo <= 57343 -> Forall bmp l ->
  exists s t, xml_char_to_string_n true (length l + 2) (l ++ hi :: lo :: r) = Ok (s ++ t) /\ length t = 3%nat /\ utf8_decode s = Some l /\ utf8_decode (s ++ t) = None.
Proof.
  intros hi lo l r Hh Hl F.
  destruct (three_bytes lo) as (h & m & k & E & A1 & A2 & A3 & A4); [lia|lia|].
  assert (Eh : to_utf8 true hi = []).
  { unfold to_utf8. cbn [negb orb]. destruct (N.ltb_spec hi 128); [lia|]. destruct (N.ltb_spec hi 2048); [lia|].
    destruct (N.ltb_spec hi 55296); [lia|]. destruct (N.ltb_spec 56319 hi); [lia|]. reflexivity. }
  induction F as [|c l B F (s & t & E1 & E2 & E3 & E4)].
  - exists [], (to_utf8 true lo). rewrite E. cbn [length app Nat.add xml_char_to_string_n]. rewrite Eh, E. cbn [bind app]. repeat split.
    cbn [utf8_decode]. destruct (N.leb_spec (224 + h) 127); [lia|].
    replace ((194 <=? 224 + h) && (224 + h <=? 223)) with false by (symmetry; apply Bool.andb_false_iff; rewrite !N.leb_gt; lia).
    replace ((224 <=? 224 + h) && (224 + h <=? 239)) with true by (symmetry; apply andb_true_intro; rewrite !N.leb_le; lia).
    replace ((224 + h - 224) * 4096 + (128 + m - 128) * 64 + (128 + k - 128)) with lo by lia.
    replace ((55296 <=? lo) && (lo <=? 57343)) with true by (symmetry; apply andb_true_intro; rewrite !N.leb_le; lia).
    rewrite !Bool.andb_false_r. reflexivity.
  - exists (to_utf8 true c ++ s), t. cbn [length app Nat.add xml_char_to_string_n]. rewrite E1. cbn [bind].
    rewrite <- app_assoc. split; [reflexivity|]. split; [exact E2|]. rewrite !one_character by exact B. rewrite E3, E4. split; reflexivity.
Qed.
Print Assumptions surrogates_refuted.

(** * Entity declarations *)
Lemma stopped_stays {H} (on : H -> piece -> res (H * bool)) l : forall h, take_reports on (h, true) l = Ok (h, true).
Proof. induction l; intros h; [reflexivity|apply IHl]. Qed.
Lemma declared_stops {H} (on : H -> piece -> res (H * bool)) h l : take_reports on (h, false) (Declared :: l) = Ok (h, true).
Proof. cbn. apply stopped_stays. Qed.

(** C110. If a document declares an entity, which it does before its first element, its parse fails and the handler is not called: nothing is expanded. *)
Theorem entity_declaration_rejected : forall H on expat (h : H) s rs ok, expat [] s (negb (eqs s [])) = (Declared :: rs, ok) -> parse_xml on expat h s = Ok (h, false).
Proof.
  intros H on expat h s rs ok E. unfold parse_xml. rewrite E, declared_stops. cbn. rewrite Bool.andb_false_r. reflexivity.
Qed.
Print Assumptions entity_declaration_rejected.

(** What expat reports for one block after the other. *)
Fixpoint block_reports (expat : list str -> str -> bool -> list report * bool) (before : list str) (blocks : list (str * bool)) : list report :=
  match blocks with [] => [] | (b, f) :: l => fst (expat before b f) ++ block_reports expat (before ++ [b]) l end.
(** C110. The same for a document given in blocks, wherever it is cut. *)
Theorem entity_declaration_rejected_blocks : forall H on expat (h : H) blocks rs, block_reports expat [] blocks = Declared :: rs ->
  parse_buffers on expat [] h blocks = Ok (h, false).
Proof.
  intros H on expat h blocks. generalize (@nil str). induction blocks as [|[b f] l IH]; intros before rs E; [discriminate|].
  cbn in *. destruct (expat before b f) as [r ok]. cbn in E. destruct r as [|x r].
  - cbn. rewrite Bool.andb_true_r. destruct ok; [|reflexivity]. exact (IH _ _ E).
  - cbn in E. injection E as -> E. rewrite declared_stops. cbn. rewrite Bool.andb_false_r. reflexivity.
Qed.
Print Assumptions entity_declaration_rejected_blocks.
(** C110. No element, and an error, come from Parse, ParseNS and ParseAtom, and no file from XsdFile::CreateFromParse. *)
Theorem entity_declaration_no_element : forall expat s rs ok, expat [] s (negb (eqs s [])) = (Declared :: rs, ok) ->
  (forall unset f obs, parse_dom unset f obs expat s = Ok (None, false)) /\ create_from_parse expat s = Ok None.
Proof.
  intros expat s rs ok E. split; [intros unset f obs; unfold parse_dom|unfold create_from_parse]; erewrite entity_declaration_rejected by exact E; reflexivity.
Qed.
Print Assumptions entity_declaration_no_element.

Lemma rename_same p : rename_piece (fun n => n) p = p.
Proof. destruct p; reflexivity. Qed.
Lemma take_same obs on : (forall h p, on h p = kml_on obs h p) -> forall ps h,
  take_reports on (h, stopped h) (map Reported ps) = do h' <- take_pieces obs h ps; Ok (h', stopped h').
Proof.
  intros Hon. induction ps as [|p ps IH]; intros h; [reflexivity|]. cbn [map take_reports take_pieces]. unfold take_report. cbn [snd fst].
  destruct (stopped h) eqn:St.
  - cbn. unfold take_piece at 1. rewrite St. cbn. pose proof (IH h) as I. rewrite St in I. exact I.
  - rewrite Hon. unfold kml_on. destruct (take_piece obs h p); try reflexivity. cbn. apply IH.
Qed.
(** C110. A document without entity declarations is parsed as C88 says. *)
Theorem no_entity_declaration : forall obs expat expat' s,
  (forall b c f, expat' b c f = (map Reported (fst (expat b c f)), snd (expat b c f))) ->
  parse_dom false (fun n => n) obs expat' s = do r <- parse_string obs expat s; Ok (fst r, negb (snd r)).
Proof.
  intros obs expat expat' s E. unfold parse_dom, parse_xml, parse_string. rewrite E. destruct (expat [] s (negb (eqs s []))) as [ps ok]. cbn [fst snd].
  change (h0, false) with (h0, stopped h0). rewrite (take_same obs).
  - destruct (take_pieces obs h0 ps) as [h| | |]; try reflexivity. cbn. destruct (ok && negb (stopped h)); reflexivity.
  - intros h p. rewrite rename_same. destruct (kml_on obs h p); reflexivity.
Qed.
Print Assumptions no_entity_declaration.

Lemma xs_run_app l : forall l2 h, xs_run h (l ++ l2) = do h' <- xs_run h l; xs_run h' l2.
Proof.
  induction l as [|e l IH]; intros l2 h; [reflexivity|]. cbn [app xs_run]. destruct e as [n a|n|c]; [destruct (xs_start h n a)|destruct (xs_end h n)|]; cbn [bind]; auto.
Qed.
Lemma xsd_reports ps : forall h, take_reports xsd_on (h, false) (map Reported ps) = do h' <- xs_run h (flat_map flatten ps); Ok (h', false).
Proof.
  induction ps as [|p ps IH]; intros h; [reflexivity|]. cbn [map take_reports flat_map]. unfold take_report, xsd_on. cbn [fst snd]. rewrite xs_run_app.
  destruct (xs_run h (flatten p)) as [h1| | |]; cbn [bind]; auto.
Qed.
(** C110. A schema file without entity declarations is read as C72 says, and there is a file exactly if expat found no error. *)
Theorem xsd_no_entity_declaration : forall expat s ps ok, expat [] s (negb (eqs s [])) = (map Reported ps, ok) ->
  create_from_parse expat s = do f <- xsd_parse (flat_map flatten ps); Ok (if ok then Some f else None).
Proof.
  intros expat s ps ok E. unfold create_from_parse, parse_xml, xsd_parse. rewrite E, xsd_reports.
  match goal with |- context [xs_run ?h ?l] => destruct (xs_run h l) as [h1| | |] end; cbn [bind]; try reflexivity. cbn [fst snd negb]. now rewrite andb_true_r.
Qed.
Print Assumptions xsd_no_entity_declaration.
(** C110. Witness: a declaration in a document of two blocks. *)
Definition two_blocks (before : list str) (b : str) (final : bool) : list report * bool :=
  match before with [] => ([], true) | _ => ([Declared; Reported (PStart (S_ "kml") [] false)], true) end.
Example declaration_sample : parse_buffers (kml_on []) two_blocks [] h0 [(S_ "<!DOCTYPE kml [<!ENTITY a", false); (S_ " 'x'>]><kml>&a;</kml>", true)] = Ok (h0, false).
Proof. apply entity_declaration_rejected_blocks with (rs := [Reported (PStart (S_ "kml") [] false)]). reflexivity. Qed.

(** C110. XsdFile::CreateFromParse of the empty text gives a file and no error; asking it for its target namespace is undefined. *)
Theorem xsd_empty_refuted : forall expat, expat [] [] false = ([], true) ->
  exists f, create_from_parse expat [] = Ok (Some f) /\ get_target_namespace f = UB /\ get_target_namespace_prefix f = UB.
Proof. intros expat E. exists empty_xsd. unfold create_from_parse, parse_xml. cbn [eqs negb]. cbn. rewrite E. repeat split. Qed.
Print Assumptions xsd_empty_refuted.
Lemma xs_start_schema h n a h' : n <> S_ "schema" -> x_schema (h_file h) = None -> xs_start h n a = Ok h' -> x_schema (h_file h') = None.
Proof.
  intros Hn E. unfold xs_start. apply eqs_neq in Hn. rewrite Hn.
  assert (forall k, bind k (fun h1 => Ok {| h_file := h_file h1; h_cur := h_cur h1; h_parse := n :: h_parse h1 |}) = Ok h' ->
    (forall h1, k = Ok h1 -> x_schema (h_file h1) = None) -> x_schema (h_file h') = None) as K.
  { intros k X Y. destruct k; try discriminate. cbn in X. injection X as <-. cbn. apply Y. reflexivity. }
  intros X. apply K in X; [exact X|]. clear K X. intros h1 X.
  repeat match type of X with (if ?b then _ else _) = _ => destruct b end; try (injection X as <-);
    unfold start_xs_element, start_type, start_extension, start_restriction, start_enumeration in *;
    repeat match goal with
           | H : match ?x with _ => _ end = _ |- _ => destruct x; try discriminate
           | |- context [match ?x with _ => _ end] => destruct x
           end; try (injection X as <-); exact E.
Qed.
Lemma xs_end_schema h n h' : x_schema (h_file h) = None -> xs_end h n = Ok h' -> x_schema (h_file h') = None.
Proof.
  intros E. unfold xs_end, end_type. destruct (h_parse h); [discriminate|].
  destruct (eqs n (S_ "complexType") || eqs n (S_ "simpleType")); cbn; [destruct (h_cur h); [|discriminate]|]; intros X; injection X as <-; exact E.
Qed.
(** C110. The same holds for every document without a schema element that is read. *)
Theorem xsd_no_schema_refuted : forall t f, (forall n a, In (EStart n a) (xevents t) -> n <> S_ "schema") -> xsd_parse (xevents t) = Ok f ->
  get_target_namespace f = UB /\ get_target_namespace_prefix f = UB.
Proof.
  intros t f Hn. unfold xsd_parse. generalize (xevents t) Hn. clear t Hn. intros l.
  assert (forall h h', (forall n a, In (EStart n a) l -> n <> S_ "schema") -> x_schema (h_file h) = None -> xs_run h l = Ok h' -> x_schema (h_file h') = None) as K.
  { induction l as [|e l IH]; intros h h' Hn E X; [injection X as <-; exact E|].
    assert (Hl : forall n a, In (EStart n a) l -> n <> S_ "schema") by (intros n a Q; apply (Hn n a); right; exact Q).
    destruct e as [n a|n|c]; cbn [xs_run] in X.
    - destruct (xs_start h n a) as [h1| | |] eqn:S1; try discriminate. cbn in X. apply (IH h1 h'); auto.
      apply (xs_start_schema h n a); auto. apply (Hn n a). left. reflexivity.
    - destruct (xs_end h n) as [h1| | |] eqn:S1; try discriminate. cbn in X. apply (IH h1 h'); auto. apply (xs_end_schema h n); auto.
    - apply (IH h h'); auto. }
  intros Hn X. destruct (xs_run _ l) as [h| | |] eqn:R; try discriminate. cbn in X. injection X as <-.
  apply K in R; auto. unfold get_target_namespace, get_target_namespace_prefix. rewrite R. split; reflexivity.
Qed.
Print Assumptions xsd_no_schema_refuted.
(** Schemas are usually written with a prefix, as in xs:schema, which the reader does not know. *)
Example xsd_prefix_sample : exists f, xsd_parse (xevents (XElem (S_ "xs:schema") [(S_ "targetNamespace", S_ "u"); (S_ "xmlns:k", S_ "u")] [])) = Ok f /\ get_target_namespace f = UB.
Proof. eexists. split; [vm_compute; reflexivity|reflexivity]. Qed.
(** C110. What is read past the end of the memory is undefined: the count expat gives must be right. *)
Theorem text_past_end : forall wide l n, (length l < n)%nat -> xml_char_to_string_n wide n l = UB.
Proof.
  intros wide l. induction l as [|c l IH]; intros [|n] H; cbn [length] in H; [lia|reflexivity|lia|]. cbn [xml_char_to_string_n]. rewrite IH by lia. reflexivity.
Qed.
Print Assumptions text_past_end.
Theorem name_past_end : forall wide l, ~ In 0 l -> xml_char_to_string wide l = UB.
Proof.
  intros wide l. induction l as [|c l IH]; intros H; [reflexivity|]. destruct c as [|c]; [exfalso; apply H; now left|]. cbn [xml_char_to_string]. rewrite IH; [reflexivity|]. intros G. apply H. now right.
Qed.
Print Assumptions name_past_end.
(** C110. The target namespace of a schema is the one its schema element says, and the prefix is one bound to it. *)
Theorem target_namespace_read : forall a k u p, forallb (XsdFileProofs.plain false) k = true -> flat_map XsdFileProofs.schemas k = [] -> u <> [] -> p <> [] ->
  mget (S_ "targetNamespace") (attrs_of a) = Some u -> mget (S_ "xmlns:" ++ p) (attrs_of a) = Some u -> mget (S_ "xmlns:") (attrs_of a) = None ->
  exists f q, xsd_parse (XmlTree.xevents (XmlTree.XT (S_ "schema") a k)) = Ok f /\ get_target_namespace f = Ok u /\ get_target_namespace_prefix f = Ok q /\
    mget (S_ "xmlns:" ++ q) (attrs_of a) = Some u.
Proof.
  intros a k u p Hk Hsc Hu Hp Ht Hx H0. destruct (XsdFileProps.xsd_parse_correct a k Hk) as (f & Hf & _ & _ & Hs). specialize (Hs Hsc). exists f.
  assert (Sa : msorted (attrs_of a)) by (unfold attrs_of; clear; assert (G : forall m, msorted m -> msorted (fold_left (fun m kv => mset (fst kv) (snd kv) m) a m)) by (induction a as [|x a IH]; intros m Hm; [exact Hm|]; cbn [fold_left]; apply IH, mset_sorted, Hm); apply G, msorted_nil).
  pose proof (split_view (S_ "xmlns") _ Sa) as [V _]. pose proof (split_sorted (S_ "xmlns") _ Sa) as [_ S1].
  assert (Q : exists q, schema_create (attrs_of a) = Some (u, q) /\ mget (S_ "xmlns:" ++ q) (attrs_of a) = Some u).
  { unfold schema_create. rewrite Ht. destruct u as [|u0 u]; [now elim Hu|]. destruct (fst (split_by_prefix (S_ "xmlns") (attrs_of a))) as [m|] eqn:Em.
    - specialize (S1 m eq_refl). cbn [sp_view] in V. destruct (find_key (u0 :: u) m) as [q|] eqn:Ek.
      + apply find_key_spec in Ek; [|exact S1]. assert (Eq : view (attrs_of a) (S_ "xmlns:" ++ q) = Some (u0 :: u)) by (etransitivity; [symmetry; exact (V q)|exact Ek]).
        destruct q as [|q0 q]; [exfalso; change (view (attrs_of a) (S_ "xmlns:" ++ [])) with (mget (S_ "xmlns:") (attrs_of a)) in Eq; congruence|]. eexists. split; [reflexivity|exact Eq].
      + exfalso. apply (find_key_none _ _ Ek p). etransitivity; [exact (V p)|exact Hx].
    - exfalso. specialize (V p). cbn [sp_view] in V. assert (C : view (attrs_of a) (S_ "xmlns:" ++ p) = None) by (etransitivity; [symmetry; exact V|reflexivity]). unfold view, find_value in C. congruence. }
  destruct Q as (q & Q1 & Q2). exists q. unfold get_target_namespace, get_target_namespace_prefix. rewrite Hs, Q1. auto.
Qed.
Print Assumptions target_namespace_read.
Example target_namespace_sample : forallb (XsdFileProofs.plain false) [XmlTree.XT (S_ "element") [(S_ "name", S_ "e")] []] = true /\
  flat_map XsdFileProofs.schemas [XmlTree.XT (S_ "element") [(S_ "name", S_ "e")] []] = [] /\
  mget (S_ "targetNamespace") (attrs_of [(S_ "xmlns:k", S_ "u"); (S_ "targetNamespace", S_ "u")]) = Some (S_ "u") /\
  mget (S_ "xmlns:k") (attrs_of [(S_ "xmlns:k", S_ "u"); (S_ "targetNamespace", S_ "u")]) = Some (S_ "u") /\
  mget (S_ "xmlns:") (attrs_of [(S_ "xmlns:k", S_ "u"); (S_ "targetNamespace", S_ "u")]) = None.
Proof. vm_compute. auto. Qed.
(** C110. A root element that is not of KML stops the parser: no element and an error from Parse and ParseNS, but ParseAtom has no parser to stop and is undefined. *)
Theorem foreign_root_stops : forall f obs expat s n a e rs ok, expat [] s (negb (eqs s [])) = (Reported (PStart n a e) :: rs, ok) ->
  forall h, kml_on obs h0 (PStart (f n) a e) = Ok (h, true) ->
  parse_dom true f obs expat s = UB /\ parse_dom false f obs expat s = Ok (None, false).
Proof.
  intros f obs expat s n a e rs ok Ex h Hk. unfold parse_dom, parse_xml. rewrite Ex. cbn [take_reports take_report snd fst rename_piece]. rewrite Hk. cbn [bind snd fst andb]. split; [reflexivity|].
  assert (T : forall on l, @take_reports hstate on (h, true) l = Ok (h, true)) by (intros on l; induction l as [|r l IH]; [reflexivity|]; cbn [take_reports take_report snd]; exact IH).
  rewrite T. cbn [bind fst snd negb]. rewrite andb_false_r. reflexivity.
Qed.
Print Assumptions foreign_root_stops.
Example foreign_root_sample : exists h, kml_on [] h0 (PStart (S_ "html") [] false) = Ok (h, true).
Proof. eexists. vm_compute. reflexivity. Qed.

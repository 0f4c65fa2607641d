(** Properties of the namespace aware parses (C86). *)
From Verif Require Import Common StrMap AttributesModel AttributesProofs XsdTables XsdModel XmlSpec XmlSpecProofs NsSpec HandlerModel HandlerSpec HandlerProps NsModel.
From Verif Require Import SerializerModel SerializerProofs CoordModel DomTables DomModel DomSpec DomProps.

(** ** Xmlns *)
Definition declared (a : attrs) (p : str) : option str := find_value (S_ "xmlns:" ++ p) a.
(** C86. A table of namespaces made of attributes knows exactly the namespaces they declare: the default, the namespace of a prefix and a
    prefix of a namespace; there is no table exactly when nothing is declared. *)
Theorem xmlns_table_correct : forall a, msorted a -> find_value (S_ "xmlns:") a = None ->
  match xmlns_create a with
  | None => (find_value (S_ "xmlns") a = None \/ find_value (S_ "xmlns") a = Some []) /\ forall p, declared a p = None
  | Some t =>
      x_default t = match find_value (S_ "xmlns") a with Some u => u | None => [] end /\
      (forall p, get_namespace t p = match declared a p with Some u => u | None => [] end) /\
      (forall u, get_key t u <> [] -> declared a (get_key t u) = Some u) /\
      (forall u, get_key t u = [] <-> forall p, declared a p <> Some u)
  end.
Proof.
  intros a Hs Hn. destruct (split_view (S_ "xmlns") a Hs) as [Hv _]. destruct (split_sorted (S_ "xmlns") a Hs) as [_ Hss].
  assert (Hd : forall p, sp_view (fst (split_by_prefix (S_ "xmlns") a)) p = declared a p) by (intros p; apply Hv).
  unfold xmlns_create. set (d := match find_value (S_ "xmlns") a with Some v => v | None => [] end).
  assert (Hkey : forall t, x_prefixes t = fst (split_by_prefix (S_ "xmlns") a) ->
     (forall p, get_namespace t p = match declared a p with Some u => u | None => [] end) /\
      (forall u, get_key t u <> [] -> declared a (get_key t u) = Some u) /\
      (forall u, get_key t u = [] <-> forall p, declared a p <> Some u)).
  { intros t Ht. unfold get_namespace, get_key. rewrite Ht. destruct (fst (split_by_prefix (S_ "xmlns") a)) as [m|] eqn:E; cbn [sp_view] in Hd.
    - specialize (Hss m eq_refl). split; [intros p; now rewrite <- Hd|]. assert (Hno : find_value [] m = None) by (specialize (Hd []); unfold view in Hd; rewrite Hd; exact Hn). split.
      + intros u H. destruct (find_key u m) as [p|] eqn:Ek; [|congruence]. rewrite <- Hd. now apply find_key_spec.
      + intros u. destruct (find_key u m) as [p|] eqn:Ek.
        * pose proof (find_key_spec u m p Hss Ek) as H. split; [intros ->|].
          -- unfold view in H. rewrite Hno in H. discriminate.
          -- intros G. rewrite Hd in H. now apply G in H.
        * split; auto. intros _ p. rewrite <- Hd. now apply find_key_none.
    - split; [intros p; now rewrite <- Hd|]. split; [congruence|]. intros u. split; auto. intros _ p. rewrite <- Hd. discriminate. }
  destruct d as [|c d'] eqn:Ed; [destruct (fst (split_by_prefix (S_ "xmlns") a)) as [m|] eqn:E|].
  - split; [reflexivity|]. now apply Hkey.
  - split; [|intros p; now rewrite <- Hd]. unfold d in Ed. destruct (find_value (S_ "xmlns") a) as [v|]; [right; now subst|now left].
  - split; [reflexivity|]. now apply Hkey.
Qed.
Print Assumptions xmlns_table_correct.
Example xmlns_table_sample : exists t, xmlns_create atom_attributes = Some t /\ x_default t = kml_uri22 /\ get_namespace t (S_ "atom") = atom_uri /\
  get_key t atom_uri = S_ "atom" /\ get_key t (S_ "u") = [] /\ msorted atom_attributes /\ find_value (S_ "xmlns:") atom_attributes = None.
Proof.
  eexists. split; [vm_compute; reflexivity|]. split; [reflexivity|]. split; [vm_compute; reflexivity|]. split; [vm_compute; reflexivity|]. split; [vm_compute; reflexivity|].
  split; [|vm_compute; reflexivity]. repeat apply mset_sorted. apply msorted_nil.
Qed.

(** ** Names *)
Lemma split_bar (u l : str) : ~ In "|"%char u -> find_char "|"%char (u ++ "|"%char :: l) = Some (length u) /\ firstn (length u) (u ++ "|"%char :: l) = u /\
  skipn (length u + 1) (u ++ "|"%char :: l) = l.
Proof.
  intros H. split; [now apply find_char_app|]. split; [rewrite firstn_app, Nat.sub_diag, firstn_all; cbn; apply app_nil_r|].
  rewrite skipn_app, skipn_all2 by lia. replace (length u + 1 - length u) with 1 by lia. reflexivity.
Qed.
(** C86. The name the handler gets for an element of a namespace: the local name for the default namespace of the table, the table's prefix and the local name
    for another one it knows, and the name as expat reports it for all others. *)
Theorem translate_correct : forall t u l, ~ In "|"%char u -> u <> [] ->
  translate t (expat_name u l) =
    if eqs (x_default t) u then l else match get_key t u with [] => u ++ S_ "|" ++ l | p => p ++ S_ ":" ++ l end.
Proof.
  intros t u l H Hu. unfold translate, expat_name. destruct u as [|c u]; [congruence|]. set (v := c :: u) in *.
  destruct (split_bar v l H) as (-> & -> & ->). reflexivity.
Qed.
Print Assumptions translate_correct.
Theorem translate_plain : forall t l, ~ In "|"%char l -> translate t (expat_name [] l) = l.
Proof. intros t l H. unfold translate, expat_name. apply find_char_none in H. now rewrite H. Qed.
Print Assumptions translate_plain.

Lemma after_last_plain l : ~ In "|"%char l -> after_last l = l.
Proof.
  destruct l as [|c l]; [reflexivity|]. intros H. cbn [after_last].
  destruct (existsb (aeq "|"%char) l) eqn:E; [apply existsb_exists in E as (x & Hx & He); apply aeq_spec in He; subst; elim H; now right|].
  destruct (aeq "|"%char c) eqn:E2; [apply aeq_spec in E2; subst; elim H; now left|reflexivity].
Qed.
Lemma after_last_name u l : ~ In "|"%char l -> after_last (expat_name u l) = l.
Proof.
  intros H. destruct u as [|c u]; [now apply after_last_plain|]. unfold expat_name.
  assert (G : forall v, after_last (v ++ "|"%char :: l) = l).
  { induction v as [|x v IH]; cbn [app after_last].
    - destruct (existsb (aeq "|"%char) l) eqn:E; [apply existsb_exists in E as (y & Hy & He); apply aeq_spec in He; subst; contradiction|]. reflexivity.
    - replace (existsb (aeq "|"%char) (v ++ "|"%char :: l)) with true; [exact IH|]. symmetry. apply existsb_exists. exists "|"%char. split; [apply in_or_app; right; now left|reflexivity]. }
  apply G.
Qed.

Lemma xml_ind2 (P : xml -> Prop) (Hc : forall c, P (XChar c)) (He : forall n a ks, Forall P ks -> P (XElem n a ks)) : forall x, P x.
Proof.
  fix IH 1. intros [n a ks|c]; [|apply Hc]. apply He. induction ks as [|k ks IHk]; constructor; auto.
Qed.
Lemma nxml_ind2 (P : nxml -> Prop) (Hc : forall c, P (NChar c)) (He : forall u n a ks, Forall P ks -> P (NElem u n a ks)) : forall x, P x.
Proof.
  fix IH 1. intros [u n a ks|c]; [|apply Hc]. apply He. induction ks as [|k ks IHk]; constructor; auto.
Qed.
Lemma rename_events f : forall t, map (rename_event f) (xevents t) = xevents (rename f t).
Proof.
  induction t as [c|n a ks IH] using xml_ind2; [reflexivity|]. cbn [xevents rename map rename_event]. rewrite map_app. cbn [map rename_event]. do 2 f_equal.
  induction IH as [|k ks Hk _ IHk]; [reflexivity|]. cbn [flat_map map]. now rewrite map_app, Hk, IHk.
Qed.

(** A document written with other names for its elements and without declarations; attributes as expat reports them. *)
Fixpoint spell (name : str -> str -> str) (x : nxml) : xml :=
  match x with
  | NElem u l a ks => XElem (name u l) (map (fun e => let '(u, n, v) := e in (expat_name u n, v)) a) (map (spell name) ks)
  | NChar c => XChar c
  end.
(** Every element satisfies a condition on its namespace and local name. *)
Inductive all_names (P : str -> str -> Prop) : nxml -> Prop :=
| an_char : forall c, all_names P (NChar c)
| an_elem : forall u l a ks, P u l -> (forall k, In k ks -> all_names P k) -> all_names P (NElem u l a ks).
Lemma rename_spell f name (P : str -> str -> Prop) : (forall u l, P u l -> f (expat_name u l) = name u l) ->
  forall x, all_names P x -> rename f (reported x) = spell name x.
Proof.
  intros Hf. induction x as [c|u l a ks IH] using nxml_ind2; intros H; [reflexivity|]. inversion H; subst. cbn [reported rename spell]. rewrite Hf by assumption. f_equal.
  rewrite map_map. apply map_ext_in. intros k Hk. rewrite Forall_forall in IH. auto.
Qed.
Definition no_bar (l : str) : Prop := ~ In "|"%char l.
(** C86. ParseAtom, whatever prefixes a document uses: it gives the element that Parse gives for the document in which elements of the KML namespace and of none have
    their local name, those of the Atom namespace the prefix atom, and the others the name as expat reports it; if it gives none, Parse gives none. *)
Definition atom_spelling (u l : str) : str :=
  if eqs u kml_uri22 then l else if eqs u atom_uri then S_ "atom:" ++ l else expat_name u l.
Lemma unset_some obs es n : parse_unset obs es = Ok (Some n) <-> parse_events obs es = Ok (Some n).
Proof.
  unfold parse_unset, parse_events, pop_root. destruct (events obs h0 es) as [h| | |]; cbn [bind]; try tauto. destruct (stopped h); [split; discriminate|tauto].
Qed.
Lemma unset_none obs es : parse_unset obs es = Ok None -> parse_events obs es = Ok None.
Proof.
  unfold parse_unset, parse_events, pop_root. destruct (events obs h0 es) as [h| | |]; cbn [bind]; try tauto. destruct (stopped h); [discriminate|tauto].
Qed.
Lemma parse_atom_spelled obs t x : ns [] t = Some x -> all_names (fun u l => no_bar u /\ no_bar l) x ->
  parse_atom obs t = parse_unset obs (xevents (spell atom_spelling x)).
Proof.
  intros Hx Ha. unfold parse_atom, parse_renamed. rewrite Hx, rename_events. f_equal. f_equal.
  apply (rename_spell _ _ _) with (2 := Ha). intros u l [Hu Hl]. unfold atom_spelling. destruct (str_dec u []) as [->|Hne].
  - rewrite translate_plain by assumption. reflexivity.
  - rewrite translate_correct by assumption. change (x_default atom_table) with kml_uri22. destruct (eqs u kml_uri22) eqn:E.
    + apply eqs_spec in E. subst u. now rewrite eqs_refl.
    + replace (eqs kml_uri22 u) with false by (symmetry; apply eqs_neq; intros <-; now rewrite eqs_refl in E).
      change (get_key atom_table u) with (match find_key u [(S_ "atom", atom_uri)] with Some p => p | None => [] end). cbn [find_key]. destruct (eqs u atom_uri) eqn:E2; [reflexivity|].
      destruct u; [congruence|reflexivity].
Qed.
Theorem parse_atom_correct : forall obs t x, ns [] t = Some x -> all_names (fun u l => no_bar u /\ no_bar l) x ->
  (forall n, parse_atom obs t = Ok (Some n) <-> parse_events obs (xevents (spell atom_spelling x)) = Ok (Some n)) /\
  (parse_atom obs t = Ok None -> parse_events obs (xevents (spell atom_spelling x)) = Ok None).
Proof. intros obs t x Hx Ha. rewrite (parse_atom_spelled obs t x Hx Ha). split; [intros; apply unset_some|apply unset_none]. Qed.
Print Assumptions parse_atom_correct.
(** C57, C86. ParseAtom has undefined behaviour for every document whose root is not an element of KML or Atom: it stops a parser which was never set. *)
Theorem parse_atom_root_refuted : forall obs t x, ns [] t = Some x -> all_names (fun u l => no_bar u /\ no_bar l) x ->
  (exists u l a ks, x = NElem u l a ks /\ known_type Type_Unknown (atom_spelling u l) = None) -> parse_atom obs t = UB.
Proof.
  intros obs t x Hx Ha (u & l & a & ks & -> & Hk). rewrite (parse_atom_spelled obs t _ Hx Ha). cbn [spell xevents]. set (n := atom_spelling u l) in *. clearbody n. assert (Hs : is_schema n = false) by (destruct (is_schema n) eqn:E; [|reflexivity]; apply eqs_spec in E; subst n; discriminate Hk).
  unfold parse_unset. cbn [events event]. change (stopped h0) with false. cbv iota.
  assert (E : exists h, start_element obs h0 n (map (fun e => let '(u, n, v) := e in (expat_name u n, v)) a) = Ok h /\ stopped h = true).
  { unfold start_element. cbv zeta. change (max_nesting <? depth (set_depth h0 (inc (depth h0))))%N with false. cbv iota.
    cbn -[is_schema element_id creatable is_simple is_unknown_type find_old_schema is_description N.eqb]. rewrite Hs. cbn -[is_schema element_id creatable is_simple is_unknown_type find_old_schema is_description N.eqb].
    unfold known_type in Hk. destruct (creatable (element_id n)); [discriminate|]. destruct (is_simple (element_id n)); [discriminate|]. rewrite ?andb_false_r.
    eexists. split; [reflexivity|reflexivity]. }
  destruct E as (h & E & Eh). unfold event at 1. change (stopped h0) with false. cbv iota. rewrite E. cbn [bind].
  assert (S : forall es, events obs h es = Ok h) by (induction es as [|e es IH]; [reflexivity|]; cbn [events]; unfold event; rewrite Eh; exact IH).
  rewrite S. cbn [bind]. now rewrite Eh.
Qed.
Print Assumptions parse_atom_root_refuted.
(** C57, C86. The same for documents that are too deep, such as 101 folders in each other. *)
Fixpoint folders (n : nat) : xml := match n with O => XElem (S_ "Folder") [] [] | S k => XElem (S_ "Folder") [] [folders k] end.
Theorem parse_atom_deep_refuted : parse_events [] (xevents (folders 100)) = Ok None /\ parse_atom [] (folders 100) = UB /\
  exists n, parse_atom [] (folders 99) = Ok (Some n).
Proof. split; [vm_compute; reflexivity|]. split; [vm_compute; reflexivity|]. eexists. vm_compute. reflexivity. Qed.
Print Assumptions parse_atom_deep_refuted.
Example parse_atom_unknown_root : parse_atom_text [] (S_ "<html/>") = UB.
Proof. vm_compute. reflexivity. Qed.
(** C86. ParseNS: every element has its local name, whatever its namespace. *)
Theorem parse_ns_correct : forall obs t x, ns [] t = Some x -> all_names (fun _ l => no_bar l) x ->
  parse_ns obs t = parse_events obs (xevents (spell (fun _ l => l) x)).
Proof.
  intros obs t x Hx Ha. unfold parse_ns, parse_renamed. rewrite Hx, rename_events. f_equal. f_equal.
  apply (rename_spell _ _ _) with (2 := Ha). intros u l Hl. now apply after_last_name.
Qed.
Print Assumptions parse_ns_correct.
(** C86. Documents which differ in their prefixes and declarations only are parsed alike, and a document with an undeclared prefix is not parsed. *)
Theorem prefixes_irrelevant : forall obs t1 t2, ns [] t1 = ns [] t2 -> parse_atom obs t1 = parse_atom obs t2 /\ parse_ns obs t1 = parse_ns obs t2.
Proof. intros obs t1 t2 H. unfold parse_atom, parse_ns, parse_renamed. now rewrite H. Qed.
Print Assumptions prefixes_irrelevant.

(** No name of KML has a bar. *)
Lemma element_id_bar n : In "|"%char n -> element_id n = Type_Unknown.
Proof.
  intros H. unfold element_id. assert (G : forallb (fun e => negb (existsb (aeq "|"%char) (fst e))) tag_map = true) by (vm_compute; reflexivity).
  destruct (mget n tag_map) as [i|] eqn:E; [|reflexivity]. apply mget_in in E. rewrite forallb_forall in G. specialize (G _ E). cbn [fst] in G.
  apply negb_true_iff in G. assert (existsb (aeq "|"%char) n = true); [|congruence]. apply existsb_exists. exists "|"%char. split; [assumption|reflexivity].
Qed.
(** C86. An element of any other namespace is not taken for one of KML or Atom by ParseAtom, wherever it is. *)
Theorem atom_foreign_unknown : forall p u l, u <> [] -> no_bar u -> u <> kml_uri22 -> u <> atom_uri ->
  known_type p (translate atom_table (expat_name u l)) = None.
Proof.
  intros p u l Hu Hb Hk Ha. rewrite translate_correct by assumption. change (x_default atom_table) with kml_uri22.
  replace (eqs kml_uri22 u) with false by (symmetry; apply eqs_neq; congruence). change (get_key atom_table u) with (match find_key u [(S_ "atom", atom_uri)] with Some p => p | None => [] end). cbn [find_key].
  replace (eqs u atom_uri) with false by (symmetry; now apply eqs_neq). unfold known_type. rewrite element_id_bar; [reflexivity|].
  apply in_or_app. right. now left.
Qed.
Print Assumptions atom_foreign_unknown.

(** ** Samples *)
Definition feed_text : str := S_ "<feed xmlns=""http://www.w3.org/2005/Atom"" xmlns:k=""http://www.opengis.net/kml/2.2""><title>t</title><entry><content><k:Placemark id=""p""><k:name>n</k:name></k:Placemark></content></entry></feed>".
Definition feed_text2 : str := S_ "<a:feed xmlns:a=""http://www.w3.org/2005/Atom""><a:title>t</a:title><a:entry><a:content><Placemark xmlns=""http://www.opengis.net/kml/2.2"" id=""p""><name>n</name></Placemark></a:content></a:entry></a:feed>".
Definition feed_short : str := S_ "<atom:feed><atom:title>t</atom:title><atom:entry><atom:content><Placemark id=""p""><name>n</name></Placemark></atom:content></atom:entry></atom:feed>".
Definition tree_of (s : str) : xml := match xml_tree s with Some t => t | None => XChar "x"%char end.
Fixpoint names_ok (f : str -> str -> bool) (x : nxml) : bool :=
  match x with NElem u l _ ks => f u l && forallb (names_ok f) ks | NChar _ => true end.
Lemma names_ok_spec f (P : str -> str -> Prop) : (forall u l, f u l = true -> P u l) -> forall x, names_ok f x = true -> all_names P x.
Proof.
  intros Hf. induction x as [c|u l a ks IH] using nxml_ind2; intros H; [constructor|]. cbn [names_ok] in H. apply andb_true_iff in H as [H1 H2]. constructor; [auto|].
  intros k Hk. rewrite Forall_forall in IH. rewrite forallb_forall in H2. auto.
Qed.
Lemma no_barb l : negb (existsb (aeq "|"%char) l) = true -> no_bar l.
Proof. intros H Hi. apply negb_true_iff in H. assert (existsb (aeq "|"%char) l = true); [|congruence]. apply existsb_exists. exists "|"%char. auto. Qed.
Example atom_sample : exists x, ns [] (tree_of feed_text) = Some x /\ ns [] (tree_of feed_text2) = Some x /\ all_names (fun u l => no_bar u /\ no_bar l) x /\
  spell atom_spelling x = tree_of feed_short /\ parse_atom_text [] feed_text = parse_text [] feed_short /\ parse_atom_text [] feed_text2 = parse_text [] feed_short /\
  (exists n, parse_text [] feed_short = Ok (Some n)) /\ parse_atom_text [] (S_ "<a:feed/>") = Ok None.
Proof.
  eexists. split; [vm_compute; reflexivity|]. split; [vm_compute; reflexivity|]. split.
  { apply (names_ok_spec (fun u l => negb (existsb (aeq "|"%char) u) && negb (existsb (aeq "|"%char) l))); [|vm_compute; reflexivity].
    intros u l H. apply andb_true_iff in H as [H1 H2]. split; now apply no_barb. }
  split; [vm_compute; reflexivity|]. split; [vm_compute; reflexivity|]. split; [vm_compute; reflexivity|]. split; [eexists; vm_compute; reflexivity|vm_compute; reflexivity].
Qed.

(** ** Documents that were read from a text *)
Fixpoint tags_ok (t : xml) : bool := match t with XElem n _ ks => forallb name_ch n && forallb tags_ok ks | XChar _ => true end.
Definition tag_ok (e : ev) : bool := match e with EStart n _ | EEnd n => forallb name_ch n | EChar _ => true end.
Lemma rd_tags f : forall s es, rd f s = Some es -> forallb tag_ok es = true.
Proof.
  induction f as [|f IH]; intros s es H; (destruct s as [|c t]; [now inversion H|]); [discriminate|]. cbn [rd] in H.
  assert (G : forall l r, forallb tag_ok l = true -> prepend l (rd f r) = Some es -> forallb tag_ok es = true).
  { intros l r Hl Hr. unfold prepend in Hr. destruct (rd f r) as [q|] eqn:E; [|discriminate]. cbn in Hr. inversion Hr; subst. rewrite forallb_app, Hl. now apply (IH r). }
  destruct (aeq c "<"%char).
  - destruct (prefixb cdata_open (c :: t)).
    { destruct (find cdata_close _) as [i|]; [|discriminate]. destruct (forallb legal _); [|discriminate]. apply G in H; [exact H|]. apply forallb_forall. intros e He. apply in_map_iff in He as (x & <- & _). reflexivity. }
    destruct (aeq (hd zero t) "/"%char).
    { destruct (drop_while name_ch (tl t)) as [|d r]; [discriminate|]. destruct (xml_name (take_while name_ch (tl t))) eqn:E; [|discriminate]. destruct (aeq d ">"%char); [|discriminate].
      cbn [andb] in H. apply G in H; [exact H|]. cbn. now rewrite (xml_name_chars _ E). }
    destruct (xml_name (take_while name_ch t)) eqn:E; [|discriminate]. destruct (tag_atts f (drop_while name_ch t)) as [[[a b] r]|]; [|discriminate]. destruct (nodupb (map fst a)); [|discriminate].
    apply G in H; [exact H|]. destruct b; cbn; now rewrite (xml_name_chars _ E).
  - destruct (aeq c "&"%char); [destruct (read_entity entities (c :: t)) as [[x k]|]; [|discriminate]; now apply G in H|].
    destruct (prefixb cdata_close (c :: t)); [discriminate|]. destruct (legal c); [|discriminate]. now apply G in H.
Qed.
Lemma forest_tags es : forall st acc F, forallb tag_ok es = true -> forallb tags_ok acc = true ->
  forallb (fun e => forallb name_ch (fst (fst e)) && forallb tags_ok (snd e)) st = true -> forest es st acc = Some F -> forallb tags_ok F = true.
Proof.
  assert (R : forall l, forallb tags_ok l = true -> forallb tags_ok (rev l) = true).
  { intros l H. rewrite forallb_forall in *. intros x Hx. apply H. now apply in_rev. }
  induction es as [|e es IH]; intros st acc F He Ha Hst H; cbn [forest] in H.
  - destruct st; [|discriminate]. inversion H; subst. now apply R.
  - cbn [forallb] in He. apply andb_true_iff in He as [He1 He2]. destruct e as [n a|n|c].
    + apply IH in H; auto. cbn [forallb fst snd]. cbn in He1. now rewrite He1, Ha, Hst.
    + destruct st as [|[[m a] acc'] st]; [discriminate|]. destruct (eqs m n) eqn:E; [|discriminate]. cbn [forallb fst snd] in Hst. apply andb_true_iff in Hst as [H1 H2]. apply andb_true_iff in H1 as [H1 H3].
      apply IH in H; auto. cbn [forallb tags_ok]. cbn in He1. rewrite He1, H3, R; auto.
    + apply IH in H; auto.
Qed.
Lemma xml_tree_tags s t : xml_tree s = Some t -> tags_ok t = true.
Proof.
  unfold xml_tree, xml_parse, xml_tokens. destruct (rd _ _) as [es|] eqn:E; [|discriminate]. destruct (nest es [] false); [|discriminate]. destruct (forest es [] []) as [F|] eqn:EF; [|discriminate].
  intros H. apply rd_tags in E. apply forest_tags in EF; auto. apply List.find_some in H as [H _]. rewrite forallb_forall in EF. auto.
Qed.
Lemma name_no_bar n : forallb name_ch n = true -> no_bar n.
Proof. intros H Hi. rewrite forallb_forall in H. now specialize (H _ Hi). Qed.
Lemma in_skipn {A} (x : A) n l : In x (skipn n l) -> In x l.
Proof. intros H. rewrite <- (firstn_skipn n l). apply in_or_app. now right. Qed.
Lemma qname_local s p l : qname s = Some (p, l) -> no_bar s -> no_bar l.
Proof.
  unfold qname. destruct (find_char ":"%char s) as [i|]; [|intros H; now inversion H]. destruct (firstn i s); [discriminate|]. destruct (skipn (i + 1) s) as [|c r] eqn:E; [discriminate|].
  destruct (find_char ":"%char (c :: r)); [discriminate|]. intros H Hs. inversion H; subst. intros Hi. apply Hs. rewrite <- E in Hi. now apply in_skipn in Hi.
Qed.
Definition scope_ok (sc : scope) : Prop := forall p u, In (p, u) sc -> no_bar u.
Lemma declarations_ok a : forall d, declarations a = Some d -> scope_ok d.
Proof.
  induction a as [|[k v] a IH]; intros d H; cbn [declarations] in H; [inversion H; intros p u []|].
  destruct (declares k) as [[p|]|]; [|discriminate|now apply IH]. destruct (allowed p v) eqn:E; [|discriminate]. destruct (declarations a) as [d'|]; [|discriminate]. inversion H; subst.
  intros q u [Hq|Hq]; [|now apply (IH d' eq_refl q)]. inversion Hq; subst. unfold allowed in E. rewrite !andb_true_iff in E. apply no_barb. tauto.
Qed.
Lemma bound_ok sc p u : scope_ok sc -> bound sc p = Some u -> no_bar u.
Proof.
  induction sc as [|[q v] sc IH]; cbn [bound]; [discriminate|]. intros H. destruct (opt_eqs q p); [intros E; inversion E; subst; apply (H q); now left|]. apply IH. intros q' u' Hi. apply (H q'). now right.
Qed.
Lemma ns_names t : forall sc x, scope_ok sc -> tags_ok t = true -> ns sc t = Some x -> all_names (fun u l => no_bar u /\ no_bar l) x.
Proof.
  induction t as [c|n a ks IH] using xml_ind2; intros sc x Hsc Ht H; [inversion H; constructor|]. cbn [ns] in H. cbn [tags_ok] in Ht. apply andb_true_iff in Ht as [Hn Hks].
  destruct (declarations a) as [d|] eqn:Ed; [|discriminate]. set (sc' := d ++ sc) in *. assert (Hsc' : scope_ok sc').
  { intros p u Hi. apply in_app_iff in Hi as [Hi|Hi]; [now apply (declarations_ok a d Ed p)|now apply (Hsc p)]. }
  destruct (resolve_name sc' true n) as [[u l]|] eqn:En; [|discriminate]. destruct (resolve_atts sc' a) as [a'|]; [|discriminate].
  match type of H with match ?g with _ => _ end = _ => destruct g as [ks'|] eqn:Ek; [|discriminate] end. destruct (distinct_atts a'); [|discriminate]. inversion H; subst. constructor.
  - unfold resolve_name in En. destruct (qname n) as [[[p|] l']|] eqn:Eq; [| |discriminate].
    + apply qname_local in Eq; [|now apply name_no_bar]. destruct (eqs p (S_ "xml")).
      * inversion En; subst. split; [apply no_barb; reflexivity|assumption].
      * destruct (bound sc' (Some p)) as [v|] eqn:Eb; [|discriminate]. inversion En; subst. split; [now apply (bound_ok sc' (Some p))|assumption].
    + apply qname_local in Eq; [|now apply name_no_bar]. inversion En; subst. split; [|assumption]. destruct (bound sc' None) as [v|] eqn:Eb; [now apply (bound_ok sc' None)|intros []].
  - clear H. revert ks' Ek Hks. induction IH as [|k ks Hk _ IHk]; intros ks' Ek Hks; [inversion Ek; intros k []|]. cbn [forallb] in Hks. apply andb_true_iff in Hks as [H1 H2].
    destruct (ns sc' k) as [k'|] eqn:Ek1; [|discriminate]. match type of Ek with match ?g with _ => _ end = _ => destruct g as [r'|] eqn:Ek2; [|discriminate] end. inversion Ek; subst.
    intros y [<-|Hy]; [now apply (Hk sc')|]. now apply (IHk r').
Qed.
(** C86. The same for texts: the namespaces and names of a text that is XML have no bar. *)
Theorem parse_atom_text_correct : forall obs s t n, xml_tree s = Some t ->
  (parse_atom_text obs s = Ok (Some n) <-> exists x, ns [] t = Some x /\ parse_events obs (xevents (spell atom_spelling x)) = Ok (Some n)).
Proof.
  intros obs s t n Hs. unfold parse_atom_text. rewrite Hs. destruct (ns [] t) as [x|] eqn:E; [|unfold parse_atom, parse_renamed; rewrite E; split; [discriminate|intros (x & H & _); discriminate]].
  assert (K : forall m, parse_atom obs t = Ok (Some m) <-> parse_events obs (xevents (spell atom_spelling x)) = Ok (Some m)); [|rewrite K; split; [eauto|intros (y & H & H2); inversion H; subst; exact H2]].
  apply parse_atom_correct; [assumption|]. apply (ns_names t []); auto; [intros p u []|]. now apply (xml_tree_tags s).
Qed.
Print Assumptions parse_atom_text_correct.
Theorem parse_ns_text_correct : forall obs s t, xml_tree s = Some t ->
  parse_ns_text obs s = match ns [] t with Some x => parse_events obs (xevents (spell (fun _ l => l) x)) | None => Ok None end.
Proof.
  intros obs s t Hs. unfold parse_ns_text. rewrite Hs. destruct (ns [] t) as [x|] eqn:E; [|unfold parse_ns, parse_renamed; now rewrite E].
  apply parse_ns_correct; [assumption|]. assert (H : all_names (fun u l => no_bar u /\ no_bar l) x) by (apply (ns_names t []); auto; [intros p u []|]; now apply (xml_tree_tags s)).
  clear -H. induction x as [c|u l a ks IH] using nxml_ind2; [constructor|]. inversion H; subst. constructor; [tauto|]. intros k Hk. rewrite Forall_forall in IH. auto.
Qed.
Print Assumptions parse_ns_text_correct.

(** ** Violations *)
(** C86. ParseNS takes an element of any namespace for the KML element with this local name. *)
Theorem ns_foreign_taken_refuted : forall u, allowed (Some (S_ "x")) u = true ->
  parse_ns [] (XElem (S_ "x:Placemark") [(S_ "xmlns:x", u)] []) = parse_events [] (xevents (XElem (S_ "Placemark") [] [])) /\
  exists n, parse_events [] (xevents (XElem (S_ "Placemark") [] [])) = Ok (Some n) /\ nty n = Type_Placemark.
Proof.
  intros u H. split; [|eexists; split; vm_compute; reflexivity].
  rewrite (parse_ns_correct [] _ (NElem u (S_ "Placemark") [] [])).
  - reflexivity.
  - cbn [ns declarations]. change (declares (S_ "xmlns:x")) with (Some (Some (Some (S_ "x")))). cbv beta iota. rewrite H. reflexivity.
  - constructor; [|intros k []]. apply no_barb. reflexivity.
Qed.
Print Assumptions ns_foreign_taken_refuted.
(** C86. ParseNS does not know the elements of the gx and atom namespaces, which Parse knows; a child is kept as markup without its prefix. *)
Definition tour_text : str := S_ "<Document xmlns=""http://www.opengis.net/kml/2.2"" xmlns:gx=""http://www.google.com/kml/ext/2.2""><gx:Tour><gx:Playlist/></gx:Tour></Document>".
Definition children (r : res (option node)) : list entry := match r with Ok (Some (Node _ _ _ l)) => l | _ => [] end.
Theorem ns_gx_lost_refuted :
  (exists c, children (parse_text [] tour_text) = [LChild c] /\ nty c = Type_GxTour) /\
  children (parse_ns_text [] tour_text) = [LUnknown (S_ "<Tour><Playlist></Playlist></Tour>" ++ ["010"%char])].
Proof. split; [eexists; split; vm_compute; reflexivity|vm_compute; reflexivity]. Qed.
Print Assumptions ns_gx_lost_refuted.
(** C86. Parse goes by the literal prefix: KML elements with a prefix are not known, and an element with the prefix gx is taken for one of the extensions whatever the prefix means. *)
Definition prefixed_text : str := S_ "<k:Placemark xmlns:k=""http://www.opengis.net/kml/2.2""/>".
Definition other_gx_text : str := S_ "<gx:Tour xmlns:gx=""urn:other""/>".
Theorem parse_by_prefix_refuted :
  parse_text [] prefixed_text = Ok None /\ (exists n, parse_ns_text [] prefixed_text = Ok (Some n) /\ nty n = Type_Placemark) /\
  (exists n, parse_text [] other_gx_text = Ok (Some n) /\ nty n = Type_GxTour).
Proof. split; [vm_compute; reflexivity|]. split; eexists; split; vm_compute; reflexivity. Qed.
Print Assumptions parse_by_prefix_refuted.
(** C86. An element of another namespace in a feed read by ParseAtom is kept under the name expat reports, so the feed is then written as a text which is not XML. *)
Definition gd_text : str := S_ "<entry xmlns=""http://www.w3.org/2005/Atom"" xmlns:gd=""http://schemas.google.com/g/2005""><gd:resourceId>document:1</gd:resourceId></entry>".
Definition atom_object (E : env) (s : str) : option obj :=
  match parse_atom_text [] s with Ok (Some n) => match build E n with Ok o => Some o | _ => None end | _ => None end.
Definition gd_written : str := S_ "<atom:entry><http://schemas.google.com/g/2005|resourceId>document:1</http://schemas.google.com/g/2005|resourceId>" ++ ["010"%char] ++ S_ "</atom:entry>".
Theorem atom_foreign_written_refuted : exists t o, xml_tree gd_text = Some t /\ atom_object E0 gd_text = Some o /\ write_raw o = Ok gd_written /\ xml_tree gd_written = None.
Proof. eexists. eexists. split; [vm_compute; reflexivity|]. split; [vm_compute; reflexivity|]. split; vm_compute; reflexivity. Qed.
Print Assumptions atom_foreign_written_refuted.

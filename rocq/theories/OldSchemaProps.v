(** Properties of the conversion of old-style schema instances (C89). *)
From Verif Require Import Common AttributesModel XsdTables XsdModel XmlSpec XmlSpecProofs HandlerModel HandlerSpec HandlerProofs HandlerProps.
From Verif Require Import DomTables DomModel DomSpec DomProofs DomProps SplitProofs2 SplitProofs3 OldSchemaModel.
Local Open Scope N_scope.

(** ** Markup kept as text is markup, if nothing in it needs escaping *)
Fixpoint plain (t : xml) : bool :=
  match t with
  | XElem n a ks => xml_name n && forallb att_ok a && nodupb (map fst a) && forallb plain ks
  | XChar c => plain_char c
  end.
Lemma raw_elem n a ks : raw (XElem n a ks) = open_tag n a false ++ flat_map raw ks ++ close_tag n.
Proof. cbn [raw]. unfold open_tag, close_tag, serialize, tag_end. now rewrite <- !app_assoc. Qed.
Lemma raw_frag t : plain t = true -> frag (raw t) (xevents t).
Proof.
  induction t as [n a ks IH|c] using xml_ind2; cbn [plain]; intros H; [|now apply frag_char].
  rewrite !andb_true_iff in H. destruct H as (((H1 & H2) & H3) & H4). rewrite raw_elem. cbn [xevents].
  change (EStart n a :: flat_map xevents ks ++ [EEnd n]) with ([EStart n a] ++ flat_map xevents ks ++ [EEnd n]). apply frag_app; [now apply (frag_open n a false)|].
  apply frag_app; [|now apply frag_close]. clear - IH H4. induction ks as [|k ks IHk]; [apply frag_nil|]. inversion IH; subst. cbn [forallb] in H4. apply andb_true_iff in H4 as [G1 G2].
  cbn [flat_map]. apply frag_app; auto.
Qed.
Lemma name_no_cr n : xml_name n = true -> ~ In "013"%char n /\ ~ In "<"%char n /\ ~ In ">"%char n.
Proof.
  intros H. apply xml_name_chars in H. rewrite forallb_forall in H. split; [|split]; intros G; apply H in G; discriminate.
Qed.
Lemma att_no (kv : str * str) : att_ok kv = true -> ~ In "013"%char (serialize1 kv) /\ ~ In "<"%char (serialize1 kv).
Proof.
  unfold att_ok. rewrite andb_true_iff. intros [H1 H2]. apply name_no_cr in H1 as (N1 & N2 & _). rewrite forallb_forall in H2. unfold serialize1.
  split; rewrite !in_app_iff; intros [G|[G|[G|[G|G]]]];
    try contradiction; try (apply H2 in G; discriminate); cbn in G; repeat destruct G as [G|G]; try discriminate; contradiction.
Qed.
Lemma open_no n a : xml_name n = true -> forallb att_ok a = true -> ~ In "013"%char (open_tag n a false) /\ exists w, open_tag n a false = "<"%char :: w /\ ~ In "<"%char w /\ hd zero w <> "/"%char /\ w <> [].
Proof.
  intros Hn Ha. destruct (name_no_cr n Hn) as (N1 & N2 & _). rewrite forallb_forall in Ha. split.
  - unfold open_tag. rewrite !in_app_iff. intros [G|[G|[G|G]]]; [cbn in G; destruct G as [G|[]]; discriminate|contradiction| |cbn in G; destruct G as [G|[]]; discriminate].
    apply in_flat_map in G as (kv & K1 & K2). apply Ha in K1. apply att_no in K1. tauto.
  - exists (n ++ serialize a ++ S_ ">"). split; [reflexivity|]. split.
    + rewrite !in_app_iff. intros [G|[G|G]]; [contradiction| |cbn in G; destruct G as [G|[]]; discriminate].
      apply in_flat_map in G as (kv & K1 & K2). apply Ha in K1. apply att_no in K1. tauto.
    + destruct (name_start_hd n (serialize a ++ S_ ">") Hn) as (c & u & -> & Hc & _). cbn [app hd]. split; [intros ->; discriminate|discriminate].
Qed.
Lemma raw_no_cr t : plain t = true -> ~ In "013"%char (raw t).
Proof.
  induction t as [n a ks IH|c] using xml_ind2; cbn [plain]; intros H.
  - rewrite !andb_true_iff in H. destruct H as (((H1 & H2) & H3) & H4). rewrite raw_elem. destruct (open_no n a H1 H2) as [O _]. destruct (name_no_cr n H1) as (N1 & _).
    rewrite !in_app_iff. intros [G|[G|G]]; [contradiction| |].
    + apply in_flat_map in G as (k & K1 & K2). rewrite Forall_forall in IH. rewrite forallb_forall in H4. now apply (IH k K1 (H4 k K1)).
    + unfold close_tag in G. rewrite !in_app_iff in G. destruct G as [G|[G|G]]; [|contradiction|]; cbn in G; repeat destruct G as [G|G]; try discriminate; contradiction.
  - cbn [raw In]. intros [->|[]]. discriminate.
Qed.
Lemma raw_tree n a ks : plain (XElem n a ks) = true -> xml_tree (raw (XElem n a ks)) = Some (XElem n a ks).
Proof.
  intros H. apply (xml_tree_doc _ n a ks [] []); try reflexivity; [now apply norm_eol_id, raw_no_cr|]. cbn [map app]. rewrite app_nil_r. now apply frag_reads, raw_frag.
Qed.

(** ** The first end tag *)
Fixpoint no_name (t : str) (x : xml) : bool := match x with XElem n _ ks => negb (eqs n t) && forallb (no_name t) ks | XChar _ => true end.
Lemma find_skip q u r : ~ In "<"%char u -> find ("<"%char :: q) (u ++ r) = option_map (Nat.add (length u)) (find ("<"%char :: q) r).
Proof.
  induction u as [|c u IH]; intros H; [cbn; destruct (find _ r); reflexivity|]. cbn [app find length].
  destruct (aeq "<"%char c) eqn:E; [apply aeq_spec in E; subst; destruct H; now left|]. cbn [prefixb]. rewrite E. cbn [andb]. rewrite IH by (intros G; apply H; now right).
  destruct (find ("<"%char :: q) r); reflexivity.
Qed.
Lemma find_skip_lt q u r : ~ In "<"%char u -> prefixb q (u ++ r) = false -> find ("<"%char :: q) ("<"%char :: u ++ r) = option_map (Nat.add (S (length u))) (find ("<"%char :: q) r).
Proof.
  intros H Hp. change (find ("<"%char :: q) ("<"%char :: u ++ r)) with (if prefixb ("<"%char :: q) ("<"%char :: u ++ r) then Some 0%nat else option_map S (find ("<"%char :: q) (u ++ r))).
  cbn [prefixb]. rewrite aeq_refl, Hp. cbn [andb]. rewrite find_skip by assumption. destruct (find ("<"%char :: q) r); reflexivity.
Qed.
Lemma prefix_name t n r : ~ In ">"%char t -> ~ In ">"%char n -> prefixb (t ++ S_ ">") (n ++ S_ ">" ++ r) = true -> n = t.
Proof.
  revert n. induction t as [|c t IH]; intros n Ht Hn H.
  - destruct n as [|d n]; [reflexivity|]. change ((if aeq ">"%char d then true else false) && true = true) in H || change (aeq ">"%char d && true = true) in H. destruct (aeq ">"%char d) eqn:E; [|discriminate]. apply aeq_spec in E. subst d. destruct Hn. now left.
  - destruct n as [|d n]; cbn [app prefixb] in H.
    + apply andb_true_iff in H as [H _]. apply aeq_spec in H. subst c. destruct Ht. now left.
    + apply andb_true_iff in H as [H1 H2]. apply aeq_spec in H1. subst d. f_equal. apply IH; [intros G; apply Ht; now right|intros G; apply Hn; now right|exact H2].
Qed.
Lemma find_raw t x : ~ In ">"%char t -> plain x = true -> no_name t x = true -> forall r,
  find (S_ "</" ++ t ++ S_ ">") (raw x ++ r) = option_map (Nat.add (length (raw x))) (find (S_ "</" ++ t ++ S_ ">") r).
Proof.
  intros Ht. change (S_ "</" ++ t ++ S_ ">") with ("<"%char :: "/"%char :: t ++ S_ ">").
  induction x as [n a ks IH|c] using xml_ind2; cbn [plain no_name]; intros Hp Hn r.
  - rewrite !andb_true_iff in Hp. destruct Hp as (((H1 & H2) & H3) & H4). apply andb_true_iff in Hn as [Hn Hk]. apply negb_true_iff in Hn. rewrite raw_elem.
    destruct (open_no n a H1 H2) as [_ (w & -> & Hw & Hh & Hne)]. destruct (name_no_cr n H1) as (_ & N2 & N3). rewrite <- app_assoc. cbn [app]. rewrite find_skip_lt; [|assumption|].
    2: { destruct w as [|c w]; [congruence|]. cbn [app hd prefixb] in *. destruct (aeq "/"%char c) eqn:Ea; [apply aeq_spec in Ea; congruence|reflexivity]. }
    assert (G : forall l r, Forall (fun x => plain x = true -> no_name t x = true -> forall r, find ("<"%char :: "/"%char :: t ++ S_ ">") (raw x ++ r) = option_map (Nat.add (length (raw x))) (find ("<"%char :: "/"%char :: t ++ S_ ">") r)) l ->
       forallb plain l = true -> forallb (no_name t) l = true -> find ("<"%char :: "/"%char :: t ++ S_ ">") (flat_map raw l ++ r) = option_map (Nat.add (length (flat_map raw l))) (find ("<"%char :: "/"%char :: t ++ S_ ">") r)).
    { clear. induction l as [|k l IHl]; intros r HF Hp Hn; [cbn [flat_map app length]; destruct (find _ r); reflexivity|]. inversion HF; subst. cbn [forallb] in *. apply andb_true_iff in Hp as [P1 P2]. apply andb_true_iff in Hn as [N1 N2].
      cbn [flat_map]. rewrite <- app_assoc. rewrite H1 by assumption. rewrite IHl by assumption. rewrite app_length. destruct (find _ r); [|reflexivity]. cbn [option_map]. f_equal. lia. }
    rewrite <- app_assoc. rewrite G by assumption. change (close_tag n ++ r) with ("<"%char :: ("/"%char :: n ++ S_ ">") ++ r).
    rewrite find_skip_lt.
    + cbn [length app]. rewrite !app_length. unfold close_tag. rewrite !app_length. change (length (S_ "</")) with 2%nat. change (length (S_ ">")) with 1%nat. destruct (find _ r); [|reflexivity]. cbn [option_map]. f_equal. lia.
    + cbn [In]. rewrite in_app_iff. intros [Q|[Q|Q]]; [discriminate|contradiction|]. cbn in Q. destruct Q as [Q|[]]. discriminate.
    + cbn [app prefixb]. rewrite aeq_refl. cbn [andb]. rewrite <- app_assoc. destruct (prefixb (t ++ S_ ">") (n ++ S_ ">" ++ r)) eqn:Q; [|reflexivity]. apply prefix_name in Q; [|assumption|assumption]. subst. rewrite eqs_refl in Hn. discriminate.
  - cbn [raw app length]. apply (find_skip _ [c]). intros [->|[]]. discriminate.
Qed.
(** C89. An unknown element named like a schema, without attributes and with nothing of the same name in it, becomes a Placemark with the same contents. *)
Theorem old_schema_converted : forall names t ks, In t names -> plain (XElem t [] ks) = true -> forallb (no_name t) ks = true ->
  convert_old_schema names (raw (XElem t [] ks) ++ ["010"%char]) = Some (raw (XElem (S_ "Placemark") [] ks)).
Proof.
  intros names t ks Hin Hp Hn. assert (Ht : xml_name t = true) by (cbn [plain] in Hp; rewrite !andb_true_iff in Hp; tauto). destruct (name_no_cr t Ht) as (_ & N2 & N3).
  assert (Hk : forallb plain ks = true) by (cbn [plain] in Hp; rewrite !andb_true_iff in Hp; tauto).
  assert (Er : raw (XElem t [] ks) ++ ["010"%char] = "<"%char :: t ++ ">"%char :: flat_map raw ks ++ "<"%char :: "/"%char :: t ++ ">"%char :: ["010"%char]).
  { cbn [raw flat_map app]. change (S_ "<" ++ t ++ S_ ">" ++ flat_map raw ks ++ S_ "</" ++ t ++ S_ ">") with ("<"%char :: t ++ ">"%char :: flat_map raw ks ++ "<"%char :: "/"%char :: t ++ [">"%char]).
    cbn [app]. f_equal. rewrite <- app_assoc. cbn [app]. do 2 f_equal. rewrite <- app_assoc. cbn [app]. do 3 f_equal. rewrite <- app_assoc. reflexivity. }
  rewrite Er. clear Er. unfold convert_old_schema. cbn [aeq]. rewrite aeq_refl. cbn [negb].
  assert (Egt : find_char ">"%char ("<"%char :: t ++ ">"%char :: flat_map raw ks ++ "<"%char :: "/"%char :: t ++ ">"%char :: ["010"%char]) = Some (S (length t))).
  { change ("<"%char :: t ++ ?x) with (("<"%char :: t) ++ x). rewrite find_char_app; [reflexivity|]. intros [G|G]; [discriminate|contradiction]. }
  rewrite Egt. cbn [skipn Nat.sub]. rewrite Nat.sub_0_r. rewrite firstn_app, Nat.sub_diag, firstn_all. cbn [firstn]. rewrite app_nil_r.
  assert (Ef : find (S_ "</" ++ t ++ S_ ">") ("<"%char :: t ++ ">"%char :: flat_map raw ks ++ "<"%char :: "/"%char :: t ++ ">"%char :: ["010"%char]) = Some (S (length t) + 1 + length (flat_map raw ks))%nat).
  { change (S_ "</" ++ t ++ S_ ">") with ("<"%char :: "/"%char :: t ++ S_ ">").
    replace (t ++ ">"%char :: flat_map raw ks ++ "<"%char :: "/"%char :: t ++ ">"%char :: ["010"%char]) with ((t ++ [">"%char]) ++ flat_map raw ks ++ "<"%char :: "/"%char :: t ++ ">"%char :: ["010"%char]) by (now rewrite <- app_assoc).
    rewrite find_skip_lt.
    - assert (G : forall l r, forallb plain l = true -> forallb (no_name t) l = true -> find ("<"%char :: "/"%char :: t ++ S_ ">") (flat_map raw l ++ r) = option_map (Nat.add (length (flat_map raw l))) (find ("<"%char :: "/"%char :: t ++ S_ ">") r)).
      { clear - N3. induction l as [|k l IHl]; intros r Hp Hn; [cbn [flat_map app length]; destruct (find _ r); reflexivity|]. cbn [forallb] in *. apply andb_true_iff in Hp as [P1 P2]. apply andb_true_iff in Hn as [M1 M2].
        cbn [flat_map]. rewrite <- app_assoc. pose proof (find_raw t k N3 P1 M1 (flat_map raw l ++ r)) as Q. change (S_ "</" ++ t ++ S_ ">") with ("<"%char :: "/"%char :: t ++ S_ ">") in Q. rewrite Q.
        rewrite IHl by assumption. rewrite app_length. destruct (find _ r); [|reflexivity]. cbn [option_map]. f_equal. lia. }
      rewrite G by assumption.
      assert (Hz : find ("<"%char :: "/"%char :: t ++ S_ ">") ("<"%char :: "/"%char :: t ++ ">"%char :: ["010"%char]) = Some 0%nat).
      { change (find ?p ?s) with (if prefixb p s then Some 0%nat else match s with [] => None | _ :: s' => option_map S (find p s') end).
        replace ("<"%char :: "/"%char :: t ++ ">"%char :: ["010"%char]) with (("<"%char :: "/"%char :: t ++ S_ ">") ++ ["010"%char]) by (cbn [app]; do 2 f_equal; now rewrite <- app_assoc).
        now rewrite prefixb_app. }
      rewrite Hz. cbn [option_map]. f_equal. rewrite app_length. cbn [length]. lia.
    - rewrite in_app_iff. intros [G|[G|[]]]; [contradiction|discriminate].
    - destruct t as [|c t]; [discriminate|]. cbn [app prefixb]. destruct (aeq "/"%char c) eqn:Ea; [|reflexivity]. apply aeq_spec in Ea. subst c. discriminate. }
  rewrite Ef. assert (Ein : existsb (eqs t) names = true) by (apply existsb_exists; exists t; split; [assumption|apply eqs_refl]). rewrite Ein. f_equal.
  replace (S (length t) + 1 + length (flat_map raw ks) - S (length t) - 1)%nat with (length (flat_map raw ks)) by lia.
  replace ("<"%char :: t ++ ">"%char :: flat_map raw ks ++ "<"%char :: "/"%char :: t ++ ">"%char :: ["010"%char]) with (("<"%char :: t ++ [">"%char]) ++ flat_map raw ks ++ "<"%char :: "/"%char :: t ++ ">"%char :: ["010"%char])
    by (cbn [app]; f_equal; now rewrite <- app_assoc).
  replace (S (length t) + 1)%nat with (length ("<"%char :: t ++ [">"%char])) by (cbn [length]; rewrite app_length; cbn [length]; lia).
  rewrite skipn_app, skipn_all, Nat.sub_diag. cbn [skipn app]. rewrite firstn_app, Nat.sub_diag, firstn_all. cbn [firstn]. rewrite app_nil_r.
  reflexivity.
Qed.
Print Assumptions old_schema_converted.
(** C89. Elements of other names are left alone. *)
Theorem old_schema_other : forall names t rest, ~ In t names -> ~ In ">"%char t -> convert_old_schema names ("<"%char :: t ++ ">"%char :: rest) = None.
Proof.
  intros names t rest Hn Ht. unfold convert_old_schema. rewrite aeq_refl. cbn [negb].
  assert (Egt : find_char ">"%char ("<"%char :: t ++ ">"%char :: rest) = Some (S (length t))).
  { change ("<"%char :: t ++ ?x) with (("<"%char :: t) ++ x). rewrite find_char_app; [reflexivity|]. intros [G|G]; [discriminate|contradiction]. }
  rewrite Egt. cbn [skipn Nat.sub]. rewrite Nat.sub_0_r. rewrite firstn_app, Nat.sub_diag, firstn_all. cbn [firstn]. rewrite app_nil_r.
  destruct (find _ _); [|reflexivity]. destruct (existsb (eqs t) names) eqn:E; [|reflexivity]. apply existsb_exists in E as (x & Hx & Ex). apply eqs_spec in Ex. subst x. contradiction.
Qed.
Print Assumptions old_schema_other.
Lemma placemark_plain t ks : plain (XElem t [] ks) = true -> plain (XElem (S_ "Placemark") [] ks) = true.
Proof. cbn [plain]. rewrite !andb_true_iff. intros (((_ & H2) & H3) & H4). auto. Qed.
(** C89. The Placemark of an instance is the one parsed from a Placemark element with the same contents. *)
Theorem old_schema_parsed : forall E names t ks, In t names -> plain (XElem t [] ks) = true -> forallb (no_name t) ks = true -> regular (XElem (S_ "Placemark") [] ks) ->
  exists n, tree keep_all (XElem (S_ "Placemark") [] ks) = Some n /\ nty n = Type_Placemark /\
    parse_old_schema E names (raw (XElem t [] ks) ++ ["010"%char]) = do o <- build E n; Ok (Some o).
Proof.
  intros E names t ks Hin Hp Hn Hr. unfold parse_old_schema. rewrite old_schema_converted by assumption. pose proof (raw_tree _ _ _ (placemark_plain t ks Hp)) as Ht.
  unfold read_kml. rewrite (parse_text_builds_tree _ _ Ht Hr). cbn [bind].
  assert (Hk : exists n, tree keep_all (XElem (S_ "Placemark") [] ks) = Some n /\ nty n = Type_Placemark).
  { unfold tree. change (known_type Type_Unknown (S_ "Placemark")) with (Some Type_Placemark). cbv iota. eexists. split; reflexivity. }
  destruct Hk as (n & Hk & Hty). exists n. split; [exact Hk|]. split; [exact Hty|]. rewrite Hk. destruct (build E n) as [o| | |] eqn:Eb; cbn [bind]; try reflexivity. destruct (build_ty E n o Eb) as [_ Et]. rewrite Et, Hty. reflexivity.
Qed.
Print Assumptions old_schema_parsed.

(** ** Containers *)
Fixpoint instances_of (E : env) (names : list str) (l : list str) (os : list obj) : Prop :=
  match l with
  | [] => os = []
  | u :: r => (parse_old_schema E names u = Ok None /\ instances_of E names r os) \/
              (exists o os', parse_old_schema E names u = Ok (Some o) /\ os = o :: os' /\ instances_of E names r os')
  end.
(** C89. A document or folder that becomes a child gets the Placemarks of its unknown elements, in their order, after its features; nothing else of it changes. *)
Theorem instances_added : forall E names c c', sized c -> (oty c = Type_Document \/ oty c = Type_Folder) -> add_instances E names c = Ok c' ->
  (exists os, instances_of E names (ounk c) os /\ get c' Type_Feature = get c Type_Feature ++ os) /\
  oty c' = oty c /\ ounk c' = ounk c /\ (forall k, k <> Type_Feature -> get c' k = get c k).
Proof.
  intros E names c c' Hs Hc H. unfold add_instances in H. assert (Hcc : (oty c =? Type_Document) || (oty c =? Type_Folder) = true) by (destruct Hc as [-> | ->]; reflexivity). rewrite Hcc in H.
  destruct (parse_instances E names (ounk c)) as [os| | |] eqn:Ep; cbn [bind] in H; try discriminate. inversion H; subst c'. clear H.
  assert (Hi : match index_of_key Type_Feature (c_slots (cls (oty c))) 0 with Some _ => true | None => false end = true) by (destruct Hc as [-> | ->]; reflexivity).
  split; [|split; [apply put_type|split]].
  - exists os. split; [|rewrite put_get by assumption; now rewrite Hi, N.eqb_refl]. clear - Ep. revert os Ep. induction (ounk c) as [|u r IH]; intros os Ep; cbn [parse_instances] in Ep; [now inversion Ep|].
    cbn [instances_of]. destruct (parse_old_schema E names u) as [o| | |] eqn:Eo; cbn [bind] in Ep; try discriminate. destruct (parse_instances E names r) as [os'| | |]; cbn [bind] in Ep; try discriminate.
    inversion Ep; subst os. destruct o as [o|]; [right; eauto 8|left; auto].
  - unfold put. destruct (index_of_key _ _ _); [|reflexivity]. now destruct c.
  - intros k Hk. rewrite put_get by assumption. destruct (N.eqb_spec Type_Feature k); [congruence|reflexivity].
Qed.
Print Assumptions instances_added.
(** C89. Other elements are not changed. *)
Theorem instances_elsewhere : forall E names c, oty c <> Type_Document -> oty c <> Type_Folder -> add_instances E names c = Ok c.
Proof. intros E names c H1 H2. unfold add_instances. apply N.eqb_neq in H1, H2. now rewrite H1, H2. Qed.
Print Assumptions instances_elsewhere.

(** ** Samples and violations *)
Definition park_kids : list xml := [XElem (S_ "name") [] [XChar "x"%char]; XElem (S_ "NAME") [(S_ "a", S_ "1>0")] [XChar "y"%char]].
Example old_schema_sample : In (S_ "S_park") [S_ "S_park"] /\ plain (XElem (S_ "S_park") [] park_kids) = true /\ forallb (no_name (S_ "S_park")) park_kids = true /\ regular (XElem (S_ "Placemark") [] park_kids) /\
  exists o, parse_old_schema E0 [S_ "S_park"] (raw (XElem (S_ "S_park") [] park_kids) ++ ["010"%char]) = Ok (Some o) /\ oty o = Type_Placemark /\ ounk o = [S_ "<NAME a=""1>0"">y</NAME>" ++ ["010"%char]].
Proof.
  split; [now left|]. split; [reflexivity|]. split; [reflexivity|]. split; [split; [repeat eexists|]; split; [reflexivity|]; split; [reflexivity|]; vm_compute; lia|].
  eexists. split; [vm_compute; reflexivity|]. split; vm_compute; reflexivity.
Qed.
Definition folder_of (s : str) : obj := match read_kml E0 s with Ok (Some o) => o | _ => create 0 end.
Definition with_instances (s : str) : option str := match add_instances E0 [S_ "S"] (folder_of s) with Ok o => match write_raw o with Ok t => Some t | _ => None end | _ => None end.
Example instances_sample : sized (folder_of (S_ "<Folder><S><name>n</name></S><Placemark/></Folder>")) /\
  with_instances (S_ "<Folder><S><name>n</name></S><Placemark/></Folder>") = Some (S_ "<Folder><Placemark/><Placemark><name>n</name></Placemark><S><name>n</name></S>" ++ ["010"%char] ++ S_ "</Folder>").
Proof. split; vm_compute; reflexivity. Qed.
(** C89. Not converted: instances with attributes or with contents that need escaping.  (An instance written as an empty-element tag is converted.) *)
Theorem old_schema_not_converted_refuted :
  parse_old_schema E0 [S_ "S"] (S_ "<S id=""1""><name>n</name></S>") = Ok None /\
  with_instances (S_ "<Folder><S><name>a &amp; b</name></S></Folder>") = Some (S_ "<Folder><S><name>a & b</name></S>" ++ ["010"%char] ++ S_ "</Folder>") /\
  with_instances (S_ "<Folder><S/></Folder>") = Some (S_ "<Folder><Placemark/><S></S>" ++ ["010"%char] ++ S_ "</Folder>").
Proof. split; [|split]; vm_compute; reflexivity. Qed.
Print Assumptions old_schema_not_converted_refuted.
(** C89. An element of the same name inside of an instance ends it: the instance is lost. *)
Theorem old_schema_nested_refuted :
  convert_old_schema [S_ "S"] (S_ "<S><a><S>x</S></a></S>") = Some (S_ "<Placemark><a><S>x</Placemark>") /\ parse_old_schema E0 [S_ "S"] (S_ "<S><a><S>x</S></a></S>") = Ok None.
Proof. split; vm_compute; reflexivity. Qed.
Print Assumptions old_schema_nested_refuted.
(** C89. The fields of the schema do not become extended data, contrary to the description of the conversion. *)
Theorem old_schema_data_refuted : exists o, parse_old_schema E0 [S_ "S"] (S_ "<S><NAME>Arches NP</NAME></S>") = Ok (Some o) /\ get o Type_ExtendedData = [] /\ ounk o = [S_ "<NAME>Arches NP</NAME>" ++ ["010"%char]].
Proof. eexists. split; [vm_compute; reflexivity|]. split; vm_compute; reflexivity. Qed.
Print Assumptions old_schema_data_refuted.
(** C89. Nothing but Placemarks comes from it. *)
Theorem old_schema_placemarks : forall E names xml o, parse_old_schema E names xml = Ok (Some o) -> oty o = Type_Placemark.
Proof.
  intros E names xml o. unfold parse_old_schema. destruct (convert_old_schema names xml) as [s|]; [|discriminate]. destruct (read_kml E s) as [[x|]| | |]; cbn [bind]; try discriminate.
  destruct (oty x =? Type_Placemark) eqn:Et; [|discriminate]. intros H. injection H as <-. now apply N.eqb_eq.
Qed.
Print Assumptions old_schema_placemarks.

(** Properties of the XSD reader. *)
From Coq Require Import Relations Sorted.
From Verif Require Import Common StrMap AttributesModel XmlSpec StringsModel XsdFileModel XmlTree XsdFileProofs.

(** C51. The hierarchy of a type is the chain of its base types ([XsdFileProofs.chain]); asking for it
    does not end exactly when a base type is its own ancestor. *)
Theorem hierarchy_correct : forall f t ok l, x_schema f <> None ->
  ((exists fuel, get_type_hierarchy fuel f t = Ok (ok, l)) <-> chain f t l ok).
Proof.
  intros f t ok l Hs. unfold get_type_hierarchy. destruct (x_schema f) as [[tns p]|] eqn:E; [|congruence]. split.
  - intros [fuel H]. eapply hierarchy_sound; eauto.
  - intros H. exists (S (length l)). apply hierarchy_complete; auto.
Qed.
Print Assumptions hierarchy_correct.

Theorem hierarchy_terminates_iff : forall f t, x_schema f <> None ->
  (~ cyclic f t <-> exists r, get_type_hierarchy (S (length (x_types f))) f t = Ok r) /\
  (cyclic f t <-> forall fuel, get_type_hierarchy fuel f t = Fuel).
Proof.
  intros f t Hs. unfold get_type_hierarchy. destruct (x_schema f) as [[tns p]|] eqn:E; [|congruence].
  assert (A : forall fuel, (exists r, hierarchy fuel f (tns, p) t = Ok r) \/ hierarchy fuel f (tns, p) t = Fuel).
  { intros fuel. revert t. induction fuel as [|fuel IH]; intros t; [now right|]. cbn [hierarchy].
    destruct (t_base t); [left; eauto|]. destruct (get_base_type f (tns, p) t) as [b|]; [|left; eauto].
    destruct (IH b) as [[r ->]| ->]; [left; eexists; reflexivity|now right]. }
  split; split.
  - intros H. destruct (A (S (length (x_types f)))) as [?|H2]; auto.
    elim H. eapply diverges_cyclic; eauto.
  - intros [r H] C. rewrite (cyclic_diverges f tns p E _ t C) in H. discriminate.
  - intros C fuel. now apply cyclic_diverges.
  - intros H. eapply diverges_cyclic; eauto.
Qed.
Print Assumptions hierarchy_terminates_iff.

Theorem search_correct : forall f t u, x_schema f <> None -> ~ cyclic f t ->
  exists b, search_type_hierarchy (S (length (x_types f))) f t u = Ok b /\
    (b = true <-> exists v, (v = t \/ ancestor f t v) /\ t_name v = t_name u).
Proof.
  intros f t u Hs Hc. destruct (hierarchy_terminates_iff f t Hs) as [H _]. apply H in Hc as [[ok l] Hr].
  unfold get_type_hierarchy in Hr. unfold search_type_hierarchy. destruct (x_schema f) as [[tns p]|] eqn:E; [|congruence].
  assert (Ch : chain f t l ok) by (eapply hierarchy_sound; eauto).
  pose proof (chain_bound f t l ok Ch) as B.
  exists (existsb (fun v => eqs (t_name u) (t_name v)) (t :: l)). split; [eapply chain_search; eauto; lia|].
  split; intros D.
  - eapply search_sound with (fuel := S (length l)); eauto. rewrite <- D. eapply chain_search; eauto.
  - destruct D as (v & Hv & N). apply existsb_exists. exists v. split; [|rewrite N; apply eqs_refl].
    destruct Hv as [->|Hv]; [now left|]. right. clear -Ch Hv. apply clos_trans_t1n in Hv. revert l ok Ch.
    induction Hv as [x y Hb|x y z Hb Hy IH]; intros l ok Ch.
    + inversion Ch; subst; [apply base_nonempty in Hb; congruence|now elim (H0 y)|].
      assert (b = y) by (eapply base_fun; eauto). subst. now left.
    + inversion Ch; subst; [apply base_nonempty in Hb; congruence|now elim (H0 y)|].
      assert (b = y) by (eapply base_fun; eauto). subst. right. eapply IH; eauto.
Qed.
Print Assumptions search_correct.

(** A search which finds its type ends even in a cyclic file; one which does not find it never ends. *)
Theorem search_cyclic : forall f t u, x_schema f <> None -> cyclic f t ->
  (forall v, v = t \/ ancestor f t v -> t_name v <> t_name u) ->
  forall fuel, search_type_hierarchy fuel f t u = Fuel.
Proof.
  intros f t u Hs Hc N fuel. unfold search_type_hierarchy. destruct (x_schema f) as [[tns p]|] eqn:E; [|congruence].
  now apply search_diverges.
Qed.
Print Assumptions search_cyclic.

(** The elements derived from a type, for a file without cycles. *)
Theorem elements_of_type_correct : forall f t, x_schema f <> None -> (forall u, ~ cyclic f u) ->
  exists l, get_elements_of_type (S (length (x_types f))) f t = Ok l /\
    forall e, In e l <-> In e (map snd (x_elements f)) /\
      exists c v, find_element_type f e = Some c /\ is_complex c = true /\ (v = c \/ ancestor f c v) /\ t_name v = t_name t.
Proof.
  intros f t Hs Hc. unfold get_elements_of_type. generalize (x_elements f) as m.
  induction m as [|[k e] m IH]; cbn [elements_of_type].
  - exists []. split; auto. intros e. cbn. tauto.
  - destruct IH as (l & Hl & Sp).
    assert (Q : exists b, match find_element_type f e with
              | Some c => if is_complex c then search_type_hierarchy (S (length (x_types f))) f c t else Ok false
              | None => Ok false end = Ok b /\
              (b = true <-> exists c v, find_element_type f e = Some c /\ is_complex c = true /\ (v = c \/ ancestor f c v) /\ t_name v = t_name t)).
    { destruct (find_element_type f e) as [c|]; [destruct (is_complex c) eqn:Ec|].
      - destruct (search_correct f c t Hs (Hc c)) as (b & H1 & H2). exists b. split; auto. rewrite H2. split.
        + intros (v & Hv). exists c, v. tauto.
        + intros (c' & v & [= <-] & _ & Hv). eauto.
      - exists false. split; auto. split; [discriminate|]. intros (c' & v & [= <-] & Hx & _). congruence.
      - exists false. split; auto. split; [discriminate|]. intros (c' & v & Hx & _). congruence. }
    destruct Q as (b & -> & Hb). cbn [bind]. rewrite Hl. cbn [bind].
    exists (if b then e :: l else l). split; auto. intros e'. cbn [map snd].
    destruct b.
    + split.
      * intros [<-|Hi]; [split; [now left|now apply Hb]|]. apply Sp in Hi as [? ?]. split; [now right|auto].
      * intros [[<-|Hi] Hx]; [now left|right; now apply Sp].
    + split.
      * intros Hi. apply Sp in Hi as [? ?]. split; [now right|auto].
      * intros [[<-|Hi] Hx]; [apply Hb in Hx; discriminate|now apply Sp].
Qed.
Print Assumptions elements_of_type_correct.

Definition sch (k : list xt) : xt := XT (S_ "schema") [(S_ "xmlns:k", S_ "u"); (S_ "targetNamespace", S_ "u")] k.
Definition cx (n b : string) : xt :=
  XT (S_ "complexType") [(S_ "name", list_ascii_of_string n)]
     [XT (S_ "extension") [(S_ "base", list_ascii_of_string b)] []].

(** Two types extending each other: the question never gets an answer. *)
Theorem hierarchy_cyclic_refuted : exists doc f t, xsd_parse (xevents doc) = Ok f /\
  find_type f (S_ "A") = Some t /\ forall fuel, get_type_hierarchy fuel f t = Fuel.
Proof.
  exists (sch [cx "A" "k:B"; cx "B" "k:A"]). eexists. eexists. split; [vm_compute; reflexivity|].
  split; [vm_compute; reflexivity|]. apply hierarchy_terminates_iff; [discriminate|].
  eexists. split; [left; reflexivity|].
  apply t_trans with (Complex (S_ "B") (S_ "k:A") []); apply t_step.
  - exists (S_ "u"), (S_ "k"), (S_ "B"). repeat split; try discriminate. eauto.
  - exists (S_ "u"), (S_ "k"), (S_ "A"). repeat split; try discriminate. eauto.
Qed.
Print Assumptions hierarchy_cyclic_refuted.
Example hierarchy_example : exists f t, xsd_parse (xevents (sch [cx "A" "k:B"; cx "B" "k:C"; cx "C" ""])) = Ok f /\
  find_type f (S_ "A") = Some t /\
  option_map snd (match get_type_hierarchy 9 f t with Ok (b, l) => Some (b, map t_name l) | _ => None end) = Some [S_ "B"; S_ "C"].
Proof. eexists. eexists. split; [vm_compute; reflexivity|]. split; vm_compute; reflexivity. Qed.

(** C72. Reading a schema document whose type definitions are named and not nested finds exactly the
    declared elements and types, the last declaration of a name winning. *)
Theorem xsd_parse_correct : forall a k, forallb (plain false) k = true ->
  exists f, xsd_parse (xevents (XT (S_ "schema") a k)) = Ok f /\
    x_elements f = fold_left (fun m e => mset (x_name e) e m) (flat_map (globals (S_ "schema")) k) [] /\
    x_types f = fold_left (fun m t => mset (t_name t) t m) (flat_map types k) [] /\
    (flat_map schemas k = [] -> x_schema f = schema_create (attrs_of a)).
Proof.
  intros a k P. rewrite (parse_schema a k P). eexists. split; [reflexivity|]. unfold declares. cbn [x_elements x_types x_schema empty_xsd].
  repeat split. intros ->. reflexivity.
Qed.
Print Assumptions xsd_parse_correct.

(** An anonymous type (common in schemas), a type inside of a type and an element at the root are
    undefined behaviour. *)
Theorem xsd_anonymous_type_refuted : forall a k pre,
  forallb (plain false) pre = true -> mget (S_ "name") (attrs_of a) = None ->
  xsd_parse (xevents (sch (pre ++ [XT (S_ "element") [(S_ "name", S_ "e")] [XT (S_ "complexType") a []]] ++ k))) = UB.
Proof.
  intros a k pre P N. unfold xsd_parse, sch. cbn [xevents xs_run]. unfold xs_start at 1. lit. cbv zeta. cbn [bind].
  change {| h_file := _; h_cur := _; h_parse := _ |} with
    (hs (declares empty_xsd [attrs_of [(S_ "xmlns:k", S_ "u"); (S_ "targetNamespace", S_ "u")]] [] []) None [S_ "schema"]).
  rewrite !flat_map_app, <- !app_assoc, run_app, run_kids_out by exact P. cbn [bind].
  generalize (declares (declares empty_xsd [attrs_of [(S_ "xmlns:k", S_ "u"); (S_ "targetNamespace", S_ "u")]] [] [])
    (flat_map schemas pre) (flat_map (globals (S_ "schema")) pre) (flat_map types pre)) as f0. intros f0.
  cbn [flat_map xevents app xs_run]. rewrite start_out by reflexivity. cbn [bind].
  unfold xs_start. lit. cbv zeta. unfold start_type. cbn [hs h_cur]. rewrite N. cbn [option_map with_cur bind h_file h_cur h_parse].
  unfold xs_end. cbn [h_parse]. lit. reflexivity.
Qed.
Print Assumptions xsd_anonymous_type_refuted.

Theorem xsd_nested_type_refuted : exists doc, xsd_parse (xevents doc) = UB /\
  forall n a, In (EStart n a) (xevents doc) -> n = S_ "schema" \/ exists v, In (S_ "name", v) a.
Proof.
  exists (sch [XT (S_ "complexType") [(S_ "name", S_ "A")] [XT (S_ "element") [(S_ "name", S_ "e")]
            [XT (S_ "simpleType") [(S_ "name", S_ "B")] []]]]).
  split; [vm_compute; reflexivity|]. intros n a H. cbn [xevents sch flat_map app In] in H.
  repeat (destruct H as [H|H]; [first [discriminate | injection H as <- <-; first [now left | right; eexists; now left]]|]).
  destruct H.
Qed.
Print Assumptions xsd_nested_type_refuted.
Theorem xsd_root_element_refuted : exists a, xsd_parse (xevents (XT (S_ "element") a [])) = UB.
Proof. exists [(S_ "name", S_ "e")]. vm_compute. reflexivity. Qed.
Print Assumptions xsd_root_element_refuted.
Example xsd_parse_example : forallb (plain false)
  [cx "A" "k:B"; XChar "x"%char; XT (S_ "element") [(S_ "name", S_ "e"); (S_ "type", S_ "k:A")] []] = true.
Proof. reflexivity. Qed.

(** C72. The children of an element: those in the sequence of its type, in order; a reference stands for the global element
    of that name, and for nothing if it is not to the target namespace or there is no such element. *)
Definition names_here (f : xsd) (r n : str) : Prop := exists tns p, x_schema f = Some (tns, p) /\ r = p ++ S_ ":" ++ n /\ n <> [].
Definition stands_for (f : xsd) (e : xelem) (c : option xelem) : Prop :=
  if x_ref e then match c with
                  | Some g => exists n, names_here f (x_name e) n /\ mget n (x_elements f) = Some g
                  | None => forall n, names_here f (x_name e) n -> mget n (x_elements f) = None
                  end
  else c = Some e.
Lemma stands_all f s : Forall2 (stands_for f) s (map (fun e => if x_ref e then resolve_ref f (x_name e) else Some e) s).
Proof.
  induction s as [|c s IH]; [constructor|]. cbn [map]. constructor; [|exact IH]. unfold stands_for. destruct (x_ref c); [|reflexivity].
  unfold resolve_ref. destruct (x_schema f) as [[tns p]|] eqn:Es.
  2:{ intros n (tns & p & H & _). congruence. }
  destruct (split_ns_name (tns, p) (x_name c)) as [n|] eqn:En.
  - apply split_ns_spec in En as [E1 E2]. unfold find_element. destruct (mget n (x_elements f)) as [g|] eqn:Eg.
    + exists n. split; [exists tns, p; auto|exact Eg].
    + intros n' (tns' & p' & H1 & H2 & H3). rewrite Es in H1. inversion H1; subst tns' p'. rewrite E1 in H2. apply app_inv_head in H2. inversion H2; subst. exact Eg.
  - intros n (tns' & p' & H1 & H2 & H3). rewrite Es in H1. inversion H1; subst tns' p'.
    assert (split_ns_name (tns, p) (x_name c) = Some n) by (apply split_ns_spec; auto). congruence.
Qed.
Theorem children_correct : forall f name e t b s, mget name (x_elements f) = Some e -> find_element_type f e = Some (Complex t b s) ->
  Forall2 (stands_for f) s (get_child_elements f name).
Proof.
  intros f name e t b s He Ht. unfold get_child_elements, find_element. rewrite He, Ht. apply stands_all.
Qed.
Print Assumptions children_correct.
(** The children of the base types are not among them. *)
Theorem children_of_base_refuted : exists doc f e b, xsd_parse (xevents doc) = Ok f /\ find_element f (S_ "e") = Some e /\
  find_element_type f e = Some b /\ (exists c, base f b c /\ find_child_elements f c <> []) /\ get_child_elements f (S_ "e") = [].
Proof.
  exists (sch [XT (S_ "complexType") [(S_ "name", S_ "B")] [XT (S_ "sequence") [] [XT (S_ "element") [(S_ "name", S_ "x"); (S_ "type", S_ "string")] []]];
    cx "A" "k:B"; XT (S_ "element") [(S_ "name", S_ "e"); (S_ "type", S_ "k:A")] []]). do 3 eexists.
  split; [vm_compute; reflexivity|]. split; [vm_compute; reflexivity|]. split; [vm_compute; reflexivity|].
  split; [|vm_compute; reflexivity]. eexists. split.
  - exists (S_ "u"), (S_ "k"), (S_ "B"). repeat split; try discriminate; try reflexivity. do 3 eexists. reflexivity.
  - vm_compute. discriminate.
Qed.
Print Assumptions children_of_base_refuted.
(** What an element tag with a name declares. *)
Theorem element_declaration : forall a n, mget (S_ "name") a = Some n -> exists e, element_create a = Some e /\
  x_name e = n /\ x_ref e = false /\
  (x_abstract e = true <-> exists v, mget (S_ "abstract") a = Some v /\ from_string_bool v = true) /\
  (forall v, mget (S_ "type") a = Some v -> x_type e = v) /\ (mget (S_ "type") a = None -> x_type e = []) /\
  (forall v, mget (S_ "default") a = Some v -> x_default e = v) /\ (forall v, mget (S_ "substitutionGroup") a = Some v -> x_subst e = v).
Proof.
  intros a n Hn. unfold element_create. rewrite Hn. eexists. split; [reflexivity|]. cbn [x_name x_ref x_abstract x_type x_default x_subst].
  split; [reflexivity|]. split; [reflexivity|]. split.
  { destruct (mget (S_ "abstract") a) as [v|]; [split; [eauto|intros (w & H & H'); congruence]|split; [discriminate|intros (w & H & _); discriminate]]. }
  unfold attr. repeat split; intros; try (rewrite H; reflexivity).
Qed.
Print Assumptions element_declaration.
(** What an element tag without a name declares: a reference if it has a ref, nothing otherwise. *)
Theorem reference_declaration : forall a, mget (S_ "name") a = None ->
  (forall n, mget (S_ "ref") a = Some n -> exists e, element_create a = Some e /\ x_name e = n /\ x_ref e = true /\ x_abstract e = false /\ x_type e = [] /\ x_default e = [] /\ x_subst e = []) /\
  (mget (S_ "ref") a = None -> element_create a = None).
Proof. intros a Hn. unfold element_create. rewrite Hn. split; [intros n ->; eexists; split; [reflexivity|]; repeat split|intros ->; reflexivity]. Qed.
Print Assumptions reference_declaration.
Example reference_sample : exists e, element_create [(S_ "ref", S_ "k:g")] = Some e /\ x_name e = S_ "k:g" /\ x_ref e = true.
Proof. eexists. vm_compute. repeat split. Qed.
(** Without a schema element that names a target namespace no hierarchy is found. *)
Theorem hierarchy_no_schema : forall fuel f t, x_schema f = None -> get_type_hierarchy fuel f t = Ok (false, []).
Proof. intros fuel f t H. unfold get_type_hierarchy. now rewrite H. Qed.
Print Assumptions hierarchy_no_schema.
Theorem search_no_schema : forall fuel f t u, x_schema f = None -> search_type_hierarchy fuel f t u = Ok false.
Proof. intros fuel f t u H. unfold search_type_hierarchy. now rewrite H. Qed.
Print Assumptions search_no_schema.
(** A primitive type is not always without a base: in a schema whose own prefix is xsd a complex type called primitive is the base of every primitive type. *)
Theorem primitive_base_refuted : exists doc f t b, xsd_parse (xevents doc) = Ok f /\ find_element_type f t = Some (Primitive (S_ "string")) /\
  t_name b = S_ "primitive" /\ get_type_hierarchy 3 f (Primitive (S_ "string")) = Ok (true, [b]).
Proof.
  exists (XT (S_ "schema") [(S_ "xmlns:xsd", S_ "u"); (S_ "targetNamespace", S_ "u")] [XT (S_ "complexType") [(S_ "name", S_ "primitive")] []; XT (S_ "element") [(S_ "name", S_ "e"); (S_ "type", S_ "string")] []]).
  eexists. exists {| x_name := S_ "e"; x_ref := false; x_abstract := false; x_default := []; x_type := S_ "string"; x_subst := [] |}. eexists.
  split; [vm_compute; reflexivity|]. split; [vm_compute; reflexivity|]. split; [|vm_compute; reflexivity]. vm_compute. reflexivity.
Qed.
Print Assumptions primitive_base_refuted.
Example children_sample : exists f, xsd_parse (xevents (sch [XT (S_ "complexType") [(S_ "name", S_ "T")] [XT (S_ "sequence") []
      [XT (S_ "element") [(S_ "ref", S_ "k:g")] []; XT (S_ "element") [(S_ "ref", S_ "k:none")] []; XT (S_ "element") [(S_ "name", S_ "x"); (S_ "abstract", S_ "false")] []]];
    XT (S_ "element") [(S_ "name", S_ "e"); (S_ "type", S_ "k:T")] []; XT (S_ "element") [(S_ "name", S_ "g"); (S_ "abstract", S_ "true")] []])) = Ok f /\
  map (option_map (fun e => (x_name e, x_abstract e))) (get_child_elements f (S_ "e")) = [Some (S_ "g", true); None; Some (S_ "x", false)].
Proof. eexists. split; vm_compute; reflexivity. Qed.

(** C73. Element ids: the vector lists the abstract, the complex and the simple elements in three
    ranges, each in name order, none twice. *)
Lemma keys_inv l : forall h, (msorted (x_elements (h_file h)) /\ Forall (fun p => x_name (snd p) = fst p) (x_elements (h_file h))) ->
  forall h', xs_run h l = Ok h' ->
  msorted (x_elements (h_file h')) /\ Forall (fun p => x_name (snd p) = fst p) (x_elements (h_file h')).
Proof.
  assert (S1 : forall (m : smap xelem) e, Forall (fun p => x_name (snd p) = fst p) m -> Forall (fun p => x_name (snd p) = fst p) (mset (x_name e) e m)).
  { intros m e H. induction H as [|[k v] m Hx H IH]; cbn; [repeat constructor|].
    destruct (scmp (x_name e) k); repeat constructor; auto. }
  induction l as [|e l IH]; intros h I h' R; [inversion R; subst; auto|]. cbn [xs_run] in R.
  destruct e as [n a|n|c]; [| |eapply IH; eauto].
  - destruct (xs_start h n a) as [h1| | |] eqn:E; try discriminate. cbn [bind] in R. eapply IH; [|eauto].
    unfold xs_start in E. cbv zeta in E.
    destruct (eqs n (S_ "schema")); [cbn in E; inversion E; subst; cbn; auto|].
    destruct (eqs n (S_ "element")).
    { unfold start_xs_element in E. destruct (element_create (attrs_of a)) as [x|]; [|cbn in E; inversion E; subst; auto].
      destruct (h_parse h); [discriminate|]. destruct (eqs s (S_ "schema")).
      - cbn in E. inversion E; subst. cbn. destruct I. split; [now apply mset_sorted|now apply S1].
      - destruct (h_cur h) as [[]|]; cbn in E; inversion E; subst; auto. }
    repeat match type of E with context [if ?b then _ else _] => destruct b end; cbn [bind] in E; inversion E; subst; cbn [h_file];
      unfold start_type, start_extension, start_restriction, start_enumeration;
      repeat match goal with |- context [match ?x with _ => _ end] => destruct x; auto end; auto.
  - destruct (xs_end h n) as [h1| | |] eqn:E; try discriminate. cbn [bind] in R. eapply IH; [|eauto].
    unfold xs_end in E. destruct (h_parse h); [discriminate|].
    destruct (eqs n (S_ "complexType") || eqs n (S_ "simpleType")).
    + unfold end_type in E. cbn [h_cur] in E. destruct (h_cur h); inversion E; subst; auto.
    + inversion E; subst; auto.
Qed.
Lemma names_sorted (m : smap xelem) p : msorted m -> Forall (fun p => x_name (snd p) = fst p) m ->
  StronglySorted slt (map x_name (filter p (map snd m))).
Proof.
  intros H F. induction m as [|[k v] m IH]; cbn; [constructor|].
  inversion F; subst. cbn in H2. assert (msorted m) by (inversion H; auto).
  assert (A : Forall (fun q => slt k (fst q)) m) by (inversion H; assumption).
  destruct (p v); cbn; auto. constructor; auto. rewrite H2. apply Forall_forall. intros s Hs. apply in_map_iff in Hs as (e & <- & He).
  apply filter_In in He as [He _]. apply in_map_iff in He as ([k' e'] & E' & Hi). cbn in E'. subst e'.
  rewrite Forall_forall in H3, A. specialize (H3 _ Hi). cbn in H3. rewrite H3. apply (A _ Hi).
Qed.

Lemma strongly_nodup (l : list str) : StronglySorted slt l -> NoDup l.
Proof.
  intros H. induction H as [|x l H IH F]; constructor; auto. intros Hi. rewrite Forall_forall in F.
  exact (slt_irrefl x (F x Hi)).
Qed.
Lemma nodup_app {A} (l k : list A) : NoDup l -> NoDup k -> (forall x, In x l -> ~ In x k) -> NoDup (l ++ k).
Proof.
  intros Hl Hk D. induction Hl as [|x l Hx Hl IH]; auto. cbn. constructor.
  - rewrite in_app_iff. intros [?|?]; [auto|]. apply (D x); [now left|auto].
  - apply IH. intros y Hy. apply D. now right.
Qed.
Theorem element_id_vector_correct : forall doc f v c s, xsd_parse doc = Ok f -> element_id_vector f = (v, c, s) ->
  (c <= s <= length v)%nat /\
  (forall e, In e (firstn c v) <-> In e (map snd (x_elements f)) /\ x_abstract e = true) /\
  (forall e, In e (firstn (s - c) (skipn c v)) <-> In e (map snd (x_elements f)) /\ x_abstract e = false /\
     exists n b q, find_element_type f e = Some (Complex n b q)) /\
  (forall e, In e (skipn s v) <-> In e (map snd (x_elements f)) /\ x_abstract e = false /\
     ((exists n, find_element_type f e = Some (Primitive n)) \/ exists n b q, find_element_type f e = Some (Simple n b q))) /\
  Sorted slt (map x_name (firstn c v)) /\ Sorted slt (map x_name (firstn (s - c) (skipn c v))) /\
  Sorted slt (map x_name (skipn s v)) /\ NoDup (map x_name v).
Proof.
  intros doc f v c s P V.
  assert (K : msorted (x_elements f) /\ Forall (fun p => x_name (snd p) = fst p) (x_elements f)).
  { unfold xsd_parse in P. destruct (xs_run _ doc) as [h| | |] eqn:R; try discriminate. cbn in P. inversion P; subst.
    eapply keys_inv; [|exact R]. cbn. split; constructor. }
  destruct K as [K1 K2]. unfold element_id_vector in V. cbv zeta in V.
  assert (E1 : firstn c v = abstract_elements f /\ firstn (s - c) (skipn c v) = complex_elements f /\ skipn s v = simple_elements f
    /\ v = abstract_elements f ++ complex_elements f ++ simple_elements f
    /\ c = length (abstract_elements f) /\ s = (length (abstract_elements f) + length (complex_elements f))%nat).
  { injection V as <- <- <-. repeat split.
    - rewrite firstn_app, firstn_all, Nat.sub_diag. cbn. apply app_nil_r.
    - rewrite skipn_app, skipn_all, Nat.sub_diag. cbn [app skipn].
      replace (length (abstract_elements f) + length (complex_elements f) - length (abstract_elements f))%nat
        with (length (complex_elements f)) by lia.
      rewrite firstn_app, firstn_all, Nat.sub_diag. cbn. apply app_nil_r.
    - rewrite app_assoc, skipn_app, <- app_length, skipn_all, Nat.sub_diag. reflexivity. }
  destruct E1 as (-> & -> & -> & Ev & Ec & Es).
  assert (Prim : forall e n, find_element_type f e = Some (Primitive n) -> (forall t, In t (map snd (x_types f)) -> is_complex t = true \/ is_simple t = true) -> primitive (x_type e) = true).
  { intros e n H Ht. unfold find_element_type in H. destruct (x_type e) as [|a0 t0]; [discriminate|].
    destruct (primitive (a0 :: t0)) eqn:Ep; auto. destruct (x_schema f) as [p|]; [|discriminate].
    destruct (split_ns_name p (a0 :: t0)) as [nn|]; [|discriminate]. unfold find_type in H.
    assert (Hi : In (Primitive n) (map snd (x_types f))).
    { clear -H. induction (x_types f) as [|[k v] m IH]; cbn in *; [discriminate|]. destruct (eqs nn k); [injection H as ->; now left|right; auto]. }
    destruct (Ht _ Hi); discriminate. }
  assert (Tys : forall t, In t (map snd (x_types f)) -> is_complex t = true \/ is_simple t = true).
  { assert (G : forall l h h', (forall t, In t (map snd (x_types (h_file h))) -> is_complex t = true \/ is_simple t = true) ->
        (forall t, h_cur h = Some t -> is_complex t = true \/ is_simple t = true) -> xs_run h l = Ok h' ->
        (forall t, In t (map snd (x_types (h_file h'))) -> is_complex t = true \/ is_simple t = true)).
    { induction l as [|e l IH]; intros h h' I1 I2 R; [inversion R; subst; auto|]. cbn [xs_run] in R.
      destruct e as [n a|n|ch]; [| |eapply IH; [| |exact R]; auto].
      - destruct (xs_start h n a) as [h1| | |] eqn:E; try discriminate. cbn [bind] in R.
        assert (B : x_types (h_file h1) = x_types (h_file h) /\ forall t, h_cur h1 = Some t -> is_complex t = true \/ is_simple t = true).
        { unfold xs_start in E. cbv zeta in E.
          destruct (eqs n (S_ "schema")); [cbn in E; inversion E; subst; cbn; auto|].
          destruct (eqs n (S_ "element")).
          { unfold start_xs_element in E. destruct (element_create (attrs_of a)) as [x|]; [|cbn in E; inversion E; subst; auto].
            destruct (h_parse h); [discriminate|]. destruct (eqs s0 (S_ "schema")).
            - cbn in E. inversion E; subst. cbn. auto.
            - destruct (h_cur h) as [[]|] eqn:Eh; cbn in E; inversion E; subst; cbn; rewrite ?Eh; split; auto; intros t [= <-]; auto. }
          repeat match type of E with context [if ?b then _ else _] => destruct b end; cbn [bind] in E; inversion E; subst; cbn [h_file h_cur];
            unfold start_type, start_extension, start_restriction, start_enumeration, option_map;
            destruct (h_cur h) as [[]|] eqn:Eh; cbn; rewrite ?Eh;
            try (split; [reflexivity|]; intros t [= <-]; cbn; tauto); try (split; [reflexivity|]; now auto);
            repeat match goal with |- context [match mget ?x ?y with _ => _ end] => destruct (mget x y) end; cbn; rewrite ?Eh;
            split; auto; intros t H; try discriminate; try (injection H as <-; cbn; tauto); rewrite ?Eh in *; auto; try discriminate. }
        destruct B as [B1 B2]. eapply IH; [| |exact R]; auto. rewrite B1. auto.
      - destruct (xs_end h n) as [h1| | |] eqn:E; try discriminate. cbn [bind] in R. unfold xs_end in E.
        destruct (h_parse h); [discriminate|].
        destruct (eqs n (S_ "complexType") || eqs n (S_ "simpleType")).
        + unfold end_type in E. cbn [h_cur] in E. destruct (h_cur h) as [ty|] eqn:Eh; inversion E; subst.
          eapply IH; [| |exact R]; cbn; [|discriminate]. intros t Ht.
          assert (D : forall (m : smap xtype), In t (map snd (mset (t_name ty) ty m)) -> t = ty \/ In t (map snd m)).
          { clear. induction m as [|[k v] m IH]; cbn; [intuition|]. destruct (scmp (t_name ty) k); cbn; intuition. }
          apply D in Ht as [->|Ht]; auto.
        + inversion E; subst. eapply IH; [| |exact R]; auto. }
    unfold xsd_parse in P. destruct (xs_run _ doc) as [h| | |] eqn:R; try discriminate. cbn in P. inversion P; subst.
    eapply G; [| |exact R]; cbn; [easy|discriminate]. }
  assert (Hsimp : forall e, (primitive (x_type e) || has_type_such is_simple f e = true) <->
     ((exists n, find_element_type f e = Some (Primitive n)) \/ exists n b q, find_element_type f e = Some (Simple n b q))).
  { intros e. unfold has_type_such. split.
    - intros H. destruct (primitive (x_type e)) eqn:Ep.
      + left. exists (x_type e). unfold find_element_type. destruct (x_type e); [discriminate|]. now rewrite Ep.
      + cbn in H. destruct (find_element_type f e) as [[]|]; try discriminate. right. eauto.
    - intros [[n H]|(n & b & q & H)]; apply orb_true_iff; [left; eapply Prim; eauto|right; now rewrite H]. }
  assert (Hcx : forall e, has_type_such is_complex f e = true <-> exists n b q, find_element_type f e = Some (Complex n b q)).
  { intros e. unfold has_type_such. split.
    - destruct (find_element_type f e) as [[]|]; try discriminate. eauto.
    - intros (n & b & q & ->). reflexivity. }
  pose proof (names_sorted (x_elements f) x_abstract K1 K2) as S1.
  pose proof (names_sorted (x_elements f) (fun e => negb (x_abstract e) && has_type_such is_complex f e) K1 K2) as S2.
  pose proof (names_sorted (x_elements f) (fun e => negb (x_abstract e) && (primitive (x_type e) || has_type_such is_simple f e)) K1 K2) as S3.
  assert (I1 : forall e, In e (abstract_elements f) <-> In e (map snd (x_elements f)) /\ x_abstract e = true) by (intros e; apply filter_In).
  assert (I2 : forall e, In e (complex_elements f) <-> In e (map snd (x_elements f)) /\ x_abstract e = false /\
     exists n b q, find_element_type f e = Some (Complex n b q)).
  { intros e. unfold complex_elements. rewrite filter_In, andb_true_iff, negb_true_iff, Hcx. tauto. }
  assert (I3 : forall e, In e (simple_elements f) <-> In e (map snd (x_elements f)) /\ x_abstract e = false /\
     ((exists n, find_element_type f e = Some (Primitive n)) \/ exists n b q, find_element_type f e = Some (Simple n b q))).
  { intros e. unfold simple_elements. rewrite filter_In, andb_true_iff, negb_true_iff, Hsimp. tauto. }
  assert (Inj : forall e e', In e (map snd (x_elements f)) -> In e' (map snd (x_elements f)) -> x_name e = x_name e' -> e = e').
  { intros e e' H1 H2 N. apply in_map_iff in H1 as ([k1 e1] & <- & H1). apply in_map_iff in H2 as ([k2 e2] & <- & H2).
    rewrite Forall_forall in K2. pose proof (K2 _ H1) as N1. pose proof (K2 _ H2) as N2. cbn in *. subst.
    rewrite N in H1. apply (in_mget _ _ _ K1) in H1. apply (in_mget _ _ _ K1) in H2. congruence. }
  split; [rewrite Ev, !app_length; lia|]. do 3 (split; [assumption|]).
  do 3 (split; [now apply StronglySorted_Sorted|]).
  rewrite Ev, !map_app. apply nodup_app; [now apply strongly_nodup| |].
  - apply nodup_app; [now apply strongly_nodup|now apply strongly_nodup|].
    intros n Hn Hn'. apply in_map_iff in Hn as (e & <- & He). apply in_map_iff in Hn' as (e' & N & He').
    apply I2 in He as (H1 & _ & n & b & q & H2). apply I3 in He' as (H3 & _ & H4).
    rewrite (Inj e' e H3 H1 N) in H4. rewrite H2 in H4. destruct H4 as [[? ?]|(? & ? & ? & ?)]; discriminate.
  - intros n Hn Hn'. apply in_map_iff in Hn as (e & <- & He). apply I1 in He as [H1 H2].
    rewrite <- map_app in Hn'. apply in_map_iff in Hn' as (e' & N & He'). apply in_app_or in He' as [He'|He'].
    + apply I2 in He' as (H3 & H4 & _). rewrite (Inj e' e H3 H1 N) in H4. congruence.
    + apply I3 in He' as (H3 & H4 & _). rewrite (Inj e' e H3 H1 N) in H4. congruence.
Qed.
Print Assumptions element_id_vector_correct.

(** Not every element has an id: a concrete element whose type is not in the file is in no range. *)
Theorem element_id_all_refuted : exists doc f e, xsd_parse (xevents doc) = Ok f /\ In e (map snd (x_elements f)) /\ fst (fst (element_id_vector f)) = [].
Proof.
  exists (sch [XT (S_ "element") [(S_ "name", S_ "e"); (S_ "type", S_ "other:T")] []]). eexists. eexists.
  split; [vm_compute; reflexivity|]. split; [left; reflexivity|]. vm_compute. reflexivity.
Qed.
Print Assumptions element_id_all_refuted.
Example element_id_example : exists f, xsd_parse (xevents (sch [cx "T" ""; 
    XT (S_ "element") [(S_ "name", S_ "s"); (S_ "type", S_ "string")] [];
    XT (S_ "element") [(S_ "name", S_ "c"); (S_ "type", S_ "k:T")] [];
    XT (S_ "element") [(S_ "name", S_ "a"); (S_ "abstract", S_ "true")] []])) = Ok f /\ map x_name (fst (fst (element_id_vector f))) = [S_ "a"; S_ "c"; S_ "s"] /\ snd (element_id_vector f) = 2%nat.
Proof. eexists. split; [vm_compute; reflexivity|]. split; vm_compute; reflexivity. Qed.

(** What is saved is what is loaded (C118): a file written by KmlFile::SerializeToString, as it is or packed in an archive, is read as the
    elements it was written from. *)
From Verif Require Import Common StrMap StringsModel StringsProofs ColorModel AttributesModel AttributesProofs XsdTables XsdModel XmlSpec XmlSpecProofs.
From Verif Require Import SerializerModel SerializerProofs CoordModel CoordProofs HandlerModel HandlerSpec HandlerProps.
From Verif Require Import DomTables DomModel DomSpec DomProofs DomProofs2 DomParsed DomProps IdProofs IdProps NamespaceModel NamespaceProps.
From Verif Require PathModel KmzModel KmzProps UnzipModel UnzipProofs UnzipProofs2 UnzipProps.
Local Open Scope N_scope.

(** Specification. A document may start with an XML declaration (XML 1.0, 2.8), which says nothing about its elements. *)
Definition without_declaration (s : str) : str :=
  if prefixb (S_ "<?xml") s then match find (S_ "?>") s with Some i => skipn (i + 2) s | None => s end else s.
(** parser.cc ParseKml of the text of a file. *)
Definition load (E : env) (s : str) : res (option obj) := read_kml E (without_declaration s).
(** [o'] is [o] with some namespace declarations more, or other ones, on the root. *)
Definition declares_more (o o' : obj) : Prop :=
  oty o' = oty o /\ oka o' = oka o /\ unknown (oea o') = unknown (oea o) /\ otext o' = otext o /\ ovec o' = ovec o /\ oslots o' = oslots o /\
  omis o' = omis o /\ ounk o' = ounk o.

(** * Attributes *)
Lemma some_inj {A} (x y : A) : Some x = Some y -> x = y.
Proof. congruence. Qed.
Lemma merge_not_nil (x n : attrs) : msorted x -> msorted n -> n <> [] -> Some (merge_attributes x n) <> Some [].
Proof.
  intros Hx Hn H C. apply some_inj in C. destruct n as [|[k v] M]; [now apply H|].
  pose proof (merge_view x ((k, v) :: M) k Hx Hn) as Q. rewrite C in Q. unfold view, find_value in Q. cbn [mget] in Q. rewrite eqs_refl in Q. discriminate.
Qed.
Definition xmlnsish (k : str) : bool := eqs k (S_ "xmlns") || has_prefix (S_ "xmlns") k.
Lemma opt_ext (x y : option attrs) : x <> Some [] -> y <> Some [] -> (forall m, x = Some m -> msorted m) -> (forall m, y = Some m -> msorted m) ->
  (forall k, sp_view x k = sp_view y k) -> x = y.
Proof.
  intros Hx Hy Sx Sy H. destruct x as [x|], y as [y|]; auto.
  - f_equal. apply msorted_ext; auto.
  - destruct x as [|[k v] x]; [now elim Hx|]. specialize (H k). cbn [sp_view] in H. unfold view, find_value in H. cbn [mget] in H. rewrite eqs_refl in H. discriminate.
  - destruct y as [|[k v] y]; [now elim Hy|]. specialize (H k). cbn [sp_view] in H. unfold view, find_value in H. cbn [mget] in H. rewrite eqs_refl in H. discriminate.
Qed.
Lemma split_not_nil p m : fst (split_by_prefix p m) <> Some [].
Proof. unfold split_by_prefix. match goal with |- context[match ?l with [] => _ | _ => _ end] => destruct l end; cbn; discriminate. Qed.
Lemma add_unknown_spec a : msorted a -> let e := add_unknown_attributes no_attrs a in
  unknown e <> Some [] /\ (forall m, unknown e = Some m -> msorted m) /\ (forall k, sp_view (unknown e) k = if xmlnsish k then None else view a k) /\
  xmlns e <> Some [] /\ (forall m, xmlns e = Some m -> msorted m) /\
  (forall p, sp_view (xmlns e) p = if eqs p (S_ "xmlns") then match view a (S_ "xmlns") with Some v => Some v | None => view a (S_ "xmlns:xmlns") end else view a (S_ "xmlns:" ++ p)).
Proof.
  intros Ha. cbv zeta. unfold add_unknown_attributes.
  pose proof (split_view (S_ "xmlns") a Ha) as [Hv1 Hv2].
  pose proof (split_sorted (S_ "xmlns") a Ha) as [Hs1 Hs2].
  pose proof (split_not_nil (S_ "xmlns") a) as Hnn.
  destruct (split_by_prefix (S_ "xmlns") a) as [sp a1]. cbn [fst snd] in *.
  pose proof (cut_value_view (S_ "xmlns") a1) as (Hc1 & Hc2 & Hc3).
  pose proof (cut_value_sorted (S_ "xmlns") a1 Hs1) as Hcs.
  destruct (cut_value (S_ "xmlns") a1) as [dflt a2]. cbn [fst snd] in *.
  change (xmlns no_attrs) with (@None attrs). change (unknown no_attrs) with (@None attrs).
  assert (Hd : dflt = view a (S_ "xmlns")) by (rewrite Hc2, Hv2; reflexivity). clear Hc2.
  assert (U : forall k, view a2 k = if xmlnsish k then None else view a k).
  { intros k. unfold xmlnsish. destruct (eqs k (S_ "xmlns")) eqn:Ek; cbn [orb]; [apply eqs_spec in Ek; subst k; exact Hc1|].
    rewrite Hc3 by (now apply eqs_neq). apply Hv2. }
  set (x := match dflt with
            | Some v => Some (set_value (S_ "xmlns") v match match sp with Some s => Some s | None => None end with Some x0 => x0 | None => [] end)
            | None => match sp with Some s => Some s | None => None end end).
  assert (X1 : x <> Some []).
  { subst x. destruct dflt, sp; try discriminate; auto. intros C. injection C as C. apply (f_equal (mget (S_ "xmlns"))) in C. unfold set_value in C.
    rewrite mget_mset in C by auto. rewrite eqs_refl in C. discriminate. }
  assert (X2 : forall m, x = Some m -> msorted m).
  { intros m. subst x. destruct dflt, sp; intros E; try discriminate E; injection E as <-; auto.
    - apply mset_sorted. auto.
    - repeat constructor. }
  assert (X3 : forall p, sp_view x p = if eqs p (S_ "xmlns") then match view a (S_ "xmlns") with Some v => Some v | None => view a (S_ "xmlns:xmlns") end else view a (S_ "xmlns:" ++ p)).
  { intros p. rewrite <- Hd. assert (Q : sp_view sp p = view a (S_ "xmlns:" ++ p)) by exact (Hv1 p).
    subst x. destruct dflt as [v|], sp as [s|]; unfold sp_view in *.
    - unfold view, find_value, set_value. rewrite mget_mset by auto. destruct (eqs p (S_ "xmlns")); auto.
    - unfold view, find_value, set_value. rewrite mget_mset by apply msorted_nil. destruct (eqs p (S_ "xmlns")); auto.
    - rewrite Q. destruct (eqs p (S_ "xmlns")) eqn:Ep; auto. apply eqs_spec in Ep. now subst p.
    - rewrite Q. destruct (eqs p (S_ "xmlns")) eqn:Ep; auto. apply eqs_spec in Ep. now subst p. }
  clearbody x. destruct a2 as [|e2 a2]; cbn [unknown xmlns]; (split; [discriminate|]); (split; [intros m E; try discriminate E; injection E as <-; exact Hcs|]);
    (split; [intros k; rewrite <- U; reflexivity|]); auto.
Qed.
Lemma att_kind_xmlns ty k : xmlnsish k = true -> att_kind (c_atts (cls ty)) k = None.
Proof.
  assert (T : forallb (fun c => forallb (fun k => negb (xmlnsish (fst k))) (c_atts (snd c))) classes = true) by (vm_compute; reflexivity).
  intros Hk. unfold cls, class_of. destruct (lookup ty classes) as [c|] eqn:El; [|reflexivity]. apply lookup_in in El. rewrite forallb_forall in T. specialize (T _ El). cbn [snd] in T.
  clear El. induction (c_atts c) as [|[k0 kd] l IH]; [reflexivity|]. cbn [forallb att_kind fst] in *. apply andb_true_iff in T as [T1 T2].
  destruct (eqs k k0) eqn:E; [|exact (IH T2)]. apply eqs_spec in E. subst k0. rewrite Hk in T1. discriminate.
Qed.
Lemma xmlnsish_key p : xmlnsish (xmlns_key p) = true.
Proof. unfold xmlns_key, xmlnsish. destruct (eqs p (S_ "xmlns")) eqn:E; [apply eqs_spec in E; subst; reflexivity|]. apply orb_true_iff. right. apply has_prefix_spec. exists p. reflexivity. Qed.
Lemma xmlnsish_other k : xmlnsish k = false -> forall p, k <> xmlns_key p.
Proof. intros H p ->. rewrite xmlnsish_key in H. discriminate. Qed.
Lemma xx_no_key p : S_ "xmlns:xmlns" <> xmlns_key p.
Proof.
  unfold xmlns_key. destruct (eqs p (S_ "xmlns")) eqn:Eq; [apply eqs_spec in Eq; subst p; discriminate|].
  intros E2. change (S_ "xmlns:xmlns") with (S_ "xmlns:" ++ S_ "xmlns") in E2. apply app_inv_head in E2. subst p. now rewrite eqs_refl in Eq.
Qed.

Section Root.
  Variable E : env.
  Lemma wf_attrs o : wf E o = true -> is_simple (oty o) = false -> oea o = add_unknown_attributes no_attrs (fst (cut_known E (oty o) (c_atts (cls (oty o))) (out_attributes o) [])) /\
    oka o = snd (cut_known E (oty o) (c_atts (cls (oty o))) (out_attributes o) []).
  Proof.
    intros H Hs. destruct o as [ty ka ea tx vec sl mis unk]. cbn [wf oty oka oea] in *. rewrite Hs in H. rewrite !andb_true_iff in H. destruct H as ((((((_ & H) & _) & _) & _) & _) & _).
    unfold attrs_same in H. cbv zeta in H. rewrite parse_attributes_create in H. apply andb_true_iff in H as [H1 H2].
    cbn [oka oea set_ea set_ka create] in H1, H2. apply attrs_eqb_eq in H1. apply ea_eqb_eq in H2. auto.
  Qed.
  Lemma out_unreserved o : wf E o = true -> is_simple (oty o) = false -> view (out_attributes o) (S_ "xmlns:xmlns") = None.
  Proof.
    intros Hw Hs. destruct (wf_attrs o Hw Hs) as [Ha Hk]. destruct (wf_root E o Hw Hs) as (R1 & _ & R3).
    destruct (cut_known_spec E (oty o) (c_atts (cls (oty o))) _ [] (out_attributes_sorted o) msorted_nil) as (C1 & C2 & C3 & C4).
    destruct (add_unknown_spec _ C1) as (U1 & U2 & U3 & _). rewrite <- Ha in U1, U2, U3.
    unfold out_attributes. rewrite merge_view; auto; [|apply serialize_attributes_sorted, msorted_nil].
    assert (view (oka o) (S_ "xmlns:xmlns") = None) as ->.
    { rewrite Hk, C4. unfold kept. rewrite att_kind_xmlns by reflexivity. reflexivity. }
    unfold serialize_attributes. set (b := match unknown (oea o) with Some u => merge_attributes [] u | None => [] end).
    assert (Hb : msorted b) by (unfold b; destruct (unknown (oea o)); [apply merge_fold_sorted|]; apply msorted_nil).
    assert (Hn : view b (S_ "xmlns:xmlns") = None).
    { unfold b. specialize (U3 (S_ "xmlns:xmlns")). cbn [xmlnsish] in U3. change (xmlnsish (S_ "xmlns:xmlns")) with true in U3. cbv iota in U3.
      destruct (unknown (oea o)) as [u|]; [|reflexivity]. cbn [sp_view] in U3. rewrite merge_view by auto using msorted_nil. now rewrite U3. }
    destruct (xmlns (oea o)) as [x|]; [|exact Hn]. fold (xfold x b). etransitivity; [|exact Hn]. apply xfold_view_out; [exact Hb|].
    intros k'. unfold xmlns_key. destruct (eqs k' (S_ "xmlns")) eqn:Ek; [apply eqs_spec in Ek; subst k'; discriminate|].
    intros E2. change (S_ "xmlns:xmlns") with (S_ "xmlns:" ++ S_ "xmlns") in E2. apply app_inv_head in E2. subst k'. now rewrite eqs_refl in Ek.
  Qed.
  Lemma insert_views o : wf E o = true -> is_simple (oty o) = false -> oty o <> Type_coordinates ->
    (forall k, xmlnsish k = false \/ k = S_ "xmlns:xmlns" -> view (out_attributes (insert_namespaces o)) k = view (out_attributes o) k) /\
    (forall p, view (out_attributes (insert_namespaces o)) (xmlns_key p) = match view (new_xmlns o) p with Some u => Some u | None => view (out_attributes o) (xmlns_key p) end).
  Proof.
    intros Hw Hs Hcoord. destruct (namespaces_change_root_only E o Hw Hs Hcoord) as (a & a' & ks & S1 & S2 & S3 & _).
    assert (a = out_attributes o /\ a' = out_attributes (insert_namespaces o)) as [-> ->].
    { destruct (insert_rest o) as (T1 & _). clear S3. split.
      - destruct o as [ty ka ea tx vec sl mis unk]. cbn [ser oty] in *. rewrite Hs in S1. apply N.eqb_neq in Hcoord. rewrite Hcoord in S1. injection S1 as <- _. reflexivity.
      - destruct (insert_namespaces o) as [ty ka ea tx vec sl mis unk]. cbn [ser oty] in *. subst ty. rewrite Hs in S2. apply N.eqb_neq in Hcoord. rewrite Hcoord in S2. injection S2 as <- _. reflexivity. }
    split; [|intros p; exact (declared_get E o p Hw Hs)]. intros k [H|H]; apply S3; [now apply xmlnsish_other|]. subst k. apply xx_no_key.
  Qed.
  Lemma attrs_core ty A A' n e ka : msorted A -> msorted A' -> msorted n -> n <> [] -> view A (S_ "xmlns:xmlns") = None ->
    e = add_unknown_attributes no_attrs (fst (cut_known E ty (c_atts (cls ty)) A [])) -> ka = snd (cut_known E ty (c_atts (cls ty)) A []) ->
    (forall k, xmlnsish k = false \/ k = S_ "xmlns:xmlns" -> view A' k = view A k) ->
    (forall p, view A' (xmlns_key p) = match view n p with Some u => Some u | None => view A (xmlns_key p) end) ->
    snd (cut_known E ty (c_atts (cls ty)) A' []) = ka /\
    add_unknown_attributes no_attrs (fst (cut_known E ty (c_atts (cls ty)) A' [])) =
      {| unknown := unknown e; xmlns := Some (merge_attributes (match xmlns e with Some x => x | None => [] end) n) |}.
  Proof.
    intros SA SA' Sn Hnew Hxx Ha Hk S3 Dg.
    destruct (cut_known_spec E ty (c_atts (cls ty)) A [] SA msorted_nil) as (C1 & C2 & C3 & C4).
    destruct (cut_known_spec E ty (c_atts (cls ty)) A' [] SA' msorted_nil) as (D1 & D2 & D3 & D4).
    destruct (add_unknown_spec _ C1) as (U1 & U2 & U3 & U4 & U5 & U6). rewrite <- Ha in U1, U2, U3, U4, U5, U6.
    destruct (add_unknown_spec _ D1) as (V1 & V2 & V3 & V4 & V5 & V6). split.
    - rewrite Hk. apply msorted_ext; auto. intros k. etransitivity; [exact (D4 k)|]. symmetry. etransitivity; [exact (C4 k)|].
      unfold kept. destruct (xmlnsish k) eqn:Ex; [now rewrite att_kind_xmlns|]. rewrite (S3 k (or_introl Ex)). reflexivity.
    - set (e' := add_unknown_attributes no_attrs (fst (cut_known E ty (c_atts (cls ty)) A' []))) in *. clearbody e'.
      enough (Q : unknown e' = unknown e /\ xmlns e' = Some (merge_attributes (match xmlns e with Some x => x | None => [] end) n)).
      { destruct Q as [Q1 Q2]. destruct e' as [eu ex]. cbn [unknown xmlns] in *. now rewrite Q1, Q2. }
      clear Ha Hk. split.
      + apply opt_ext; auto. intros k. rewrite V3, U3. destruct (xmlnsish k) eqn:Ex; [reflexivity|]. rewrite D3, C3. rewrite (S3 k (or_introl Ex)). reflexivity.
      + set (x := match xmlns e with Some x => x | None => [] end). assert (Hx : msorted x) by (unfold x; destruct (xmlns e); auto using msorted_nil).
        apply opt_ext; auto.
        * exact (merge_not_nil x n Hx Sn Hnew).
        * intros m Em. apply some_inj in Em. subst m. now apply merge_sorted.
        * intros p. rewrite V6. cbn [sp_view]. rewrite merge_view by auto.
          assert (Vx : view x p = sp_view (xmlns e) p) by (unfold x; destruct (xmlns e); reflexivity).
          rewrite Vx, U6, !D3, !C3, !att_kind_xmlns by (try reflexivity; apply orb_true_iff; right; apply has_prefix_spec; exists p; reflexivity).
          specialize (Dg p). unfold xmlns_key in Dg. destruct (eqs p (S_ "xmlns")) eqn:Ep; [|exact Dg].
          apply eqs_spec in Ep. subst p. rewrite Dg, (S3 _ (or_intror eq_refl)), Hxx. destruct (view n (S_ "xmlns")); [reflexivity|]. now destruct (view A (S_ "xmlns")).
  Qed.
  (** The root reads its own attributes also after the namespaces were put in. *)
  Lemma insert_attrs_same o : wf E o = true -> is_simple (oty o) = false -> oty o <> Type_coordinates -> new_xmlns o <> [] ->
    attrs_same E (oty o) (insert_namespaces o) = true.
  Proof.
    intros Hw Hs Hcoord Hnew. destruct (wf_attrs o Hw Hs) as [Ha Hk]. destruct (insert_views o Hw Hs Hcoord) as [V1 V2].
    destruct (attrs_core (oty o) _ _ _ _ _ (out_attributes_sorted o) (out_attributes_sorted (insert_namespaces o)) (new_xmlns_sorted o) Hnew (out_unreserved o Hw Hs) Ha Hk V1 V2) as [G1 G2].
    unfold attrs_same. cbv zeta. rewrite parse_attributes_create. cbn [oka oea set_ea set_ka create]. rewrite G1, G2, <- insert_ea.
    destruct (insert_rest o) as (_ & K & _). rewrite K. now rewrite attrs_eqb_refl, ea_eqb_refl.
  Qed.
  Lemma insert_wf o : wf E o = true -> is_simple (oty o) = false -> oty o <> Type_coordinates -> new_xmlns o <> [] -> wf E (insert_namespaces o) = true.
  Proof.
    intros Hw Hs Hc Hn. pose proof (insert_attrs_same o Hw Hs Hc Hn) as G. destruct (insert_rest o) as (R1 & R2 & R3 & R4 & R5 & R6 & R7).
    destruct (insert_namespaces o) as [ty ka ea tx vec sl mis unk]. destruct o as [ty0 ka0 ea0 tx0 vec0 sl0 mis0 unk0].
    cbn [oty oka otext ovec oslots omis ounk] in *. subst. cbn [wf] in *. rewrite Hs in *. apply N.eqb_neq in Hc. rewrite Hc in *.
    rewrite !andb_true_iff in *. rewrite G. tauto.
  Qed.
  Lemma insert_intact o nl ind d p : is_simple (oty o) = false -> oty o <> Type_coordinates -> intact E nl ind d p o = true -> intact E nl ind d p (insert_namespaces o) = true.
  Proof.
    intros Hs Hc. destruct (insert_rest o) as (R1 & R2 & R3 & R4 & R5 & R6 & R7).
    destruct (insert_namespaces o) as [ty ka ea tx vec sl mis unk]. destruct o as [ty0 ka0 ea0 tx0 vec0 sl0 mis0 unk0].
    cbn [oty oka otext ovec oslots omis ounk] in *. subst. apply N.eqb_neq in Hc. cbn [intact ser]. rewrite Hs, Hc. cbn [item_kids]. auto.
  Qed.
  Lemma new_not_nil o : xmlns_of (oty o) <> XMLNS_NONE -> new_xmlns o <> [].
  Proof.
    intros H C. assert (U : uses o (xmlns_of (oty o)) = true) by (unfold uses, mem; cbn [map existsb]; now rewrite N.eqb_refl).
    assert (X : xmlns_of (oty o) = XMLNS_KML22 \/ exists p u, In (xmlns_of (oty o), (p, u)) namespaces).
    { unfold xmlns_of in *. destruct (mem gx_classes (oty o)); [right; exists (S_ "gx"), (S_ "http://www.google.com/kml/ext/2.2"); vm_compute; tauto|].
      destruct (mem atom_classes (oty o)); [right; exists (S_ "atom"), (S_ "http://www.w3.org/2005/Atom"); vm_compute; tauto|].
      destruct (mem xal_classes (oty o)); [right; exists (S_ "xal"), (S_ "urn:oasis:names:tc:ciq:xsdschema:xAL:2.0"); vm_compute; tauto|].
      destruct (mem kml_classes (oty o) || is_a (oty o) Type_Object); [now left|congruence]. }
    destruct (N.eq_dec (xmlns_of (oty o)) XMLNS_KML22) as [X1|X1].
    - pose proof (new_xmlns_default o) as D. rewrite <- X1, U, C in D. discriminate.
    - destruct X as [X|(p & u & X)]; [congruence|]. pose proof (new_xmlns_get o p _ u X X1) as D. rewrite U, C in D. discriminate.
  Qed.
  Lemma namespaces_ok : forallb (fun e => att_ok (S_ "xmlns:" ++ fst (snd e), snd (snd e))) namespaces = true /\ att_ok (S_ "xmlns", uri_kml) = true.
  Proof. split; vm_compute; reflexivity. Qed.
  Lemma in_sorted_mget (m : attrs) k v : msorted m -> In (k, v) m -> mget k m = Some v.
  Proof. apply in_mget. Qed.
  Lemma nodupb_sorted (m : attrs) : msorted m -> nodupb (map fst m) = true.
  Proof.
    induction 1 as [|[k v] m Hm IH Hall]; [reflexivity|]. cbn [map fst nodupb]. rewrite IH, andb_true_r. apply negb_true_iff. apply not_true_is_false. intros C.
    apply existsb_exists in C as (k' & Hk & Ek). apply eqs_spec in Ek. subst k'. apply in_map_iff in Hk as ([k' v'] & Ek & Hk). cbn in Ek. subst k'.
    rewrite Forall_forall in Hall. exact (slt_irrefl _ (Hall _ Hk)).
  Qed.
  Lemma new_atts_ok o p u : view (new_xmlns o) p = Some u -> att_ok (xmlns_key p, u) = true.
  Proof.
    unfold view, find_value. intros Eu. destruct namespaces_ok as [N1 N2]. rewrite forallb_forall in N1. unfold xmlns_key.
    destruct (eqs p (S_ "xmlns")) eqn:Ep.
    { apply eqs_spec in Ep. subst p. rewrite new_xmlns_default in Eu. destruct (uses o XMLNS_KML22); [|discriminate]. apply some_inj in Eu. subst u. exact N2. }
    apply eqs_neq in Ep.
    destruct (in_dec str_dec p (map (fun e => fst (snd e)) namespaces)) as [Hi|Hi]; [|rewrite (new_xmlns_other o p Ep Hi) in Eu; discriminate].
    apply in_map_iff in Hi as ([i [p' u']] & Ep' & Hi). cbn [fst snd] in Ep'. subst p'. destruct (N.eq_dec i XMLNS_KML22) as [->|Hi2].
    - exfalso. assert (p = S_ "kml") as ->.
      { assert (T : forallb (fun e => negb (fst e =? XMLNS_KML22) || eqs (fst (snd e)) (S_ "kml")) namespaces = true) by (vm_compute; reflexivity).
        rewrite forallb_forall in T. specialize (T _ Hi). cbn [fst snd] in T. rewrite N.eqb_refl in T. cbn [negb orb] in T. now apply eqs_spec in T. }
      revert Eu. pose proof (find_sorted o) as SF. revert SF. unfold new_xmlns. generalize (find_namespaces o) as F. intros F SF. pose proof (cut_value_sorted (S_ "kml") F SF) as Sm. pose proof (cut_value_view (S_ "kml") F) as (Q & _ & Q2). destruct (cut_value (S_ "kml") F) as [w m]. cbn [snd] in Q, Sm.
      unfold view, find_value in Q. destruct w as [w|]; [|rewrite Q; discriminate]. unfold set_value. rewrite mget_mset by exact Sm. change (eqs (S_ "kml") (S_ "xmlns")) with false. cbv iota. rewrite Q. discriminate.
    - rewrite (new_xmlns_get o p i u' Hi Hi2) in Eu. destruct (uses o i); [|discriminate]. apply some_inj in Eu. subst u'. exact (N1 _ Hi).
  Qed.
  Lemma insert_atts_ok o : wf E o = true -> is_simple (oty o) = false -> oty o <> Type_coordinates ->
    forallb att_ok (out_attributes o) = true -> forallb att_ok (out_attributes (insert_namespaces o)) = true.
  Proof.
    intros Hw Hs Hc H. destruct (insert_views o Hw Hs Hc) as [V1 V2]. pose proof (out_attributes_sorted (insert_namespaces o)) as S'.
    revert V1 V2 S' H. generalize (out_attributes (insert_namespaces o)) as A'. generalize (out_attributes o) as A. intros A A' V1 V2 S' H.
    rewrite forallb_forall in *. intros [k v] Hin. pose proof (in_mget _ _ _ S' Hin) as G. change (view A' k = Some v) in G.
    assert (Old : view A k = Some v -> att_ok (k, v) = true) by (intros Q; apply mget_in in Q; exact (H _ Q)).
    assert (K : (xmlnsish k = false \/ k = S_ "xmlns:xmlns") \/ exists p, k = xmlns_key p).
    { destruct (xmlnsish k) eqn:Ek; [|auto]. unfold xmlnsish in Ek. apply orb_true_iff in Ek as [Ek|Ek].
      - right. exists (S_ "xmlns"). now apply eqs_spec in Ek.
      - apply has_prefix_spec in Ek as (p & ->). destruct (eqs p (S_ "xmlns")) eqn:Ep; [apply eqs_spec in Ep; subst p; auto|]. right. exists p. unfold xmlns_key. now rewrite Ep. }
    destruct K as [K|[p ->]]; [rewrite (V1 k K) in G; auto|]. rewrite V2 in G. destruct (view (new_xmlns o) p) as [u|] eqn:Eu; [|auto].
    apply some_inj in G. subst u. exact (new_atts_ok o p v Eu).
  Qed.
End Root.

(** * The text *)
Lemma tree_lf s t : xml_tree s = Some t -> xml_tree ("010"%char :: s) = Some t.
Proof.
  unfold xml_tree, xml_parse, xml_tokens. cbv zeta. change (norm_eol ("010"%char :: s)) with ("010"%char :: norm_eol s). cbn [length].
  set (s' := norm_eol s). assert (R : rd (S (length s')) ("010"%char :: s') = prepend [EChar "010"%char] (rd (length s') s')) by reflexivity.
  rewrite R. clear R. destruct (rd (length s') s') as [es|]; [|discriminate]. cbn [prepend option_map app nest]. change (xsp "010"%char) with true. cbn [andb].
  destruct (nest es [] false); [|discriminate]. destruct (forest es [] []) as [F|] eqn:Ef; [|discriminate]. intros H.
  pose proof (forest_events es [] [] F Ef) as Q. cbn [opened rev flat_map app] in Q. subst es.
  pose proof (forest_complete (XChar "010"%char :: F)) as C. cbn [flat_map xevents app] in C. rewrite C. exact H.
Qed.
Lemma insert_regular E o ty a a' ks : wf E o = true -> is_simple (oty o) = false -> oty o <> Type_coordinates ->
  a = out_attributes o -> a' = out_attributes (insert_namespaces o) ->
  regular (XElem (tag_name ty) a ks) -> regular (XElem (tag_name ty) a' ks).
Proof.
  intros Hw Hs Hc -> -> (_ & R2 & R3 & R4). destruct (insert_views E o Hw Hs Hc) as [V _].
  pose proof (out_attributes_sorted o) as S1. pose proof (out_attributes_sorted (insert_namespaces o)) as S2. revert V S1 S2 R2.
  generalize (out_attributes (insert_namespaces o)) as A'. generalize (out_attributes o) as A. intros A A' V S1 S2 R2.
  split; [eauto|]. split; [|split; [exact R3|exact R4]]. cbn [no_old_schema] in *.
  assert (Q : find_old_schema A' [] = find_old_schema A []).
  { unfold find_old_schema. rewrite !attrs_of_sorted by assumption. change (find_value (S_ "parent") A') with (view A' (S_ "parent")). change (find_value (S_ "name") A') with (view A' (S_ "name")).
    rewrite !V by (left; reflexivity). reflexivity. }
  rewrite Q. exact R2.
Qed.
Lemma find_cons p c t : prefixb p (c :: t) = false -> find p (c :: t) = option_map S (find p t).
Proof. intros H. cbn [find]. rewrite H. destruct (find p t); reflexivity. Qed.
Lemma header_off enc s : ~ In "?"%char enc -> without_declaration (xml_header enc ++ s) = "010"%char :: s.
Proof.
  intros H. unfold without_declaration, xml_header.
  set (u := S_ "xml version=""1.0"" encoding=""" ++ enc ++ S_ """").
  assert (Q : (S_ "<?xml version=""1.0"" encoding=""" ++ enc ++ S_ """?>" ++ ["010"%char]) ++ s = S_ "<?" ++ u ++ S_ "?>" ++ "010"%char :: s).
  { unfold u. rewrite <- !app_assoc. reflexivity. }
  rewrite Q. assert (P : prefixb (S_ "<?xml") (S_ "<?" ++ u ++ S_ "?>" ++ "010"%char :: s) = true) by reflexivity. rewrite P.
  assert (Hu : ~ In "?"%char u).
  { unfold u. rewrite !in_app_iff. intros [C|[C|C]]; [|exact (H C)|]; revert C; vm_compute; intuition discriminate. }
  assert (Fd : find (S_ "?>") (S_ "<?" ++ u ++ S_ "?>" ++ "010"%char :: s) = Some (2 + length u)%nat).
  { change (S_ "<?" ++ u ++ S_ "?>" ++ "010"%char :: s) with ("<"%char :: "?"%char :: (u ++ S_ "?>" ++ "010"%char :: s)).
    assert (F2 : find (S_ "?>") (u ++ S_ "?>" ++ "010"%char :: s) = Some (length u)).
    { change (S_ "?>") with ("?"%char :: S_ ">"). rewrite find_skip_nohead by exact Hu. match goal with |- option_map _ ?f = _ => assert (F0 : f = Some 0%nat) by reflexivity; rewrite F0 end. cbn [option_map]. f_equal. lia. }
    rewrite find_cons by reflexivity. rewrite find_cons by (unfold u; reflexivity). rewrite F2. reflexivity. }
  rewrite Fd. replace (2 + length u + 2)%nat with (length (S_ "<?" ++ u ++ S_ "?>")) by (rewrite !app_length; simpl; lia).
  replace (S_ "<?" ++ u ++ S_ "?>" ++ "010"%char :: s) with ((S_ "<?" ++ u ++ S_ "?>") ++ "010"%char :: s) by (now rewrite <- !app_assoc).
  now rewrite skipn_app, skipn_all, Nat.sub_diag.
Qed.
Lemma ser_root o ty a ks : ser o = IElem ty a ks -> ty <> Type_coordinates -> ty = oty o /\ is_simple (oty o) = false /\ a = out_attributes o.
Proof.
  destruct o as [ty0 ka ea tx vec sl mis unk]. cbn [ser oty]. destruct (is_simple ty0) eqn:Hs.
  - intros H. exfalso. revert H. repeat match goal with |- context[if ?b then _ else _] => destruct b | |- context[match ?b with _ => _ end] => destruct b end; discriminate.
  - destruct (ty0 =? Type_coordinates) eqn:Ec; intros H Hc; [exfalso; apply N.eqb_eq in Ec; subst; injection H; intros; subst; now apply Hc|]. injection H as <- <- _. auto.
Qed.

(** C118. A file read from a text and saved is, when loaded again, the elements that were saved: those that were read with the namespaces declared
    that the elements use; nothing else is different, and saving once more gives the same text. Conditions are those of C60: nothing in the
    elements that is read otherwise than written. The root is not of the few classes outside all namespaces. *)
Theorem saved_is_loaded : forall E s t o ty a ks, numbers_stable E ->
  xml_tree (without_declaration s) = Some t -> regular t -> no_xmlns_xmlns t = true -> load E s = Ok (Some o) ->
  plain E Type_Unknown o = true -> ser o = IElem ty a ks -> readable (ser o) = true ->
  regular (XElem (tag_name ty) a (content lf (S_ "  ") 0 ks)) -> ty <> Type_coordinates -> xmlns_of ty <> XMLNS_NONE ->
  exists o' w, serialize_to_string (S_ "utf-8") (Some o) = Ok (Some o', true, w) /\ load E w = Ok (Some o') /\ declares_more o o' /\
    serialize_to_string (S_ "utf-8") (Some o') = Ok (Some o', true, w).
Proof.
  intros E s t o ty a ks HE Ht Hr Hx Hrd Hp Hs Hre Hreg Hc Hns. destruct (ser_root o ty a ks Hs Hc) as (-> & Hsi & ->).
  pose proof (parsed_wf E HE _ t o Ht Hr Hx Hrd) as Hw. pose proof (new_not_nil o Hns) as Hn.
  pose proof (insert_wf E o Hw Hsi Hc Hn) as Hw'.
  assert (Hi : intact E lf (S_ "  ") 0 Type_Unknown o = true).
  { apply plain_intact; auto. pose proof (parsed_depth E _ t o Ht Hr Hrd). lia. }
  pose proof (insert_intact E o lf (S_ "  ") 0%nat Type_Unknown Hsi Hc Hi) as Hi'.
  assert (Hs' : ser (insert_namespaces o) = IElem (oty o) (out_attributes (insert_namespaces o)) ks).
  { destruct (namespaces_change_root_only E o Hw Hsi Hc) as (a & a' & ks' & S1 & S2 & _). rewrite S2. rewrite Hs in S1. injection S1 as _ <-.
    destruct (ser_root _ _ _ _ S2 Hc) as (_ & _ & ->). reflexivity. }
  pose proof (insert_atts_ok E o Hw Hsi Hc) as Hat. pose proof (insert_regular E o (oty o) _ _ _ Hw Hsi Hc eq_refl eq_refl Hreg) as Hreg'.
  assert (Hre' : readable (ser (insert_namespaces o)) = true).
  { rewrite Hs' . rewrite Hs in Hre. cbn [readable] in *. rewrite !andb_true_iff in *. destruct Hre as (((Q1 & Q2) & Q3) & Q4). rewrite (Hat Q2), nodupb_sorted by apply out_attributes_sorted. auto. }
  pose proof (wf_intact_keeps E lf (S_ "  ") (insert_namespaces o) 0%nat Type_Unknown Hw' Hi') as Hk.
  destruct (keeps_reads E lf (S_ "  ") (insert_namespaces o) 0%nat Type_Unknown Hk) as (n & b' & ks' & He & Hkt & Hb).
  rewrite Hs' in *. cbn [elem_of] in He. injection He as <- <- <-.
  destruct (serialize_reads lf (S_ "  ") _ _ _ eq_refl eq_refl Hre') as (w & Hw1 & Ht').
  exists (insert_namespaces o), (xml_header (S_ "utf-8") ++ w).
  assert (SS : serialize_to_string (S_ "utf-8") (Some o) = Ok (Some (insert_namespaces o), true, xml_header (S_ "utf-8") ++ w)).
  { unfold serialize_to_string. rewrite Hs'. change (serialize_pretty (IElem (oty o) (out_attributes (insert_namespaces o)) ks)) with (serialize_with lf (S_ "  ") (IElem (oty o) (out_attributes (insert_namespaces o)) ks)). rewrite Hw1. reflexivity. }
  split; [exact SS|]. split; [|split].
  - unfold load. rewrite header_off by (vm_compute; intuition discriminate). unfold read_kml. rewrite (parse_text_builds_tree _ _ (tree_lf _ _ Ht') Hreg'). cbn [bind].
    rewrite (tree_elem _ _ _ _ Hkt). etransitivity; [exact (f_equal (fun r => bind r (fun o => Ok (Some o))) Hb)|reflexivity].
  - destruct (insert_rest o) as (R1 & R2 & R3 & R4 & R5 & R6 & R7). unfold declares_more. rewrite insert_ea. cbn [unknown]. repeat split; assumption.
  - exact (serialize_file_twice E _ _ _ _ _ Hw Hsi SS).
Qed.
Print Assumptions saved_is_loaded.
(** Non-vacuity: a text with a declaration, foreign attributes, unknown and misplaced elements and a prefix of its own. *)
Definition saved_sample : str := S_ "<?xml version=""1.0""?>" ++ S_ "<kml xmlns:my=""m""><Document><name>d</name><Placemark id=""a"" foo=""b""><name>hi &amp; x</name><Style><IconStyle><color>#ff</color></IconStyle></Style><foo>u<b/></foo><Point><coordinates>1,2 3,4,5</coordinates></Point><Lod/></Placemark></Document></kml>".
Example saved_is_loaded_sample : exists t o ty a ks, xml_tree (without_declaration saved_sample) = Some t /\ regular t /\ no_xmlns_xmlns t = true /\ load E0 saved_sample = Ok (Some o) /\
  plain E0 Type_Unknown o = true /\ ser o = IElem ty a ks /\ readable (ser o) = true /\
  regular (XElem (tag_name ty) a (content lf (S_ "  ") 0 ks)) /\ ty <> Type_coordinates /\ xmlns_of ty <> XMLNS_NONE.
Proof.
  do 5 eexists. repeat match goal with |- _ /\ _ => split end.
  all: try (vm_compute; reflexivity).
  - split; [do 3 eexists; reflexivity|]. repeat split; vm_compute; try reflexivity. lia.
  - split; [do 3 eexists; reflexivity|]. repeat split; vm_compute; try reflexivity. lia.
  - vm_compute. discriminate.
  - vm_compute. discriminate.
Qed.
Example saved_text_sample :
  match load E0 saved_sample with
  | Ok o => match serialize_to_string (S_ "utf-8") o with
            | Ok (o', b, w) => b && prefixb (S_ "<?xml version=""1.0"" encoding=""utf-8""?>" ++ lf ++ S_ "<kml xmlns=""http://www.opengis.net/kml/2.2"" xmlns:my=""m"">" ++ lf) w
            | _ => false
            end
  | _ => false
  end = true.
Proof. vm_compute. reflexivity. Qed.

(** An archive as the ZIP format says, which holds exactly these files in this order; [R] is what the decompression does. *)
Definition archive_of {zst} (z_init : zst) (R : zst -> str -> str -> Prop) (d : str) (files : list (str * str)) : Prop :=
  exists es comment, UnzipProofs.is_zip d es comment /\ UnzipModel.len d <= 2147483647 /\ UnzipModel.len comment <= 65513 /\ UnzipProps.last_record d comment /\
    (forall e, In e es -> UnzipModel.len (UnzipProofs.e_name e) < 256 /\ ~ In "000"%char (UnzipProofs.e_name e) /\ UnzipProps.holds R z_init e) /\
    map (fun e => (UnzipProofs.e_name e, UnzipProofs.e_data e)) es = files.
Lemma archive_default zst (z_init : zst) z_step R normalize read links d w max : UnzipProofs2.inflates zst z_step R ->
  archive_of z_init R d (KmzModel.kmz_create normalize read w links) -> w <> [] -> N.of_nat (length w) <= max ->
  exists toc, UnzipModel.zip_toc d = Ok toc /\ PathModel.find_first_of (S_ ".kml") toc = Some (S_ "doc.kml") /\
    UnzipModel.zip_get zst z_init z_step true d toc max (S_ "doc.kml") = Ok (Some w).
Proof.
  intros HR (es & comment & Hz & Hd & Hco & Hl & Hes & Hm) Hw Hmax.
  pose proof (KmzProps.kmz_document normalize read w links max Hw Hmax) as K. rewrite <- Hm in K. unfold KmzModel.read_kml in K.
  assert (Hne : es <> []) by (intros ->; discriminate K).
  destruct (UnzipProps.archive_is_list zst z_init z_step R HR d es comment max (S_ "doc.kml") Hz Hne Hd Hco Hl Hes) as [A1 A2].
  set (l := map (fun e => (UnzipProofs.e_name e, UnzipProofs.e_data e)) es) in *. exists (map fst l). split; [exact A1|].
  destruct (PathModel.find_first_of (S_ ".kml") (map fst l)) as [p|]; [|discriminate K]. destruct (KmzModel.read_file max l p) as [x|] eqn:Er; [|discriminate K].
  apply some_inj in K. injection K as -> ->. split; [reflexivity|]. rewrite A2. f_equal. exact Er.
Qed.
(** C118. The same through an archive: the saved text, packed as doc.kml in front of any files (kmz_file.cc 192-202 WriteKmz without any), in any archive with these
    entries, is found as the default KML file and read as the elements saved. *)
Theorem saved_in_archive : forall E s t o ty a ks, numbers_stable E ->
  xml_tree (without_declaration s) = Some t -> regular t -> no_xmlns_xmlns t = true -> load E s = Ok (Some o) ->
  plain E Type_Unknown o = true -> ser o = IElem ty a ks -> readable (ser o) = true ->
  regular (XElem (tag_name ty) a (content lf (S_ "  ") 0 ks)) -> ty <> Type_coordinates -> xmlns_of ty <> XMLNS_NONE ->
  exists o' w, serialize_to_string (S_ "utf-8") (Some o) = Ok (Some o', true, w) /\ declares_more o o' /\
    forall zst (z_init : zst) z_step R normalize read links d max, UnzipProofs2.inflates zst z_step R ->
    archive_of z_init R d (KmzModel.kmz_create normalize read w links) -> N.of_nat (length w) <= max ->
    exists toc, UnzipModel.zip_toc d = Ok toc /\ PathModel.find_first_of (S_ ".kml") toc = Some (S_ "doc.kml") /\
      UnzipModel.zip_get zst z_init z_step true d toc max (S_ "doc.kml") = Ok (Some w) /\ load E w = Ok (Some o').
Proof.
  intros E s t o ty a ks HE Ht Hr Hx Hrd Hp Hs Hre Hreg Hc Hns.
  destruct (saved_is_loaded E s t o ty a ks HE Ht Hr Hx Hrd Hp Hs Hre Hreg Hc Hns) as (o' & w & W1 & W2 & W3 & _). exists o', w. split; [exact W1|]. split; [exact W3|].
  intros zst z_init z_step R normalize read links d max HR Ha Hmax.
  assert (Hw : w <> []).
  { intros ->. revert W1. unfold serialize_to_string. destruct (serialize_pretty (ser (insert_namespaces o))) as [x| | |]; cbn [bind]; discriminate. }
  destruct (archive_default zst z_init z_step R normalize read links d w max HR Ha Hw Hmax) as (toc & T1 & T2 & T3). exists toc. auto.
Qed.
Print Assumptions saved_in_archive.
(** C118. KmzFile::CreateFromElement and CreateFromKmlFile (kmz_file.cc 224-253) write the element itself, without declarations and namespaces: it is read back as it was. *)
Theorem element_in_archive : forall E s t o ty a ks, numbers_stable E ->
  xml_tree (without_declaration s) = Some t -> regular t -> no_xmlns_xmlns t = true -> load E s = Ok (Some o) ->
  plain E Type_Unknown o = true -> ser o = IElem ty a ks -> readable (ser o) = true ->
  regular (XElem (tag_name ty) a (content lf (S_ "  ") 0 ks)) ->
  exists w, write_pretty o = Ok w /\
    forall zst (z_init : zst) z_step R normalize read links d max, UnzipProofs2.inflates zst z_step R ->
    archive_of z_init R d (KmzModel.kmz_create normalize read w links) -> N.of_nat (length w) <= max ->
    exists toc, UnzipModel.zip_toc d = Ok toc /\ PathModel.find_first_of (S_ ".kml") toc = Some (S_ "doc.kml") /\
      UnzipModel.zip_get zst z_init z_step true d toc max (S_ "doc.kml") = Ok (Some w) /\ load E w = Ok (Some o).
Proof.
  intros E s t o ty a ks HE Ht Hr Hx Hrd Hp Hs Hre Hreg.
  destruct (read_pretty_read E _ t o ty a ks HE Ht Hr Hx Hrd Hp Hs Hre Hreg) as (w & W1 & W2). exists w. split; [exact W1|].
  intros zst z_init z_step R normalize read links d max HR Ha Hmax.
  assert (Hw : w <> []) by (intros ->; vm_compute in W2; discriminate).
  destruct (archive_default zst z_init z_step R normalize read links d w max HR Ha Hw Hmax) as (toc & T1 & T2 & T3). exists toc. split; [exact T1|]. split; [exact T2|]. split; [exact T3|].
  unfold load. assert (without_declaration w = w) as ->; [|exact W2].
  unfold without_declaration. destruct (prefixb (S_ "<?xml") w) eqn:P; [|reflexivity]. exfalso. apply prefixb_spec in P as (v & ->). clear - W2. vm_compute in W2. discriminate.
Qed.
Print Assumptions element_in_archive.
(** Non-vacuity of the archive. *)
Example archive_sample : archive_of tt (fun _ z o => z = o) UnzipProps.SmallZip.d (map (fun f => (fst (fst f), snd (fst f))) UnzipProps.SmallZip.files).
Proof.
  destruct UnzipProps.SmallZip.small_zip as (H1 & H2 & H3 & H4). exists (UnzipProps.place 0 UnzipProps.SmallZip.files), (S_ "comment"). split; [exact H1|]. split; [exact H2|]. split; [vm_compute; discriminate|].
  split; [exact H3|]. split; [exact H4|]. vm_compute. reflexivity.
Qed.

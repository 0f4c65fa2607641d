(** The main round trip: what is written for an element that satisfies [keeps] is read as that element. *)
From Verif Require Import Common StrMap StringsModel ColorModel AttributesModel AttributesProofs XsdTables XsdModel XsdProofs XmlSpec XmlSpecProofs.
From Verif Require Import SerializerModel SerializerProofs CoordModel HandlerModel HandlerSpec HandlerProofs HandlerProofs2 HandlerProps DomTables DomModel DomSpec DomProofs.
Local Open Scope N_scope.

Lemma known_creatable p n ty : known_type p n = Some ty -> is_simple ty = false -> is_simple (element_id n) = false.
Proof. intros H Hs. now rewrite (known_simple p n ty H). Qed.
Lemma description_simple' : forall ty, is_simple ty = false -> (ty =? Type_description) = false.
Proof. intros ty H. apply N.eqb_neq. intros ->. vm_compute in H. discriminate. Qed.
Lemma self_parsed_types ty : self_parsed ty = (ty =? Type_coordinates) || (snippet_type ty || (ty =? Type_SimpleData)).
Proof.
  unfold self_parsed, snippet_type. destruct (ty =? Type_coordinates) eqn:?, (ty =? Type_Snippet) eqn:?, (ty =? Type_linkSnippet) eqn:?, (ty =? Type_SimpleData) eqn:?; reflexivity.
Qed.
Lemma Forall_flat {A B} (P : B -> Prop) (f : A -> list B) l : (forall x, In x l -> Forall P (f x)) -> Forall P (flat_map f l).
Proof.
  induction l as [|x l IH]; intros H; cbn [flat_map]; [constructor|]. apply Forall_app. split; [apply H; now left|].
  apply IH. intros y Hy. apply H. now right.
Qed.
Lemma flat_map_pick {B} (f : obj -> B) c sl ks : flat_map (pick c (map (map f) sl)) ks = map f (flat_map (pick c sl) ks).
Proof.
  induction ks as [|k ks IH]; [reflexivity|]. cbn [flat_map]. rewrite map_app, <- IH. f_equal. apply pick_map.
Qed.

Section Main.
  Variable E : env.
  Variables nl ind : str.
  Lemma start_attrs o n ty ea' : is_simple (element_id n) = false -> is_simple ty = false -> ea' = out_attributes o -> forall cd,
    start E ty (node_atts n ea') cd = parse_attributes E (create ty) (out_attributes o).
  Proof.
    intros H1 H2 -> cd. unfold start, node_atts. rewrite H1, H2. pose proof (out_attributes_sorted o) as Hs.
    destruct (out_attributes o) as [|kv a] eqn:Ea.
    - now rewrite parse_no_attributes.
    - rewrite attrs_of_sorted; auto.
  Qed.
  Theorem keeps_reads o : forall d p, keeps E nl ind d p o = true -> reads E nl ind d p o.
  Proof.
    induction o as [ty ka ea tx vec sl mis unk IHsl IHmis] using obj_ind2. intros d p Hk.
    pose proof Hk as Hkeep. cbn [keeps] in Hk. apply andb_true_iff in Hk as [Hname Hk].
    destruct (known_type p (tag_name ty)) as [t|] eqn:Ek; [|discriminate]. apply N.eqb_eq in Hname. subst t.
    destruct (is_simple ty) eqn:Es.
    { (* a simple element *)
      pose proof (keeps_field E nl ind d p _ Hkeep Es) as Hf. rewrite Hf. cbn [oty char_data otext].
      set (v := match tx with Some s => s | None => [] end). unfold reads. exists (tag_name ty), [], (chars v).
      split; [cbn [field ser elem_of]; now rewrite Es|]. split; [exact Ek|]. cbn [field oty]. unfold reader_node.
      assert (Hst : forall a cd, start E ty a cd = field ty cd) by (intros; unfold start; now rewrite Es).
      destruct (ty =? Type_description).
      - rewrite build_eq, Hst, raw_chars. reflexivity.
      - rewrite rec_chars, direct_chars. cbn [app]. unfold self_entry. rewrite (simple_not_self ty Es).
        rewrite build_eq, Hst. reflexivity. }
    assert (Hid : is_simple (element_id (tag_name ty)) = false) by (rewrite (known_simple _ _ _ Ek); exact Es).
    pose proof (description_simple' ty Es) as Hdesc.
    destruct (ty =? Type_coordinates) eqn:Ec.
    { (* coordinates *)
      rewrite !andb_true_iff in Hk. destruct Hk as ((((((H1 & H2) & H3) & H4) & H5) & H6) & H7).
      apply nilb_eq in H1, H4, H5, H6. apply ea_eqb_eq in H2. apply opt_str_eqb_eq in H3. subst.
      exists (tag_name ty), [], (content nl ind d (map vec_item vec)). cbn [ser elem_of oty]. rewrite Es, Ec.
      split; [reflexivity|]. split; [exact Ek|]. unfold reader_node. rewrite Hdesc, vec_chars. cbn [app].
      unfold self_entry. rewrite self_parsed_types, Ec. cbn [orb]. rewrite build_eq. cbn [steps entry_step].
      assert (Hst : forall cd, start E ty (node_atts (tag_name ty) []) cd = create ty).
      { intros cd. unfold start, node_atts. rewrite Es, Hid. reflexivity. }
      rewrite Hst. unfold add_self. cbn [create oty]. rewrite Ec. unfold same_tuples, inner_text in H7.
      destruct (coordinates_parse _) as [l| | |]; try discriminate. apply tuples_eqb_eq in H7. cbn [bind]. rewrite H7.
      apply N.eqb_eq in Ec. subst ty. reflexivity. }
    (* other elements *)
    rewrite !andb_true_iff in Hk.
    destruct Hk as ((((((((((Hv & Hcr) & Hat) & Htx) & Hsn) & Hfit) & Hall) & Hmis) & Hunk) & Hks) & Hkm).
    apply nilb_eq in Hv. subst vec. set (o := Obj ty ka ea tx [] sl mis unk) in *.
    cbv zeta beta iota in Hat. destruct Hat as [Ha1 Ha2]. apply attrs_eqb_eq in Ha1. apply ea_eqb_eq in Ha2.
    assert (Hser : ser o = IElem ty (out_attributes o)
      (own_content ty tx ++ map ser (flat_map (pick (cls ty) sl) (c_ser (cls ty))) ++ map ser mis ++ map IUnknown unk)).
    { unfold o. cbn [ser]. rewrite Es, Ec, flat_map_pick. reflexivity. }
    set (slotted := flat_map (pick (cls ty) sl) (c_ser (cls ty))) in *.
    assert (Hsr : Forall (fun c => reads E nl ind (S d) ty c) slotted).
    { apply Forall_flat. intros k _. apply Forall_forall. intros c Hc. apply pick_in in Hc as (l & Hl & Hc).
      rewrite Forall_forall in IHsl. specialize (IHsl l Hl). rewrite Forall_forall in IHsl. apply IHsl; auto.
      rewrite forallb_forall in Hks. specialize (Hks l Hl). rewrite forallb_forall in Hks. auto. }
    assert (Hmr : Forall (fun c => reads E nl ind (S d) ty c) mis).
    { apply Forall_forall. intros c Hc. rewrite Forall_forall in IHmis. apply IHmis; auto. rewrite forallb_forall in Hkm. auto. }
    destruct (reads_children E nl ind _ _ _ Hsr) as (ns & Hns & Hns').
    destruct (reads_children E nl ind _ _ _ Hmr) as (ms & Hms & Hms').
    set (ks := own_content ty tx ++ map ser slotted ++ map ser mis ++ map IUnknown unk) in *.
    exists (tag_name ty), (out_attributes o), (content nl ind d ks). rewrite Hser. cbn [elem_of].
    split; [reflexivity|]. split; [exact Ek|]. change (oty o) with ty. unfold reader_node. rewrite Hdesc.
    assert (Hrec : flat_map (received keep_all ty) (content nl ind d ks) = map LChild ns ++ map LChild ms ++ map LUnknown unk).
    { rewrite (rec_content nl ind ty d ks). unfold ks. rewrite !flat_map_app. rewrite own_rec, Hns', Hms', unknown_rec by exact Hunk.
      reflexivity. }
    rewrite Hrec. rewrite build_eq, (start_attrs o (tag_name ty) ty _ Hid Es eq_refl).
    set (o1 := parse_attributes E (create ty) (out_attributes o)) in *.
    assert (Ho1 : o1 = Obj ty ka ea None [] (map (fun _ => []) (c_slots (cls ty))) [] []).
    { unfold o1. rewrite parse_attributes_split. fold o1. rewrite Ha1, Ha2. reflexivity. }
    rewrite <- !app_assoc, steps_app. rewrite (steps_children E ns slotted o1 Hns).
    assert (Hfinal : forall u, steps E (map LChild ms ++ map LUnknown unk ++ self_entry ty (direct_text (content nl ind d ks)))
       (Obj ty ka ea None [] sl [] []) = u -> u = Ok o).
    { intros u <-. rewrite steps_app, (steps_children E ms mis _ Hms).
      assert (Hm : adds E mis (Obj ty ka ea None [] sl [] []) = Ok (Obj ty ka ea None [] sl mis [])).
      { destruct (snippet_type ty) eqn:Esn; [apply nilb_eq in Hsn; subst mis; reflexivity|].
        rewrite adds_mis; [reflexivity|cbn [oty]; unfold ordinary; now rewrite Esn, Ec|].
        apply Forall_forall. intros c Hc. rewrite forallb_forall in Hmis. specialize (Hmis c Hc). cbn [oty].
        apply andb_true_iff in Hmis as [Hm1 Hm2]. apply negb_true_iff in Hm2. split; [|exact Hm2].
        destruct (find_slot (oty c) (c_slots (cls ty)) 0); [discriminate|reflexivity]. }
      rewrite Hm. cbn [bind]. rewrite steps_app, steps_unknown. cbn [bind set_unk ounk app].
      unfold self_entry. rewrite self_parsed_types, Ec. cbn [orb]. unfold no_own_text in Htx.
      destruct (snippet_type ty || (ty =? Type_SimpleData)) eqn:Eo; cbn [negb] in Htx.
      - cbn [steps entry_step]. unfold add_self. cbn [oty]. rewrite Ec, Eo. cbn [bind set_text]. apply opt_str_eqb_eq in Htx.
        rewrite Hser in Htx. cbn [item_kids] in Htx. unfold inner_text in Htx. rewrite <- Htx. reflexivity.
      - apply opt_str_eqb_eq in Htx. subst tx. reflexivity. }
    assert (Hfill : adds E slotted o1 = Ok (Obj ty ka ea None [] sl [] [])).
    { destruct (snippet_type ty) eqn:Esn.
      - pose proof (snippet_no_slots ty Esn) as Hno. pose proof (proj1 (slots_fit_nth _ _ _ _ _ Hfit)) as Hl. rewrite Hno in Hl.
        destruct sl; [|discriminate]. assert (slotted = []) as ->.
        { unfold slotted. clear. induction (c_ser (cls ty)) as [|k l IH]; [reflexivity|]. cbn [flat_map]. rewrite IH, app_nil_r.
          unfold pick. destruct (index_of_key k (c_slots (cls ty)) 0) as [i|]; [now destruct i|reflexivity]. }
        cbn [adds]. rewrite Ho1, Hno. reflexivity.
      - rewrite (fill_all E ty sl).
        + rewrite Ho1. reflexivity.
        + unfold ordinary. now rewrite Esn, Ec.
        + exact Hfit.
        + intros l c Hl Hc Hsc. rewrite forallb_forall in Hks. specialize (Hks l Hl). rewrite forallb_forall in Hks.
          exact (keeps_field E nl ind _ _ c (Hks c Hc) Hsc).
        + now rewrite Ho1.
        + now rewrite Ho1.
        + exact Hall. }
    rewrite Hfill. cbn [bind]. now apply Hfinal.
  Qed.

  (** Whole documents. *)
  Theorem keeps_document o ty a ks : forallb wsp nl = true -> forallb wsp ind = true ->
    ser o = IElem ty a ks -> keeps E nl ind 0 Type_Unknown o = true -> readable (ser o) = true ->
    regular (XElem (tag_name ty) a (content nl ind 0 ks)) ->
    exists s, write nl ind o = Ok s /\ read_kml E s = Ok (Some o).
  Proof.
    intros Hnl Hind Hs Hk Hr Hreg. destruct (keeps_reads o 0%nat Type_Unknown Hk) as (n & a' & ks' & He & Hkt & Hb).
    unfold write. rewrite Hs in *. cbn [elem_of] in He. inversion He; subst n a' ks'.
    destruct (serialize_reads nl ind ty a ks Hnl Hind Hr) as (s & Hw & Ht). exists s. split; [exact Hw|].
    unfold read_kml. rewrite (parse_text_builds_tree s _ Ht Hreg). cbn [bind].
    rewrite (tree_elem _ _ _ _ Hkt). rewrite Hb. reflexivity.
  Qed.
End Main.

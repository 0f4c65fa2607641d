(** Proof that Clone makes an equal element. *)
From Verif Require Import Common StrMap StringsModel ColorModel AttributesModel XsdTables XsdModel SerializerModel.
From Verif Require Import HandlerModel DomTables DomModel DomSpec DomProofs DomProofs2 DomParsed CloneModel.
Local Open Scope N_scope.

Section Clone.
  Variable E : env.
  (** What has to hold of an element for its clone to be equal: nothing but text in simple elements and
      coordinates; own text (of Snippet, linkSnippet, SimpleData) is not the empty text, and no element
      misplaced in a SimpleData with text; no link value with CDATA marks; no value that is not written. *)
  Fixpoint cloneable (o : obj) : bool :=
    let 'Obj ty ka ea tx vec sl mis unk := o in
    if is_simple ty then nilb mis && nilb unk
    else if ty =? Type_coordinates then ea_eqb ea no_attrs && nilb unk
    else
      match tx with Some [] => false | Some _ => forallb (fun c => is_simple (oty c)) mis | None => true end &&
      forallb (fun p' => href_values E ty (fst p') (snd p')) (combine (c_slots (cls ty)) sl) &&
      forallb (fun kl : N * list obj => match kl with (k, []) => true | (k, _) => existsb (N.eqb k) (c_ser (cls ty)) end) (combine (keys (c_slots (cls ty))) sl) &&
      forallb (forallb cloneable) sl && forallb cloneable mis.

  Lemma replay_elem ty a ks p cd : replay E (IElem ty a ks) (p, cd) =
    cbind (replays E ks (parse_attributes E (create ty) a, cd))
      (fun st' => cbind (finish E (fst st') (snd st')) (fun c => cbind (of_res (add_element E p c)) (fun p' => Done (p', [])))).
  Proof.
    reflexivity.
  Qed.
  Lemma replays_app a b st : replays E (a ++ b) st = cbind (replays E a st) (replays E b).
  Proof. revert st. induction a as [|k a IH]; intros st; [reflexivity|]. cbn [app replays]. destruct (replay E k st); cbn [cbind]; auto. Qed.
  Lemma replays_unknown us : forall p cd, replays E (map IUnknown us) (p, cd) = Done (set_unk p (ounk p ++ us), cd).
  Proof.
    induction us as [|u us IH]; intros p cd; cbn [map replays].
    - rewrite app_nil_r. now destruct p.
    - cbn [replay cbind]. rewrite IH. destruct p. cbn [set_unk ounk]. now rewrite <- app_assoc.
  Qed.
  Lemma replays_vec vs : forall p cd, oty p = Type_coordinates -> replays E (map vec_item vs) (p, cd) = Done (set_vec p (ovec p ++ vs), cd).
  Proof.
    induction vs as [|[[a b] c] vs IH]; intros p cd Hp; cbn [map replays].
    - rewrite app_nil_r. now destruct p.
    - cbn [vec_item replay cbind]. rewrite Hp, N.eqb_refl. rewrite IH; [|now destruct p]. destruct p. cbn [set_vec ovec]. now rewrite <- app_assoc.
  Qed.
  (** The element is replayed as adding it. *)
  Definition replayed (cd : str) (o : obj) : Prop := forall p, replay E (ser o) (p, cd) = cbind (of_res (add_element E p o)) (fun p' => Done (p', cd)).
  Lemma replays_adds cd l : Forall (replayed cd) l -> forall p, replays E (map ser l) (p, cd) = cbind (of_res (adds E l p)) (fun p' => Done (p', cd)).
  Proof.
    induction 1 as [|o l Ho Hl IH]; intros p; [reflexivity|]. cbn [map replays adds]. rewrite Ho.
    destruct (add_element E p o); cbn [of_res cbind bind]; auto.
  Qed.
  Lemma wf_field o : wf E o = true -> cloneable o = true -> is_simple (oty o) = true -> is_field o.
  Proof.
    destruct o as [ty ka ea tx vec sl mis unk]. cbn [wf cloneable oty]. intros H H' Hs. rewrite Hs in *. rewrite !andb_true_iff in *.
    destruct H as (((((H1 & H2) & H3) & H4) & H5) & _), H' as (H6 & H7). apply nilb_eq in H2, H4, H5, H6, H7. apply ea_eqb_eq in H3. subst.
    destruct tx; [reflexivity|discriminate].
  Qed.
  Lemma replayed_simple o cd : is_field o -> is_simple (oty o) = true -> replayed cd o.
  Proof. intros Hf Hs p. rewrite Hf. cbn [field ser]. rewrite Hs. reflexivity. Qed.
  Lemma attributes_again ty ka ea o : attrs_same E ty o = true -> oka o = ka -> oea o = ea ->
    parse_attributes E (create ty) (out_attributes o) = Obj ty ka ea None [] (map (fun _ => []) (c_slots (cls ty))) [] [].
  Proof.
    intros H <- <-. unfold attrs_same in H. cbv zeta in H. apply andb_true_iff in H as [H1 H2]. apply attrs_eqb_eq in H1. apply ea_eqb_eq in H2.
    rewrite parse_attributes_split, H1, H2. reflexivity.
  Qed.
  Lemma coordinates_again ka ea tx vec sl mis unk : wf E (Obj Type_coordinates ka ea tx vec sl mis unk) = true ->
    cloneable (Obj Type_coordinates ka ea tx vec sl mis unk) = true ->
    Obj Type_coordinates ka ea tx vec sl mis unk = set_vec (create Type_coordinates) vec.
  Proof.
    intros Hw Hc. cbn [wf cloneable] in *. change (is_simple Type_coordinates) with false in *. rewrite N.eqb_refl in *. rewrite !andb_true_iff in *.
    destruct Hc as [He Hu], Hw as ((((((_ & Ha) & ((Hm & Ht) & _)) & Hs) & _) & _) & _). apply nilb_eq in Hu, Hm. apply ea_eqb_eq in He.
    apply opt_str_eqb_eq in Ht. subst. destruct sl; [|exfalso; revert Hs; vm_compute; congruence].
    unfold attrs_same in Ha. apply andb_true_iff in Ha as [Ha _].
    assert (ka = []) as ->; [|reflexivity]. revert Ha. unfold parse_attributes. change (c_atts (cls (oty (create Type_coordinates)))) with (@nil (str * akind)).
    cbn [cut_known oty create oka set_ea set_ka]. destruct ka; [auto|]. cbn. discriminate.
  Qed.
  (** The content of an element rebuilds it. *)
  Lemma content_again o : wf E o = true -> cloneable o = true -> is_simple (oty o) = false ->
    Forall (Forall (fun c => wf E c = true -> cloneable c = true -> is_simple (oty c) = false -> replayed [] c)) (oslots o) ->
    Forall (fun c => wf E c = true -> cloneable c = true -> is_simple (oty c) = false -> replayed [] c) (omis o) ->
    exists a ks, ser o = IElem (oty o) a ks /\
      cbind (replays E ks (parse_attributes E (create (oty o)) a, [])) (fun st => finish E (fst st) (snd st)) = Done o.
  Proof.
    destruct o as [ty ka ea tx vec sl mis unk]. cbn [oty oslots omis]. intros Hw Hc Es IHsl IHmis.
    destruct (ty =? Type_coordinates) eqn:Ec.
    { apply N.eqb_eq in Ec. subst ty. rewrite (coordinates_again _ _ _ _ _ _ _ Hw Hc). cbn [create set_vec]. exists [], (map vec_item vec). split.
      - cbn [ser]. reflexivity.
      - rewrite parse_no_attributes by reflexivity. rewrite replays_vec by reflexivity. reflexivity. }
    pose proof Hw as Hw0. pose proof Hc as Hc0. cbn [wf cloneable] in Hw, Hc. rewrite Es, Ec in Hw, Hc. cbv beta iota in Hw, Hc. rewrite !andb_true_iff in Hw. rewrite !andb_true_iff in Hc.
    destruct Hw as ((((((Hcr & Ha) & Hx) & Hs) & Hm) & Hws) & Hwm). destruct Hx as ((Hv & Htx) & Hsn).
    destruct Hc as ((((Ht & Hh) & Hall) & Hcs) & Hcm). apply nilb_eq in Hv. subst vec.
    set (o := Obj ty ka ea tx [] sl mis unk) in *.
    exists (out_attributes o). eexists. split.
    { unfold o. cbn [ser]. rewrite Es, Ec, flat_map_pick. reflexivity. }
    rewrite (attributes_again ty ka ea o Ha eq_refl eq_refl).
    set (slotted := flat_map (pick (cls ty) sl) (c_ser (cls ty))).
    assert (Hrep : forall cd c, (cd = [] \/ is_simple (oty c) = true) -> wf E c = true -> cloneable c = true ->
      (is_simple (oty c) = false -> replayed [] c) -> replayed cd c).
    { intros cd c Hcd H1 H2 H3. destruct (is_simple (oty c)) eqn:Esc.
      - apply replayed_simple; auto. now apply wf_field.
      - destruct Hcd as [->|Hcd]; [auto|discriminate]. }
    assert (Hsr : Forall (replayed []) slotted).
    { apply Forall_flat. intros k _. apply Forall_forall. intros c Hc. apply pick_in in Hc as (l & Hl & Hc).
      rewrite Forall_forall in IHsl. specialize (IHsl l Hl). rewrite Forall_forall in IHsl. specialize (IHsl c Hc).
      rewrite forallb_forall in Hws, Hcs. specialize (Hws l Hl). specialize (Hcs l Hl). rewrite forallb_forall in Hws, Hcs. apply Hrep; auto. }
    assert (Hfit : slots_fit E ty 0 (c_slots (cls ty)) sl = true) by now apply slots_wf_fit.
    assert (Hfill : adds E slotted (Obj ty ka ea None [] (map (fun _ => []) (c_slots (cls ty))) [] []) = Ok (Obj ty ka ea None [] sl [] [])).
    { destruct (snippet_type ty) eqn:Esn.
      - pose proof (snippet_no_slots ty Esn) as Hno. pose proof (proj1 (slots_fit_nth _ _ _ _ _ Hfit)) as Hl. rewrite Hno in Hl.
        destruct sl; [|discriminate]. assert (slotted = []) as ->.
        { unfold slotted. clear. induction (c_ser (cls ty)) as [|k l IH]; [reflexivity|]. cbn [flat_map]. rewrite IH, app_nil_r.
          unfold pick. destruct (index_of_key k (c_slots (cls ty)) 0) as [i|]; [now destruct i|reflexivity]. }
        cbn [adds]. rewrite Hno. reflexivity.
      - rewrite (fill_all E ty sl); auto.
        + unfold ordinary. now rewrite Esn, Ec.
        + intros l c Hl Hc Hsc. rewrite forallb_forall in Hws, Hcs. specialize (Hws l Hl). specialize (Hcs l Hl). rewrite forallb_forall in Hws, Hcs.
          apply wf_field; auto. }
    assert (Hmis : forall cd, (cd = [] \/ forallb (fun c => is_simple (oty c)) mis = true) ->
      replays E (map ser mis ++ map IUnknown unk) (Obj ty ka ea None [] sl [] [], cd) = Done (Obj ty ka ea None [] sl mis unk, cd)).
    { intros cd Hcd. rewrite replays_app, replays_adds.
      - assert (Hadd : adds E mis (Obj ty ka ea None [] sl [] []) = Ok (Obj ty ka ea None [] sl mis [])).
        { destruct (snippet_type ty) eqn:Esn; [apply nilb_eq in Hsn; subst mis; reflexivity|].
          rewrite adds_mis; [reflexivity|cbn [oty]; unfold ordinary; now rewrite Esn, Ec|].
          apply Forall_forall. intros c Hc. rewrite forallb_forall in Hm. specialize (Hm c Hc). cbn [oty].
          apply andb_true_iff in Hm as [Hm1 Hm2]. apply negb_true_iff in Hm2. split; [|exact Hm2].
          destruct (find_slot (oty c) (c_slots (cls ty)) 0); [discriminate|reflexivity]. }
        rewrite Hadd. cbn [of_res cbind]. rewrite replays_unknown. reflexivity.
      - apply Forall_forall. intros c Hc. rewrite Forall_forall in IHmis. rewrite forallb_forall in Hwm, Hcm. apply Hrep; auto.
        destruct Hcd as [Hcd|Hcd]; auto. rewrite forallb_forall in Hcd. auto. }
    rewrite replays_app.
    assert (Hown : forall p, replays E (own_content ty tx) (p, []) = Done (p, match tx with Some t => if no_own_text ty then [] else t | None => [] end)).
    { intros p. unfold own_content, no_own_text. destruct (snippet_type ty) eqn:Esn; [|destruct (ty =? Type_SimpleData) eqn:Esd]; cbn [orb negb].
      - destruct tx; reflexivity.
      - destruct tx; reflexivity.
      - destruct tx; reflexivity. }
    rewrite Hown. cbn [cbind]. destruct (no_own_text ty) eqn:En.
    - apply opt_str_eqb_eq in Htx. subst tx. rewrite replays_app, replays_adds by exact Hsr. rewrite Hfill. cbn [of_res cbind].
      rewrite Hmis by auto. reflexivity.
    - destruct tx as [t|].
      + destruct t as [|x t]; [discriminate|].
        assert (slotted = []) as ->.
        { unfold slotted. assert (Hno : c_slots (cls ty) = []).
          { unfold no_own_text in En. apply negb_false_iff, orb_true_iff in En as [En|En]; [now apply snippet_no_slots|].
            apply N.eqb_eq in En. subst ty. exact simple_data_no_slots. }
          clear -Hno. induction (c_ser (cls ty)) as [|k l IH]; [reflexivity|]. cbn [flat_map]. rewrite IH, app_nil_r.
          unfold pick. rewrite Hno. reflexivity. }
        cbn [map app adds] in *. inversion Hfill as [Hsl]. rewrite Hsl. rewrite Hmis by auto. cbn [cbind fst snd finish oty]. rewrite Ec. cbn [orb].
        unfold no_own_text in En. apply negb_false_iff in En. rewrite En. unfold add_self. cbn [oty]. rewrite Ec, En. reflexivity.
      + rewrite replays_app, replays_adds by exact Hsr. rewrite Hfill. cbn [of_res cbind].
        rewrite Hmis by auto. reflexivity.
  Qed.
  Lemma replayed_all o : wf E o = true -> cloneable o = true -> is_simple (oty o) = false -> replayed [] o.
  Proof.
    induction o as [ty ka ea tx vec sl mis unk IHsl IHmis] using obj_ind2. intros Hw Hc Hs p.
    destruct (content_again _ Hw Hc Hs) as (a & ks & Hser & Hrep); [exact IHsl|exact IHmis|]. cbn [oty] in *.
    rewrite Hser, replay_elem.
    assert (Hx : forall (r : cres (obj * str)) o, cbind r (fun st => finish E (fst st) (snd st)) = Done o ->
      cbind r (fun st' => cbind (finish E (fst st') (snd st')) (fun c => cbind (of_res (add_element E p c)) (fun p' => Done (p', [] : str)))) =
      cbind (of_res (add_element E p o)) (fun p' => Done (p', []))).
    { intros [st| |] o H; try discriminate. cbn [cbind] in *. rewrite H. reflexivity. }
    exact (Hx _ _ Hrep).
  Qed.
  Lemma clone_equal o : wf E o = true -> cloneable o = true -> is_simple (oty o) = false -> clone E o = Done o.
  Proof.
    intros Hw Hc Hs. destruct (content_again o Hw Hc Hs) as (a & ks & Hser & Hrep).
    - apply Forall_forall. intros l _. apply Forall_forall. intros c _. apply replayed_all.
    - apply Forall_forall. intros c _. apply replayed_all.
    - unfold clone. rewrite Hser. exact Hrep.
  Qed.
End Clone.

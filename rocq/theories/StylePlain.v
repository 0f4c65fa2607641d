(** Plain styles: merging one into another always works and gives a plain style again. *)
From Verif Require Import Common StrMap StringsModel ColorModel AttributesModel AttributesProofs XsdTables XsdModel SerializerModel.
From Verif Require Import CoordModel HandlerModel DomTables DomModel DomSpec DomProofs DomProofs2 DomParsed CloneModel CloneProofs MergeModel MergeProofs.
Local Open Scope N_scope.

(** Style and the elements inside of it. *)
Definition style_types : list N :=
  [Type_Style; Type_IconStyle; Type_LabelStyle; Type_LineStyle; Type_PolyStyle; Type_BalloonStyle; Type_ListStyle; Type_IconStyleIcon; Type_hotSpot; Type_ItemIcon].
Definition in_styles (ty : N) : bool := existsb (N.eqb ty) style_types.
(** A style without unknown attributes and misplaced elements, whose ListStyle has at most one ItemIcon. *)
Fixpoint plain_style (o : obj) : bool :=
  let 'Obj ty _ ea _ _ sl mis _ := o in
  in_styles ty && ea_eqb ea no_attrs && nilb mis && forallb (fun l => nodupN (map oty l)) sl && forallb (forallb (fun c => is_simple (oty c) || plain_style c)) sl.

Lemma nodupN_intro l : NoDup l -> nodupN l = true.
Proof.
  unfold nodupN. induction 1 as [|x l Hx Hl IH]; [reflexivity|]. rewrite IH, andb_true_r. apply negb_true_iff. destruct (existsb (N.eqb x) l) eqn:Ex; [|reflexivity].
  apply existsb_exists in Ex as (y & Hy & He). apply N.eqb_eq in He. now subst.
Qed.
(** The classes of these elements. *)
Definition slot_plain (s : slot) : bool :=
  match s_tests s with
  | [TType t] => match s_kind s with KField _ => is_simple t | KFields _ => false | KChild | KChildren => in_styles t end
  | _ => false
  end.
Lemma style_classes ty : in_styles ty = true ->
  forallb slot_plain (c_slots (cls ty)) = true /\ is_simple ty = false /\ (ty =? Type_coordinates) = false /\ snippet_type ty = false /\
  no_own_text ty = true /\ creatable ty = true /\ forallb (fun k => existsb (N.eqb k) (c_ser (cls ty))) (keys (c_slots (cls ty))) = true.
Proof.
  intros H. assert (G : forallb (fun ty => forallb slot_plain (c_slots (cls ty)) && negb (is_simple ty) && negb (ty =? Type_coordinates) && negb (snippet_type ty) &&
    no_own_text ty && creatable ty && forallb (fun k => existsb (N.eqb k) (c_ser (cls ty))) (keys (c_slots (cls ty)))) style_types = true) by (vm_compute; reflexivity).
  apply existsb_exists in H as (t & Ht & He). apply N.eqb_eq in He. subst t. rewrite forallb_forall in G. specialize (G ty Ht).
  rewrite !andb_true_iff, !negb_true_iff in G. tauto.
Qed.
Lemma slot_type p i s ty : in_styles p = true -> find_slot ty (c_slots (cls p)) 0 = Some (i, s) ->
  s_tests s = [TType ty] /\ nth_error (c_slots (cls p)) i = Some s /\
  match s_kind s with KField _ => is_simple ty = true | KFields _ => False | _ => in_styles ty = true end.
Proof.
  intros Hp Hf. destruct (style_classes p Hp) as (G & _). pose proof (find_slot_spec _ _ _ _ _ Hf) as (_ & Hn). rewrite Nat.sub_0_r in Hn.
  assert (Ht : takes ty s = true).
  { clear -Hf. revert Hf. generalize 0%nat. induction (c_slots (cls p)) as [|s0 ss IH]; intros j H; cbn [find_slot] in H; [discriminate|].
    destruct (takes ty s0) eqn:Et; [now inversion H; subst|eauto]. }
  rewrite forallb_forall in G. specialize (G s (nth_error_In _ _ Hn)). unfold slot_plain in G. unfold takes in Ht.
  destruct (s_tests s) as [|[g|g] [|]]; try discriminate. cbn [existsb accepts] in Ht. rewrite orb_false_r in Ht. apply N.eqb_eq in Ht. subst g.
  repeat split; auto. destruct (s_kind s); auto. discriminate.
Qed.

Section Plain.
  Variable E : env.
  Hypothesis HE : numbers_stable E.
  Definition plain (o : obj) : Prop := good E o /\ plain_style o = true.
  Lemma plain_parts o : plain o -> in_styles (oty o) = true /\ oea o = no_attrs /\ omis o = [] /\ (forall i, NoDup (map oty (nth i (oslots o) []))) /\
    (forall l c, In l (oslots o) -> In c l -> is_simple (oty c) = false -> plain c).
  Proof.
    intros [Hg Hp]. destruct o as [ty ka ea tx vec sl mis unk]. pose proof Hp as Hp0. cbn [plain_style] in Hp. rewrite !andb_true_iff in Hp. destruct Hp as ((((P1 & P2) & P3) & P4) & P5).
    cbn [oty oea omis oslots]. split; auto. split; [now apply ea_eqb_eq|]. split; [now destruct mis|]. split.
    - intros i. destruct (nth_in_or_default i sl []) as [Hi|Hi].
      + rewrite forallb_forall in P4. now apply nodupN_spec, P4.
      + rewrite Hi. constructor.
    - intros l c Hl Hc Hs. unfold plain. split.
      + exact (good_child E _ l c Hg Hl Hc Hs).
      + rewrite forallb_forall in P5. specialize (P5 l Hl). rewrite forallb_forall in P5. specialize (P5 c Hc). now rewrite Hs in P5.
  Qed.
  Lemma plain_mergeable s : forall t, plain s -> plain t -> oty s = oty t -> mergeable s t = true.
  Proof.
    induction s as [ty ka ea tx vec sl mis unk IHsl _] using obj_ind2. intros t Hs Ht Hty.
    destruct (plain_parts _ Hs) as (A1 & A2 & A3 & A4 & A5). destruct (plain_parts _ Ht) as (B1 & B2 & B3 & B4 & B5). cbn [oty oea omis oslots] in *.
    assert (Hsp : plain_style (Obj ty ka ea tx vec sl mis unk) = true) by apply Hs.
    cbn [plain_style] in Hsp. rewrite !andb_true_iff in Hsp. destruct Hsp as ((_ & Hnd) & _).
    cbn [mergeable]. rewrite <- Hty, N.eqb_refl, A3, B3, Hnd. cbn [nilb andb]. apply andb_true_iff. split.
    - apply forallb_forall. intros [s0 [a b]] Hin.
      assert (Hidx : exists i, nth_error (c_slots (cls ty)) i = Some s0 /\ nth i sl [] = a /\ nth i (oslots t) [] = b).
      { clear -Hin. revert sl Hin. generalize (oslots t). induction (c_slots (cls ty)) as [|x ss IH]; intros tl sl Hin; [destruct Hin|].
        destruct sl as [|y sl]; [destruct Hin|]. destruct tl as [|z tl]; [destruct Hin|]. cbn [combine] in Hin. destruct Hin as [Hin|Hin].
        - inversion Hin; subst. exists 0%nat. auto.
        - destruct (IH tl sl Hin) as (i & H1 & H2 & H3). exists (S i). auto. }
      destruct Hidx as (i & Hi & Ha & Hb). cbn [fst snd].
      assert (Ga : forall c, In c a -> s_tests s0 = [TType (oty c)] /\ match s_kind s0 with KField _ => is_simple (oty c) = true | KFields _ => False | _ => in_styles (oty c) = true end).
      { intros c Hc. rewrite <- Ha in Hc. destruct (good_routed E _ (proj1 Hs) i c Hc) as (s1 & Hs1). cbn [oty] in Hs1.
        destruct (slot_type ty i s1 (oty c) A1 Hs1) as (T1 & T2 & T3). assert (s1 = s0) by congruence. subst. auto. }
      assert (Gb : forall c, In c b -> s_tests s0 = [TType (oty c)]).
      { intros c Hc. rewrite <- Hb in Hc. destruct (good_routed E _ (proj1 Ht) i c Hc) as (s1 & Hs1). rewrite <- Hty in Hs1.
        destruct (slot_type ty i s1 (oty c) A1 Hs1) as (T1 & T2 & T3). assert (s1 = s0) by congruence. now subst. }
      assert (Gc : match s_kind s0 with KChild | KChildren => forallb complex a = true | _ => True end).
      { destruct (s_kind s0) eqn:Ek; auto; apply forallb_forall; intros c Hc; destruct (Ga c Hc) as [_ G]; unfold complex; now rewrite (proj1 (proj2 (style_classes _ G))). }
      destruct (s_kind s0) eqn:Ek; auto.
      + destruct a as [|c a]; auto. destruct (Ga c (or_introl eq_refl)) as [_ []].
      + rewrite Gc. destruct a as [|c a], b as [|d b]; auto. destruct (Ga c (or_introl eq_refl)) as [G1 _]. pose proof (Gb d (or_introl eq_refl)) as G2.
        rewrite G1 in G2. inversion G2. apply N.eqb_refl.
    - apply forallb_forall. intros l Hl. apply forallb_forall. intros c Hc. destruct (is_simple (oty c)) eqn:Es; [reflexivity|]. cbn [orb].
      destruct (child (oty c) t) as [b|] eqn:Eb; [|reflexivity]. apply child_in in Eb as (Hbt & l' & Hl' & Hb).
      rewrite Forall_forall in IHsl. specialize (IHsl l Hl). rewrite Forall_forall in IHsl. apply (IHsl c Hc).
      + now apply (A5 l c).
      + apply (B5 l' b); auto. now rewrite Hbt.
      + congruence.
  Qed.
  (** ** Attributes *)
  Lemma out_known o : msorted (oka o) -> oea o = no_attrs -> forall k, view (out_attributes o) k = view (oka o) k.
  Proof.
    intros Hs He k. unfold out_attributes. rewrite He. change (serialize_attributes no_attrs []) with (@nil (str * str)).
    rewrite merge_view; [|exact msorted_nil|exact Hs]. now destruct (view (oka o) k).
  Qed.
  Lemma empty_view a : msorted a -> (forall k, view a k = None) -> a = [].
  Proof.
    intros Ha H. destruct a as [|[k v] a]; [reflexivity|]. specialize (H k). unfold view, find_value in H. cbn [mget] in H. rewrite eqs_refl in H. discriminate.
  Qed.
  Lemma plain_atts s t r : plain s -> plain t -> oty s = oty t -> oty r = oty t -> 
    (let p := parse_attributes E t (merge_attributes (out_attributes t) (out_attributes s)) in oka r = oka p /\ oea r = oea p) ->
    msorted (oka r) /\ oea r = no_attrs /\ attrs_same E (oty r) r = true.
  Proof.
    intros Hs Ht Hst Hrt [K1 K2].
    destruct (plain_parts s Hs) as (_ & A2 & _). destruct (plain_parts t Ht) as (_ & B2 & _).
    destruct (good_atts E s (proj1 Hs)) as [Ss Vs]. destruct (good_atts E t (proj1 Ht)) as [St Vt].
    set (a := merge_attributes (out_attributes t) (out_attributes s)) in *.
    assert (Sa : msorted a) by (apply merge_sorted, out_attributes_sorted).
    assert (Va : forall x, view a x = match view (oka s) x with Some v => Some v | None => view (oka t) x end).
    { intros x. unfold a. rewrite merge_view by apply out_attributes_sorted. now rewrite (out_known s Ss A2), (out_known t St B2). }
    destruct (cut_known_spec E (oty t) (c_atts (cls (oty t))) a (oka t) Sa St) as (C1 & C2 & C3 & C4).
    unfold parse_attributes in K1, K2. destruct (cut_known E (oty t) (c_atts (cls (oty t))) a (oka t)) as [u ka] eqn:Ecut. cbn [fst snd] in *.
    assert (Hk : oka r = ka) by (rewrite K1; now destruct t).
    assert (Hu : u = []).
    { apply empty_view; auto. intros k. rewrite C3, Va. destruct (att_kind (c_atts (cls (oty t))) k) eqn:Ek; [reflexivity|].
      rewrite Vs, Vt, Hst. unfold kept. now rewrite Ek. }
    assert (He : oea r = no_attrs).
    { rewrite K2, Hu. assert (oea (set_ea (set_ka t ka) (add_unknown_attributes (oea t) [])) = add_unknown_attributes (oea t) []) as -> by now destruct t.
      rewrite B2. reflexivity. }
    split; [now rewrite Hk|]. split; [exact He|].
    unfold attrs_same. rewrite parse_attributes_create. cbn zeta.
    destruct (cut_known_spec E (oty r) (c_atts (cls (oty r))) (out_attributes r) [] (out_attributes_sorted r) msorted_nil) as (D1 & D2 & D3 & D4).
    assert (Vo : forall k, view (out_attributes r) k = view (oka r) k) by (apply out_known; [now rewrite Hk|exact He]).
    assert (Vr : forall k, view (oka r) k = match view (oka s) k with Some v => Some v | None => view (oka t) k end).
    { intros k. rewrite Hk, C4. unfold kept. rewrite Va. destruct (att_kind (c_atts (cls (oty t))) k) as [kd|] eqn:Ek.
      - destruct (view (oka s) k) as [v|] eqn:Ev.
        + rewrite Vs, Hst in Ev. unfold kept in Ev. rewrite Ek in Ev. destruct (view (out_attributes s) k); [|discriminate].
          pose proof (norm_att_stable E HE _ _ _ _ _ Ev) as ->. reflexivity.
        + destruct (view (oka t) k) as [v|] eqn:Ev'; [|reflexivity].
          pose proof Ev' as Ev2. rewrite Vt in Ev2. unfold kept in Ev2. rewrite Ek in Ev2. destruct (view (out_attributes t) k); [|discriminate].
          pose proof (norm_att_stable E HE _ _ _ _ _ Ev2) as ->. reflexivity.
      - rewrite Vs, Hst. unfold kept. rewrite Ek. reflexivity. }
    assert (Hkept : forall k, kept E (oty r) (c_atts (cls (oty r))) (out_attributes r) k = view (oka r) k).
    { intros k. unfold kept. rewrite Vo, Vr, Hrt. destruct (att_kind (c_atts (cls (oty t))) k) as [kd|] eqn:Ek.
      - destruct (view (oka s) k) as [v|] eqn:Ev.
        + rewrite Vs, Hst in Ev. unfold kept in Ev. rewrite Ek in Ev. destruct (view (out_attributes s) k); [|discriminate].
          exact (norm_att_stable E HE _ _ _ _ _ Ev).
        + destruct (view (oka t) k) as [v|] eqn:Ev'; [|reflexivity].
          rewrite Vt in Ev'. unfold kept in Ev'. rewrite Ek in Ev'. destruct (view (out_attributes t) k); [|discriminate].
          exact (norm_att_stable E HE _ _ _ _ _ Ev').
      - rewrite Vs, Vt, Hst. unfold kept. now rewrite Ek. }
    assert (Hka : snd (cut_known E (oty r) (c_atts (cls (oty r))) (out_attributes r) []) = oka r).
    { apply msorted_ext; auto; [now rewrite Hk|]. intros k. etransitivity; [exact (D4 k)|]. rewrite Hkept. change (mget k (oka r)) with (view (oka r) k). now destruct (view (oka r) k). }
    assert (Hun : fst (cut_known E (oty r) (c_atts (cls (oty r))) (out_attributes r) []) = []).
    { apply empty_view; auto. intros k. rewrite D3. destruct (att_kind (c_atts (cls (oty r))) k) eqn:Ek; [reflexivity|].
      rewrite Vo, <- Hkept. unfold kept. now rewrite Ek. }
    destruct (cut_known E (oty r) (c_atts (cls (oty r))) (out_attributes r) []) as [u' ka']. cbn [fst snd] in *. subst u' ka'.
    cbn [create set_ea set_ka oka oea]. rewrite attrs_eqb_refl, He. reflexivity.
  Qed.
  (** ** Merging *)
  Lemma slots_wf_intro p ss : forall i sl, length ss = length sl -> (forall j s, nth_error ss j = Some s -> slot_wf E p (i + j) s (nth j sl []) = true) -> slots_wf E p i ss sl = true.
  Proof.
    induction ss as [|s0 ss IH]; intros i [|l sl] Hl H; try discriminate; [reflexivity|]. cbn [slots_wf]. apply andb_true_iff. split.
    - specialize (H 0%nat s0 eq_refl). now rewrite Nat.add_0_r in H.
    - apply IH; [now inversion Hl|]. intros j s Hj. specialize (H (S j) s Hj). now replace (S i + j)%nat with (i + S j)%nat by lia.
  Qed.
  Lemma combine_nth_in {A B} (ss : list A) : forall (sl : list B) x y d, In (x, y) (combine ss sl) -> exists i, nth_error ss i = Some x /\ nth i sl d = y.
  Proof.
    induction ss as [|s0 ss IH]; intros [|l sl] x y d H; try now destruct H. destruct H as [H|H].
    - inversion H; subst. now exists 0%nat.
    - destruct (IH sl x y d H) as (i & H1 & H2). now exists (S i).
  Qed.
  Lemma plain_merge s : forall t, plain s -> plain t -> oty s = oty t -> exists r, merge E s t = Some r /\ plain r /\ oty r = oty t.
  Proof.
    induction s as [ty0 ka0 ea0 tx0 vec0 sl0 mis0 unk0 IHsl _] using obj_ind2. set (s := Obj ty0 ka0 ea0 tx0 vec0 sl0 mis0 unk0) in *. change sl0 with (oslots s) in IHsl. intros t Hs Ht Hst.
    destruct (merge_one E HE s t (proj1 Hs) (proj1 Ht) (plain_mergeable s t Hs Ht Hst)) as (r & Hr & Hmd). exists r. split; [exact Hr|].
    pose proof (md_type _ _ _ _ Hmd) as Hrt. split; [|exact Hrt].
    destruct (plain_parts s Hs) as (A1 & A2 & A3 & A4 & A5). destruct (plain_parts t Ht) as (B1 & B2 & B3 & B4 & B5).
    destruct (style_classes _ B1) as (Q1 & Q2 & Q3 & Q4 & Q5 & Q6 & Q7).
    destruct (plain_atts s t r Hs Ht Hst Hrt (md_raw _ _ _ _ Hmd ltac:(now apply N.eqb_neq))) as (R1 & R2 & R3).
    pose proof (md_nd _ _ _ _ Hmd B4) as R4. pose proof (md_routed _ _ _ _ Hmd) as R5.
    assert (Hkid : forall i c, In c (nth i (oslots r) []) -> wf E c = true /\ cloneable E c = true /\ (is_simple (oty c) || plain_style c = true) /\
      (In c (nth i (oslots s) []) \/ In c (nth i (oslots t) []) \/ is_simple (oty c) = false)).
    { intros i c Hc. destruct (R5 i c Hc) as (sl & Hf). 
      assert (Hcc : child (oty c) r = Some c) by (rewrite (child_slot r _ i sl R5 Hf); now apply nodup_first).
      rewrite (md_child _ _ _ _ Hmd) in Hcc. rewrite Hrt in Hf.
      assert (Gen : forall o, plain o -> oty o = oty t -> child (oty c) o = Some c -> wf E c = true /\ cloneable E c = true /\ (is_simple (oty c) || plain_style c = true) /\ In c (nth i (oslots o) [])).
      { intros o Ho Hot Hco. destruct (plain_parts o Ho) as (_ & _ & _ & _ & O5). pose proof (child_in _ _ _ Hco) as (_ & l & Hl & Hcl).
        destruct (good_in E o l c (proj1 Ho) Hl Hcl) as [W1 W2]. repeat split; auto.
        - destruct (is_simple (oty c)) eqn:Es; [reflexivity|]. exact (proj2 (O5 l c Hl Hcl Es)).
        - rewrite <- Hot in Hf. rewrite (child_slot o _ i sl (good_routed E o (proj1 Ho)) Hf) in Hco. now apply first_some in Hco. }
      destruct (child (oty c) s) as [a|] eqn:Ea; [|destruct (Gen t Ht eq_refl Hcc) as (G1 & G2 & G3 & G4); auto 6].
      destruct (child (oty c) t) as [b|] eqn:Eb; cbn [expected] in Hcc.
      - destruct (is_simple (oty a)) eqn:Esa.
        + inversion Hcc; subst a. destruct (Gen s Hs Hst Ea) as (G1 & G2 & G3 & G4); auto 6.
        + pose proof (child_in _ _ _ Ea) as (Hat & l & Hl & Hal). pose proof (child_in _ _ _ Eb) as (Hbt & l' & Hl' & Hbl).
          rewrite Forall_forall in IHsl. specialize (IHsl l Hl). rewrite Forall_forall in IHsl.
          destruct (IHsl a Hal b) as (r' & Hr' & Hp & _).
          * exact (A5 l a Hl Hal Esa).
          * apply (B5 l' b Hl' Hbl). now rewrite Hbt, <- Hat.
          * congruence.
          * assert (r' = c) by congruence. subst r'. destruct Hp as [(P1 & P2 & P3) P4]. repeat split; auto. rewrite P4. apply orb_true_r.
      - inversion Hcc; subst a. destruct (Gen s Hs Hst Ea) as (G1 & G2 & G3 & G4); auto 6. }
    assert (Hlen : length (c_slots (cls (oty r))) = length (oslots r)) by (rewrite (md_len _ _ _ _ Hmd), Hrt; symmetry; apply good_length with E; apply Ht).
    assert (Hreads : forall i sl f c, nth_error (c_slots (cls (oty t))) i = Some sl -> s_kind sl = KField f -> In c (nth i (oslots r) []) ->
      is_simple (oty c) = true /\ reads_same E (oty t) f (oty c) (char_data c) = true).
    { intros i sl f c Hi Hk Hc. destruct (R5 i c Hc) as (sl' & Hf). rewrite Hrt in Hf. destruct (slot_type _ i sl' (oty c) B1 Hf) as (T1 & T2 & T3).
      assert (sl' = sl) by congruence. subst sl'. rewrite Hk in T3. split; auto.
      assert (Gen : forall o, plain o -> oty o = oty t -> In c (nth i (oslots o) []) -> reads_same E (oty t) f (oty c) (char_data c) = true).
      { intros o Ho Hot Hin. rewrite <- Hot in Hi. pose proof (good_fit E o i sl (proj1 Ho) Hi) as Hfit. unfold slot_fits in Hfit. rewrite Hk in Hfit.
        rewrite !andb_true_iff in Hfit. destruct Hfit as (_ & _ & Hfit). rewrite forallb_forall in Hfit. specialize (Hfit c Hin). apply andb_true_iff in Hfit as [_ Hfit]. now rewrite <- Hot. }
      destruct (Hkid i c Hc) as (_ & _ & _ & [Hin|[Hin|Hn]]); [now apply (Gen s)|now apply (Gen t)|congruence]. }
    assert (Hone : forall i sl, nth_error (c_slots (cls (oty t))) i = Some sl -> (length (nth i (oslots r) []) <= 1)%nat).
    { intros i sl Hi. pose proof (R4 i) as Hnd. assert (Hty : forall c, In c (nth i (oslots r) []) -> s_tests sl = [TType (oty c)]).
      { intros c Hc. destruct (R5 i c Hc) as (sl' & Hf). rewrite Hrt in Hf. destruct (slot_type _ i sl' (oty c) B1 Hf) as (T1 & T2 & T3). congruence. }
      destruct (nth i (oslots r) []) as [|c [|d l]]; cbn; auto. exfalso. cbn [map] in Hnd. inversion Hnd as [|x y N1 N2]; subst. apply N1. left.
      pose proof (Hty c (or_introl eq_refl)) as H1. pose proof (Hty d (or_intror (or_introl eq_refl))) as H2. rewrite H1 in H2. now inversion H2. }
    assert (Hin_slots : forall l c, In l (oslots r) -> In c l -> exists i, In c (nth i (oslots r) [])).
    { intros l c Hl Hc. apply (In_nth _ _ []) in Hl as (i & _ & <-). eauto. }
    assert (Hwf : wf E r = true).
    { pose proof (md_vec _ _ _ _ Hmd) as M1. pose proof (md_text _ _ _ _ Hmd) as M2. pose proof (md_mis _ _ _ _ Hmd) as M3. rewrite Q3 in M1.
      assert (Hvt : ovec t = [] /\ otext t = None).
      { destruct Ht as [[Hw _] _]. destruct t as [ty ka ea tx vec sl mis unk]. cbn [oty ovec otext] in *. cbn [wf] in Hw. rewrite Q2, Q3, Q5 in Hw.
        rewrite !andb_true_iff in Hw. destruct Hw as (((((_ & ((Hv & Ht) & _)) & _) & _) & _) & _). destruct vec; [|discriminate]. destruct tx; [discriminate|]. auto. }
      destruct Hvt as [Hv0 Ht0].
      assert (Hsw : slots_wf E (oty r) 0 (c_slots (cls (oty r))) (oslots r) = true).
      { apply slots_wf_intro; [exact Hlen|]. intros i sl Hi. cbn [Nat.add]. rewrite Hrt in Hi |- *. unfold slot_wf. apply andb_true_iff. split.
        - apply forallb_forall. intros c Hc. destruct (R5 i c Hc) as (sl' & Hf). rewrite Hrt in Hf. rewrite Hf. apply Nat.eqb_refl.
        - pose proof (Hone i sl Hi) as Ho. apply Nat.leb_le in Ho. assert (Hp : slot_plain sl = true) by (rewrite forallb_forall in Q1; apply Q1; now apply nth_error_In with i).
          destruct (s_kind sl) eqn:Ek; auto.
          + rewrite Ho. cbn [andb]. unfold values_wf. apply forallb_forall. intros c Hc. destruct (Hreads i sl f c Hi Ek Hc) as [H1 H2]. rewrite H1, H2. now rewrite orb_true_r.
          + unfold slot_plain in Hp. rewrite Ek in Hp. destruct (s_tests sl) as [|[g|g] [|]]; discriminate. }
      assert (Hws : forallb (forallb (wf E)) (oslots r) = true).
      { apply forallb_forall. intros l Hl. apply forallb_forall. intros c Hc. destruct (Hin_slots l c Hl Hc) as (i & Hi). now apply (Hkid i c). }
      destruct r as [ty ka ea tx vec sl mis unk]. cbn [oty ovec otext omis oslots] in *. cbn [wf]. subst ty. rewrite Q2, Q3, Q4, Q5, Q6, R3, Hsw, Hws, M1, M2, M3, Hv0, Ht0. reflexivity. }
    assert (Hcl : cloneable E r = true).
    { pose proof (md_text _ _ _ _ Hmd) as M2. pose proof (md_mis _ _ _ _ Hmd) as M3.
      assert (Ht0 : otext t = None).
      { destruct Ht as [[Hw _] _]. destruct t as [ty ka ea tx vec sl mis unk]. cbn [oty ovec otext] in *. cbn [wf] in Hw. rewrite Q2, Q3, Q5 in Hw.
        rewrite !andb_true_iff in Hw. destruct Hw as (((((_ & ((Hv & Ht) & _)) & _) & _) & _) & _). destruct tx; [discriminate|]. auto. }
      assert (Hws : forallb (forallb (cloneable E)) (oslots r) = true).
      { apply forallb_forall. intros l Hl. apply forallb_forall. intros c Hc. destruct (Hin_slots l c Hl Hc) as (i & Hi). now apply (Hkid i c). }
      assert (Hh : forallb (fun p' => href_values E (oty t) (fst p') (snd p')) (combine (c_slots (cls (oty t))) (oslots r)) = true).
      { apply forallb_forall. intros [sl l] Hin. apply (combine_nth_in _ _ _ _ []) in Hin as (i & Hi & <-). cbn [fst snd]. unfold href_values.
        destruct (s_kind sl) eqn:Ek; auto.
        - apply orb_true_iff. right. apply forallb_forall. intros c Hc. exact (proj2 (Hreads i sl f c Hi Ek Hc)).
        - rewrite forallb_forall in Q1. specialize (Q1 sl (nth_error_In _ _ Hi)). unfold slot_plain in Q1. rewrite Ek in Q1. destruct (s_tests sl) as [|[g|g] [|]]; discriminate. }
      assert (Hk : forallb (fun kl : N * list obj => match kl with (k, []) => true | (k, _) => existsb (N.eqb k) (c_ser (cls (oty t))) end) (combine (keys (c_slots (cls (oty t)))) (oslots r)) = true).
      { apply forallb_forall. intros [k l] Hin. apply in_combine_l in Hin. rewrite forallb_forall in Q7. destruct l; auto. }
      destruct r as [ty ka ea tx vec sl mis unk]. cbn [oty ovec otext omis oslots] in *. cbn [cloneable]. subst ty. rewrite Q2, Q3, Hh, Hk, Hws, M2, M3, Ht0. reflexivity. }
    split; [split; [exact Hwf|split; [exact Hcl|now rewrite Hrt]]|].
    assert (Hnd : forallb (fun l => nodupN (map oty l)) (oslots r) = true).
    { apply forallb_forall. intros l Hl. apply (In_nth _ _ []) in Hl as (i & _ & <-). apply nodupN_intro. apply R4. }
    assert (Hps : forallb (forallb (fun c => is_simple (oty c) || plain_style c)) (oslots r) = true).
    { apply forallb_forall. intros l Hl. apply forallb_forall. intros c Hc. destruct (Hin_slots l c Hl Hc) as (i & Hi). now apply (Hkid i c). }
    pose proof (md_mis _ _ _ _ Hmd) as M3. destruct r as [ty ka ea tx vec sl mis unk]. cbn [oty oea omis oslots] in *. cbn [plain_style]. subst ty mis ea. rewrite B1, Hnd, Hps. reflexivity.
  Qed.
End Plain.

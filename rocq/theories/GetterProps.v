(** C112: the getters of an element give what is written for it. *)
From Coq Require Import Lia.
From Verif Require Import Common StrMap AttributesModel XsdTables XsdModel XmlSpec XmlSpecProofs SerializerModel SerializerProofs SerializerProps.
From Verif Require Import HandlerModel DomTables DomModel DomSpec DomProofs DomProofs2 DomParsed DomProps NamespaceModel NamespaceProps FindModel FindProps.
Local Open Scope N_scope.

(** The type of what is written between the tags of an element. *)
Definition kid_type (i : item) : option N := match i with IElem ty _ _ | IField ty _ | IColor ty _ => Some ty | _ => None end.
Definition kid_in (s : slot) (i : item) : bool := match kid_type i with Some t => takes t s | None => false end.

Definition valid_types : list N := map N.of_nat (seq 0 (N.to_nat Type_Invalid)).
Definition exclusive (c : class) : bool :=
  forallb (fun s => forallb (fun t => Bool.eqb (takes t s) (match find_slot t (c_slots c) 0 with Some (_, s') => s_key s' =? s_key s | None => false end)) valid_types) (c_slots c).
Lemma exclusive_table : forallb (fun p => exclusive (snd p)) classes = true.
Proof. vm_compute. reflexivity. Qed.
Lemma takes_find p s t : t < Type_Invalid -> In s (c_slots (cls p)) ->
  takes t s = match find_slot t (c_slots (cls p)) 0 with Some (_, s') => s_key s' =? s_key s | None => false end.
Proof.
  intros Ht Hs. pose proof (class_forall exclusive p eq_refl exclusive_table) as H. unfold exclusive in H. rewrite forallb_forall in H. specialize (H s Hs).
  rewrite forallb_forall in H. apply Bool.eqb_prop, H. apply in_map_iff. exists (N.to_nat t). split; [lia|]. apply in_seq. lia.
Qed.
Lemma typed_valid ty : is_simple ty = true \/ creatable ty = true -> valid_type ty = true /\ ty < Type_Invalid.
Proof.
  unfold is_simple, creatable, element_type, valid_type. intros H.
  destruct (is_valid (Z.of_N ty)) eqn:V; [|destruct H; discriminate].
  split; [reflexivity|]. unfold is_valid in V. apply andb_true_iff in V as [_ V]. apply Z.ltb_lt in V. lia.
Qed.
Lemma wf_typed E o : wf E o = true -> is_simple (oty o) = true \/ creatable (oty o) = true.
Proof.
  destruct o as [ty ka ea tx vec sl mis unk]. cbn [wf oty]. destruct (is_simple ty); [now left|]. right. rewrite !andb_true_iff in H. tauto.
Qed.
Lemma kid_type_ser o : kid_type (ser o) = Some (oty o).
Proof. destruct o as [ty ka ea tx vec sl mis unk]. cbn [ser oty]. destruct (is_simple ty); [reflexivity|]. now destruct (ty =? Type_coordinates). Qed.
Lemma filter_none {A} (f : A -> bool) l : (forall x, In x l -> f x = false) -> filter f l = [].
Proof. induction l as [|x l IH]; intros H; [reflexivity|]. cbn. rewrite (H x) by now left. apply IH. intros y Hy. apply H. now right. Qed.
Lemma filter_every {A} (f : A -> bool) l : (forall x, In x l -> f x = true) -> filter f l = l.
Proof. induction l as [|x l IH]; intros H; [reflexivity|]. cbn. rewrite (H x) by now left. f_equal. apply IH. intros y Hy. apply H. now right. Qed.
Lemma filter_flat_map {A B} (f : B -> bool) (g : A -> list B) l : filter f (flat_map g l) = flat_map (fun x => filter f (g x)) l.
Proof. induction l as [|x l IH]; [reflexivity|]. cbn. now rewrite filter_app, IH. Qed.
Lemma flat_map_one {A} (g : N -> list A) k l : NoDup l -> In k l -> (forall x, In x l -> x <> k -> g x = []) -> flat_map g l = g k.
Proof.
  induction l as [|x l IH]; intros Hd Hi Hg; [destruct Hi|]. inversion Hd as [|? ? Hx Hd']; subst. cbn. destruct Hi as [->|Hi].
  - replace (flat_map g l) with (@nil A); [apply app_nil_r|]. symmetry. clear IH Hd Hd'. induction l as [|y l IH]; [reflexivity|]. cbn.
    rewrite (Hg y); [|right; now left|intros ->; apply Hx; now left]. apply IH; [intros H; apply Hx; now right|]. intros z Hz. apply Hg. destruct Hz; [now left|right; now right].
  - rewrite (Hg x); [|now left|intros ->; contradiction]. apply IH; auto. intros y Hy. apply Hg. now right.
Qed.

(** Children of a slot. *)
Lemma slot_children E o : wf E o = true -> is_simple (oty o) = false -> forall i s c, nth_error (c_slots (cls (oty o))) i = Some s -> In c (nth i (oslots o) []) ->
  wf E c = true /\ exists s', find_slot (oty c) (c_slots (cls (oty o))) 0 = Some (i, s').
Proof.
  destruct o as [ty ka ea tx vec sl mis unk]. cbn [wf oty oslots]. intros H Hs i s c Hn Hc. rewrite Hs in H. rewrite !andb_true_iff in H.
  destruct H as ((((_ & Hw) & _) & Hf) & _). split.
  - destruct (nth_in_or_default i sl []) as [Hi|E']; [|rewrite E' in Hc; destruct Hc]. rewrite forallb_forall in Hf. specialize (Hf _ Hi). rewrite forallb_forall in Hf. exact (Hf _ Hc).
  - pose proof (slots_wf_nth E ty _ 0 sl i s Hw Hn) as W. cbn [Nat.add] in W. unfold slot_wf in W. apply andb_true_iff in W as [W _]. rewrite forallb_forall in W. specialize (W c Hc).
    destruct (find_slot (oty c) (c_slots (cls ty)) 0) as [[j s']|]; [|discriminate]. apply Nat.eqb_eq in W. subst. eauto.
Qed.
Lemma key_index o s : In s (c_slots (cls (oty o))) -> exists i, index_of_key (s_key s) (c_slots (cls (oty o))) 0 = Some i /\ nth_error (c_slots (cls (oty o))) i = Some s.
Proof.
  intros Hs. destruct (index_of_key (s_key s) (c_slots (cls (oty o))) 0) as [i|] eqn:Ei.
  - exists i. split; [reflexivity|]. apply index_of_key_spec in Ei as [_ Ei]. rewrite Nat.sub_0_r in Ei.
    destruct (In_nth_error _ _ Hs) as [j Hj]. destruct (cls_nodup (oty o)) as [Hd _].
    assert (Hk : nth_error (keys (c_slots (cls (oty o)))) j = Some (s_key s)) by (unfold keys; rewrite nth_error_map, Hj; reflexivity).
    rewrite <- Ei in Hk. assert (j = i); [|now subst]. apply (NoDup_nth_error (keys (c_slots (cls (oty o)))) ) in Hk; auto.
    apply nth_error_Some. rewrite Hk, Ei. discriminate.
  - apply index_of_key_none in Ei. exfalso. apply Ei. unfold keys. now apply in_map.
Qed.

(** C112. For every element that was read, the children a getter gives are exactly the children of this type, or of types derived from it, in what is written for the element,
    in this order. *)
Theorem getters_match_written : forall E o s, wf E o = true -> is_simple (oty o) = false -> In s (c_slots (cls (oty o))) -> In (s_key s) (c_ser (cls (oty o))) ->
  map ser (get o (s_key s)) = filter (kid_in s) (item_kids (ser o)).
Proof.
  intros E o s W Hsim Hs Hk. destruct (key_index o s Hs) as (i & Ei & Ni).
  pose proof (slot_children E o W Hsim) as SC.
  assert (Hmis : forall c, In c (omis o) -> wf E c = true /\ find_slot (oty c) (c_slots (cls (oty o))) 0 = None).
  { destruct o as [ty ka ea tx vec sl mis unk]. cbn [wf oty omis] in *. rewrite Hsim in W. rewrite !andb_true_iff in W.
    destruct W as (((((_ & _) & _) & Hm) & _) & Hf). rewrite forallb_forall in Hm, Hf. intros c Hc. split; [now apply Hf|]. specialize (Hm c Hc). apply andb_true_iff in Hm as [Hm _].
    destruct (find_slot (oty c) (c_slots (cls ty)) 0) as [[? ?]|]; [discriminate|reflexivity]. }
  assert (Hnc : oty o <> Type_coordinates).
  { intros Ec. rewrite Ec in Hs. vm_compute in Hs. exact Hs. }
  assert (Hkids : item_kids (ser o) = own_content (oty o) (otext o) ++ flat_map (fun k => map ser (get o k)) (c_ser (cls (oty o))) ++ map ser (omis o) ++ map IUnknown (ounk o)).
  { clear - Hsim Hnc. destruct o as [ty ka ea tx vec sl mis unk]. cbn [ser oty otext omis ounk] in *. rewrite Hsim. apply N.eqb_neq in Hnc. rewrite Hnc. cbn [item_kids].
    f_equal. f_equal. apply flat_map_ext. intros k. unfold pick, get. cbn [oty oslots]. destruct (index_of_key k (c_slots (cls ty)) 0); [|reflexivity].
    change (@nil item) with (map ser []). now rewrite map_nth. }
  rewrite Hkids. rewrite !filter_app.
  rewrite (filter_none (kid_in s) (own_content (oty o) (otext o))), (filter_none (kid_in s) (map ser (omis o))), (filter_none (kid_in s) (map IUnknown (ounk o))).
  - cbn [app]. rewrite app_nil_r, filter_flat_map. destruct (cls_nodup (oty o)) as [_ Hd].
    assert (Ho : forall k, In k (c_ser (cls (oty o))) -> k <> s_key s -> filter (kid_in s) (map ser (get o k)) = []).
    { intros k Hk' Hne. apply filter_none. intros x Hx. apply in_map_iff in Hx as (c & <- & Hc). unfold kid_in. rewrite kid_type_ser.
      unfold get in Hc. destruct (index_of_key k (c_slots (cls (oty o))) 0) as [j|] eqn:Ej; [|destruct Hc].
      apply index_of_key_spec in Ej as [_ Ej]. rewrite Nat.sub_0_r in Ej. unfold keys in Ej. rewrite nth_error_map in Ej.
      destruct (nth_error (c_slots (cls (oty o))) j) as [s2|] eqn:Nj; [|discriminate]. cbn in Ej. injection Ej as Ej.
      destruct (SC j s2 c Nj Hc) as (Wc & s' & Fs). rewrite (takes_find (oty o) s (oty c)) by (auto; apply typed_valid; now apply (wf_typed E)). rewrite Fs.
      apply find_slot_spec in Fs as [_ Fs]. rewrite Nat.sub_0_r, Nj in Fs. injection Fs as <-. apply N.eqb_neq. congruence. }
    rewrite (flat_map_one _ (s_key s)) by auto.
    symmetry. apply filter_every. intros x Hx. apply in_map_iff in Hx as (c & <- & Hc). unfold kid_in. rewrite kid_type_ser. unfold get in Hc. rewrite Ei in Hc.
    destruct (SC i s c Ni Hc) as (Wc & s' & Fs). rewrite (takes_find (oty o) s (oty c)) by (auto; apply typed_valid; now apply (wf_typed E)). rewrite Fs.
    apply find_slot_spec in Fs as [_ Fs]. rewrite Nat.sub_0_r, Ni in Fs. injection Fs as <-. apply N.eqb_refl.
  - intros x Hx. apply in_map_iff in Hx as (u & <- & _). reflexivity.
  - intros x Hx. apply in_map_iff in Hx as (c & <- & Hc). unfold kid_in. rewrite kid_type_ser. destruct (Hmis c Hc) as (Wc & Fs).
    rewrite (takes_find (oty o) s (oty c)) by (auto; apply typed_valid; now apply (wf_typed E)). now rewrite Fs.
  - intros x Hx. unfold own_content in Hx. destruct (snippet_type (oty o)); [destruct Hx as [<-|[]]; reflexivity|].
    destruct (oty o =? Type_SimpleData); [destruct (otext o); [destruct Hx as [<-|[]]; reflexivity|destruct Hx]|destruct Hx].
Qed.
Print Assumptions getters_match_written.

(** C112. In particular: the children of one type, and the values of simple children. *)
Definition of_type (k : N) (i : item) : bool := match kid_type i with Some t => t =? k | None => false end.
Theorem typed_getters_match_written : forall E o s, wf E o = true -> is_simple (oty o) = false -> In s (c_slots (cls (oty o))) -> In (s_key s) (c_ser (cls (oty o))) ->
  s_tests s = [TType (s_key s)] -> map ser (get o (s_key s)) = filter (of_type (s_key s)) (item_kids (ser o)).
Proof.
  intros E o s W Hs Hin Hk Ht. rewrite (getters_match_written E o s W Hs Hin Hk). apply filter_ext. intros i. unfold kid_in, of_type, takes. rewrite Ht.
  destruct (kid_type i); [|reflexivity]. cbn. now rewrite orb_false_r.
Qed.
Print Assumptions typed_getters_match_written.
Definition values_written (k : N) (i : item) : list str := flat_map (fun c => match c with IField t v => if t =? k then [v] else [] | _ => [] end) (item_kids i).
Lemma wf_child E o k c : wf E o = true -> is_simple (oty o) = false -> In c (get o k) -> wf E c = true /\ exists s, In s (c_slots (cls (oty o))) /\ s_key s = k /\ takes (oty c) s = true.
Proof.
  intros W Hs Hc. unfold get in Hc. destruct (index_of_key k (c_slots (cls (oty o))) 0) as [j|] eqn:Ej; [|destruct Hc].
  apply index_of_key_spec in Ej as [_ Ej]. rewrite Nat.sub_0_r in Ej. unfold keys in Ej. rewrite nth_error_map in Ej.
  destruct (nth_error (c_slots (cls (oty o))) j) as [s2|] eqn:Nj; [|discriminate]. cbn in Ej. injection Ej as Ej.
  destruct (slot_children E o W Hs j s2 c Nj Hc) as (Wc & s' & Fs). split; [exact Wc|]. exists s2. split; [now apply nth_error_In in Nj|]. split; [exact Ej|].
  rewrite (takes_find (oty o) s2 (oty c)); [|apply typed_valid; now apply (wf_typed E)|now apply nth_error_In in Nj]. rewrite Fs. apply find_slot_spec in Fs as [_ Fs]. rewrite Nat.sub_0_r, Nj in Fs. injection Fs as <-. apply N.eqb_refl.
Qed.
Lemma fields_of k l : is_simple k = true -> flat_map (fun c => match c with IField t v => if t =? k then [v] else [] | _ => [] end) (filter (of_type k) l) =
  flat_map (fun c => match c with IField t v => if t =? k then [v] else [] | _ => [] end) l.
Proof.
  intros _. induction l as [|i l IH]; [reflexivity|]. cbn [filter flat_map]. unfold of_type at 1. destruct i as [t a ks|t v|t v|v|a b c|u]; cbn [kid_type]; try exact IH;
    destruct (t =? k) eqn:Et; cbn [flat_map]; rewrite ?Et; try (rewrite IH; reflexivity).
Qed.
Theorem values_match_written : forall E o s, wf E o = true -> is_simple (oty o) = false -> In s (c_slots (cls (oty o))) -> In (s_key s) (c_ser (cls (oty o))) ->
  s_tests s = [TType (s_key s)] -> is_simple (s_key s) = true -> map char_data (get o (s_key s)) = values_written (s_key s) (ser o).
Proof.
  intros E o s W Hs Hin Hk Ht Hsk. unfold values_written. rewrite <- (fields_of _ _ Hsk), <- (typed_getters_match_written E o s W Hs Hin Hk Ht).
  assert (Hty : forall c, In c (get o (s_key s)) -> oty c = s_key s).
  { intros c Hc. destruct (wf_child E o _ c W Hs Hc) as (_ & s' & Hs' & Ek & Htk). destruct (cls_nodup (oty o)) as [Hd _].
    assert (s' = s) as ->. { destruct (In_nth_error _ _ Hs') as [i Hi]. destruct (In_nth_error _ _ Hin) as [j Hj].
      assert (i = j); [|subst; congruence]. apply (proj1 (NoDup_nth_error _) Hd); [unfold keys; rewrite map_length; apply nth_error_Some; rewrite Hi; discriminate|].
      unfold keys. rewrite !nth_error_map, Hi, Hj. cbn. now rewrite Ek. }
    unfold takes in Htk. rewrite Ht in Htk. cbn in Htk. rewrite orb_false_r in Htk. now apply N.eqb_eq in Htk. }
  induction (get o (s_key s)) as [|c l IH]; [reflexivity|]. cbn [map flat_map]. rewrite <- IH by (intros; apply Hty; now right). clear IH.
  specialize (Hty c (or_introl eq_refl)). destruct c as [ty ka ea tx vec sl mis unk]. cbn [oty] in Hty. cbn [ser char_data otext]. rewrite Hty, Hsk, N.eqb_refl. reflexivity.
Qed.
Print Assumptions values_match_written.

(** C112. The href of the Link or Icon of an element is the value of the first href in the first Link or Icon written for it. *)
Definition first_of (ks : list N) (i : item) : option item := List.find (fun c => existsb (fun k => of_type k c) ks) (item_kids i).
Definition href_of (ks : list N) (i : item) : option str := match first_of ks i with Some l => hd_error (values_written Type_href l) | None => None end.
Lemma hd_filter {A} (f : A -> bool) l : hd_error (filter f l) = List.find f l.
Proof. induction l as [|x l IH]; [reflexivity|]. cbn. destruct (f x); [reflexivity|exact IH]. Qed.
Definition link_like (k : N) : bool := existsb (N.eqb k) [Type_Link; Type_Url; Type_Icon; Type_IconStyleIcon].
Lemma find_ext {A} (f g : A -> bool) l : (forall x, f x = g x) -> List.find f l = List.find g l.
Proof. intros H. induction l as [|x l IH]; [reflexivity|]. cbn. now rewrite H, IH. Qed.
Lemma href_match E o ks s : wf E o = true -> is_simple (oty o) = false -> forallb link_like ks = true -> In s (c_slots (cls (oty o))) -> s_tests s = map TType ks ->
  In (s_key s) (c_ser (cls (oty o))) -> get_href (hd_error (get o (s_key s))) = href_of ks (ser o).
Proof.
  intros W Hs Hl Hin Ht Hk. unfold href_of, first_of. rewrite (find_ext _ (kid_in s)).
  2:{ intros x. unfold of_type, kid_in, takes. rewrite Ht. destruct (kid_type x) as [t|]; [|clear; induction ks as [|k ks IH]; [reflexivity|exact IH]]. clear. induction ks as [|k ks IH]; [reflexivity|]. cbn. now rewrite IH. }
  rewrite <- hd_filter. rewrite <- (getters_match_written E o s W Hs Hin Hk).
  destruct (get o (s_key s)) as [|c l] eqn:Eg; [reflexivity|]. cbn [hd_error map get_href].
  assert (Hc : In c (get o (s_key s))) by (rewrite Eg; now left). destruct (wf_child E o _ c W Hs Hc) as (Wc & s' & Hs' & Ek & Htk).
  destruct (cls_nodup (oty o)) as [Hd _]. assert (s' = s) as ->. { destruct (In_nth_error _ _ Hs') as [i Hi]. destruct (In_nth_error _ _ Hin) as [j Hj].
    assert (i = j); [|subst; congruence]. apply (proj1 (NoDup_nth_error _) Hd); [unfold keys; rewrite map_length; apply nth_error_Some; rewrite Hi; discriminate|].
    unfold keys. rewrite !nth_error_map, Hi, Hj. cbn. now rewrite Ek. }
  assert (Hll : link_like (oty c) = true).
  { unfold takes in Htk. rewrite Ht in Htk. apply existsb_exists in Htk as (t & Ht' & Ha). apply in_map_iff in Ht' as (k & <- & Hk'). cbn in Ha. apply N.eqb_eq in Ha. rewrite Ha. rewrite forallb_forall in Hl. now apply Hl. }
  assert (exists sh, In sh (c_slots (cls (oty c))) /\ s_key sh = Type_href /\ s_tests sh = [TType Type_href] /\ In Type_href (c_ser (cls (oty c))) /\ is_simple (oty c) = false) as (sh & H1 & H2 & H3 & H4 & H5).
  { clear - Hll. unfold link_like in Hll. cbn [existsb] in Hll. rewrite !orb_true_iff, !N.eqb_eq in Hll. destruct Hll as [->|[->|[->|[->|Hll]]]]; [| | | |discriminate];
      (exists (fld Type_href FHref); split; [vm_compute; tauto|split; [reflexivity|split; [reflexivity|split; [vm_compute; tauto|reflexivity]]]]). }
  rewrite <- H2 in H3, H4. pose proof (values_match_written E c sh Wc H5 H1 H4 H3) as V. rewrite H2 in V. rewrite <- (V eq_refl). now destruct (get c Type_href).
Qed.
Ltac slot_in := split; [vm_compute; tauto|split; [reflexivity|split; [vm_compute; tauto|reflexivity]]].
Theorem link_href_written : forall E o, wf E o = true -> oty o = Type_NetworkLink -> get_link_parent_href o = href_of [Type_Link; Type_Url] (ser o).
Proof.
  intros E o W Hty. unfold get_link_parent_href.
  assert (exists s, s_key s = Type_Link /\ In s (c_slots (cls (oty o))) /\ s_tests s = map TType [Type_Url; Type_Link] /\ In Type_Link (c_ser (cls (oty o))) /\ is_simple (oty o) = false) as (s & H2 & H1 & H3 & H4 & H5).
  { rewrite Hty. exists {| s_key := Type_Link; s_tests := [TType Type_Url; TType Type_Link]; s_kind := KChild |}. split; [reflexivity|]. slot_in. }
  rewrite <- H2 in H4 |- *. rewrite (href_match E o [Type_Url; Type_Link] s) by auto. unfold href_of, first_of. rewrite (find_ext _ (fun c => existsb (fun k => of_type k c) [s_key s; Type_Url])); [reflexivity|].
  intros x. rewrite H2. cbn [existsb]. rewrite !orb_false_r. apply orb_comm.
Qed.
Print Assumptions link_href_written.
Theorem model_href_written : forall E o, wf E o = true -> oty o = Type_Model -> get_link_parent_href o = href_of [Type_Link] (ser o).
Proof.
  intros E o W Hty. apply (href_match E o [Type_Link] (one Type_Link)); auto; rewrite Hty; try reflexivity; vm_compute; tauto.
Qed.
Print Assumptions model_href_written.
Theorem icon_href_written : forall E o, wf E o = true -> In (oty o) [Type_GroundOverlay; Type_ScreenOverlay; Type_PhotoOverlay] -> get_icon_parent_href o = href_of [Type_Icon] (ser o).
Proof.
  intros E o W Hty. unfold get_icon_parent_href.
  assert (get o Type_IconStyleIcon = []) as ->. { unfold get. destruct Hty as [<-|[<-|[<-|[]]]]; reflexivity. }
  rewrite app_nil_r. apply (href_match E o [Type_Icon] (one Type_Icon)); auto; destruct Hty as [<-|[<-|[<-|[]]]]; try reflexivity; vm_compute; tauto.
Qed.
Print Assumptions icon_href_written.
Theorem iconstyle_href_written : forall E o, wf E o = true -> oty o = Type_IconStyle -> get_icon_parent_href o = href_of [Type_IconStyleIcon] (ser o).
Proof.
  intros E o W Hty. unfold get_icon_parent_href.
  assert (get o Type_Icon = []) as ->. { unfold get. rewrite Hty. reflexivity. }
  cbn [app]. apply (href_match E o [Type_IconStyleIcon] (one Type_IconStyleIcon)); auto; rewrite Hty; try reflexivity; vm_compute; tauto.
Qed.
Print Assumptions iconstyle_href_written.
(** C112. The hypotheses hold for what the parser makes (parsed_wf). *)
Example getters_sample :
  let o := read0 (S_ "<NetworkLink><name>n</name><Url><href>a.kml</href></Url></NetworkLink>") in
  wf E0 o = true /\ get_link_parent_href o = Some (S_ "a.kml") /\ values_written Type_name (ser o) = [S_ "n"] /\ map char_data (get o Type_name) = [S_ "n"].
Proof. vm_compute. repeat split. Qed.
(** C112. The exception: the name of a locality is stored but never written. *)
Theorem locality_name_refuted : exists o, wf E0 o = true /\ map char_data (get o Type_xalLocalityName) = [S_ "Oslo"] /\ values_written Type_xalLocalityName (ser o) = [].
Proof. exists (read0 (S_ "<xal:Locality><xal:LocalityName>Oslo</xal:LocalityName></xal:Locality>")). vm_compute. repeat split. Qed.
Print Assumptions locality_name_refuted.

(** Properties of the namespaces a written file declares. *)
From Verif Require Import Common StrMap StringsModel ColorModel AttributesModel AttributesProofs XsdTables XsdModel XmlSpec XmlSpecProofs.
From Verif Require Import SerializerModel SerializerProofs CoordModel CoordProofs HandlerModel HandlerSpec HandlerProps.
From Verif Require Import DomTables DomModel DomSpec DomProofs DomProofs2 DomParsed DomProps IdProofs IdProps NamespaceModel.
Local Open Scope N_scope.

(** C84. Specification: the complex elements in what is written, and the prefix of a name. *)
Fixpoint elements (i : item) : list N := match i with IElem ty _ ks => ty :: flat_map elements ks | _ => [] end.
Definition colon (c : ascii) : bool := aeq c ":"%char.
Definition prefix_of (s : str) : option str := if existsb colon s then Some (take_while (fun c => negb (colon c)) s) else None.
(** No element has children its class does not take. *)
Fixpoint placed (o : obj) : bool := nilb (omis o) && forallb (forallb placed) (oslots o).

Lemma pick_map {A B} (f : A -> list B) c l k : flat_map f (pick c l k) = pick c (map (flat_map f) l) k.
Proof.
  unfold pick. destruct (index_of_key k (c_slots c) 0) as [i|]; [|reflexivity].
  change (@nil B) with (flat_map f (@nil A)) at 1. now rewrite map_nth.
Qed.
Lemma flat_map_picks {A B} (f : A -> list B) c l ks : flat_map f (flat_map (pick c l) ks) = flat_map (pick c (map (flat_map f) l)) ks.
Proof. induction ks as [|k ks IH]; [reflexivity|]. cbn [flat_map]. now rewrite flat_map_app, pick_map, IH. Qed.
Lemma elements_saved o : placed o = true -> elements (ser o) = saved_types o.
Proof.
  induction o as [ty ka ea tx vec sl mis unk IHs IHm] using obj_ind2. intros H. cbn [placed omis oslots] in H. apply andb_true_iff in H as [Hm Hs].
  destruct mis; [|discriminate]. cbn [ser saved_types]. destruct (is_simple ty); [reflexivity|]. destruct (ty =? Type_coordinates).
  { cbn [elements]. f_equal. induction vec as [|[[a b] c] vec IH]; [reflexivity|exact IH]. }
  cbn [elements]. f_equal. rewrite !flat_map_app. cbn [map flat_map app].
  assert (H1 : flat_map elements (own_content ty tx) = []).
  { unfold own_content. destruct (snippet_type ty); [reflexivity|]. destruct (ty =? Type_SimpleData); [|reflexivity]. now destruct tx. }
  assert (H2 : flat_map elements (map IUnknown unk) = []) by (clear; induction unk; auto).
  rewrite H1, H2. cbn [app]. rewrite flat_map_picks. f_equal.
  assert (E : map (flat_map elements) (map (map ser) sl) = map (flat_map saved_types) sl); [|now rewrite E].
  rewrite map_map. clear Hm H1 H2. induction IHs as [|l sl Hl IHs IH]; [reflexivity|]. cbn [map forallb] in *. apply andb_true_iff in Hs as [H1 H2].
  f_equal; [|now apply IH]. clear IH IHs H2. induction Hl as [|x l Hx Hl IH]; [reflexivity|]. cbn [map flat_map forallb] in *. apply andb_true_iff in H1 as [H0 H1].
  now rewrite Hx, IH.
Qed.

(** What is found. *)
Lemma found_other sel p : forall (l : list (N * (str * str))) m, ~ In p (map (fun e => fst (snd e)) l) ->
  mget p (fold_left (fun m e => if sel (fst e) : bool then mset (fst (snd e)) (snd (snd e)) m else m) l m) = mget p m.
Proof.
  induction l as [|[i [q u]] l IH]; intros m H; [reflexivity|]. cbn [fold_left fst snd map In] in *. rewrite IH by tauto. destruct (sel i); [|reflexivity].
  rewrite mget_mset_any. destruct (eqs p q) eqn:E; [|reflexivity]. apply eqs_spec in E. subst. tauto.
Qed.
Lemma found_get (sel : N -> bool) i p u : forall (l : list (N * (str * str))) m, NoDup (map (fun e => fst (snd e)) l) -> In (i, (p, u)) l ->
  mget p (fold_left (fun m e => if sel (fst e) then mset (fst (snd e)) (snd (snd e)) m else m) l m) = if sel i then Some u else mget p m.
Proof.
  induction l as [|[j [q v]] l IH]; intros m Hn H; [destruct H|]. cbn [fold_left fst snd map] in *. inversion Hn as [|? ? Hq Hn']; subst. destruct H as [H|H].
  - inversion H; subst. rewrite (found_other sel p) by exact Hq. destruct (sel i); [|reflexivity]. now rewrite mget_mset_any, eqs_refl.
  - rewrite IH by assumption. destruct (sel i); [reflexivity|]. destruct (sel j); [|reflexivity]. rewrite mget_mset_any. destruct (eqs p q) eqn:E; [|reflexivity].
    apply eqs_spec in E. subst q. exfalso. apply Hq. apply in_map_iff. exists (i, (p, u)). auto.
Qed.
Lemma prefixes_distinct : NoDup (map (fun e => fst (snd e)) namespaces).
Proof.
  assert (H : forall l : list str, (fix nd l := match l with [] => true | x :: r => negb (existsb (eqs x) r) && nd r end) l = true -> NoDup l).
  { induction l as [|x l IH]; intros H; constructor; apply andb_true_iff in H as [H1 H2]; [|auto].
    intros Hi. apply negb_true_iff in H1. assert (existsb (eqs x) l = true) by (apply existsb_exists; exists x; split; [exact Hi|apply eqs_refl]). congruence. }
  apply H. vm_compute. reflexivity.
Qed.
Lemma found_sorted sel : forall (l : list (N * (str * str))) m, msorted m ->
  msorted (fold_left (fun m e => if sel (fst e) : bool then mset (fst (snd e)) (snd (snd e)) m else m) l m).
Proof. induction l as [|[i [q u]] l IH]; intros m H; [exact H|]. cbn [fold_left fst snd]. apply IH. destruct (sel i); [now apply mset_sorted|exact H]. Qed.
Definition new_xmlns (o : obj) : attrs :=
  let '(v, m) := cut_value (S_ "kml") (find_namespaces o) in match v with Some u => set_value (S_ "xmlns") u m | None => m end.
Definition uses (o : obj) (i : N) : bool := mem (map xmlns_of (oty o :: saved_types o)) i.
Lemma find_get o i p u : In (i, (p, u)) namespaces -> mget p (find_namespaces o) = if uses o i then Some u else None.
Proof. intros H. unfold find_namespaces. apply (found_get (mem (map xmlns_of (oty o :: saved_types o))) i p u namespaces [] prefixes_distinct H). Qed.
Lemma find_other o p : ~ In p (map (fun e => fst (snd e)) namespaces) -> mget p (find_namespaces o) = None.
Proof. intros H. unfold find_namespaces. exact (found_other (mem (map xmlns_of (oty o :: saved_types o))) p namespaces [] H). Qed.
Lemma find_sorted o : msorted (find_namespaces o).
Proof. unfold find_namespaces. exact (found_sorted (mem (map xmlns_of (oty o :: saved_types o))) namespaces [] msorted_nil). Qed.
Lemma new_xmlns_sorted o : msorted (new_xmlns o).
Proof.
  pose proof (find_sorted o) as H. revert H. unfold new_xmlns. generalize (find_namespaces o) as F. intros F H.
  pose proof (cut_value_sorted (S_ "kml") F H) as H'. destruct (cut_value (S_ "kml") F) as [v m]. cbn [snd] in H'.
  destruct v; [now apply mset_sorted|exact H'].
Qed.
Definition uri_kml : str := S_ "http://www.opengis.net/kml/2.2".
Lemma default_in : In (XMLNS_KML22, (S_ "kml", uri_kml)) namespaces.
Proof. do 12 right. now left. Qed.
Lemma xmlns_no_prefix : ~ In (S_ "xmlns") (map (fun e => fst (snd e)) namespaces).
Proof.
  intros H. assert (T : existsb (eqs (S_ "xmlns")) (map (fun e => fst (snd e)) namespaces) = true) by (apply existsb_exists; exists (S_ "xmlns"); split; [exact H|apply eqs_refl]).
  vm_compute in T. discriminate.
Qed.
Lemma cut_kml F v m : cut_value (S_ "kml") F = (v, m) -> v = mget (S_ "kml") F /\ forall p, p <> S_ "kml" -> mget p m = mget p F.
Proof. intros H. pose proof (cut_value_view (S_ "kml") F) as (_ & V2 & V3). rewrite H in V2, V3. split; [exact V2|exact V3]. Qed.
Lemma new_xmlns_get o p i u : In (i, (p, u)) namespaces -> i <> XMLNS_KML22 -> mget p (new_xmlns o) = if uses o i then Some u else None.
Proof.
  intros H Hi.
  assert (P : p <> S_ "kml" /\ p <> S_ "xmlns").
  { assert (T : forallb (fun e => (fst e =? XMLNS_KML22) || negb (eqs (fst (snd e)) (S_ "kml")) && negb (eqs (fst (snd e)) (S_ "xmlns"))) namespaces = true) by (vm_compute; reflexivity).
    rewrite forallb_forall in T. specialize (T _ H). cbn [fst snd] in T. apply N.eqb_neq in Hi. rewrite Hi in T. cbn [orb] in T. apply andb_true_iff in T as [T1 T2].
    apply negb_true_iff in T1, T2. split; intros ->; rewrite eqs_refl in *; discriminate. }
  destruct P as [P1 P2]. pose proof (find_get o i p u H) as G. revert G. unfold new_xmlns. generalize (find_namespaces o) as F. intros F G.
  destruct (cut_value (S_ "kml") F) as [v m] eqn:C. apply cut_kml in C as [_ C]. rewrite <- G, <- (C p P1).
  destruct v; [|reflexivity]. unfold set_value. rewrite mget_mset_any. apply eqs_neq in P2. now rewrite P2.
Qed.
Lemma new_xmlns_default o : mget (S_ "xmlns") (new_xmlns o) = if uses o XMLNS_KML22 then Some uri_kml else None.
Proof.
  pose proof (find_get o _ _ _ default_in) as G. pose proof (find_other o _ xmlns_no_prefix) as G'. revert G G'. unfold new_xmlns. generalize (find_namespaces o) as F. intros F G G'.
  destruct (cut_value (S_ "kml") F) as [v m] eqn:C. apply cut_kml in C as [C1 C2]. rewrite G in C1. subst v.
  destruct (uses o XMLNS_KML22).
  - unfold set_value. now rewrite mget_mset_any, eqs_refl.
  - now rewrite C2, G' by discriminate.
Qed.
Lemma new_xmlns_other o p : p <> S_ "xmlns" -> ~ In p (map (fun e => fst (snd e)) namespaces) -> mget p (new_xmlns o) = None.
Proof.
  intros P H. pose proof (find_other o p H) as G. assert (P' : p <> S_ "kml") by (intros ->; apply H; do 12 right; now left).
  revert G. unfold new_xmlns. generalize (find_namespaces o) as F. intros F G. destruct (cut_value (S_ "kml") F) as [v m] eqn:C. apply cut_kml in C as [_ C].
  assert (N : mget p m = None) by now rewrite C.
  destruct v; [|exact N]. unfold set_value. rewrite mget_mset_any. apply eqs_neq in P. now rewrite P.
Qed.

(** The root of what was read. *)
Lemma att_keys ty p : att_kind (c_atts (cls ty)) (xmlns_key p) = None.
Proof.
  assert (T : forallb (fun c => forallb (fun k => negb (eqs (fst k) (S_ "xmlns")) && negb (has_prefix (S_ "xmlns") (fst k))) (c_atts (snd c))) classes = true) by (vm_compute; reflexivity).
  unfold cls, class_of. destruct (lookup ty classes) as [c|] eqn:El; [|reflexivity]. apply lookup_in in El. rewrite forallb_forall in T. specialize (T _ El). cbn [snd] in T.
  clear El. induction (c_atts c) as [|[k kd] l IH]; [reflexivity|]. cbn [forallb att_kind fst] in *. apply andb_true_iff in T as [T1 T2]. apply andb_true_iff in T1 as [T1 T3].
  destruct (eqs (xmlns_key p) k) eqn:E; [|exact (IH T2)]. apply eqs_spec in E. subst k. exfalso. unfold xmlns_key in *. destruct (eqs p (S_ "xmlns")) eqn:Ep.
  - apply eqs_spec in Ep. subst p. discriminate.
  - cbn in T3. discriminate.
Qed.
Lemma unknown_sorted a : msorted a -> match xmlns (add_unknown_attributes no_attrs a) with Some x => msorted x | None => True end.
Proof.
  intros H. unfold add_unknown_attributes. destruct (split_sorted (S_ "xmlns") a H) as [S1 S2]. destruct (split_by_prefix (S_ "xmlns") a) as [sp a']. cbn [fst snd] in *.
  destruct (cut_value (S_ "xmlns") a') as [d a'']. cbn [xmlns no_attrs].
  assert (X : match match sp with Some s => Some s | None => None end with Some x => msorted x | None => True end) by (destruct sp; [now apply S2|exact I]).
  destruct d as [v|]; destruct a'' as [|e a'']; cbn [xmlns]; auto; unfold set_value; apply mset_sorted; destruct sp; auto using msorted_nil.
Qed.
Lemma wf_root E o : wf E o = true -> is_simple (oty o) = false ->
  msorted (oka o) /\ (forall p, mget (xmlns_key p) (oka o) = None) /\ match xmlns (oea o) with Some x => msorted x | None => True end.
Proof.
  intros H Hs. destruct o as [ty ka ea tx vec sl mis unk]. cbn [wf oty oka oea] in *. rewrite Hs in H. rewrite !andb_true_iff in H. destruct H as ((((((_ & H) & _) & _) & _) & _) & _).
  unfold attrs_same in H. cbv zeta in H. rewrite parse_attributes_create in H. apply andb_true_iff in H as [H1 H2].
  destruct (cut_known_spec E ty (c_atts (cls ty)) _ [] (out_attributes_sorted (Obj ty ka ea tx vec sl mis unk)) msorted_nil) as (C1 & C2 & C3 & C4).
  cbn [oka oea set_ea set_ka create] in H1, H2. apply attrs_eqb_eq in H1. apply ea_eqb_eq in H2. split; [now rewrite <- H1|]. split.
  - intros p. rewrite <- H1. specialize (C4 (xmlns_key p)). unfold view, find_value in C4. rewrite C4. unfold kept. now rewrite att_keys.
  - rewrite <- H2. now apply unknown_sorted.
Qed.
Lemma insert_ea o : oea (insert_namespaces o) = {| unknown := unknown (oea o); xmlns := Some (merge_attributes (match xmlns (oea o) with Some x => x | None => [] end) (new_xmlns o)) |}.
Proof. unfold insert_namespaces, new_xmlns. destruct (cut_value (S_ "kml") (find_namespaces o)) as [v m]. destruct o. reflexivity. Qed.
Lemma insert_rest o : oty (insert_namespaces o) = oty o /\ oka (insert_namespaces o) = oka o /\ otext (insert_namespaces o) = otext o /\
  ovec (insert_namespaces o) = ovec o /\ oslots (insert_namespaces o) = oslots o /\ omis (insert_namespaces o) = omis o /\ ounk (insert_namespaces o) = ounk o.
Proof. unfold insert_namespaces. destruct (cut_value (S_ "kml") (find_namespaces o)) as [v m]. destruct o. repeat split. Qed.
Lemma declared_get E o p : wf E o = true -> is_simple (oty o) = false ->
  mget (xmlns_key p) (out_attributes (insert_namespaces o)) =
  match mget p (new_xmlns o) with Some u => Some u | None => mget (xmlns_key p) (out_attributes o) end.
Proof.
  intros Hw Hs. destruct (wf_root E o Hw Hs) as (R1 & R2 & R3). destruct (insert_rest o) as (_ & K & _).
  assert (G : forall x, msorted x -> mget (xmlns_key p) (merge_attributes x (oka o)) = mget (xmlns_key p) x).
  { intros x Hx. pose proof (merge_view x (oka o) (xmlns_key p) Hx R1) as M. unfold view, find_value in M. now rewrite M, R2. }
  unfold out_attributes. rewrite K, !G by apply serialize_attributes_sorted, msorted_nil. rewrite insert_ea.
  pose proof (new_xmlns_sorted o) as Hn. revert Hn. generalize (new_xmlns o) as M. intros M Hn. unfold serialize_attributes. cbn [unknown xmlns].
  set (b := match unknown (oea o) with Some u => merge_attributes [] u | None => [] end).
  assert (Hb : msorted b) by (unfold b; destruct (unknown (oea o)); [apply merge_fold_sorted|]; apply msorted_nil).
  set (x := match xmlns (oea o) with Some x => x | None => [] end). assert (Hx : msorted x) by (unfold x; destruct (xmlns (oea o)); auto using msorted_nil).
  fold (xfold (merge_attributes x M) b). rewrite xfold_view_in by auto using merge_sorted.
  pose proof (merge_view x M p Hx Hn) as V. unfold view, find_value in V. rewrite V. clear V.
  destruct (mget p M); [reflexivity|]. unfold x. destruct (xmlns (oea o)) as [x0|]; [|reflexivity].
  fold (xfold x0 b). now rewrite xfold_view_in.
Qed.
Lemma types_creatable E o : wf E o = true -> forall t, In t (saved_types o) -> creatable t = true /\ is_simple t = false.
Proof.
  induction o as [ty ka ea tx vec sl mis unk IHs IHm] using obj_ind2. intros H t. cbn [wf saved_types] in *. destruct (is_simple ty) eqn:Hs; [intros []|].
  rewrite !andb_true_iff in H. destruct H as ((((((Hc & _) & _) & _) & _) & Hsl) & Hmi).
  destruct (ty =? Type_coordinates). { intros [<-|[]]. auto. }
  intros [<-|Hi]; [auto|]. apply in_app_or in Hi as [Hi|Hi].
  - apply in_flat_map in Hi as (k & _ & Hi). unfold pick in Hi. destruct (index_of_key k (c_slots (cls ty)) 0) as [i|]; [|destruct Hi].
    change (@nil N) with (flat_map saved_types []) in Hi. rewrite map_nth in Hi. apply in_flat_map in Hi as (c & Hc' & Hi).
    destruct (nth_in_or_default i sl []) as [Hn|Hn]; [|rewrite Hn in Hc'; destruct Hc'].
    rewrite Forall_forall in IHs. specialize (IHs _ Hn). rewrite Forall_forall in IHs. rewrite forallb_forall in Hsl. specialize (Hsl _ Hn). rewrite forallb_forall in Hsl. eauto.
  - apply in_flat_map in Hi as (c & Hc' & Hi). rewrite Forall_forall in IHm. rewrite forallb_forall in Hmi. apply (IHm c Hc' (Hmi c Hc')).
    destruct (saved_types c); [destruct Hi|now right].
Qed.
(** The elements whose class says nothing about the namespace (vec2.h, geometry.h:352-416). *)
Definition unassigned (t : N) : bool := is_a t Type_Vec2 || (t =? Type_innerBoundaryIs) || (t =? Type_outerBoundaryIs).
Lemma prefix_table : forallb (fun n => let t := N.of_nat n in negb (creatable t) || is_simple t ||
  match prefix_of (tag_name t) with
  | Some q => existsb (fun e => (fst e =? xmlns_of t) && eqs (fst (snd e)) q) namespaces && negb (xmlns_of t =? XMLNS_KML22)
  | None => (xmlns_of t =? XMLNS_KML22) || unassigned t
  end) (seq 0 (N.to_nat Type_Invalid)) = true.
Proof. vm_compute. reflexivity. Qed.
Lemma creatable_bound t : creatable t = true -> t < Type_Invalid.
Proof.
  unfold creatable, element_type. destruct (is_valid (Z.of_N t)) eqn:V; [|discriminate]. intros _. unfold is_valid in V. apply andb_true_iff in V as [_ V]. apply Z.ltb_lt in V. lia.
Qed.
Lemma prefix_spec t : creatable t = true -> is_simple t = false ->
  match prefix_of (tag_name t) with
  | Some q => exists u, In (xmlns_of t, (q, u)) namespaces /\ xmlns_of t <> XMLNS_KML22
  | None => xmlns_of t = XMLNS_KML22 \/ unassigned t = true
  end.
Proof.
  intros Hc Hs. pose proof (creatable_bound t Hc) as B. pose proof prefix_table as T. rewrite forallb_forall in T. specialize (T (N.to_nat t)).
  cbv zeta in T. rewrite N2Nat.id in T. rewrite Hc, Hs in T. cbn [negb orb] in T. specialize (T ltac:(apply in_seq; lia)).
  destruct (prefix_of (tag_name t)) as [q|].
  - apply andb_true_iff in T as [T1 T2]. apply existsb_exists in T1 as ([i [p u]] & Hi & T1). cbn [fst snd] in T1. apply andb_true_iff in T1 as [E1 E2]. apply N.eqb_eq in E1. apply eqs_spec in E2. subst.
    exists u. split; [exact Hi|]. apply negb_true_iff in T2. now apply N.eqb_neq.
  - apply orb_true_iff in T as [T|T]; [left; now apply N.eqb_eq|now right].
Qed.
Lemma used_in o t : In t (saved_types o) -> uses o (xmlns_of t) = true.
Proof. intros H. unfold uses, mem. apply existsb_exists. exists (xmlns_of t). split; [|apply N.eqb_refl]. cbn [map]. right. now apply in_map. Qed.

(** The root of a written file declares the prefix of every complex element in it, with the namespace of the table; and the namespace of KML
    as the default namespace if there is an element of KML, which are all those without a prefix but positions such as hotSpot
    and the boundaries of a Polygon. *)
Theorem namespaces_declared : forall E o, wf E o = true -> is_simple (oty o) = false -> oty o <> Type_coordinates -> placed o = true ->
  exists a ks, ser (insert_namespaces o) = IElem (oty o) a ks /\
    (forall t q, In t (elements (ser o)) -> prefix_of (tag_name t) = Some q ->
       exists i u, In (i, (q, u)) namespaces /\ mget (S_ "xmlns:" ++ q) a = Some u) /\
    (forall t, In t (elements (ser o)) -> prefix_of (tag_name t) = None -> unassigned t = false -> mget (S_ "xmlns") a = Some uri_kml).
Proof.
  intros E o Hw Hs Hc Hp. destruct (insert_rest o) as (R1 & _). exists (out_attributes (insert_namespaces o)).
  assert (S : exists ks, ser (insert_namespaces o) = IElem (oty o) (out_attributes (insert_namespaces o)) ks).
  { destruct (insert_namespaces o) as [ty ka ea tx vec sl mis unk]. cbn [oty] in R1. subst ty. cbn [ser]. rewrite Hs. apply N.eqb_neq in Hc. rewrite Hc. eexists. reflexivity. }
  destruct S as (ks & S). exists ks. split; [exact S|]. rewrite (elements_saved o Hp). split.
  - intros t q Ht Hq. destruct (types_creatable E o Hw t Ht) as [T1 T2]. pose proof (prefix_spec t T1 T2) as P. rewrite Hq in P. destruct P as (u & Pu & Pi).
    exists (xmlns_of t), u. split; [exact Pu|].
    assert (K : xmlns_key q = S_ "xmlns:" ++ q).
    { unfold xmlns_key. destruct (eqs q (S_ "xmlns")) eqn:Eq; [|reflexivity]. apply eqs_spec in Eq. subst q. exfalso.
      assert (X : forallb (fun e => negb (eqs (fst (snd e)) (S_ "xmlns"))) namespaces = true) by (vm_compute; reflexivity).
      rewrite forallb_forall in X. specialize (X _ Pu). discriminate. }
    rewrite <- K, (declared_get E o q Hw Hs), (new_xmlns_get o q (xmlns_of t) u Pu Pi), (used_in o t Ht). reflexivity.
  - intros t Ht Hq Hv. destruct (types_creatable E o Hw t Ht) as [T1 T2]. pose proof (prefix_spec t T1 T2) as P. rewrite Hq in P. destruct P as [P|P]; [|congruence].
    pose proof (declared_get E o (S_ "xmlns") Hw Hs) as D. unfold xmlns_key in D. rewrite eqs_refl in D. rewrite D, new_xmlns_default, <- P, (used_in o t Ht). reflexivity.
Qed.
Print Assumptions namespaces_declared.

(** Nothing but the namespace attributes of the root changes: its contents, and every attribute which is not of a namespace of the table. *)
Theorem namespaces_change_root_only : forall E o, wf E o = true -> is_simple (oty o) = false -> oty o <> Type_coordinates ->
  exists a a' ks, ser o = IElem (oty o) a ks /\ ser (insert_namespaces o) = IElem (oty o) a' ks /\
    (forall k, (forall p, k <> xmlns_key p) -> mget k a' = mget k a) /\
    (forall p, p <> S_ "xmlns" -> ~ In p (map (fun e => fst (snd e)) namespaces) -> mget (xmlns_key p) a' = mget (xmlns_key p) a).
Proof.
  intros E o Hw Hs Hc. exists (out_attributes o), (out_attributes (insert_namespaces o)).
  assert (S : exists ks, ser o = IElem (oty o) (out_attributes o) ks /\ ser (insert_namespaces o) = IElem (oty o) (out_attributes (insert_namespaces o)) ks).
  { destruct (insert_rest o) as (R1 & R2 & R3 & R4 & R5 & R6 & R7). destruct (insert_namespaces o) as [ty ka ea tx vec sl mis unk]. destruct o as [ty0 ka0 ea0 tx0 vec0 sl0 mis0 unk0].
    cbn [oty oka otext ovec oslots omis ounk] in *. subst. cbn [ser]. rewrite Hs. apply N.eqb_neq in Hc. rewrite Hc. eexists. split; reflexivity. }
  destruct S as (ks & S1 & S2). exists ks. split; [exact S1|]. split; [exact S2|]. split.
  - intros k Hk. destruct (wf_root E o Hw Hs) as (R1 & R2 & R3). destruct (insert_rest o) as (_ & K & _). unfold out_attributes. rewrite K.
    assert (G : forall x, msorted x -> mget k (merge_attributes x (oka o)) = match mget k (oka o) with Some v => Some v | None => mget k x end).
    { intros x Hx. exact (merge_view x (oka o) k Hx R1). }
    rewrite !G by apply serialize_attributes_sorted, msorted_nil. destruct (mget k (oka o)); [reflexivity|]. rewrite insert_ea. generalize (new_xmlns o) as M. intros M. unfold serialize_attributes. cbn [unknown xmlns].
    set (b := match unknown (oea o) with Some u => merge_attributes [] u | None => [] end).
    assert (Hb : msorted b) by (unfold b; destruct (unknown (oea o)); [apply merge_fold_sorted|]; apply msorted_nil).
    rewrite (xfold_view_out _ b k Hb) by (intros k' Ek; exact (Hk k' (eq_sym Ek))).
    destruct (xmlns (oea o)) as [x|]; [|reflexivity]. symmetry. apply (xfold_view_out x b k Hb). intros k' Ek. exact (Hk k' (eq_sym Ek)).
  - intros p P1 P2. now rewrite (declared_get E o p Hw Hs), (new_xmlns_other o p P1 P2).
Qed.
Print Assumptions namespaces_change_root_only.
(** A namespace is only declared if an element of it is there; otherwise what the root said before is kept. *)
Theorem namespaces_only_used : forall E o i p u, wf E o = true -> is_simple (oty o) = false -> In (i, (p, u)) namespaces -> i <> XMLNS_KML22 ->
  (forall t, In t (oty o :: saved_types o) -> xmlns_of t <> i) ->
  mget (S_ "xmlns:" ++ p) (out_attributes (insert_namespaces o)) = mget (S_ "xmlns:" ++ p) (out_attributes o).
Proof.
  intros E o i p u Hw Hs Hi Hk Hu.
  assert (K : xmlns_key p = S_ "xmlns:" ++ p).
  { unfold xmlns_key. destruct (eqs p (S_ "xmlns")) eqn:Eq; [|reflexivity]. apply eqs_spec in Eq. subst p. exfalso.
    assert (X : forallb (fun e => negb (eqs (fst (snd e)) (S_ "xmlns"))) namespaces = true) by (vm_compute; reflexivity).
    rewrite forallb_forall in X. specialize (X _ Hi). discriminate. }
  rewrite <- K, (declared_get E o p Hw Hs), (new_xmlns_get o p i u Hi Hk).
  assert (U : uses o i = false); [|now rewrite U].
  destruct (uses o i) eqn:U; [|reflexivity]. exfalso. unfold uses, mem in U. apply existsb_exists in U as (x & Hx & E1). apply N.eqb_eq in E1. subst x.
  apply in_map_iff in Hx as (t & E1 & Ht). exact (Hu t Ht E1).
Qed.
Print Assumptions namespaces_only_used.

(** Writing again changes nothing. *)
Lemma merge_again x n : msorted x -> msorted n -> merge_attributes (merge_attributes x n) n = merge_attributes x n.
Proof.
  intros Hx Hn. apply msorted_ext; [now apply merge_sorted, merge_sorted|now apply merge_sorted|]. intros k.
  pose proof (merge_view (merge_attributes x n) n k (merge_sorted x n Hx) Hn) as V1. pose proof (merge_view x n k Hx Hn) as V2.
  unfold view, find_value in V1, V2. rewrite V1, V2. now destruct (mget k n).
Qed.
Lemma insert_types o : saved_types (insert_namespaces o) = saved_types o.
Proof.
  destruct (insert_rest o) as (R1 & _ & _ & _ & R5 & R6 & _). destruct (insert_namespaces o) as [ty ka ea tx vec sl mis unk]. destruct o as [ty0 ka0 ea0 tx0 vec0 sl0 mis0 unk0].
  cbn [oty oslots omis] in *. now subst.
Qed.
Lemma insert_new o : new_xmlns (insert_namespaces o) = new_xmlns o.
Proof. unfold new_xmlns, find_namespaces. rewrite insert_types. now destruct (insert_rest o) as (-> & _). Qed.
Theorem namespaces_once : forall E o, wf E o = true -> is_simple (oty o) = false -> insert_namespaces (insert_namespaces o) = insert_namespaces o.
Proof.
  intros E o Hw Hs. destruct (wf_root E o Hw Hs) as (_ & _ & R3).
  assert (X : oea (insert_namespaces (insert_namespaces o)) = oea (insert_namespaces o)).
  { rewrite insert_ea, insert_new. rewrite insert_ea. pose proof (new_xmlns_sorted o) as Hn. revert Hn. generalize (new_xmlns o) as M. intros M Hn. cbn [unknown xmlns].
    rewrite merge_again; [reflexivity| |exact Hn]. destruct (xmlns (oea o)); [exact R3|apply msorted_nil]. }
  destruct (insert_rest (insert_namespaces o)) as (R1 & R2 & R4 & R5 & R6 & R7 & R8). revert X R1 R2 R4 R5 R6 R7 R8.
  generalize (insert_namespaces (insert_namespaces o)) as b. generalize (insert_namespaces o) as a. intros [] [] X R1 R2 R4 R5 R6 R7 R8. cbn [oea oty oka otext ovec oslots omis ounk] in *. now subst.
Qed.
Print Assumptions namespaces_once.
Theorem serialize_file_twice : forall E enc o o' b s, wf E o = true -> is_simple (oty o) = false ->
  serialize_to_string enc (Some o) = Ok (o', b, s) -> serialize_to_string enc o' = Ok (o', b, s).
Proof.
  intros E enc o o' b s Hw Hs H. pose proof (namespaces_once E o Hw Hs) as T. revert H T. unfold serialize_to_string.
  generalize (insert_namespaces o) as a. intros a H T. destruct (serialize_pretty (ser a)) as [w| | |] eqn:W; cbn [bind] in H; try discriminate. inversion H; subst.
  rewrite T, W. reflexivity.
Qed.
Print Assumptions serialize_file_twice.

Definition file_text (s : str) : str := match serialize_to_string (S_ "utf-8") (Some (doc_obj s)) with Ok (_, _, w) => w | _ => [] end.
Example namespaces_sample : wf E0 (doc_obj (S_ "<kml><Document><Placemark><gx:Track/><atom:author/></Placemark></Document></kml>")) = true /\
  placed (doc_obj (S_ "<kml><Document><Placemark><gx:Track/><atom:author/></Placemark></Document></kml>")) = true /\
  file_text (S_ "<kml><Document><Placemark><gx:Track/><atom:author/></Placemark></Document></kml>") =
  S_ "<?xml version=""1.0"" encoding=""utf-8""?>
<kml xmlns=""http://www.opengis.net/kml/2.2"" xmlns:atom=""http://www.w3.org/2005/Atom"" xmlns:gx=""http://www.google.com/kml/ext/2.2"">
  <Document>
    <Placemark>
      <atom:author/>
      <gx:Track/>
    </Placemark>
  </Document>
</kml>
".
Proof. split; [vm_compute; reflexivity|]. split; vm_compute; reflexivity. Qed.

(** Simple elements are not looked at: a file which uses only a simple element of a namespace has its prefix undeclared. *)
Theorem simple_prefix_undeclared_refuted : exists s, mentions (S_ "<gx:balloonVisibility>1</gx:balloonVisibility>") (Some (file_text s)) = true /\
  mentions (S_ "xmlns:gx=") (Some (file_text s)) = false.
Proof. exists (S_ "<kml><Placemark><gx:balloonVisibility>1</gx:balloonVisibility></Placemark></kml>"). vm_compute. auto. Qed.
Print Assumptions simple_prefix_undeclared_refuted.
(** Nor are misplaced elements. *)
Theorem misplaced_prefix_undeclared_refuted : exists s, mentions (S_ "<gx:Wait") (Some (file_text s)) = true /\ mentions (S_ "xmlns:gx=") (Some (file_text s)) = false.
Proof. exists (S_ "<kml><Placemark><gx:Wait/></Placemark></kml>"). vm_compute. auto. Qed.
Print Assumptions misplaced_prefix_undeclared_refuted.
(** A file in another namespace changes its namespace when it is written. *)
Theorem namespace_replaced_refuted : exists s, mentions (S_ "xmlns=""http://earth.google.com/kml/2.1""") (Some s) = true /\
  mentions (S_ "http://earth.google.com/kml/2.1") (Some (file_text s)) = false.
Proof. exists (S_ "<kml xmlns=""http://earth.google.com/kml/2.1""><Placemark/></kml>"). vm_compute. auto. Qed.
Print Assumptions namespace_replaced_refuted.
(** A file without an element: SerializeToString reports success for a text which is only the header. *)
Theorem empty_file_refuted : forall enc, serialize_to_string enc None = Ok (None, true, xml_header enc) /\ serialize_to_ostream enc None = Ok (None, false, []).
Proof. split; reflexivity. Qed.
Print Assumptions empty_file_refuted.
(** C84. The table of known namespaces has one entry for each id from 1 on, with distinct prefixes and distinct URIs; so an id determines a prefix and a URI, and either of them determines the id. *)
Theorem namespace_table : map fst namespaces = map N.of_nat (seq 1 19) /\ NoDup (map (fun e => fst (snd e)) namespaces) /\ NoDup (map (fun e => snd (snd e)) namespaces).
Proof.
  split; [reflexivity|]. split; [exact prefixes_distinct|].
  assert (H : nodupb (map (fun e => snd (snd e)) namespaces) = true) by (vm_compute; reflexivity). revert H. generalize (map (fun e => snd (snd e)) namespaces) as l.
  induction l as [|x l IH]; intros H; constructor; cbn in H; apply andb_true_iff in H as [H1 H2]; [|now apply IH].
  intros Hi. apply negb_true_iff in H1. assert (T : existsb (eqs x) l = true) by (apply existsb_exists; exists x; split; [exact Hi|apply eqs_refl]). congruence.
Qed.
Print Assumptions namespace_table.
(** C84. Writing a file to a stream writes what SerializeToString gives. *)
Theorem stream_text : forall enc o, serialize_to_ostream enc (Some o) = serialize_to_string enc (Some o).
Proof. intros enc o. unfold serialize_to_ostream, serialize_to_string. generalize (insert_namespaces o) as a. intros a. generalize (serialize_pretty (ser a)) as r. reflexivity. Qed.
Print Assumptions stream_text.
Theorem string_text : forall enc o s, serialize_pretty (ser (insert_namespaces o)) = Ok s ->
  serialize_to_string enc (Some o) = Ok (Some (insert_namespaces o), true, S_ "<?xml version=""1.0"" encoding=""" ++ enc ++ S_ """?>" ++ ["010"%char] ++ s).
Proof. intros enc o s H. unfold serialize_to_string, xml_header. rewrite H. cbn [bind]. revert s H. generalize (insert_namespaces o) as a. intros a s _. do 2 f_equal. rewrite <- !app_assoc. reflexivity. Qed.
Print Assumptions string_text.

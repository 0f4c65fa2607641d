(** Properties of finding elements and of visiting the features of a file. *)
From Coq Require Import Sorted.
From Verif Require Import Common StrMap StringsModel ColorModel AttributesModel AttributesProofs XsdTables XsdModel XmlSpec XmlSpecProofs.
From Verif Require Import SerializerModel SerializerProofs CoordModel CoordProofs HandlerModel HandlerSpec HandlerProps.
From Verif Require Import DomTables DomModel DomSpec DomProofs DomProofs2 DomParsed DomProps IdProofs IdProps NamespaceModel NamespaceProps FindModel.
Local Open Scope N_scope.

(** C91. Specification: the complex elements of what is written, in the order of their start tags. *)
Fixpoint item_elements (i : item) : list item := match i with IElem _ _ ks => i :: flat_map item_elements ks | _ => [] end.
Definition item_type (i : item) : N := match i with IElem ty _ _ => ty | _ => Type_Invalid end.
Definition is_elem (i : item) : bool := match i with IElem _ _ _ => true | _ => false end.

Lemma elements_saved_items o : placed o = true -> map ser (saved o) = item_elements (ser o).
Proof.
  induction o as [ty ka ea tx vec sl mis unk IHs IHm] using obj_ind2. intros H. cbn [placed omis oslots] in H. apply andb_true_iff in H as [Hm Hs].
  destruct mis; [|discriminate]. cbn [saved]. remember (Obj ty ka ea tx vec sl [] unk) as o eqn:Eo. 
  assert (Es : ser o = if is_simple ty then IField ty (match tx with Some s => s | None => [] end)
    else if ty =? Type_coordinates then IElem ty [] (map vec_item vec)
    else IElem ty (out_attributes o) (own_content ty tx ++ flat_map (pick (cls ty) (map (map ser) sl)) (c_ser (cls ty)) ++ map IUnknown unk)).
  { subst o. reflexivity. }
  destruct (is_simple ty); [rewrite Es; reflexivity|]. destruct (ty =? Type_coordinates).
  { cbn [map]. rewrite Es. cbn [item_elements]. f_equal. clear. induction vec as [|[[a b] c] vec IH]; [reflexivity|exact IH]. }
  cbn [map]. rewrite Es. cbn [item_elements]. f_equal. rewrite !flat_map_app. cbn [flat_map]. rewrite app_nil_r.
  assert (H1 : flat_map item_elements (own_content ty tx) = []).
  { unfold own_content. destruct (snippet_type ty); [reflexivity|]. destruct (ty =? Type_SimpleData); [|reflexivity]. now destruct tx. }
  assert (H2 : flat_map item_elements (map IUnknown unk) = []) by (clear; induction unk; auto).
  rewrite H1, H2. cbn [app]. rewrite app_nil_r, flat_map_picks.
  assert (E : forall l : list N, map ser (flat_map (pick (cls ty) (map (flat_map saved) sl)) l) =
    flat_map (pick (cls ty) (map (map ser) (map (flat_map saved) sl))) l).
  { induction l as [|k l IH]; [reflexivity|]. cbn [flat_map]. rewrite map_app, IH. f_equal. unfold pick. destruct (index_of_key k (c_slots (cls ty)) 0); [|reflexivity].
    change (@nil item) with (map ser []). now rewrite map_nth. }
  rewrite E. f_equal. f_equal. rewrite !map_map. clear Hm H1 H2 Eo Es E. induction IHs as [|l sl Hl IHs IH]; [reflexivity|].
  cbn [map forallb] in *. apply andb_true_iff in Hs as [H1 H2]. f_equal; [|now apply IH]. clear IH IHs H2.
  induction Hl as [|x l Hx Hl IH]; [reflexivity|]. cbn [map flat_map forallb] in *. apply andb_true_iff in H1 as [H0 H1]. now rewrite map_app, Hx, IH.
Qed.
Lemma saved_types_in o : forall e, In e (saved o) -> is_simple (oty e) = false.
Proof.
  induction o as [ty ka ea tx vec sl mis unk IHs IHm] using obj_ind2. intros e. cbn [saved]. destruct (is_simple ty) eqn:Hs; [intros []|].
  destruct (ty =? Type_coordinates); [intros [<-|[]]; exact Hs|]. intros [<-|H]; [exact Hs|]. apply in_app_or in H as [H|H].
  - apply in_flat_map in H as (k & _ & H). unfold pick in H. destruct (index_of_key k (c_slots (cls ty)) 0) as [i|]; [|destruct H].
    change (@nil obj) with (flat_map saved []) in H. rewrite map_nth in H. apply in_flat_map in H as (c & Hc & H).
    destruct (nth_in_or_default i sl []) as [Hi|E]; [|rewrite E in Hc; destruct Hc]. rewrite Forall_forall in IHs. specialize (IHs _ Hi).
    rewrite Forall_forall in IHs. exact (IHs c Hc e H).
  - apply in_flat_map in H as (c & Hc & H). rewrite Forall_forall in IHm. apply (IHm c Hc). destruct (saved c); [destruct H|now right].
Qed.
Lemma ser_type o : is_simple (oty o) = false -> item_type (ser o) = oty o.
Proof. destruct o as [ty ka ea tx vec sl mis unk]. cbn [oty]. intros H. cbn [ser]. rewrite H. now destruct (ty =? Type_coordinates). Qed.

(** C91. Looking for the elements of a type below an element finds exactly the complex elements with a tag of this type, or of one derived from
    it, in what is written for the element, in the order of their tags; the element itself is not looked at. *)
Theorem elements_found : forall o ty, placed o = true ->
  map ser (get_elements_by_id o ty) = filter (fun i => is_a (item_type i) ty) (flat_map item_elements (item_kids (ser o))).
Proof.
  intros o ty H. pose proof (elements_saved_items o H) as E. pose proof (saved_types_in o) as T.
  assert (E' : map ser (tl (saved o)) = flat_map item_elements (item_kids (ser o))).
  { destruct (saved o) as [|x l]; destruct (ser o); try discriminate; try reflexivity. cbn [map item_elements] in E. injection E as _ E. exact E. }
  rewrite <- E'. unfold get_elements_by_id. assert (T' : forall e, In e (tl (saved o)) -> is_simple (oty e) = false).
  { intros e He. apply T. destruct (saved o); [destruct He|now right]. }
  clear E E' T H. induction (tl (saved o)) as [|x l IH]; [reflexivity|]. cbn [filter map]. rewrite (ser_type x) by (apply T'; now left).
  destruct (is_a (oty x) ty); cbn [map]; rewrite IH by (intros e He; apply T'; now right); reflexivity.
Qed.
Print Assumptions elements_found.
(** C91. The same for all descendants and for the children only. *)
Theorem descendants_found : forall o, placed o = true -> map ser (get_child_elements o true) = flat_map item_elements (item_kids (ser o)).
Proof.
  intros o H. pose proof (elements_saved_items o H) as E. cbn [get_child_elements].
  destruct (saved o) as [|x l]; destruct (ser o); try discriminate; try reflexivity. cbn [map item_elements] in E. injection E as _ E. exact E.
Qed.
Print Assumptions descendants_found.
Lemma ser_is_elem o : is_elem (ser o) = negb (is_simple (oty o)).
Proof. destruct o as [ty ka ea tx vec sl mis unk]. cbn [oty ser]. destruct (is_simple ty); [reflexivity|]. now destruct (ty =? Type_coordinates). Qed.
Theorem children_found : forall o, placed o = true -> map ser (get_child_elements o false) = filter is_elem (item_kids (ser o)).
Proof.
  intros o H. destruct o as [ty ka ea tx vec sl mis unk]. cbn [placed omis oslots] in H. apply andb_true_iff in H as [Hm _]. destruct mis; [|discriminate].
  cbn [get_child_elements saved_once ser]. destruct (is_simple ty); [reflexivity|]. destruct (ty =? Type_coordinates); cbn [orb].
  { cbn [item_kids map]. clear. induction vec as [|[[a b] c] vec IH]; [reflexivity|exact IH]. }
  cbn [item_kids flat_map map]. rewrite app_nil_r, !filter_app. cbn [filter app].
  assert (H1 : filter is_elem (own_content ty tx) = []).
  { unfold own_content. destruct (snippet_type ty); [reflexivity|]. destruct (ty =? Type_SimpleData); [|reflexivity]. now destruct tx. }
  assert (H2 : filter is_elem (map IUnknown unk) = []) by (clear; induction unk; auto).
  rewrite H1, H2, app_nil_r. cbn [app].
  assert (E : flat_map (pick (cls ty) (map (map ser) sl)) (c_ser (cls ty)) = map ser (flat_map (pick (cls ty) sl) (c_ser (cls ty)))).
  { induction (c_ser (cls ty)) as [|k l IH]; [reflexivity|]. cbn [flat_map]. rewrite map_app, IH. f_equal. unfold pick.
    destruct (index_of_key k (c_slots (cls ty)) 0); [|reflexivity]. change (@nil item) with (map ser []). now rewrite map_nth. }
  rewrite E. clear. induction (flat_map (pick (cls ty) sl) (c_ser (cls ty))) as [|x l IH]; [reflexivity|]. cbn [filter map]. rewrite ser_is_elem.
  destruct (is_simple (oty x)); cbn [negb map]; now rewrite IH.
Qed.
Print Assumptions children_found.

Definition read0 (s : str) : obj := match read_kml E0 s with Ok (Some o) => o | _ => create Type_kml end.
Definition types_of (l : list obj) : list N := map oty l.
Example find_sample :
  let o := read0 (S_ "<Folder><name>f</name><Placemark><Point/></Placemark><Folder><Placemark/></Folder></Folder>") in
  placed o = true /\ length (get_elements_by_id o Type_Placemark) = 2%nat /\
  types_of (get_elements_by_id o Type_Feature) = [Type_Placemark; Type_Folder; Type_Placemark] /\
  types_of (get_child_elements o false) = [Type_Placemark; Type_Folder] /\
  types_of (get_child_elements o true) = [Type_Placemark; Type_Point; Type_Folder; Type_Placemark].
Proof. vm_compute. repeat split. Qed.
(** C91. An element where its parent does not take it is not found, but what is in it is, and counts as child of the parent. *)
Theorem find_misplaced_refuted : exists o, write_raw o = Ok (S_ "<Folder><Point><Placemark><LineString/></Placemark></Point></Folder>") /\
  get_elements_by_id o Type_Placemark = [] /\ types_of (get_elements_by_id o Type_Geometry) = [Type_LineString] /\
  types_of (get_child_elements o false) = [Type_LineString].
Proof.
  exists (set_mis (create Type_Folder) [set_mis (create Type_Point) [put (create Type_Placemark) Type_Geometry [create Type_LineString]]]).
  vm_compute. repeat split.
Qed.
Print Assumptions find_misplaced_refuted.
(** C91. The element the search starts from is not found even if it is of the type. *)
Theorem find_root_refuted : exists o, is_a (oty o) Type_Placemark = true /\ get_elements_by_id o Type_Placemark = [].
Proof. exists (create Type_Placemark). vm_compute. repeat split. Qed.
Print Assumptions find_root_refuted.

(** C92. Specification: the feature reached by going to a child of a Folder or Document several times, and the order of such paths. *)
Fixpoint feature_at (f : obj) (p : list nat) : option obj :=
  match p with
  | [] => Some f
  | i :: p => if is_a (oty f) Type_Container then match nth_error (get f Type_Feature) i with Some c => feature_at c p | None => None end else None
  end.
Fixpoint path_lt (p q : list nat) : Prop :=
  match p, q with
  | [], _ :: _ => True
  | i :: p, j :: q => (i < j)%nat \/ i = j /\ path_lt p q
  | _, _ => False
  end.
Definition visited_in_order (f : obj) (l : list obj) : Prop :=
  exists ps, map (feature_at f) ps = map Some l /\ (forall p, In p ps <-> feature_at f p <> None) /\ StronglySorted path_lt ps.
Lemma sorted_app {A} (R : A -> A -> Prop) l m : StronglySorted R l -> StronglySorted R m -> (forall x y, In x l -> In y m -> R x y) -> StronglySorted R (l ++ m).
Proof.
  intros Hl Hm H. induction Hl as [|x l Hl IH Hx]; [exact Hm|]. cbn [app]. constructor.
  - apply IH. intros a b Ha Hb. apply H; [now right|exact Hb].
  - apply Forall_app. split; [exact Hx|]. apply Forall_forall. intros y Hy. apply H; [now left|exact Hy].
Qed.
Lemma children_visited (l : list obj) : forall n, Forall (fun c => visited_in_order c (visit_features c)) l ->
  exists ps, map (fun p => match p with i :: p => match nth_error l (i - n) with Some c => feature_at c p | None => None end | [] => None end) ps =
    map Some (flat_map visit_features l) /\
    (forall p, In p ps <-> exists i q c, p = i :: q /\ (n <= i)%nat /\ nth_error l (i - n) = Some c /\ feature_at c q <> None) /\ StronglySorted path_lt ps.
Proof.
  induction l as [|c l IH]; intros n H.
  { exists []. repeat split; [intros []| |constructor]. intros (i & q & c & _ & _ & E & _). now destruct (i - n)%nat. }
  inversion H as [|? ? (ps0 & M0 & I0 & S0) H']; subst. destruct (IH (S n) H') as (ps & M & I & Srt).
  exists (map (cons n) ps0 ++ ps). split; [|split].
  - cbn [flat_map]. rewrite !map_app, map_map. f_equal.
    + rewrite Nat.sub_diag. cbn [nth_error]. exact M0.
    + rewrite <- M. apply map_ext_in. intros p Hp. apply I in Hp as (i & q & c' & -> & Hi & _).
      replace (i - n)%nat with (S (i - S n)) by lia. reflexivity.
  - intros p. rewrite in_app_iff, in_map_iff, I. split.
    + intros [(q & <- & Hq)|(i & q & c' & -> & Hi & E & Hq)].
      * exists n, q, c. rewrite Nat.sub_diag. repeat split; [lia|]. now apply I0.
      * exists i, q, c'. repeat split; [lia| |exact Hq]. replace (i - n)%nat with (S (i - S n)) by lia. exact E.
    + intros (i & q & c' & -> & Hi & E & Hq). destruct (Nat.eq_dec i n) as [->|Hn].
      * rewrite Nat.sub_diag in E. injection E as ->. left. exists q. split; [reflexivity|]. now apply I0.
      * right. exists i, q, c'. repeat split; [lia| |exact Hq]. replace (i - n)%nat with (S (i - S n)) in E by lia. exact E.
  - apply sorted_app; [|exact Srt|].
    + clear - S0. induction S0 as [|x l Hl IH Hx]; [constructor|]. cbn [map]. constructor; [exact IH|]. apply Forall_map.
      eapply Forall_impl; [|exact Hx]. intros a Ha. right. now split.
    + intros x y Hx Hy. apply in_map_iff in Hx as (q & <- & _). apply I in Hy as (i & q' & _ & -> & Hi & _). left. lia.
Qed.
(** C92. Visiting the feature hierarchy calls the visitor with each feature reached through the feature lists of Folders and Documents exactly
    once, parents first and siblings in order; nothing else is visited. *)
Theorem features_visited : forall f, visited_in_order f (visit_features f).
Proof.
  intros f. induction f as [ty ka ea tx vec sl mis unk IHs _] using obj_ind2. remember (Obj ty ka ea tx vec sl mis unk) as f eqn:Ef.
  assert (Ev : visit_features f = f :: (if is_a (oty f) Type_Container then flat_map visit_features (get f Type_Feature) else [])).
  { subst f. cbn [visit_features oty oslots]. f_equal. destruct (is_a ty Type_Container); [|reflexivity]. unfold get. cbn [oty oslots].
    unfold pick. destruct (index_of_key Type_Feature (c_slots (cls ty)) 0); [|reflexivity]. change (@nil obj) with (flat_map visit_features []) at 1. now rewrite map_nth. }
  rewrite Ev. assert (IH : Forall (fun c => visited_in_order c (visit_features c)) (get f Type_Feature)).
  { subst f. unfold get. cbn [oty oslots]. destruct (index_of_key Type_Feature (c_slots (cls ty)) 0) as [i|]; [|constructor].
    destruct (nth_in_or_default i sl []) as [Hi|E]; [|rewrite E; constructor]. rewrite Forall_forall in IHs. exact (IHs _ Hi). }
  clear Ef IHs. destruct (is_a (oty f) Type_Container) eqn:Hc.
  - destruct (children_visited (get f Type_Feature) 0 IH) as (ps & M & I & Srt). exists ([] :: ps). split; [|split].
    + cbn [map]. f_equal. rewrite <- M. apply map_ext_in. intros p Hp. apply I in Hp as (i & q & c & -> & _ & E & _). cbn [feature_at].
      rewrite Hc, Nat.sub_0_r. reflexivity.
    + intros [|i q]; [cbn; split; [discriminate|now left]|]. cbn [In feature_at]. rewrite Hc, I. split.
      * intros [E|(i' & q' & c & E & _ & Hn & Hq)]; [discriminate|]. injection E as -> ->. rewrite Nat.sub_0_r in Hn. now rewrite Hn.
      * intros Hq. right. destruct (nth_error (get f Type_Feature) i) as [c|] eqn:Hn; [|contradiction]. exists i, q, c. rewrite Nat.sub_0_r.
        repeat split; [lia|exact Hn|exact Hq].
    + constructor; [exact Srt|]. apply Forall_forall. intros p Hp. apply I in Hp as (i & q & c & -> & _). exact Logic.I.
  - exists [[]]. split; [reflexivity|]. split.
    + intros [|i q]; [cbn; split; [discriminate|now left]|]. cbn [In feature_at]. rewrite Hc. split; [intros [E|[]]; discriminate|intros H; now contradiction H].
    + constructor; constructor.
Qed.
Print Assumptions features_visited.
(** C92. The root feature is the feature of a kml element which has one, or else the element itself if it is a feature. *)
Theorem root_feature_correct : forall o f, get_root_feature o = Some f <->
  (oty o = Type_kml /\ hd_error (get o Type_Feature) = Some f) \/ (is_a (oty o) Type_Feature = true /\ f = o).
Proof.
  intros o f. unfold get_root_feature. destruct (N.eqb_spec (oty o) Type_kml) as [E|E].
  - assert (Hf : is_a (oty o) Type_Feature = false) by (rewrite E; reflexivity). rewrite Hf. destruct (get o Type_Feature) as [|x l]; cbn [hd_error].
    + split; [discriminate|]. intros [[_ H]|[H _]]; discriminate.
    + split; [intros H; left; now split|]. intros [[_ H]|[H _]]; [exact H|discriminate].
  - destruct (is_a (oty o) Type_Feature).
    + split; [intros H; injection H as ->; right; now split|]. intros [[H _]|[_ ->]]; [contradiction|reflexivity].
    + split; [discriminate|]. intros [[H _]|[H _]]; [contradiction|discriminate].
Qed.
Print Assumptions root_feature_correct.
(** C92. All features of a file are found by visiting its root feature, except those inside of updates. *)
Example visit_sample :
  let o := read0 (S_ "<kml><Document><Placemark/><Folder><NetworkLink/></Folder><gx:Tour/></Document></kml>") in
  option_map (fun f => types_of (visit_features f)) (get_root_feature o) =
    Some [Type_Document; Type_Placemark; Type_Folder; Type_NetworkLink; Type_GxTour].
Proof. vm_compute. reflexivity. Qed.
Theorem visit_update_refuted : exists o, get_root_feature o = Some o /\ types_of (visit_features o) = [Type_GxTour] /\
  types_of (get_elements_by_id o Type_Feature) = [Type_Folder; Type_Placemark].
Proof.
  exists (read0 (S_ "<gx:Tour><gx:Playlist><gx:AnimatedUpdate><Update><Create><Folder><Placemark/></Folder></Create></Update></gx:AnimatedUpdate></gx:Playlist></gx:Tour>")).
  vm_compute. repeat split.
Qed.
Print Assumptions visit_update_refuted.

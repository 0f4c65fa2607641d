(** The places of features and the views computed for them. *)
From Verif Require Import Common Doubles DoublesMore Rounding BboxModel BboxProps StrMap AttributesModel XsdTables XsdModel HandlerModel DomTables DomModel DomProofs ViewModel.
From Verif Require Import FeatureListModel FeatureListProofs.

(** What the places of an element are, in terms of the document. *)
Section Places.
  Variable rd : str -> double.
  Inductive on_coords : obj -> double * double -> Prop :=
  | OnCoords o c r lon lat alt : get o Type_coordinates = c :: r -> In (lon, lat, alt) (ovec c) -> on_coords o (rd lat, rd lon).
  Inductive in_geometry : obj -> double * double -> Prop :=
  | InLine o x : In (oty o) [Type_Point; Type_LineString; Type_LinearRing] -> on_coords o x -> in_geometry o x
  | InPolygon o b bs r rs x : oty o = Type_Polygon -> get o Type_outerBoundaryIs = b :: bs -> get b Type_LinearRing = r :: rs -> on_coords r x -> in_geometry o x
  | InModel o l ls : oty o = Type_Model -> get o Type_Location = l :: ls ->
      in_geometry o (number rd (d_of_Z 0) l Type_latitude, number rd (d_of_Z 0) l Type_longitude)
  | InMulti o g x : oty o = Type_MultiGeometry -> In g (get o Type_Geometry) -> in_geometry g x -> in_geometry o x.
  Inductive in_feature : obj -> double * double -> Prop :=
  | InPlacemark o g gs x : oty o = Type_Placemark -> get o Type_Geometry = g :: gs -> in_geometry g x -> in_feature o x
  | InPhoto o p ps x : oty o = Type_PhotoOverlay -> get o Type_Point = p :: ps -> on_coords p x -> in_feature o x
  | InContainer o f x : is_a (oty o) Type_Container = true -> In f (get o Type_Feature) -> in_feature f x -> in_feature o x.

  Lemma coords_iff o x : In x (coords_points (coords_of rd o)) <-> on_coords o x.
  Proof.
    unfold coords_of. split.
    - destruct (get o Type_coordinates) as [|c r] eqn:G; [intros []|]. cbn [coords_points]. intros H. apply in_map_iff in H as ([[lon lat] alt] & <- & H). econstructor; eauto.
    - intros H. inversion H; subst. rewrite H0. cbn [coords_points]. apply in_map_iff. exists (lon, lat, alt). auto.
  Qed.
  Lemma get_pick ty ka ea tx vec sl mis unk k : get (Obj ty ka ea tx vec sl mis unk) k = pick (cls ty) sl k.
  Proof. reflexivity. Qed.
  Lemma geometry_inv o x : in_geometry o x ->
    (In (oty o) [Type_Point; Type_LineString; Type_LinearRing] /\ on_coords o x) \/
    (oty o = Type_Polygon /\ exists b bs r rs, get o Type_outerBoundaryIs = b :: bs /\ get b Type_LinearRing = r :: rs /\ on_coords r x) \/
    (oty o = Type_Model /\ exists l ls, get o Type_Location = l :: ls /\ x = (number rd (d_of_Z 0) l Type_latitude, number rd (d_of_Z 0) l Type_longitude)) \/
    (oty o = Type_MultiGeometry /\ exists g, In g (get o Type_Geometry) /\ in_geometry g x).
  Proof. intros []; [left|right; left|right; right; left|right; right; right]; (split; [assumption|eauto 8]). Qed.
  Lemma feature_inv o x : in_feature o x ->
    (oty o = Type_Placemark /\ exists g gs, get o Type_Geometry = g :: gs /\ in_geometry g x) \/
    (oty o = Type_PhotoOverlay /\ exists p ps, get o Type_Point = p :: ps /\ on_coords p x) \/
    (is_a (oty o) Type_Container = true /\ exists f, In f (get o Type_Feature) /\ in_feature f x).
  Proof. intros []; [left|right; left|right; right]; (split; [assumption|eauto]). Qed.
  Lemma geometry_iff o : forall x, In x (geometry_points (geometry_of rd o)) <-> in_geometry o x.
  Proof.
    induction o as [ty ka ea tx vec sl mis unk IHsl IHmis] using obj_ind2. intros x.
    remember (Obj ty ka ea tx vec sl mis unk) as o eqn:Eo.
    assert (Et : oty o = ty) by now rewrite Eo.
    assert (Eg : geometry_of rd o = (
      if (ty =? Type_Point)%N || (ty =? Type_LineString)%N || (ty =? Type_LinearRing)%N then GCoords (coords_of rd o)
      else if (ty =? Type_Polygon)%N then
        GPolygon (match get o Type_outerBoundaryIs with b :: _ => match get b Type_LinearRing with r :: _ => Some (coords_of rd r) | [] => None end | [] => None end) []
      else if (ty =? Type_Model)%N then
        GModel (match get o Type_Location with l :: _ => Some (number rd (d_of_Z 0) l Type_latitude, number rd (d_of_Z 0) l Type_longitude) | [] => None end)
      else if (ty =? Type_MultiGeometry)%N then GMulti (pick (cls ty) (map (map (geometry_of rd)) sl) Type_Geometry)
      else GOther)) by now rewrite Eo.
    assert (Ep : get o Type_Geometry = pick (cls ty) sl Type_Geometry) by now rewrite Eo.
    assert (IH : forall c, In c (get o Type_Geometry) -> forall x, In x (geometry_points (geometry_of rd c)) <-> in_geometry c x).
    { rewrite Ep. intros c Hc. apply pick_in in Hc as (l & Hl & Hc). rewrite Forall_forall in IHsl. specialize (IHsl l Hl). rewrite Forall_forall in IHsl. exact (IHsl c Hc). }
    clear Eo IHsl IHmis. rewrite Eg. clear Eg. subst ty.
    destruct ((oty o =? Type_Point)%N || (oty o =? Type_LineString)%N || (oty o =? Type_LinearRing)%N) eqn:E1.
    { assert (Ht : In (oty o) [Type_Point; Type_LineString; Type_LinearRing]).
      { rewrite !orb_true_iff, !N.eqb_eq in E1. cbn [In]. intuition. }
      cbn [geometry_points]. rewrite coords_iff. split.
      - intros H. now apply InLine.
      - intros H. apply geometry_inv in H as [[_ H]|[[K _]|[[K _]|[K _]]]]; [exact H|..]; rewrite K in Ht; revert Ht; vm_compute; intuition discriminate. }
    assert (N1 : ~ In (oty o) [Type_Point; Type_LineString; Type_LinearRing]).
    { rewrite !orb_false_iff, !N.eqb_neq in E1. cbn [In]. intuition. }
    destruct (N.eqb_spec (oty o) Type_Polygon) as [E2|E2].
    { cbn [geometry_points]. split.
      - destruct (get o Type_outerBoundaryIs) as [|b bs] eqn:G1; [intros []|]. destruct (get b Type_LinearRing) as [|r rs] eqn:G2; [intros []|].
        intros H. eapply InPolygon; eauto. apply coords_iff. exact H.
      - intros H. apply geometry_inv in H as [[K _]|[(_ & b & bs & r & rs & G1 & G2 & H)|[[K _]|[K _]]]]; [contradiction| |rewrite E2 in K; discriminate|rewrite E2 in K; discriminate].
        rewrite G1, G2. apply coords_iff. exact H. }
    destruct (N.eqb_spec (oty o) Type_Model) as [E3|E3].
    { cbn [geometry_points]. split.
      - destruct (get o Type_Location) as [|l ls] eqn:G; [intros []|]. intros [<-|[]]. eapply InModel; eauto.
      - intros H. apply geometry_inv in H as [[K _]|[[K _]|[(_ & l & ls & G & ->)|[K _]]]]; [contradiction|contradiction| |rewrite E3 in K; discriminate].
        rewrite G. now left. }
    destruct (N.eqb_spec (oty o) Type_MultiGeometry) as [E4|E4].
    { cbn [geometry_points]. rewrite pick_map, <- Ep, in_flat_map. split.
      - intros (g & Hg & Hx). apply in_map_iff in Hg as (c & <- & Hc). apply (InMulti o c x E4 Hc). now apply IH.
      - intros H. apply geometry_inv in H as [[K _]|[[K _]|[[K _]|(_ & g & Hg & H)]]]; [contradiction|contradiction|contradiction|].
        exists (geometry_of rd g). split; [now apply in_map|]. now apply IH. }
    cbn [geometry_points]. split; [intros []|]. intros H. apply geometry_inv in H as [[K _]|[[K _]|[[K _]|[K _]]]]; contradiction.
  Qed.
  Lemma feature_iff o : forall x, In x (feature_points (feature_of rd o)) <-> in_feature o x.
  Proof.
    induction o as [ty ka ea tx vec sl mis unk IHsl IHmis] using obj_ind2. intros x.
    remember (Obj ty ka ea tx vec sl mis unk) as o eqn:Eo.
    assert (Et : oty o = ty) by now rewrite Eo.
    assert (Eg : feature_of rd o = (
      if (ty =? Type_Placemark)%N then FPlacemark (match get o Type_Geometry with g :: _ => Some (geometry_of rd g) | [] => None end)
      else if (ty =? Type_PhotoOverlay)%N then FPhotoOverlay (match get o Type_Point with p :: _ => Some (coords_of rd p) | [] => None end)
      else if is_a ty Type_Container then FContainer (pick (cls ty) (map (map (feature_of rd)) sl) Type_Feature)
      else FOther)) by now rewrite Eo.
    assert (Ep : get o Type_Feature = pick (cls ty) sl Type_Feature) by now rewrite Eo.
    assert (IH : forall c, In c (get o Type_Feature) -> forall x, In x (feature_points (feature_of rd c)) <-> in_feature c x).
    { rewrite Ep. intros c Hc. apply pick_in in Hc as (l & Hl & Hc). rewrite Forall_forall in IHsl. specialize (IHsl l Hl). rewrite Forall_forall in IHsl. exact (IHsl c Hc). }
    clear Eo IHsl IHmis. rewrite Eg. clear Eg. subst ty.
    destruct (N.eqb_spec (oty o) Type_Placemark) as [E1|E1].
    { split.
      - destruct (get o Type_Geometry) as [|g gs] eqn:G; [intros []|]. cbn [feature_points]. intros H. eapply InPlacemark; eauto. apply geometry_iff. exact H.
      - intros H. apply feature_inv in H as [(_ & g & gs & G & H)|[[K _]|[K _]]]; [|rewrite E1 in K; discriminate|rewrite E1 in K; vm_compute in K; discriminate].
        rewrite G. cbn [feature_points]. apply geometry_iff. exact H. }
    destruct (N.eqb_spec (oty o) Type_PhotoOverlay) as [E2|E2].
    { split.
      - destruct (get o Type_Point) as [|g gs] eqn:G; [intros []|]. cbn [feature_points]. intros H. eapply InPhoto; eauto. apply coords_iff. exact H.
      - intros H. apply feature_inv in H as [[K _]|[(_ & g & gs & G & H)|[K _]]]; [contradiction| |rewrite E2 in K; vm_compute in K; discriminate].
        rewrite G. cbn [feature_points]. apply coords_iff. exact H. }
    destruct (is_a (oty o) Type_Container) eqn:E3.
    { cbn [feature_points]. rewrite pick_map, <- Ep, in_flat_map. split.
      - intros (g & Hg & Hx). apply in_map_iff in Hg as (c & <- & Hc). apply (InContainer o c x E3 Hc). now apply IH.
      - intros H. apply feature_inv in H as [[K _]|[[K _]|(_ & f & Hf & H)]]; [contradiction|contradiction|].
        exists (feature_of rd f). split; [now apply in_map|]. now apply IH. }
    cbn [feature_points]. split; [intros []|]. intros H. apply feature_inv in H as [[K _]|[[K _]|[K _]]]; congruence.
  Qed.
End Places.

(** A usable place: latitude and longitude between -180 and 180, and numbers as a computer has them. *)
Definition usable (x : double * double) : Prop := in_range (fst x) = true /\ in_range (snd x) = true /\ valid (fst x) = true /\ valid (snd x) = true.
Lemma range_ok x : in_range x = true -> valid x = true -> doubles_ok x = true.
Proof.
  unfold in_range. rewrite andb_true_iff. intros [H1 H2] Hv. apply doubles_ok_iff.
  assert (F : finite x = true).
  { destruct x as [s|s| |s m e]; try reflexivity; [destruct s|]; vm_compute in H1, H2; discriminate. }
  split; [exact F|]. split; [exact Hv|]. apply (proj1 (dle_V dm180 x eq_refl F eq_refl Hv)) in H1. apply (proj1 (dle_V x d180 F eq_refl Hv eq_refl)) in H2.
  assert (V dm180 = - V d180)%Z by (vm_compute; reflexivity). assert (V d180 < 2 ^ 2097)%Z by (vm_compute; reflexivity). lia.
Qed.
Definition okside (x : double) : bool := doubles_ok x.
Lemma expand_ok ps : forall b, Forall usable ps -> doubles_ok (north b) = true /\ doubles_ok (south b) = true /\ doubles_ok (east b) = true /\ doubles_ok (west b) = true ->
  let c := expand_all ps b in doubles_ok (north c) = true /\ doubles_ok (south c) = true /\ doubles_ok (east c) = true /\ doubles_ok (west c) = true.
Proof.
  induction ps as [|[lat lon] ps IH]; intros b Hp Hb; [exact Hb|]. inversion Hp as [|? ? (A & B & C & D) Hp']; subst. cbn [fst snd] in *.
  cbv zeta. change (expand_all ((lat, lon) :: ps) b) with (expand_all ps (expand_lat_lon b lat lon)). apply IH; [exact Hp'|].
  pose proof (range_ok lat A C) as Ha. pose proof (range_ok lon B D) as Ho. destruct Hb as (B1 & B2 & B3 & B4).
  unfold expand_lat_lon, expand_lon, expand_lat. cbn [north south east west].
  repeat split; match goal with |- doubles_ok (if ?c then _ else _) = true => destruct c end; assumption.
Qed.
Lemma bounds_ok f : Forall usable (feature_points f) -> feature_points f <> [] -> okbox (snd (feature_bounds f bbox0)) = true.
Proof.
  intros H Hne. rewrite feature_bounds_eq. cbn [snd]. apply okbox_iff.
  destruct (expand_ok (feature_points f) bbox0 H ltac:(repeat split; vm_compute; reflexivity)) as (A & B & C & D). repeat split; try assumption.
  all: destruct (feature_points f) as [|p ps] eqn:E; [congruence|]; rewrite <- E in *.
  all: assert (Hc : contains (expand_all (feature_points f) bbox0) (fst p) (snd p) = true).
  1, 3: apply bbox_contains_points; [exact bbox0_no_nan| |rewrite E; now left]; eapply Forall_impl; [|exact H]; intros q (Q1 & Q2 & _); auto using in_range_nan.
  all: apply contains_iff in Hc as (H1 & H2 & H3 & H4); eapply dle_trans; eassumption.
Qed.

(** C104. There is a view for a feature exactly if it has a place; the view is at a point of the smallest box around its places: inside every box that has them all. *)
Theorem view_inside : forall rd distance reach o, (forall x, in_feature rd o x -> usable x) ->
  match feature_look rd distance reach o with
  | None => forall x, ~ in_feature rd o x
  | Some v => (exists x, in_feature rd o x) /\
      forall c, (forall x, in_feature rd o x -> contains c (fst x) (snd x) = true) -> contains c (l_lat v) (l_lon v) = true
  end.
Proof.
  intros rd distance reach o Hu. unfold feature_look.
  assert (Hf : Forall usable (feature_points (feature_of rd o))) by (apply Forall_forall; intros x Hx; apply Hu; now apply feature_iff).
  assert (Hr : Forall (fun p => in_range (fst p) = true /\ in_range (snd p) = true) (feature_points (feature_of rd o))).
  { eapply Forall_impl; [|exact Hf]. intros x (A & B & _). auto. }
  destruct (feature_bounds_exact (feature_of rd o) Hr) as (H1 & H2 & H3). pose proof (bounds_ok (feature_of rd o) Hf) as H4.
  destruct (feature_bounds (feature_of rd o) bbox0) as [h b]. cbn [fst snd] in *. destruct h.
  - assert (Hne : feature_points (feature_of rd o) <> []) by now apply H1. split.
    { destruct (feature_points (feature_of rd o)) as [|x l] eqn:E; [congruence|]. exists x. apply feature_iff. rewrite E. now left. }
    intros c Hc. assert (Hb : contained_by b c = true).
    { apply H3; [exact Hne|]. intros p Hp. apply Hc. now apply feature_iff. }
    apply contains_contained with (b := b); [|exact Hb]. specialize (H4 Hne). apply okbox_iff in H4 as (A & B & C & D & F & G).
    destruct (mid_ok _ _ A B F) as (_ & M2 & M3). destruct (mid_ok _ _ C D G) as (_ & M5 & M6).
    apply contains_iff. unfold bbox_look. cbn [l_lat l_lon]. auto.
  - intros x Hx. apply feature_iff in Hx. assert (feature_points (feature_of rd o) <> []) as Hne by (intros E; rewrite E in Hx; destruct Hx). apply H1 in Hne. discriminate.
Qed.
Print Assumptions view_inside.

(** C104. A feature with one place, however often it is given, is looked at there. *)
Lemma mid_same x : doubles_ok x = true -> dle x (mid x x) = true /\ dle (mid x x) x = true.
Proof. intros H. destruct (mid_ok x x H H) as (_ & A & B); [|auto]. apply dle_refl. now apply doubles_ok_nan. Qed.
Theorem view_of_place : forall rd distance reach o lat lon, (exists x, in_feature rd o x) -> usable (lat, lon) -> (forall x, in_feature rd o x -> x = (lat, lon)) ->
  exists v, feature_look rd distance reach o = Some v /\ deq (l_lat v) lat = true /\ deq (l_lon v) lon = true.
Proof.
  intros rd distance reach o lat lon [x0 Hx0] Hu Hone.
  pose proof (view_inside rd distance reach o) as H. specialize (H ltac:(intros x Hx; rewrite (Hone x Hx); exact Hu)).
  destruct (feature_look rd distance reach o) as [v|]; [|now destruct (H x0)]. exists v. split; [reflexivity|]. destruct H as [_ H].
  specialize (H {| north := lat; south := lat; east := lon; west := lon |}). destruct Hu as (A & B & C & D). cbn [fst snd] in *.
  assert (N1 := in_range_nan _ A). assert (N2 := in_range_nan _ B).
  assert (Hc : contains {| north := lat; south := lat; east := lon; west := lon |} (l_lat v) (l_lon v) = true).
  { apply H. intros x Hx. rewrite (Hone x Hx). apply contains_iff. cbn [north south east west fst snd]. auto using dle_refl. }
  apply contains_iff in Hc as (H1 & H2 & H3 & H4). cbn [north south east west] in *. 
  assert (K : forall a b, dle a b = true -> dle b a = true -> deq a b = true).
  { intros a b X Y. unfold dle, SFleb in X, Y. unfold deq, SFeqb. destruct (dle_nan _ _ X) as [Na Nb].
    pose proof (compare_key a b Na Nb) as K1. pose proof (compare_key b a Nb Na) as K2.
    destruct (SFcompare a b) as [[]|]; try reflexivity; try discriminate. destruct (SFcompare b a) as [[]|]; try discriminate.
    - rewrite K2 in K1. now apply klt_irrefl in K1.
    - exfalso. eapply klt_irrefl. eapply klt_trans; eauto. }
  auto.
Qed.
Print Assumptions view_of_place.

(** C104. The range is at least a kilometre, unless the distances are no numbers; and it is what was computed if that is more. *)
Theorem view_range : forall distance reach b, let v := bbox_look distance reach b in
  let r := reach (distance (center_lat b) (center_lon b) (north b) (center_lon b)) (distance (center_lat b) (center_lon b) (center_lat b) (west b)) in
  (is_nan r = false -> dle (d_of_Z 1000) (l_range v) = true /\ dle r (l_range v) = true) /\ (l_range v = d_of_Z 1000 \/ l_range v = r) /\ (dle (d_of_Z 1000) r = true -> l_range v = r).
Proof.
  intros distance reach b v r. unfold v, bbox_look. cbn [l_range]. fold r. unfold min_range. split; [|split].
  - intros Hn. destruct (dlt r (d_of_Z 1000)) eqn:E.
    + split; [reflexivity|now apply dlt_dle].
    + rewrite dlt_dle_neg in E; [|exact Hn|reflexivity]. apply negb_false_iff in E. split; [exact E|now apply dle_refl].
  - destruct (dlt r (d_of_Z 1000)); auto.
  - intros H. destruct (dlt r (d_of_Z 1000)) eqn:E; [|reflexivity]. destruct (dle_nan _ _ H) as [_ Hn]. rewrite dlt_dle_neg in E; [|exact Hn|reflexivity]. now rewrite H in E.
Qed.
Print Assumptions view_range.

(** C104. A placemark is where the view of it is; the place of a Point is its first tuple, the one of a box is the middle, inside of it. *)
Theorem places_correct : forall rd,
  (forall distance reach o, oty o = Type_Placemark ->
     placemark_lat_lon rd o = match feature_look rd distance reach o with Some v => Some (l_lat v, l_lon v) | None => None end) /\
  (forall p c cs lon lat alt r, get p Type_coordinates = c :: cs -> ovec c = (lon, lat, alt) :: r -> point_lat_lon rd p = Some (rd lat, rd lon)) /\
  (forall b n s e w, get b Type_north = [n] -> get b Type_south = [s] -> get b Type_east = [e] -> get b Type_west = [w] ->
     let box := {| north := rd (char_data n); south := rd (char_data s); east := rd (char_data e); west := rd (char_data w) |} in
     okbox box = true -> contains box (fst (box_center rd b)) (snd (box_center rd b)) = true).
Proof.
  intros rd. split; [|split].
  - intros distance reach o Ho. destruct o as [ty ka ea tx vec sl mis unk]. cbn [oty] in Ho. subst ty.
    unfold placemark_lat_lon, feature_look, geometry_lat_lon.
    change (feature_of rd (Obj Type_Placemark ka ea tx vec sl mis unk)) with
      (FPlacemark (match get (Obj Type_Placemark ka ea tx vec sl mis unk) Type_Geometry with g :: _ => Some (geometry_of rd g) | [] => None end)).
    destruct (get (Obj Type_Placemark ka ea tx vec sl mis unk) Type_Geometry) as [|g gs]; [reflexivity|]. cbn [feature_bounds].
    destruct (geometry_bounds (geometry_of rd g) bbox0) as [[] b]; reflexivity.
  - intros p c cs lon lat alt r Hc Hv. unfold point_lat_lon, coords_of. now rewrite Hc, Hv.
  - intros b n s e w Hn Hs He Hw box Hb. apply okbox_iff in Hb as (A & B & C & D & F & G). unfold box_center, number. rewrite Hn, Hs, He, Hw. cbn [fst snd].
    destruct (mid_ok _ _ A B F) as (_ & M2 & M3). destruct (mid_ok _ _ C D G) as (_ & M5 & M6). apply contains_iff. auto.
Qed.
Print Assumptions places_correct.

(** Numbers for the examples. *)
Definition rd0 (s : str) : double :=
  if eqs s (S_ "179") then d_of_Z 179 else if eqs s (S_ "-179") then d_of_Z (-179) else if eqs s (S_ "200") then d_of_Z 200 else if eqs s (S_ "10") then d_of_Z 10 else d_of_Z 0.
Definition point_at (lon lat : str) : obj :=
  put (create Type_Placemark) Type_Geometry [put (create Type_Point) Type_coordinates [set_vec (create Type_coordinates) [(lon, lat, S_ "0")]]].
Definition near_midnight : obj := put (create Type_Folder) Type_Feature [point_at (S_ "179") (S_ "10"); point_at (S_ "-179") (S_ "10")].
Lemma at_point lon lat x : in_feature rd0 (point_at lon lat) x <-> x = (rd0 lat, rd0 lon).
Proof.
  rewrite <- feature_iff.
  replace (feature_points (feature_of rd0 (point_at lon lat))) with [(rd0 lat, rd0 lon)]; [|vm_compute; reflexivity].
  cbn [In]. intuition.
Qed.
(** Non-vacuity: a folder with two places that can be used, and its view. *)
Example view_sample : (exists x, in_feature rd0 near_midnight x) /\ (forall x, in_feature rd0 near_midnight x -> usable x) /\
  exists v, feature_look rd0 (fun _ _ _ _ => d_of_Z 0) (fun _ _ => d_of_Z 5000) near_midnight = Some v /\ l_range v = d_of_Z 5000.
Proof.
  assert (E : feature_points (feature_of rd0 near_midnight) = [(d_of_Z 10, d_of_Z 179); (d_of_Z 10, d_of_Z (-179))]) by (vm_compute; reflexivity).
  split; [|split].
  - exists (d_of_Z 10, d_of_Z 179). apply feature_iff. rewrite E. now left.
  - intros x Hx. apply feature_iff in Hx. rewrite E in Hx. destruct Hx as [<-|[<-|[]]]; repeat split; vm_compute; reflexivity.
  - eexists. split; vm_compute; reflexivity.
Qed.

(** C104. Places on both sides of the date line are looked at from the other side of the earth; a place east of 180 degrees is looked at beside it; a ground overlay
    has no view, whatever box it has. *)
Theorem view_refuted : forall distance reach,
  (exists v, feature_look rd0 distance reach near_midnight = Some v /\ l_lon v = d_of_Z 0 /\
     forall x, in_feature rd0 near_midnight x -> snd x = d_of_Z 179 \/ snd x = d_of_Z (-179)) /\
  (exists v, feature_look rd0 distance reach (point_at (S_ "200") (S_ "10")) = Some v /\ l_lon v = d_of_Z 190) /\
  (forall rd box, feature_look rd distance reach (put (create Type_GroundOverlay) Type_LatLonBox [box]) = None).
Proof.
  intros distance reach. split; [|split].
  - eexists. split; [reflexivity|]. split; [vm_compute; reflexivity|].
    intros x Hx. apply feature_iff in Hx. replace (feature_points (feature_of rd0 near_midnight)) with [(d_of_Z 10, d_of_Z 179); (d_of_Z 10, d_of_Z (-179))] in Hx by (vm_compute; reflexivity).
    destruct Hx as [<-|[<-|[]]]; auto.
  - eexists. split; [reflexivity|]. vm_compute. reflexivity.
  - intros rd box. reflexivity.
Qed.
Print Assumptions view_refuted.

(** Property theorems about bounding boxes (C40, C41). *)
From Verif Require Import Common Doubles BboxModel.
From Coq Require Import Permutation.

(** A number usable as latitude or longitude. *)
Definition in_range (x : double) : bool := dle dm180 x && dle x d180.
Definition no_nan (b : bbox) : bool := negb (is_nan (north b)) && negb (is_nan (south b)) && negb (is_nan (east b)) && negb (is_nan (west b)).
Definition expand_all (ps : list (double * double)) (b : bbox) : bbox := fold_left (fun b p => expand_lat_lon b (fst p) (snd p)) ps b.
(** Not inside out. *)
Definition proper (b : bbox) : bool := dle (south b) (north b) && dle (west b) (east b).

Lemma no_nan_iff b : no_nan b = true <-> is_nan (north b) = false /\ is_nan (south b) = false /\ is_nan (east b) = false /\ is_nan (west b) = false.
Proof. unfold no_nan. rewrite !andb_true_iff, !negb_true_iff. tauto. Qed.
Lemma contained_iff b c : contained_by b c = true <->
  dle (north b) (north c) = true /\ dle (south c) (south b) = true /\ dle (east b) (east c) = true /\ dle (west c) (west b) = true.
Proof. unfold contained_by, contained_by_box, dge. change SFleb with dle. rewrite !andb_true_iff. tauto. Qed.
Lemma contains_iff b lat lon : contains b lat lon = true <->
  dle lat (north b) = true /\ dle (south b) lat = true /\ dle lon (east b) = true /\ dle (west b) lon = true.
Proof. unfold contains, dge. change SFleb with dle. rewrite !andb_true_iff. tauto. Qed.
Lemma contained_trans a b c : contained_by a b = true -> contained_by b c = true -> contained_by a c = true.
Proof. rewrite !contained_iff. intros (A1 & A2 & A3 & A4) (B1 & B2 & B3 & B4). repeat split; eapply dle_trans; eauto. Qed.
Lemma contains_contained b c lat lon : contains b lat lon = true -> contained_by b c = true -> contains c lat lon = true.
Proof. rewrite !contained_iff, !contains_iff. intros (A1 & A2 & A3 & A4) (B1 & B2 & B3 & B4). repeat split; eapply dle_trans; eauto. Qed.
Lemma contained_refl b : no_nan b = true -> contained_by b b = true.
Proof. rewrite no_nan_iff, contained_iff. intros (A1 & A2 & A3 & A4). repeat split; now apply dle_refl. Qed.

(** Extending an interval. *)
Lemma up_spec x n : is_nan x = false -> is_nan n = false -> let n' := if dgt x n then x else n in
  is_nan n' = false /\ dle n n' = true /\ dle x n' = true /\ forall u, dle n u = true -> dle x u = true -> dle n' u = true.
Proof.
  intros Hx Hn. unfold dgt. change SFltb with dlt. destruct (dlt n x) eqn:E; cbv zeta.
  - repeat split; auto using dle_refl, dlt_dle.
  - rewrite dlt_dle_neg in E by auto. apply negb_false_iff in E. repeat split; auto using dle_refl.
Qed.
Lemma down_spec x s : is_nan x = false -> is_nan s = false -> let s' := if dlt x s then x else s in
  is_nan s' = false /\ dle s' s = true /\ dle s' x = true /\ forall u, dle u s = true -> dle u x = true -> dle u s' = true.
Proof.
  intros Hx Hs. destruct (dlt x s) eqn:E; cbv zeta.
  - repeat split; auto using dle_refl, dlt_dle.
  - rewrite dlt_dle_neg in E by auto. apply negb_false_iff in E. repeat split; auto using dle_refl.
Qed.
Lemma expand_spec b lat lon : no_nan b = true -> is_nan lat = false -> is_nan lon = false ->
  let b' := expand_lat_lon b lat lon in
  no_nan b' = true /\ contained_by b b' = true /\ contains b' lat lon = true /\
  forall c, contained_by b c = true -> contains c lat lon = true -> contained_by b' c = true.
Proof.
  rewrite no_nan_iff. intros (N1 & N2 & N3 & N4) Hla Hlo.
  destruct (up_spec lat (north b) Hla N1) as (U1 & U2 & U3 & U4). destruct (down_spec lat (south b) Hla N2) as (D1 & D2 & D3 & D4).
  destruct (up_spec lon (east b) Hlo N3) as (V1 & V2 & V3 & V4). destruct (down_spec lon (west b) Hlo N4) as (W1 & W2 & W3 & W4).
  cbv zeta. rewrite no_nan_iff, contained_iff, contains_iff. unfold expand_lat_lon, expand_lon, expand_lat. cbn [north south east west].
  split; [auto|]. split; [auto|]. split; [auto|]. intros c. rewrite !contained_iff, contains_iff. cbn [north south east west].
  intros (C1 & C2 & C3 & C4) (P1 & P2 & P3 & P4). auto.
Qed.
Lemma expand_all_spec ps : forall b, no_nan b = true -> Forall (fun p => is_nan (fst p) = false /\ is_nan (snd p) = false) ps ->
  let b' := expand_all ps b in
  no_nan b' = true /\ contained_by b b' = true /\ (forall p, In p ps -> contains b' (fst p) (snd p) = true) /\
  forall c, contained_by b c = true -> (forall p, In p ps -> contains c (fst p) (snd p) = true) -> contained_by b' c = true.
Proof.
  induction ps as [|p ps IH]; intros b Hb Hps; cbv zeta.
  - cbn [expand_all fold_left]. repeat split; auto using contained_refl; intros p [].
  - inversion Hps as [|? ? [H1 H2] Hps']; subst. destruct (expand_spec b (fst p) (snd p) Hb H1 H2) as (E1 & E2 & E3 & E4).
    destruct (IH _ E1 Hps') as (I1 & I2 & I3 & I4). change (expand_all (p :: ps) b) with (expand_all ps (expand_lat_lon b (fst p) (snd p))).
    split; [exact I1|]. split; [eapply contained_trans; eauto|]. split.
    + intros q [->|Hq]; [eapply contains_contained; eauto|auto].
    + intros c Hc Hq. apply I4; [apply E4; [exact Hc|apply Hq; now left]|]. intros q Hq'. apply Hq. now right.
Qed.
Lemma bbox0_no_nan : no_nan bbox0 = true. Proof. vm_compute. reflexivity. Qed.
Lemma in_range_nan x : in_range x = true -> is_nan x = false.
Proof. unfold in_range. intros H. apply andb_true_iff in H as [H _]. now apply dle_nan in H. Qed.

(** C40. A box expanded with points contains all of them, and what it contained before, and is the smallest such box. *)
Theorem bbox_contains_points : forall ps b p, no_nan b = true -> Forall (fun p => is_nan (fst p) = false /\ is_nan (snd p) = false) ps ->
  In p ps -> contains (expand_all ps b) (fst p) (snd p) = true.
Proof. intros ps b p Hb Hps. apply (expand_all_spec ps b Hb Hps). Qed.
Print Assumptions bbox_contains_points.
Theorem bbox_keeps_contents : forall ps b lat lon, no_nan b = true -> Forall (fun p => is_nan (fst p) = false /\ is_nan (snd p) = false) ps ->
  contains b lat lon = true -> contains (expand_all ps b) lat lon = true.
Proof. intros ps b lat lon Hb Hps Hc. destruct (expand_all_spec ps b Hb Hps) as (_ & H & _). eapply contains_contained; eauto. Qed.
Print Assumptions bbox_keeps_contents.
(** Starting with the empty box: the smallest box around one or more points of latitudes and
    longitudes between -180 and 180. *)
Theorem bbox_smallest : forall ps c, ps <> [] -> Forall (fun p => in_range (fst p) = true /\ in_range (snd p) = true) ps ->
  (forall p, In p ps -> contains c (fst p) (snd p) = true) -> contained_by (expand_all ps bbox0) c = true.
Proof.
  intros ps c Hne Hps Hc. assert (Hn : Forall (fun p => is_nan (fst p) = false /\ is_nan (snd p) = false) ps).
  { eapply Forall_impl; [|exact Hps]. intros p [H1 H2]. auto using in_range_nan. }
  destruct (expand_all_spec ps bbox0 bbox0_no_nan Hn) as (_ & _ & _ & H). apply H; auto.
  destruct ps as [|p ps]; [congruence|]. specialize (Hc p (or_introl eq_refl)). inversion Hps as [|? ? [H1 H2] _]; subst.
  unfold in_range in *. apply andb_true_iff in H1 as [A1 A2], H2 as [B1 B2]. apply contains_iff in Hc as (C1 & C2 & C3 & C4).
  apply contained_iff. cbn [bbox0 north south east west].
  split; [exact (dle_trans _ _ _ A1 C1)|]. split; [exact (dle_trans _ _ _ C2 A2)|]. split; [exact (dle_trans _ _ _ B1 C3)|exact (dle_trans _ _ _ C4 B2)].
Qed.
Print Assumptions bbox_smallest.
(** The order of the points does not matter: the boxes contain each other. *)
Theorem bbox_order_irrelevant : forall ps qs b, Permutation ps qs -> no_nan b = true -> Forall (fun p => is_nan (fst p) = false /\ is_nan (snd p) = false) ps ->
  contained_by (expand_all ps b) (expand_all qs b) = true /\ contained_by (expand_all qs b) (expand_all ps b) = true.
Proof.
  intros ps qs b Hp Hb Hps. assert (Hqs : Forall (fun p => is_nan (fst p) = false /\ is_nan (snd p) = false) qs) by now rewrite <- Hp.
  destruct (expand_all_spec ps b Hb Hps) as (_ & P1 & P2 & P3). destruct (expand_all_spec qs b Hb Hqs) as (_ & Q1 & Q2 & Q3).
  split; [apply P3; auto; intros p Hi; apply Q2; now rewrite <- Hp|apply Q3; auto; intros p Hi; apply P2; now rewrite Hp].
Qed.
Print Assumptions bbox_order_irrelevant.
(** Expanding with another box that is not inside out contains that box. *)
Theorem bbox_expand_from : forall b c, no_nan b = true -> no_nan c = true -> proper c = true ->
  contained_by c (expand_from b c) = true /\ contained_by b (expand_from b c) = true /\
  forall d, contained_by b d = true -> contained_by c d = true -> contained_by (expand_from b c) d = true.
Proof.
  intros b c Hb Hc Hp. pose proof (proj1 (no_nan_iff c) Hc) as (N1 & N2 & N3 & N4).
  assert (Hps : Forall (fun p => is_nan (fst p) = false /\ is_nan (snd p) = false) [(north c, east c); (south c, west c)]) by (repeat constructor; auto).
  assert (He : expand_from b c = expand_all [(north c, east c); (south c, west c)] b) by reflexivity. rewrite He.
  destruct (expand_all_spec _ b Hb Hps) as (_ & P1 & P2 & P3). unfold proper in Hp. apply andb_true_iff in Hp as [Q1 Q2].
  pose proof (P2 (north c, east c) (or_introl eq_refl)) as A. pose proof (P2 (south c, west c) (or_intror (or_introl eq_refl))) as B.
  cbn [fst snd] in A, B. apply contains_iff in A as (A1 & A2 & A3 & A4), B as (B1 & B2 & B3 & B4). split; [|split; [exact P1|]].
  - apply contained_iff. auto.
  - intros d Hd Hcd. apply P3; auto. apply contained_iff in Hcd as (D1 & D2 & D3 & D4). intros p [<-|[<-|[]]]; cbn [fst snd]; apply contains_iff.
    + split; [exact D1|]. split; [exact (dle_trans _ _ _ D2 Q1)|]. split; [exact D3|exact (dle_trans _ _ _ D4 Q2)].
    + split; [exact (dle_trans _ _ _ Q1 D1)|]. split; [exact D2|]. split; [exact (dle_trans _ _ _ Q2 D3)|exact D4].
Qed.
Print Assumptions bbox_expand_from.
(** Refuted for empty boxes: expanding with the empty box gives the whole world. *)
Theorem bbox_expand_empty_refuted : contains (expand_from bbox0 bbox0) (d_of_Z 12) (d_of_Z 34) = true /\ contains bbox0 (d_of_Z 12) (d_of_Z 34) = false /\
  contained_by {| north := d180; south := dm180; east := d180; west := dm180 |} (expand_from bbox0 bbox0) = true.
Proof. vm_compute. auto. Qed.
Print Assumptions bbox_expand_empty_refuted.
(** A point that is not a number is ignored; the box does not contain it. *)
Theorem bbox_nan_ignored : forall b, expand_lat_lon b S754_nan S754_nan = b /\ contains (expand_lat_lon b S754_nan S754_nan) S754_nan S754_nan = false.
Proof. intros [n s e w]. split; [destruct n, s, e, w; reflexivity|]. destruct n, s, e, w; reflexivity. Qed.
Print Assumptions bbox_nan_ignored.

(** The points that count for the bounds of a feature: all coordinates of placemarks and photo overlays,
    but of polygons the outer ring only. *)
Definition coords_points (c : option (list (double * double))) : list (double * double) := match c with Some l => l | None => [] end.
Fixpoint geometry_points (g : geometry) : list (double * double) :=
  match g with
  | GCoords c => coords_points c
  | GPolygon o _ => match o with Some r => coords_points r | None => [] end
  | GModel (Some p) => [p]
  | GModel None => []
  | GMulti gs => flat_map geometry_points gs
  | GOther => []
  end.
Fixpoint feature_points (f : feature) : list (double * double) :=
  match f with
  | FPlacemark (Some g) => geometry_points g
  | FPlacemark None => []
  | FPhotoOverlay (Some c) => coords_points c
  | FPhotoOverlay None => []
  | FContainer fs => flat_map feature_points fs
  | FOther => []
  end.
Definition some_points (l : list (double * double)) : bool := match l with [] => false | _ => true end.
Lemma some_points_app a b : some_points (a ++ b) = some_points a || some_points b.
Proof. now destruct a. Qed.
Lemma expand_all_app a b x : expand_all (a ++ b) x = expand_all b (expand_all a x).
Proof. apply fold_left_app. Qed.
Lemma coords_bounds_eq c b : coords_bounds c b = (some_points (coords_points c), expand_all (coords_points c) b).
Proof. destruct c as [l|]; reflexivity. Qed.
Lemma fold_bounds {A} (f : A -> bbox -> bool * bbox) (pts : A -> list (double * double)) l :
  Forall (fun x => forall b, f x b = (some_points (pts x), expand_all (pts x) b)) l -> forall h b,
  fold_left (fun r x => let '(h, b) := f x (snd r) in (fst r || h, b)) l (h, b) = (h || some_points (flat_map pts l), expand_all (flat_map pts l) b).
Proof.
  intros Hl. induction Hl as [|x l Hx Hl IH]; intros h b; cbn [fold_left flat_map].
  - cbn. now rewrite orb_false_r.
  - cbn [fst snd]. rewrite Hx, IH, some_points_app, expand_all_app. now rewrite orb_assoc.
Qed.
Lemma geometry_ind2 (P : geometry -> Prop) : (forall c, P (GCoords c)) -> (forall o i, P (GPolygon o i)) -> (forall l, P (GModel l)) ->
  (forall gs, Forall P gs -> P (GMulti gs)) -> P GOther -> forall g, P g.
Proof.
  intros H1 H2 H3 H4 H5. fix IH 1. intros [c|o i|l|gs|]; [apply H1|apply H2|apply H3| |apply H5]. apply H4. induction gs as [|g gs IHg]; constructor; auto.
Qed.
Lemma feature_ind2 (P : feature -> Prop) : (forall g, P (FPlacemark g)) -> (forall c, P (FPhotoOverlay c)) ->
  (forall fs, Forall P fs -> P (FContainer fs)) -> P FOther -> forall f, P f.
Proof.
  intros H1 H2 H3 H4. fix IH 1. intros [g|c|fs|]; [apply H1|apply H2| |apply H4]. apply H3. induction fs as [|f fs IHf]; constructor; auto.
Qed.
Lemma geometry_bounds_eq g : forall b, geometry_bounds g b = (some_points (geometry_points g), expand_all (geometry_points g) b).
Proof.
  induction g as [c|[o|] i|[[lat lon]|]|gs IH|] using geometry_ind2; intros b; cbn [geometry_bounds geometry_points]; auto using coords_bounds_eq.
  rewrite (fold_bounds geometry_bounds geometry_points gs IH). reflexivity.
Qed.
Lemma feature_bounds_eq f : forall b, feature_bounds f b = (some_points (feature_points f), expand_all (feature_points f) b).
Proof.
  induction f as [[g|]|[c|]|fs IH|] using feature_ind2; intros b; cbn [feature_bounds feature_points]; auto using coords_bounds_eq, geometry_bounds_eq.
  rewrite (fold_bounds feature_bounds feature_points fs IH). reflexivity.
Qed.
(** The bounds of a feature exist exactly if it has a coordinate, and are the smallest box around its
    coordinates. *)
Theorem feature_bounds_exact : forall f, Forall (fun p => in_range (fst p) = true /\ in_range (snd p) = true) (feature_points f) ->
  (fst (feature_bounds f bbox0) = true <-> feature_points f <> []) /\
  (forall p, In p (feature_points f) -> contains (snd (feature_bounds f bbox0)) (fst p) (snd p) = true) /\
  (feature_points f <> [] -> forall c, (forall p, In p (feature_points f) -> contains c (fst p) (snd p) = true) ->
     contained_by (snd (feature_bounds f bbox0)) c = true).
Proof.
  intros f Hf. rewrite feature_bounds_eq. cbn [fst snd]. repeat split.
  - destruct (feature_points f); cbn; congruence.
  - destruct (feature_points f); cbn; congruence.
  - intros p Hp. apply bbox_contains_points; auto using bbox0_no_nan. eapply Forall_impl; [|exact Hf]. intros q [H1 H2]. auto using in_range_nan.
  - intros Hne c Hc. now apply bbox_smallest.
Qed.
Print Assumptions feature_bounds_exact.
(** The place of a feature is the center of its bounds; it has one exactly if it has a coordinate. *)
Theorem feature_place : forall f, match feature_lat_lon f with
  | None => feature_points f = []
  | Some (lat, lon) => feature_points f <> [] /\ lat = mid (north (snd (feature_bounds f bbox0))) (south (snd (feature_bounds f bbox0))) /\
                       lon = mid (east (snd (feature_bounds f bbox0))) (west (snd (feature_bounds f bbox0)))
  end.
Proof.
  intros f. unfold feature_lat_lon. rewrite feature_bounds_eq. destruct (feature_points f); [reflexivity|]. cbn [some_points snd]. split; [discriminate|]. split; reflexivity.
Qed.
Print Assumptions feature_place.
Example bounds_sample : let ring := [(d_of_Z 1, d_of_Z 2); (d_of_Z 3, d_of_Z (-4))] in
  let f := FContainer [FPlacemark (Some (GPolygon (Some (Some ring)) [])); FOther; FPlacemark (Some (GMulti [GModel (Some (d_of_Z 7, d_of_Z 7)); GOther]))] in
  feature_points f = ring ++ [(d_of_Z 7, d_of_Z 7)] /\ feature_lat_lon f = Some (d_of_Z 4, mid (d_of_Z 7) (d_of_Z (-4))).
Proof. vm_compute. auto. Qed.

(** C41. The cells of the quadtree under [qt] at level [k]. *)
Inductive cell (qt : bbox) : nat -> bbox -> Prop :=
| cell_self : cell qt 0 qt
| cell_child k c (upper right : bool) : cell qt k c ->
    cell qt (S k) {| north := if upper then north c else center_lat c; south := if upper then center_lat c else south c;
                     east := if right then east c else center_lon c; west := if right then center_lon c else west c |}.
Definition quadrant (c : bbox) (upper right : bool) : bbox :=
  {| north := if upper then north c else center_lat c; south := if upper then center_lat c else south c;
     east := if right then east c else center_lon c; west := if right then center_lon c else west c |}.
Lemma align_step_some b qt c : align_step b qt = Some c -> (exists u r, c = quadrant qt u r) /\ contained_by b c = true.
Proof.
  unfold align_step. intros H.
  destruct (contained_by_box b (north qt) (center_lat qt) (east qt) (center_lon qt)) eqn:E1; [inversion H; subst; split; [now exists true, true|exact E1]|].
  destruct (contained_by_box b (north qt) (center_lat qt) (center_lon qt) (west qt)) eqn:E2; [inversion H; subst; split; [now exists true, false|exact E2]|].
  destruct (contained_by_box b (center_lat qt) (south qt) (east qt) (center_lon qt)) eqn:E3; [inversion H; subst; split; [now exists false, true|exact E3]|].
  destruct (contained_by_box b (center_lat qt) (south qt) (center_lon qt) (west qt)) eqn:E4; [inversion H; subst; split; [now exists false, false|exact E4]|].
  discriminate.
Qed.
Lemma align_step_none b qt : align_step b qt = None -> forall u r, contained_by b (quadrant qt u r) = false.
Proof.
  unfold align_step. intros H u r.
  destruct (contained_by_box b (north qt) (center_lat qt) (east qt) (center_lon qt)) eqn:E1; [discriminate|].
  destruct (contained_by_box b (north qt) (center_lat qt) (center_lon qt) (west qt)) eqn:E2; [discriminate|].
  destruct (contained_by_box b (center_lat qt) (south qt) (east qt) (center_lon qt)) eqn:E3; [discriminate|].
  destruct (contained_by_box b (center_lat qt) (south qt) (center_lon qt) (west qt)) eqn:E4; [discriminate|].
  destruct u, r; assumption.
Qed.
Lemma cell_below qt u r k c : cell (quadrant qt u r) k c -> cell qt (S k) c.
Proof. intros H. induction H as [|k c u' r' H IH]; [apply (cell_child qt 0 qt u r), cell_self|]. now apply cell_child. Qed.
Lemma align_spec b d : forall qt, contained_by b qt = true ->
  exists k, (k <= S d)%nat /\ cell qt k (align b qt d) /\ contained_by b (align b qt d) = true /\
    (k = S d \/ forall u r, contained_by b (quadrant (align b qt d) u r) = false).
Proof.
  induction d as [|d IH]; intros qt Hq; cbn [align]; destruct (align_step b qt) as [c|] eqn:Es.
  - destruct (align_step_some b qt c Es) as [(u & r & ->) Hc]. exists 1%nat. repeat split; auto. apply (cell_child qt 0 qt u r), cell_self.
  - exists 0%nat. repeat split; auto; [apply cell_self|]. right. now apply align_step_none.
  - destruct (align_step_some b qt c Es) as [(u & r & ->) Hc]. destruct (IH _ Hc) as (k & K1 & K2 & K3 & K4). exists (S k).
    repeat split; auto; [lia|now apply cell_below in K2|]. destruct K4 as [->|K4]; auto.
  - exists 0%nat. repeat split; auto; [lia|apply cell_self|]. right. now apply align_step_none.
Qed.
(** Aligning gives a cell of the quadtree that contains the box, at most one level deeper than asked for; unless
    that level is reached no quadrant of the cell contains the box. *)
Theorem align_gives_cell : forall b qt d, contained_by b qt = true ->
  exists k, (k <= S d)%nat /\ cell qt k (align b qt d) /\ contained_by b (align b qt d) = true /\
    (k = S d \/ forall u r, contained_by b (quadrant (align b qt d) u r) = false).
Proof. exact (fun b qt d => align_spec b d qt). Qed.
Print Assumptions align_gives_cell.
(** Refuted: with maximum depth 0 the cell is one level deep. *)
Theorem align_depth_refuted : exists b qt, contained_by b qt = true /\ align b qt 0 <> qt /\ cell qt 1 (align b qt 0) /\ ~ cell qt 0 (align b qt 0).
Proof.
  exists {| north := d_of_Z 2; south := d_of_Z 1; east := d_of_Z 2; west := d_of_Z 1 |}, {| north := d180; south := dm180; east := d180; west := dm180 |}.
  split; [reflexivity|]. split; [vm_compute; discriminate|]. split.
  - match goal with |- cell ?q 1 ?x => replace x with (quadrant q true true) by (vm_compute; reflexivity) end. apply (cell_child _ 0), cell_self.
  - intros H. inversion H.
Qed.
Print Assumptions align_depth_refuted.

(** Tours, and the other elements made by the convenience functions. *)
From Verif Require Import Common Doubles BboxModel BboxProps StrMap StringsModel ColorModel AttributesModel AttributesProofs XsdTables XsdModel XmlSpec XmlSpecProofs.
From Verif Require Import SerializerModel SerializerProofs CoordModel CoordProofs HandlerModel HandlerSpec HandlerProps.
From Verif Require Import DomTables DomModel DomSpec DomProofs DomProofs2 DomParsed DomVisit DomProps CloneModel CloneProofs CloneProps.
From Verif Require Import MergeModel MergeProofs MergeProps IdModel IdProps UpdateModel UpdateProofs UpdateProps WholeUpdateModel WholeUpdateProps ViewModel ViewProps TourModel.
Local Open Scope N_scope.

Lemma wf_unfold E ty ka ea tx vec sl mis unk : is_simple ty = false -> wf E (Obj ty ka ea tx vec sl mis unk) =
      (creatable ty && attrs_same E ty (Obj ty ka ea tx vec sl mis unk) &&
      (if ty =? Type_coordinates then nilb mis && opt_str_eqb tx None && forallb (printed3 E) vec
       else nilb vec && (if no_own_text ty then opt_str_eqb tx None else true) && (if snippet_type ty then nilb mis else true)) &&
      slots_wf E ty 0 (c_slots (cls ty)) sl &&
      forallb (fun c => match find_slot (oty c) (c_slots (cls ty)) 0 with None => true | Some _ => false end &&
                        negb ((ty =? Type_SimpleData) && (oty c =? Type_SimpleData))) mis &&
      forallb (forallb (wf E)) sl && forallb (wf E) mis).
Proof. intros H. cbn [wf]. now rewrite H. Qed.
Lemma clone_unfold E ty ka ea tx vec sl mis unk : is_simple ty = false -> (ty =? Type_coordinates) = false -> cloneable E (Obj ty ka ea tx vec sl mis unk) =
      (match tx with Some [] => false | Some _ => forallb (fun c => is_simple (oty c)) mis | None => true end &&
      forallb (fun p' => href_values E ty (fst p') (snd p')) (combine (c_slots (cls ty)) sl) &&
      forallb (fun kl : N * list obj => match kl with (k, []) => true | (k, _) => existsb (N.eqb k) (c_ser (cls ty)) end) (combine (keys (c_slots (cls ty))) sl) &&
      forallb (forallb (cloneable E)) sl && forallb (cloneable E) mis).
Proof. intros H K. cbn [cloneable]. now rewrite H, K. Qed.
Lemma tuple_good E v : printed3 E v = true -> wf E (one_tuple v) = true /\ cloneable E (one_tuple v) = true.
Proof.
  intros H. split; [|vm_compute; reflexivity]. unfold one_tuple, create. cbn [set_vec]. rewrite wf_unfold by reflexivity.
  cbn [forallb]. rewrite H. vm_compute. reflexivity.
Qed.
Lemma point_good E v : printed3 E v = true -> wf E (point_of v) = true /\ cloneable E (point_of v) = true.
Proof.
  intros H. apply tuple_good in H as [H1 H2].
  split; [match goal with |- wf E ?p = true => let p' := eval vm_compute in p in change p with p' end; rewrite wf_unfold by reflexivity; clear H2; generalize dependent (wf E)|
          match goal with |- cloneable E ?p = true => let p' := eval vm_compute in p in change p with p' end; rewrite clone_unfold by reflexivity; clear H1; generalize dependent (cloneable E)]; intros W H.
  all: vm_compute in H; vm_compute; now rewrite H.
Qed.
Lemma attrs_target E id o : oka o = [(S_ "targetId", id)] -> oea o = no_attrs -> oty o = Type_Placemark -> attrs_same E Type_Placemark o = true.
Proof.
  destruct o as [ty ka ea tx vec sl mis unk]. cbn [oka oea oty]. intros -> -> ->. unfold attrs_same.
  set (o' := parse_attributes E (create Type_Placemark) _).
  assert (H : oka o' = [(S_ "targetId", id)] /\ oea o' = no_attrs) by (split; vm_compute; reflexivity).
  destruct H as [-> ->]. now rewrite attrs_eqb_refl.
Qed.
Lemma moved_good E target v : printed3 E v = true -> good E (moved target v).
Proof.
  intros H. apply point_good in H as [H1 H2]. split; [|split; [|reflexivity]].
  - pose proof (attrs_target E target (moved target v) eq_refl eq_refl eq_refl) as Ha. revert Ha.
    match goal with |- _ -> wf E ?p = true => let p' := eval vm_compute in p in change p with p' end. intros Ha. rewrite wf_unfold by reflexivity.
    let n := eval vm_compute in Type_Placemark in change Type_Placemark with n in Ha. rewrite Ha.
    clear Ha H2. generalize dependent (wf E). intros W H. vm_compute in H. vm_compute. now rewrite H.
  - match goal with |- cloneable E ?p = true => let p' := eval vm_compute in p in change p with p' end. rewrite clone_unfold by reflexivity.
    clear H1. generalize dependent (cloneable E). intros W H. vm_compute in H. vm_compute. now rewrite H.
Qed.

(** What a change moves. *)
Definition plain_point (t : obj) : Prop := oty t = Type_Placemark /\ omis t = [] /\ forall g, In g (get t Type_Geometry) -> oty g = Type_Point /\ omis g = [].
Lemma combine_one {A} (P : A * (list obj * list obj) -> bool) : (forall a c, P (a, ([], c)) = true) -> forall i0 l1 l2 l3,
  (forall i, i <> i0 -> nth i l2 [] = []) -> (forall a, nth_error l1 i0 = Some a -> P (a, (nth i0 l2 [], nth i0 l3 [])) = true) ->
  forallb P (combine l1 (combine l2 l3)) = true.
Proof.
  intros HP i0 l1. revert i0. induction l1 as [|a l1 IH]; intros i0 l2 l3 H1 H2; [reflexivity|]. destruct l2 as [|b l2]; [reflexivity|]. destruct l3 as [|c l3]; [reflexivity|].
  cbn [combine forallb]. apply andb_true_iff. destruct i0 as [|i0].
  - split; [exact (H2 a eq_refl)|]. apply (IH (length l2)); clear H2.
    + intros i _. exact (H1 (S i) ltac:(discriminate)).
    + intros x Hx. rewrite (H1 (S (length l2)) ltac:(discriminate) : nth (length l2) l2 [] = []). apply HP.
  - split; [rewrite (H1 0%nat ltac:(discriminate) : b = []); apply HP|]. apply (IH i0); [|exact H2].
    intros i Hi. exact (H1 (S i) ltac:(congruence)).
Qed.
Lemma all_nil {A} (l : list (list A)) : forallb nilb l = true -> forall i, nth i l [] = [].
Proof. induction l as [|x l IH]; intros H [|i]; try reflexivity; cbn [forallb] in H; apply andb_true_iff in H as [H1 H2]; cbn [nth]; [now apply nilb_eq|auto]. Qed.
Lemma tuple_mergeable v b : oty b = Type_coordinates -> omis b = [] -> mergeable (one_tuple v) b = true.
Proof. intros H1 H2. unfold one_tuple, create. cbn [set_vec mergeable]. rewrite H1, H2. vm_compute. reflexivity. Qed.
Lemma good_child E o l c : good E o -> In l (oslots o) -> In c l -> is_simple (oty c) = false -> good E c.
Proof. intros Ho Hl Hc Hs. destruct (good_in E o l c Ho Hl Hc) as [H1 H2]. now split. Qed.
Lemma coordinates_mis E o : good E o -> oty o = Type_coordinates -> omis o = [].
Proof.
  destruct o as [ty ka ea tx vec sl mis unk]. cbn [oty omis]. intros (Hw & _ & Hs) ->. cbn [oty] in Hs. rewrite wf_unfold in Hw by exact Hs.
  rewrite !andb_true_iff in Hw. destruct Hw as (((((_ & Hx) & _) & _) & _) & _). change (Type_coordinates =? Type_coordinates) with true in Hx. cbv iota in Hx.
  rewrite !andb_true_iff in Hx. apply nilb_eq. tauto.
Qed.
Lemma point_mergeable E v b : good E b -> oty b = Type_Point -> omis b = [] -> mergeable (point_of v) b = true.
Proof.
  intros Hg Hty Hm.
  match goal with |- mergeable ?p b = true => let p' := eval vm_compute in p in change p with p' end. cbn [mergeable].
  rewrite Hty, Hm.
  match goal with |- ?a && ?b && ?c && ?d && ?x && ?y = true => assert (Ha : a && b && c && d = true) by (vm_compute; reflexivity); rewrite Ha; clear Ha end.
  rewrite andb_true_l. apply andb_true_iff. split.
  - apply (combine_one _) with (i0 := 0%nat).
    + intros a c. cbn [fst snd forallb nilb]. now destruct (s_kind a).
    + intros [|[|[|[|[|i]]]]] Hi; try reflexivity; congruence.
    + intros a Ha. vm_compute in Ha. inversion Ha; subst a. cbn [fst snd s_kind nth].
      destruct (nth 0 (oslots b) []) as [|x l] eqn:En; [vm_compute; reflexivity|].
      assert (Hx : In x (nth 0 (oslots b) [])) by (rewrite En; now left). apply (good_routed E b Hg) in Hx as (s & Hs). rewrite Hty in Hs.
      assert (Ec : find_slot Type_coordinates (c_slots (cls Type_Point)) 0 = Some (0%nat, DomTables.one Type_coordinates)) by (vm_compute; reflexivity).
      destruct (find_slot_spec _ _ _ _ _ Hs) as [_ Hn]. assert (s = DomTables.one Type_coordinates) by (vm_compute in Hn; inversion Hn; reflexivity). subst s.
      rewrite (find_slot_other _ _ _ _ _ Ec eq_refl _ Hs). vm_compute. reflexivity.
  - cbn [forallb]. rewrite !andb_true_r. apply orb_true_iff. right.
    match goal with |- match child ?t b with _ => _ end = true => change t with Type_coordinates end.
    destruct (child Type_coordinates b) as [c|] eqn:Ec; [|reflexivity]. apply child_in in Ec as (Ht & l & Hl & Hc).
    change (mergeable (one_tuple v) c = true). apply tuple_mergeable; [exact Ht|].
    apply (coordinates_mis E); [|exact Ht]. apply (good_child E b l c Hg Hl Hc). rewrite Ht. reflexivity.
Qed.
Lemma moved_mergeable E target v t : good E t -> plain_point t -> mergeable (moved target v) t = true.
Proof.
  intros Hg (Hty & Hm & Hp).
  match goal with |- mergeable ?p t = true => let p' := eval vm_compute in p in change p with p' end. cbn [mergeable].
  rewrite Hty, Hm.
  match goal with |- ?a && ?b && ?c && ?d && ?x && ?y = true => assert (Ha : a && b && c && d = true) by (vm_compute; reflexivity); rewrite Ha; clear Ha end.
  rewrite andb_true_l.
  assert (Eg : get t Type_Geometry = nth 0 (oslots t) []).
  { destruct t as [ty ka ea tx vec sl mis unk]. cbn [oty] in Hty. subst ty. reflexivity. }
  apply andb_true_iff. split.
  - apply (combine_one _) with (i0 := 0%nat).
    + intros a c. cbn [fst snd forallb nilb]. now destruct (s_kind a).
    + intros i Hi. destruct i as [|i]; [congruence|]. match goal with |- nth (S i) (_ :: ?l) [] = [] => exact (all_nil l eq_refl i) end.
    + intros a Ha. vm_compute in Ha. inversion Ha; subst a. cbn [fst snd s_kind nth].
      destruct (nth 0 (oslots t) []) as [|x l] eqn:En; [vm_compute; reflexivity|].
      destruct (Hp x) as [Hx _]; [rewrite Eg; now left|]. rewrite Hx. vm_compute. reflexivity.
  - cbn [forallb]. rewrite ?andb_true_r, ?andb_true_l. apply orb_true_iff. right.
    match goal with |- match child ?k t with _ => _ end = true => change k with Type_Point end.
    destruct (child Type_Point t) as [c|] eqn:Ec; [|reflexivity]. 
    pose proof (child_in _ _ _ Ec) as (Ht & l & Hl & Hc).
    assert (Es : exists s, find_slot Type_Point (c_slots (cls (oty t))) 0 = Some (0%nat, s)) by (rewrite Hty; eexists; vm_compute; reflexivity).
    destruct Es as [s Es]. rewrite (child_slot t _ _ _ (good_routed E t Hg) Es), <- Eg in Ec. apply first_some in Ec as [_ Hin].
    change (mergeable (point_of v) c = true). apply (point_mergeable E); [|exact Ht|apply (Hp c Hin)].
    apply (good_child E t l c Hg Hl Hc). rewrite Ht. reflexivity.
Qed.

(** What the made placemark says: nothing but the target and the tuple. *)
Lemma at_moved target v w : match at_path w (moved target v) with
  | None => True
  | Some x => (w = [] /\ x = moved target v) \/ (w = [Type_Point] /\ x = point_of v) \/ (w = [Type_Point; Type_coordinates] /\ x = one_tuple v)
  end.
Proof.
  assert (H1 : forall k, child k (moved target v) = if Type_Point =? k then Some (point_of v) else None).
  { intros k. unfold child. replace (concat (oslots (moved target v))) with [point_of v] by (vm_compute; reflexivity). unfold first. cbn [filter]. change (oty (point_of v)) with Type_Point. now destruct (Type_Point =? k). }
  assert (H2 : forall k, child k (point_of v) = if Type_coordinates =? k then Some (one_tuple v) else None).
  { intros k. unfold child. replace (concat (oslots (point_of v))) with [one_tuple v] by (vm_compute; reflexivity). unfold first. cbn [filter]. change (oty (one_tuple v)) with Type_coordinates. now destruct (Type_coordinates =? k). }
  assert (H3 : forall k, child k (one_tuple v) = None) by reflexivity.
  destruct w as [|a w]; [left; auto|]. cbn [at_path]. rewrite H1. destruct (N.eqb_spec Type_Point a) as [<-|]; [|exact I].
  destruct w as [|b w]; [right; left; auto|]. cbn [at_path]. rewrite H2. destruct (N.eqb_spec Type_coordinates b) as [<-|]; [|exact I].
  destruct w as [|c w]; [right; right; auto|]. cbn [at_path]. now rewrite H3.
Qed.
Lemma moved_value target v w f : is_simple f = true -> value w f (moved target v) = None.
Proof.
  intros Hf. rewrite value_path. pose proof (at_moved target v (w ++ [f])) as H. destruct (at_path (w ++ [f]) (moved target v)) as [x|] eqn:Ex; [|reflexivity].
  exfalso. apply path_type in Ex. destruct H as [[H _]|[[_ ->]|[_ ->]]]; [now destruct w|rewrite <- Ex in Hf; discriminate|rewrite <- Ex in Hf; discriminate].
Qed.
Lemma moved_attribute target v w k : w <> [] \/ k <> S_ "targetId" -> attribute w k (moved target v) = None.
Proof.
  intros Hk. unfold attribute. pose proof (at_moved target v w) as H. destruct (at_path w (moved target v)) as [x|]; [|reflexivity].
  destruct H as [[-> ->]|[[_ ->]|[_ ->]]]; [|reflexivity|reflexivity]. destruct Hk as [Hk|Hk]; [congruence|].
  change (oka (moved target v)) with [(S_ "targetId", target)]. unfold view, find_value. cbn [mget]. now rewrite (proj2 (eqs_neq _ _) Hk).
Qed.
Lemma moved_tuples target v w : tuples (w ++ [Type_coordinates]) (moved target v) = if list_eq_dec N.eq_dec w [Type_Point] then Some [v] else None.
Proof.
  unfold tuples. pose proof (at_moved target v (w ++ [Type_coordinates])) as H. destruct (list_eq_dec N.eq_dec w [Type_Point]) as [->|Hw]; [reflexivity|].
  destruct (at_path (w ++ [Type_coordinates]) (moved target v)) as [x|]; [|reflexivity]. exfalso. destruct H as [[H _]|[[H _]|[H _]]].
  - now destruct w.
  - destruct w as [|a [|b w]]; cbn [app] in H; discriminate.
  - apply Hw. change [Type_Point; Type_coordinates] with ([Type_Point] ++ [Type_coordinates]) in H. now apply app_inj_tail in H as [H _].
Qed.

(** C105. The update of a tour that moves a placemark, applied to a document that knows the id: the placemark's Point has the new place; every other value,
    attribute and tuple of it is as it was, and so are all other elements. *)
Theorem move_point_correct : forall E o m target v duration p t, numbers_stable E -> printed3 E v = true ->
  mget target m = Some p -> at_address o p = Some t -> good E t -> plain_point t ->
  exists u o' r, get (move_point target v duration) Type_Update = [u] /\ process_update E None u (opened o m) = Done (o', snd (opened o m)) /\
    at_address o' p = Some r /\ oty r = Type_Placemark /\
    tuples [Type_Point; Type_coordinates] r = Some [v] /\
    (forall w, w <> [Type_Point] -> tuples (w ++ [Type_coordinates]) r = tuples (w ++ [Type_coordinates]) t) /\
    (forall w f, is_simple f = true -> value w f r = value w f t) /\
    (forall w k, w <> [] \/ k <> S_ "targetId" -> attribute w k r = attribute w k t) /\
    (forall q, under p q = None -> says o' q = says o q).
Proof.
  intros E o m target v duration p t HE Hv Hm Ht Hg Hp. exists (move_update target v).
  pose proof (moved_mergeable E target v t Hg Hp) as Hmg.
  destruct (change_correct E o m None (moved target v) target p t HE eq_refl Hm Ht (moved_good E target v Hv) Hg Hmg) as (o' & r & H1 & H2 & H3 & H4 & H5 & H6 & H7).
  exists o', r. split; [reflexivity|]. split.
  { rewrite process_actions. replace (actions (move_update target v)) with [AChange (moved target v)] by (vm_compute; reflexivity).
    cbn [each]. unfold WholeUpdateProps.one, change_one. change (target_id None (moved target v)) with (Some target). unfold opened at 1. cbn [snd]. rewrite mget_opened, Hm. cbn [option_map].
    unfold opened at 1. cbn [fst]. rewrite Ht, Hmg. assert (Gb : goodb E t = true) by (destruct Hg as (A & B & C); unfold goodb; now rewrite A, B, C). rewrite Gb. cbn [andb]. rewrite H1. reflexivity. }
  split; [exact H2|]. split; [rewrite H3; apply Hp|]. split; [|split; [|split; [|split; [|exact H7]]]].
  - pose proof (H6 [Type_Point]) as H. rewrite moved_tuples in H. destruct (list_eq_dec N.eq_dec [Type_Point] [Type_Point]); [exact H|congruence].
  - intros w Hw. rewrite H6, moved_tuples. destruct (list_eq_dec N.eq_dec w [Type_Point]); [congruence|reflexivity].
  - intros w f Hf. rewrite H4 by exact Hf. now rewrite moved_value.
  - intros w k Hk. rewrite H5, (moved_attribute target v w k Hk). cbn [over].
    destruct (eqs k (S_ "targetId") && match w with [] => true | _ => false end) eqn:Ek; [|reflexivity]. exfalso. apply andb_true_iff in Ek as [K1 K2].
    apply eqs_spec in K1. destruct w; [|discriminate]. destruct Hk; congruence.
Qed.
Print Assumptions move_point_correct.
Definition port : obj := doc_obj (S_ "<kml><Document><Placemark id=""ship""><name>x</name><Point><extrude>1</extrude><coordinates>1,2,0</coordinates></Point></Placemark><Placemark id=""way""><LineString><coordinates>1,2,0 3,4,0</coordinates></LineString></Placemark></Document></kml>").
Definition after_move (target : str) (v : str * str * str) : option (option str) :=
  match get (move_point target v (S_ "5")) Type_Update with
  | [u] => match process_update E0 None u (opened port (map_ids port)) with Done f => Some (text_of (fst f)) | _ => None end
  | _ => None
  end.
(** The hypotheses hold of a ship in a port, and this is where it is afterwards. *)
Example move_sample : (exists p t, mget (S_ "ship") (map_ids port) = Some p /\ at_address port p = Some t /\ good E0 t /\ plain_point t) /\
  printed3 E0 (vec3 (S_ "5.5") (S_ "-6") None) = true /\
  after_move (S_ "ship") (vec3 (S_ "5.5") (S_ "-6") None) =
    Some (Some (S_ "<kml><Document><Placemark id=""ship""><name>x</name><Point><extrude>1</extrude><coordinates>5.5,-6,0
</coordinates></Point></Placemark><Placemark id=""way""><LineString><coordinates>1,2,0
3,4,0
</coordinates></LineString></Placemark></Document></kml>")).
Proof.
  split; [|split; vm_compute; reflexivity].
  eexists. eexists. split; [vm_compute; reflexivity|]. split; [vm_compute; reflexivity|]. split; [apply goodb_good; vm_compute; reflexivity|].
  split; [reflexivity|]. split; [reflexivity|]. intros g Hg. vm_compute in Hg. destruct Hg as [<-|[]]. auto.
Qed.
(** C105. Moving a placemark that is no point replaces its geometry: the line is gone. *)
Theorem move_line_refuted : exists t r, at_address port [(0%nat, 0%nat)] = Some t /\
  exists way, nth_error (get t Type_Feature) 1 = Some way /\ tuples [Type_LineString; Type_coordinates] way = Some [(S_ "1", S_ "2", S_ "0"); (S_ "3", S_ "4", S_ "0")] /\
  merge E0 (moved (S_ "way") (vec3 (S_ "5") (S_ "6") None)) way = Some r /\
  tuples [Type_LineString; Type_coordinates] r = None /\ tuples [Type_Point; Type_coordinates] r = Some [(S_ "5", S_ "6", S_ "0")].
Proof. do 2 eexists. split; [vm_compute; reflexivity|]. eexists. split; [vm_compute; reflexivity|]. split; [vm_compute; reflexivity|]. split; [vm_compute; reflexivity|]. split; vm_compute; reflexivity. Qed.
Print Assumptions move_line_refuted.

(** C105. Flying to a view: the duration asked for and a view that is equal to the one given, in an element of its own. *)
Theorem fly_to_correct : forall E v duration, good E v -> is_a (oty v) Type_AbstractView = true ->
  exists f, fly_to E v duration = CloneModel.Done f /\ oty f = Type_GxFlyTo /\ get f Type_AbstractView = [v] /\ get f Type_GxDuration = [field Type_GxDuration duration] /\ get f Type_GxFlyToMode = [].
Proof.
  intros E v duration (Hw & Hc & Hs) Ha. unfold fly_to. rewrite (clone_correct E v Hw Hs Hc). cbn [cbind]. rewrite Ha. eexists. split; [reflexivity|].
  repeat split; vm_compute; reflexivity.
Qed.
Print Assumptions fly_to_correct.
(** C105. Flying to a feature: to its view if it has one; else to the view computed for it; no flight exactly if there is neither a view nor a place. *)
Theorem fly_to_feature_correct : forall E rd pr distance reach f duration, (forall v, In v (get f Type_AbstractView) -> good E v /\ is_a (oty v) Type_AbstractView = true) ->
  (forall l, good E (look_obj pr l)) -> (forall x, in_feature rd f x -> usable x) ->
  exists r, fly_to_feature E rd pr distance reach f duration = CloneModel.Done r /\
  match r with
  | None => get f Type_AbstractView = [] /\ forall x, ~ in_feature rd f x
  | Some o => oty o = Type_GxFlyTo /\ get o Type_GxDuration = [field Type_GxDuration duration] /\
      match get f Type_AbstractView with
      | v :: _ => get o Type_AbstractView = [v]
      | [] => (exists x, in_feature rd f x) /\ exists l, feature_look rd distance reach f = Some l /\ get o Type_AbstractView = [look_obj pr l] /\
          value [] Type_longitude (look_obj pr l) = Some (pr (l_lon l)) /\ value [] Type_latitude (look_obj pr l) = Some (pr (l_lat l)) /\ value [] Type_range (look_obj pr l) = Some (pr (l_range l))
      end
  end.
Proof.
  intros E rd pr distance reach f duration Hv Hl Hu. unfold fly_to_feature. destruct (get f Type_AbstractView) as [|v vs].
  - pose proof (view_inside rd distance reach f Hu) as H. destruct (feature_look rd distance reach f) as [l|].
    + destruct (fly_to_correct E (look_obj pr l) duration (Hl l) eq_refl) as (o & H1 & H2 & H3 & H4 & _). rewrite H1. cbn [cbind]. exists (Some o). split; [reflexivity|].
      split; [exact H2|]. split; [exact H4|]. split; [apply H|]. exists l. split; [reflexivity|]. split; [exact H3|]. split; [|split]; vm_compute; reflexivity.
    + exists None. auto.
  - destruct (Hv v) as [Hg Ha]; [now left|]. destruct (fly_to_correct E v duration Hg Ha) as (o & H1 & H2 & H3 & H4 & _). rewrite H1. cbn [cbind]. exists (Some o). auto.
Qed.
Print Assumptions fly_to_feature_correct.
(** The hypotheses hold of a place without a view, and of numbers printed as 0. *)
Example fly_sample : (forall l, good E0 (look_obj (fun _ => S_ "0") l)) /\
  exists o, fly_to_feature E0 rd0 (fun _ => S_ "0") (fun _ _ _ _ => d_of_Z 0) (fun _ _ => d_of_Z 0) near_midnight (S_ "2") = CloneModel.Done (Some o) /\
  text_of o = Some (S_ "<gx:FlyTo><gx:duration>2</gx:duration><LookAt><longitude>0</longitude><latitude>0</latitude><range>0</range><altitudeMode>relativeToGround</altitudeMode></LookAt></gx:FlyTo>").
Proof.
  split; [intros l; apply goodb_good; vm_compute; reflexivity|]. eexists. split; [vm_compute; reflexivity|]. vm_compute. reflexivity.
Qed.

(** C105. The other elements: every number and text is where it belongs, and there is nothing else. *)
Definition parts (o : obj) : nat := length (concat (oslots o)).
Theorem computed_view_element : forall pr l, let v := look_obj pr l in
  oty v = Type_LookAt /\ parts v = 4%nat /\ value [] Type_latitude v = Some (pr (l_lat l)) /\ value [] Type_longitude v = Some (pr (l_lon l)) /\
  value [] Type_range v = Some (pr (l_range l)) /\ value [] Type_altitudeMode v = Some (S_ "relativeToGround").
Proof. intros pr l v. repeat split; vm_compute; reflexivity. Qed.
Print Assumptions computed_view_element.
Theorem view_elements : forall lat lon alt heading tilt x mode,
  let c := camera_of lat lon alt heading tilt x mode in let l := look_at_of lat lon alt heading tilt x mode in
  (oty c = Type_Camera /\ parts c = 7%nat /\ value [] Type_latitude c = Some lat /\ value [] Type_longitude c = Some lon /\ value [] Type_altitude c = Some alt /\
   value [] Type_heading c = Some heading /\ value [] Type_tilt c = Some tilt /\ value [] Type_roll c = Some x /\ value [] Type_altitudeMode c = Some mode) /\
  (oty l = Type_LookAt /\ parts l = 7%nat /\ value [] Type_latitude l = Some lat /\ value [] Type_longitude l = Some lon /\ value [] Type_altitude l = Some alt /\
   value [] Type_heading l = Some heading /\ value [] Type_tilt l = Some tilt /\ value [] Type_range l = Some x /\ value [] Type_altitudeMode l = Some mode).
Proof. intros. split; repeat split; vm_compute; reflexivity. Qed.
Print Assumptions view_elements.
Theorem region_element : forall north south east west minlod maxlod, let r := region2d north south east west minlod maxlod in
  oty r = Type_Region /\ parts r = 2%nat /\ 
  value [Type_LatLonAltBox] Type_north r = Some north /\ value [Type_LatLonAltBox] Type_south r = Some south /\ value [Type_LatLonAltBox] Type_east r = Some east /\
  value [Type_LatLonAltBox] Type_west r = Some west /\ option_map parts (at_path [Type_LatLonAltBox] r) = Some 4%nat /\
  value [Type_Lod] Type_minLodPixels r = Some minlod /\ value [Type_Lod] Type_maxLodPixels r = Some maxlod /\ option_map parts (at_path [Type_Lod] r) = Some 2%nat.
Proof. intros. repeat split; vm_compute; reflexivity. Qed.
Print Assumptions region_element.
(** C105. Placemarks made for a place are at that place, those made for a ring are where the ring is; the ring and the point are the ones given. *)
Theorem placemark_elements : forall rd,
  (forall name lon lat, let p := point_placemark name lon lat in
     oty p = Type_Placemark /\ parts p = 2%nat /\ value [] Type_name p = Some name /\ forall x, in_feature rd p x <-> x = (rd lat, rd lon)) /\
  (forall ring, oty ring = Type_LinearRing -> let p := polygon_placemark ring in
     oty p = Type_Placemark /\ parts p = 1%nat /\ at_path [Type_Polygon; Type_outerBoundaryIs; Type_LinearRing] p = Some ring /\ forall x, in_feature rd p x <-> on_coords rd ring x) /\
  (forall pt date time date_time style, oty pt = Type_Point -> let p := time_placemark pt date time date_time style in
     oty p = Type_Placemark /\ parts p = 5%nat /\ at_path [Type_Point] p = Some pt /\ (forall x, in_feature rd p x <-> on_coords rd pt x) /\
     value [] Type_name p = Some time /\ value [] Type_styleUrl p = Some (S_ "#" ++ style) /\ value [Type_TimeStamp] Type_when p = Some date_time /\
     exists e, at_path [Type_ExtendedData] p = Some e /\ map (fun d => (find_value (S_ "name") (oka d), value [] Type_value d)) (get e Type_Data) = [(Some (S_ "date"), Some date); (Some (S_ "time"), Some time)]).
Proof.
  intros rd. split; [|split].
  - intros name lon lat p. split; [reflexivity|]. split; [vm_compute; reflexivity|]. split; [vm_compute; reflexivity|]. intros x. rewrite <- feature_iff.
    replace (feature_points (feature_of rd p)) with [(rd lat, rd lon)] by (vm_compute; reflexivity). cbn [In]. intuition.
  - intros ring Hr p. destruct ring as [ty ka ea tx vec sl mis unk]. cbn [oty] in Hr. subst ty. split; [reflexivity|]. split; [vm_compute; reflexivity|]. split; [vm_compute; reflexivity|].
    intros x. rewrite <- coords_iff, <- feature_iff.
    replace (feature_points (feature_of rd p)) with (coords_points (coords_of rd (Obj Type_LinearRing ka ea tx vec sl mis unk))); [reflexivity|].
    reflexivity.
  - intros pt date time date_time style Hp p. destruct pt as [ty ka ea tx vec sl mis unk]. cbn [oty] in Hp. subst ty. split; [reflexivity|]. split; [vm_compute; reflexivity|]. split; [vm_compute; reflexivity|]. split.
    { intros x. rewrite <- coords_iff, <- feature_iff.
      replace (feature_points (feature_of rd p)) with (coords_points (coords_of rd (Obj Type_Point ka ea tx vec sl mis unk))); [reflexivity|].
      reflexivity. }
    split; [vm_compute; reflexivity|]. split; [vm_compute; reflexivity|]. split; [vm_compute; reflexivity|]. eexists. split; [vm_compute; reflexivity|]. vm_compute. reflexivity.
Qed.
Print Assumptions placemark_elements.
Theorem wait_element : forall duration, let w := wait_of duration in oty w = Type_GxWait /\ parts w = 1%nat /\ value [] Type_GxDuration w = Some duration.
Proof. intros. repeat split; vm_compute; reflexivity. Qed.
Print Assumptions wait_element.
(** C105. The update of a tour has no target file, one change, and the duration asked for. *)
Theorem move_element : forall target v duration, let a := move_point target v duration in
  oty a = Type_GxAnimatedUpdate /\ parts a = 2%nat /\ value [] Type_GxDuration a = Some duration /\ value [Type_Update] Type_targetHref a = Some [] /\
  attribute [Type_Update; Type_Change; Type_Placemark] (S_ "targetId") a = Some target /\
  tuples [Type_Update; Type_Change; Type_Placemark; Type_Point; Type_coordinates] a = Some [v].
Proof. intros. repeat split; vm_compute; reflexivity. Qed.
Print Assumptions move_element.

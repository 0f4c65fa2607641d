(** Properties of mapping, clearing and renaming ids. *)
From Verif Require Import Common StrMap StringsModel ColorModel AttributesModel AttributesProofs XsdTables XsdModel XmlSpec XmlSpecProofs.
From Verif Require Import SerializerModel SerializerProofs CoordModel CoordProofs HandlerModel HandlerSpec HandlerProps.
From Verif Require Import DomTables DomModel DomSpec DomProofs DomProofs2 DomParsed DomProps CloneModel MergeModel MergeProofs MergeProps.
From Verif Require Import FileProofs IdModel IdProofs.
Local Open Scope N_scope.

(** Two elements which differ in the id only (children are compared at their own addresses). *)
Definition same_but_id (x y : obj) : Prop :=
  oty x = oty y /\ oea x = oea y /\ otext x = otext y /\ ovec x = ovec y /\ ounk x = ounk y /\
  map (@length obj) (lists x) = map (@length obj) (lists y) /\ forall k, k <> S_ "id" -> view (oka x) k = view (oka y) k.
Lemma info_at o p x : at_address o p = Some x -> info o p = Some (own x).
Proof. unfold info. now intros ->. Qed.
Lemma at_info o p y : info o p = Some y -> exists x, at_address o p = Some x /\ own x = y.
Proof. unfold info. destruct (at_address o p) as [x|]; [|discriminate]. intros H. inversion H. eauto. Qed.
Lemma own_same x y : own x = own y -> same_but_id x y /\ id_of x = id_of y.
Proof. unfold own. intros H. inversion H as [[H1 H2 H3 H4 H5 H6 H7]]. unfold same_but_id, id_of. split; [repeat split; intros; congruence|]. now rewrite H1, H2. Qed.
Lemma own_cleared x y : own y = on_ka (mdel (S_ "id")) (own x) -> same_but_id x y /\ id_of y = None.
Proof.
  unfold own, on_ka, same_but_id, id_of, find_value. generalize (S_ "id") as K. intros K H. inversion H as [[H1 H2 H3 H4 H5 H6 H7]]. rewrite H2. split.
  - repeat split; try congruence. intros k Hk. unfold view, find_value. rewrite mget_mdel. destruct (eqs k K) eqn:E; [apply eqs_spec in E; contradiction|reflexivity].
  - destruct (is_a (oty y) Type_Object); [|reflexivity]. now rewrite mget_mdel, eqs_refl.
Qed.
Lemma mget_mset_any {V} k (v : V) m k2 : mget k2 (mset k v m) = if eqs k2 k then Some v else mget k2 m.
Proof.
  induction m as [|[k' v'] m IH]; cbn [mset mget]; [reflexivity|]. destruct (scmp k k') eqn:E; cbn [mget].
  - apply scmp_eq in E. subst k'. now destruct (eqs k2 k).
  - reflexivity.
  - rewrite IH. destruct (eqs k2 k') eqn:E1, (eqs k2 k) eqn:E2; auto. apply eqs_spec in E1, E2. subst. rewrite scmp_refl in E. discriminate.
Qed.
Lemma own_named x y v : own y = on_ka (mset (S_ "id") v) (own x) -> same_but_id x y /\ (is_a (oty x) Type_Object = true -> id_of y = Some v).
Proof.
  unfold own, on_ka, same_but_id, id_of, find_value. generalize (S_ "id") as K. intros K H. inversion H as [[H1 H2 H3 H4 H5 H6 H7]]. rewrite H1, H2. split.
  - repeat split; try congruence. intros k Hk. unfold view, find_value. rewrite mget_mset_any. destruct (eqs k K) eqn:E; [apply eqs_spec in E; contradiction|reflexivity].
  - intros ->. now rewrite mget_mset_any, eqs_refl.
Qed.

(** C35. Clearing takes the id from an element exactly when the element is the last one with its id that
    is written; every other element keeps its id, and nothing but ids changes. *)
Theorem clear_ids_correct : forall o p x, at_address o p = Some x -> exists y, at_address (clear_ids o) p = Some y /\ same_but_id x y /\
  (wins o p -> id_of y = None) /\ (~ wins o p -> id_of y = id_of x).
Proof.
  intros o p x Hx. apply info_at in Hx. pose proof (clear_ids_info o p) as H. rewrite Hx in H. destruct (wins_dec o p) as [Hw|Hw]; cbn [option_map] in H; apply at_info in H as (y & Hy & Ho); exists y; split; auto.
  - apply own_cleared in Ho as [H1 H2]. repeat split; try apply H1; tauto.
  - apply own_same in Ho as [H1 H2]. split; [|tauto]. unfold same_but_id in *. intuition.
    symmetry. auto.
Qed.
Print Assumptions clear_ids_correct.
(** C35. If the written elements have different ids, and every element with an id is written, no id is left. *)
Theorem clear_ids_all : forall o,
  (forall p, id_at o p <> None -> reach o p = true) ->
  (forall p q id, reach o p = true -> reach o q = true -> id_at o p = Some id -> id_at o q = Some id -> p = q) ->
  forall p, id_at (clear_ids o) p = None.
Proof.
  intros o Hr Hd p. pose proof (clear_ids_info o p) as H. rewrite id_info, H. destruct (wins_dec o p) as [Hw|Hw].
  - destruct (info o p) as [[[[[[[ty ka] ea] tx] vec] unk] sh]|]; [|reflexivity]. cbn [option_map on_ka get_info_id]. destruct (is_a ty Type_Object); [|reflexivity].
    unfold find_value. now rewrite mget_mdel, eqs_refl.
  - rewrite <- id_info. destruct (id_at o p) as [id|] eqn:Ei; [|reflexivity]. exfalso. apply Hw.
    assert (Hp : reach o p = true) by (apply Hr; congruence). pose proof Hp as Hs. apply saved_in in Hs. apply in_split in Hs as (l1 & l2 & Hs). exists id, l1, l2. split; auto. split; auto.
    intros q Hq Hc. assert (Hrq : reach o q = true) by (apply saved_in; rewrite Hs; apply in_or_app; right; now right).
    assert (p = q) by (eapply Hd; eauto). subst q. pose proof (saved_nodup o) as Hn. rewrite Hs in Hn. apply NoDup_remove_2 in Hn. apply Hn. apply in_or_app. now right.
Qed.
Print Assumptions clear_ids_all.

Definition doc_obj (s : str) : obj := match read s with Some o => o | None => create 0 end.
Definition id_list (o : obj) : list (option str) := map (id_at o) (saved o).
Definition three : obj := doc_obj (S_ "<kml><Document id=""d""><Placemark id=""a""><Point id=""p""/></Placemark><Style id=""s""/></Document></kml>").
Definition twins : obj := doc_obj (S_ "<Folder id=""f""><Placemark id=""a""/><Placemark id=""a""/></Folder>").
Definition lost : obj := doc_obj (S_ "<Placemark id=""a""><Folder id=""f""><Placemark id=""b""/></Folder></Placemark>").
Example clear_sample :
  id_list three = [None; Some (S_ "d"); Some (S_ "s"); Some (S_ "a"); Some (S_ "p")] /\ id_list (clear_ids three) = [None; None; None; None; None].
Proof. split; vm_compute; reflexivity. Qed.
(** All ids of a tree; no element in a place its parent does not know. *)
Fixpoint all_ids (o : obj) : list str :=
  let 'Obj ty ka _ _ _ sl mis _ := o in
  (if is_a ty Type_Object then match find_value (S_ "id") ka with Some i => [i] | None => [] end else []) ++ flat_map (flat_map all_ids) sl ++ flat_map all_ids mis.
Fixpoint no_misplaced (o : obj) : bool :=
  let 'Obj _ _ _ _ _ sl mis _ := o in match mis with [] => forallb (forallb no_misplaced) sl | _ => false end.
(** C35. With equal ids, or with an element in a wrong place, an id is left. *)
Theorem clear_ids_duplicate_refuted : ~ forall o, no_misplaced o = true -> all_ids (clear_ids o) = [].
Proof. intros H. specialize (H twins eq_refl). vm_compute in H. discriminate. Qed.
Print Assumptions clear_ids_duplicate_refuted.
Theorem clear_ids_misplaced_refuted : ~ forall o, NoDup (all_ids o) -> all_ids (clear_ids o) = [].
Proof.
  intros H. assert (Hn : NoDup (all_ids lost)).
  { change (NoDup (all_ids lost)). assert (E : all_ids lost = [S_ "a"; S_ "f"; S_ "b"]) by (vm_compute; reflexivity). rewrite E.
    repeat constructor; cbn [In]; intuition discriminate. }
  specialize (H lost Hn). vm_compute in H. discriminate.
Qed.
Print Assumptions clear_ids_misplaced_refuted.

(** C80. Renaming the ids of a mapped tree: an element in the map gets the new name of its id, or loses the id
    when there is no new name; other elements and everything but ids are unchanged; the result
    counts the ids taken away, and the new map gives for a name the last element (in the order of the old
    ids) which got it. *)
Theorem remap_ids_correct : forall o id_map, let '(o', n, out) := remap_ids (map_ids o) id_map o in
  (forall p x, at_address o p = Some x -> exists y, at_address o' p = Some y /\ same_but_id x y /\
     (forall id, id_of x = Some id -> wins o p -> id_of y = mget id id_map) /\ (~ wins o p -> id_of y = id_of x)) /\
  n = length (filter (fun e => match mget (fst e) id_map with None => true | Some _ => false end) (map_ids o)) /\
  (forall v, mget v out = match last_of (fun e => match mget (fst e) id_map with Some w => eqs w v | None => false end) (map_ids o) with Some e => Some (snd e) | None => None end).
Proof.
  intros o id_map. pose proof (remap_fold id_map (map_ids o) o 0 [] (map_ids_nodup o)) as H. unfold remap_ids. revert H.
  destruct (fold_left (remap_step id_map) (map_ids o) (o, 0%nat, [])) as [[o' n] out]. intros H. destruct H as (H1 & H2 & H3).
  { intros id p Hin. now apply in_map_ids in Hin. }
  split; [|split; [exact H2|]].
  - intros p x Hx. pose proof (info_at _ _ _ Hx) as Hi. specialize (H1 p). rewrite Hi in H1. destruct (entry_at p (map_ids o)) as [id|] eqn:Ee.
    + apply entry_at_in in Ee. apply in_map_ids in Ee as [Hid Hw]. cbn [option_map] in H1. apply at_info in H1 as (y & Hy & Ho). exists y. split; [exact Hy|].
      assert (Hx' : id_of x = Some id) by (unfold id_at in Hid; rewrite Hx in Hid; exact Hid).
      unfold new_ka in Ho. destruct (mget id id_map) as [v|] eqn:Em.
      * apply own_named in Ho as [H4 H5]. split; [exact H4|]. split; [|tauto]. intros id' Hid' _. assert (id' = id) by congruence. subst. rewrite Em. apply H5.
        unfold id_of in Hx'. now destruct (is_a (oty x) Type_Object).
      * apply own_cleared in Ho as [H4 H5]. split; [exact H4|]. split; [|tauto]. intros id' Hid' _. assert (id' = id) by congruence. subst. now rewrite Em.
    + apply at_info in H1 as (y & Hy & Ho). exists y. split; [exact Hy|]. symmetry in Ho. apply own_same in Ho as [H4 H5]. split; [exact H4|]. split; [|auto].
      intros id Hid Hw. exfalso. apply entry_at_none in Ee. apply Ee. now apply clear_in.
  - intros v. rewrite H3. exact (fold_map_last (fun e : str * address => mget (fst e) id_map) snd (map_ids o) [] v msorted_nil).
Qed.
Print Assumptions remap_ids_correct.
Example remap_sample :
  (let '(o, n, out) := remap_ids (map_ids three) [(S_ "a", S_ "A"); (S_ "d", S_ "D")] three in (id_list o, n, map fst out)) =
  ([None; Some (S_ "D"); None; Some (S_ "A"); None], 2%nat, [S_ "A"; S_ "D"]).
Proof. vm_compute. reflexivity. Qed.

(** C34. Making a file from elements keeps for an id the last written element with it, and fails (when strict) exactly
    when two written elements have the same id. *)
Theorem import_object_by_id : forall o id, match mget id (map_ids o) with
  | Some p => reach o p = true /\ id_at o p = Some id /\ exists l1 l2, saved o = l1 ++ p :: l2 /\ forall q, In q l2 -> id_at o q <> Some id
  | None => forall p, reach o p = true -> id_at o p <> Some id
  end.
Proof.
  intros o id. destruct (mget id (map_ids o)) as [p|] eqn:E.
  - apply mget_in in E. apply in_map_ids in E as [Hid Hw]. destruct Hw as (id' & l1 & l2 & Hid' & Hs & Hl). assert (id' = id) by congruence. subst. split; [|split; eauto].
    apply saved_in. rewrite Hs. apply in_or_app. right. now left.
  - intros p Hp Hid. rewrite map_ids_last in E. apply saved_in in Hp. pose proof (last_of_none _ _ E p Hp) as H. cbv beta in H. rewrite Hid, eqs_refl in H. discriminate.
Qed.
Print Assumptions import_object_by_id.
Theorem import_strict_iff_distinct : forall o, dup_ids o = [] <->
  forall p q id, reach o p = true -> reach o q = true -> id_at o p = Some id -> id_at o q = Some id -> p = q.
Proof.
  intros o. unfold dup_ids. destruct (dup_fold o (saved o) [] [] msorted_nil) as (_ & H & _). rewrite H. clear H.
  assert (G : forall l, NoDup l -> (NoDup (flat_map (fun p => match id_at o p with Some i => [i] | None => [] end) l) <->
    forall p q id, In p l -> In q l -> id_at o p = Some id -> id_at o q = Some id -> p = q)).
  { induction 1 as [|x l Hx Hl IH]; [split; [intros _ p q id []|constructor]|]. cbn [flat_map].
    assert (Hin : forall id, In id (flat_map (fun p => match id_at o p with Some i => [i] | None => [] end) l) <-> exists p, In p l /\ id_at o p = Some id).
    { intros id. rewrite in_flat_map. split; intros (p & Hp & Hi); exists p; split; auto; destruct (id_at o p) as [i|]; try discriminate; [destruct Hi as [->|[]]; reflexivity|destruct Hi|inversion Hi; now left]. }
    destruct (id_at o x) as [i|] eqn:Ex; cbn [app].
    - split.
      + intros H. inversion H; subst. intros p q id [<-|Hp] [<-|Hq] Hi Hj; auto.
        * exfalso. assert (id = i) by congruence. subst. apply H2. apply Hin. eauto.
        * exfalso. assert (id = i) by congruence. subst. apply H2. apply Hin. eauto.
        * eapply (proj1 IH); eauto.
      + intros H. constructor.
        * rewrite Hin. intros (p & Hp & Hi). apply Hx. rewrite (H x p i); auto; [now left|now right].
        * apply IH. intros p q id Hp Hq. apply H; now right.
    - split.
      + intros H p q id [<-|Hp] [<-|Hq] Hi Hj; auto; try congruence. eapply (proj1 IH); eauto.
      + intros H. apply IH. intros p q id Hp Hq. apply H; now right. }
  rewrite (G _ (saved_nodup o)). split.
  - intros [H _] p q id Hp Hq. apply H; now apply saved_in.
  - intros H. split; [|intros; reflexivity]. intros p q id Hp Hq. apply H; now apply saved_in.
Qed.
Print Assumptions import_strict_iff_distinct.
Example import_sample : dup_ids three = [] /\ dup_ids twins <> [] /\ map fst (map_ids twins) = [S_ "a"; S_ "f"].
Proof. split; [vm_compute; reflexivity|]. split; [vm_compute; discriminate|]. vm_compute. reflexivity. Qed.

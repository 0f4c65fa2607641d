(** C111: the counts of StatsSerializer are those of the text that is written. *)
From Coq Require Import Lia.
From Verif Require Import Common StrMap AttributesModel XsdTables XsdModel XmlSpec XmlSpecProofs SerializerModel SerializerProofs SerializerProps.
From Verif Require Import HandlerModel DomTables DomModel DomSpec DomProofs NamespaceModel NamespaceProps FindModel FindProps StatsModel.
Local Open Scope N_scope.

(** Elements of an XML tree whose name is in (or not in) a list. *)
Fixpoint count_names (f : str -> bool) (t : xml) : nat :=
  match t with XElem n _ ks => ((if f n then 1 else 0) + list_sum (map (count_names f) ks))%nat | XChar _ => 0%nat end.
(** Names of simple elements, and of colours. *)
Definition colour_names : list str := [S_ "color"; S_ "bgColor"; S_ "textColor"].
Definition colour_name (n : str) : bool := existsb (eqs n) colour_names.
Definition simple_name (n : str) : bool := is_simple (element_id n).
(** No foreign markup. *)
Fixpoint known (i : item) : bool := match i with IElem _ _ ks => forallb known ks | IUnknown _ => false | _ => true end.
(** Elements and fields have the types of their kind. *)
Fixpoint sorted_kinds (i : item) : bool :=
  match i with IElem ty _ ks => negb (is_simple ty) && forallb sorted_kinds ks | IField ty _ => is_simple ty | IColor ty _ => is_simple ty && color_type ty | _ => true end.

Lemma names_table : forallb (fun i => let ty := N.of_nat i in Bool.eqb (simple_name (tag_name ty)) (is_simple ty) && Bool.eqb (colour_name (tag_name ty)) (color_type ty))
  (seq 1 (N.to_nat Type_Invalid - 1)) = true.
Proof. vm_compute. reflexivity. Qed.
Lemma names_kinds ty : valid_type ty = true -> simple_name (tag_name ty) = is_simple ty /\ colour_name (tag_name ty) = color_type ty.
Proof.
  intros H. pose proof names_table as T. rewrite forallb_forall in T. specialize (T (N.to_nat ty)).
  unfold valid_type in H. apply andb_true_iff in H as [H1 H2]. apply Z.ltb_lt in H1, H2. change (Z.of_N Type_Unknown) with 0%Z in H1.
  cbv zeta in T. rewrite N2Nat.id in T. apply andb_true_iff in T as [A B]; [|apply in_seq; lia].
  apply Bool.eqb_prop in A, B. auto.
Qed.
Lemma sorted_ser o : sorted_kinds (ser o) = true.
Proof.
  induction o as [ty ka ea tx vec sl mis unk IHs IHm] using obj_ind2. cbn [ser]. destruct (is_simple ty) eqn:Es; [exact Es|].
  destruct (ty =? Type_coordinates).
  { cbn [sorted_kinds]. rewrite Es. cbn [negb andb]. apply forallb_forall. intros x H. apply in_map_iff in H as ([[a b] c] & <- & _). reflexivity. }
  cbn [sorted_kinds]. rewrite Es. cbn [negb andb]. apply forallb_forall. intros x H. rewrite !in_app_iff in H.
  destruct H as [H|[H|[H|H]]].
  - unfold own_content in H. destruct (snippet_type ty); [destruct H as [<-|[]]; reflexivity|].
    destruct (ty =? Type_SimpleData); [destruct tx; [destruct H as [<-|[]]; reflexivity|destruct H]|destruct H].
  - apply in_flat_map in H as (k & _ & H). unfold pick in H. destruct (index_of_key k (c_slots (cls ty)) 0) as [i|]; [|destruct H].
    change (@nil item) with (map ser []) in H. rewrite map_nth in H. apply in_map_iff in H as (c & <- & Hc).
    destruct (nth_in_or_default i sl []) as [Hi|E]; [|rewrite E in Hc; destruct Hc]. rewrite Forall_forall in IHs. specialize (IHs _ Hi).
    rewrite Forall_forall in IHs. exact (IHs c Hc).
  - apply in_map_iff in H as (c & <- & Hc). rewrite Forall_forall in IHm. exact (IHm c Hc).
  - apply in_map_iff in H as (c & <- & _). reflexivity.
Qed.

(** The counts of a list of calls. *)
Definition ncalls (f : call -> bool) (l : list call) : nat := length (filter f l).
Definition is_begin (c : call) : bool := match c with CBegin _ _ => true | _ => false end.
Definition is_end (c : call) : bool := match c with CEnd => true | _ => false end.
Definition is_counted (c : call) : bool := match c with CField ty _ => negb (color_type ty) | _ => false end.
Lemma ncalls_app f a b : ncalls f (a ++ b) = (ncalls f a + ncalls f b)%nat.
Proof. unfold ncalls. rewrite filter_app, app_length. reflexivity. Qed.
Lemma fold_counts l : forall s, let r := fold_left stats_call l s in
  begin_count r = (begin_count s + ncalls is_begin l)%nat /\ end_count r = (end_count s + ncalls is_end l)%nat /\ field_count r = (field_count s + ncalls is_counted l)%nat.
Proof.
  induction l as [|c l IH]; intros s; [cbn; unfold ncalls; cbn; lia|]. cbn [fold_left]. destruct (IH (stats_call s c)) as (A & B & C). cbv zeta.
  rewrite A, B, C. unfold ncalls. destruct c as [ty a| |ty v|t q|x y z|ty v|]; cbn; try lia. destruct (color_type ty); cbn; lia.
Qed.
Lemma chars_count f s : list_sum (map (count_names f) (chars s)) = 0%nat.
Proof. unfold chars. induction s; [reflexivity|exact IHs]. Qed.
Definition plain_count (f : str -> bool) (i : item) : nat := list_sum (map (count_names f) (SerializerProofs.plain i)).
Lemma kids_count f ks : list_sum (map (count_names f) (flat_map SerializerProofs.plain ks)) = list_sum (map (plain_count f) ks).
Proof. induction ks as [|k ks IH]; [reflexivity|]. cbn [flat_map map]. rewrite map_app, list_sum_app, IH. reflexivity. Qed.
Lemma kids_calls f ks : ncalls f (flat_map calls ks) = list_sum (map (fun k => ncalls f (calls k)) ks).
Proof. induction ks as [|k ks IH]; [reflexivity|]. cbn [flat_map map]. rewrite ncalls_app, IH. reflexivity. Qed.
Lemma sums_equal (f g : item -> nat) ks : Forall (fun k => f k = g k) ks -> list_sum (map f ks) = list_sum (map g ks).
Proof. induction 1 as [|k ks E F IH]; [reflexivity|]. cbn [map]. change (list_sum (f k :: map f ks)) with (f k + list_sum (map f ks))%nat. rewrite IH, E. reflexivity. Qed.

Definition complex_name (n : str) : bool := negb (simple_name n).
Definition field_name (n : str) : bool := simple_name n && negb (colour_name n).
Lemma item_counts i : readable i = true -> known i = true -> sorted_kinds i = true ->
  ncalls is_begin (calls i) = plain_count complex_name i /\ ncalls is_end (calls i) = plain_count complex_name i /\ ncalls is_counted (calls i) = plain_count field_name i.
Proof.
  unfold complex_name, field_name.
  induction i as [ty a ks IH|ty v|ty v|t|lon lat alt|t] using item_ind2; intros R K S; cbn [readable known sorted_kinds] in R, K, S; try discriminate.
  - apply andb_true_iff in R as [R Rk]. apply andb_true_iff in R as [R _]. apply andb_true_iff in R as [R _]. apply andb_true_iff in S as [S Sk].
    destruct (names_kinds ty R) as [N1 N2]. apply Bool.negb_true_iff in S.
    assert (F : Forall (fun i => ncalls is_begin (calls i) = plain_count complex_name i /\ ncalls is_end (calls i) = plain_count complex_name i /\ ncalls is_counted (calls i) = plain_count field_name i) ks).
    { rewrite forallb_forall in Rk, K, Sk. rewrite Forall_forall in *. intros x Hx. exact (IH x Hx (Rk x Hx) (K x Hx) (Sk x Hx)). }
    unfold plain_count. cbn [calls SerializerProofs.plain map count_names list_sum fold_right]. rewrite N1, S, !kids_count. cbn [negb andb].
    change (CBegin ty a :: flat_map calls ks ++ [CEnd]) with ([CBegin ty a] ++ flat_map calls ks ++ [CEnd]). rewrite !ncalls_app, !kids_calls.
    rewrite (sums_equal (fun k => ncalls is_begin (calls k)) (plain_count complex_name)), (sums_equal (fun k => ncalls is_end (calls k)) (plain_count complex_name)),
      (sums_equal (fun k => ncalls is_counted (calls k)) (plain_count field_name)); try (eapply Forall_impl; [|exact F]; cbn beta; tauto).
    unfold ncalls, complex_name, field_name. cbn. lia.
  - apply andb_true_iff in R as [R _]. destruct (names_kinds ty R) as [N1 N2]. unfold plain_count. cbn [calls SerializerProofs.plain map count_names list_sum fold_right].
    rewrite !chars_count, N1, N2, S. unfold ncalls. cbn. destruct (color_type ty); cbn; auto.
  - apply andb_true_iff in R as [R _]. apply andb_true_iff in S as [S C]. destruct (names_kinds ty R) as [N1 N2]. unfold plain_count. cbn [calls SerializerProofs.plain map count_names list_sum fold_right].
    rewrite !chars_count, N1, N2, S, C. unfold ncalls. cbn. auto.
  - unfold plain_count. cbn [SerializerProofs.plain]. rewrite !chars_count. auto.
  - unfold plain_count. cbn [SerializerProofs.plain]. rewrite !chars_count. auto.
Qed.

(** C111. For an element without foreign markup the counts are those of the text written for it: as many starts and ends as there are complex elements,
    and as many fields as there are simple ones other than colours. *)
Theorem stats_count_written : forall o ty a ks, ser o = IElem ty a ks -> readable (ser o) = true -> known (ser o) = true ->
  exists s t, write_raw o = Ok s /\ xml_tree s = Some t /\ begin_count (stats_of o) = count_names complex_name t /\ end_count (stats_of o) = count_names complex_name t /\
    field_count (stats_of o) = count_names field_name t.
Proof.
  intros o ty a ks E R K. pose proof (sorted_ser o) as S. pose proof (item_counts (ser o) R K S) as (A & B & C).
  unfold stats_of. cbn [begin_count end_count field_count]. destruct (fold_counts (calls (ser o)) stats0) as (A' & B' & C'). rewrite A', B', C', A, B, C.
  rewrite E in *. destruct (serialize_raw_well_formed ty a ks R) as (s & W & T). exists s, (XElem (tag_name ty) a (flat_map SerializerProofs.plain ks)).
  unfold write_raw. rewrite E. split; [exact W|]. split; [exact T|]. unfold plain_count. cbn [SerializerProofs.plain map list_sum fold_right stats0 begin_count end_count field_count]. lia.
Qed.
Print Assumptions stats_count_written.
(** C111. Starts and ends agree for every element. *)
Theorem stats_balanced : forall o, begin_count (stats_of o) = end_count (stats_of o).
Proof.
  intros o. unfold stats_of. cbn [begin_count end_count]. destruct (fold_counts (calls (ser o)) stats0) as (A & B & _). rewrite A, B. cbn [stats0 begin_count end_count].
  assert (forall i, ncalls is_begin (calls i) = ncalls is_end (calls i)) as H; [|rewrite H; reflexivity].
  clear. intros i. induction i as [ty a ks IH|ty v|ty v|t|lon lat alt|t] using item_ind2; try reflexivity. cbn [calls].
  change (CBegin ty a :: flat_map calls ks ++ [CEnd]) with ([CBegin ty a] ++ flat_map calls ks ++ [CEnd]). rewrite !ncalls_app, !kids_calls.
  rewrite (sums_equal (fun k => ncalls is_begin (calls k)) (fun k => ncalls is_end (calls k))) by exact IH. unfold ncalls. cbn. lia.
Qed.
Print Assumptions stats_balanced.
Lemma starts_items i : ncalls is_begin (calls i) = length (item_elements i).
Proof.
  induction i as [ty a ks IH|ty v|ty v|t|lon lat alt|t] using item_ind2; try reflexivity. cbn [calls item_elements length].
  change (CBegin ty a :: flat_map calls ks ++ [CEnd]) with ([CBegin ty a] ++ flat_map calls ks ++ [CEnd]). rewrite !ncalls_app, !kids_calls.
  rewrite (sums_equal (fun k => ncalls is_begin (calls k)) (fun k => length (item_elements k))) by exact IH.
  replace (length (flat_map item_elements ks)) with (list_sum (map (fun k => length (item_elements k)) ks)); [unfold ncalls; cbn; lia|].
  clear. induction ks as [|k ks IH]; [reflexivity|]. cbn. rewrite app_length, <- IH. reflexivity.
Qed.
(** C111. If every element is where its parent takes it, the element count is the number of complex elements below the element. *)
Theorem stats_elements : forall o ty a ks, ser o = IElem ty a ks -> placed o = true -> begin_count (stats_of o) = S (element_count (stats_of o)).
Proof.
  intros o ty a ks E P. unfold stats_of. cbn [begin_count element_count]. destruct (fold_counts (calls (ser o)) stats0) as (A & _). rewrite A, starts_items. cbn [stats0 begin_count Nat.add].
  pose proof (descendants_found o P) as D. apply (f_equal (@length _)) in D. rewrite map_length in D. rewrite D, E. reflexivity.
Qed.
Print Assumptions stats_elements.
Example stats_sample :
  let o := read0 (S_ "<Placemark><name>a</name><Style><LineStyle><color>ff0000ff</color><width>2</width></LineStyle></Style><Point><coordinates>1,2</coordinates></Point></Placemark>") in
  readable (ser o) = true /\ known (ser o) = true /\ placed o = true /\
  stats_of o = {| begin_count := 5; end_count := 5; field_count := 2; element_count := 4; content_count := 1 |}.
Proof. vm_compute. repeat split. Qed.
(** C111. Colours are simple elements and are not counted. *)
Theorem stats_colour_refuted : exists o s, write_raw o = Ok s /\ find (S_ "<color>ff0000ff</color>") s <> None /\ field_count (stats_of o) = 0%nat.
Proof.
  exists (read0 (S_ "<LineStyle><color>ff0000ff</color></LineStyle>")). eexists. split; [vm_compute; reflexivity|]. split; [vm_compute; discriminate|vm_compute; reflexivity].
Qed.
Print Assumptions stats_colour_refuted.
(** C111. Elements where their parent does not take them are written and not counted as elements. *)
Theorem stats_misplaced_refuted : exists o, write_raw o = Ok (S_ "<Folder><Point/></Folder>") /\ begin_count (stats_of o) = 2%nat /\ element_count (stats_of o) = 0%nat.
Proof. exists (read0 (S_ "<Folder><Point/></Folder>")). vm_compute. repeat split. Qed.
Print Assumptions stats_misplaced_refuted.

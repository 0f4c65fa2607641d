(** Proofs about parsing documents with an old-style Schema. *)
From Coq Require Import ZArith Lia.
From Verif Require Import Common AttributesModel XsdTables XsdModel XsdProofs XmlSpec XmlSpecProofs HandlerModel HandlerSpec HandlerProofs HandlerProofs2 OldPlaceSpec.
Local Open Scope N_scope.

(** A parse state with a schema name [o], fields [fs], the data read so far and how many of them are in a Placemark. *)
Definition so (o : str) (fs : list str) (sd : list (str * str)) (dn : nat) (F : list frame) (C : list str) (s i d : N) : hstate :=
  {| stack := F; cds := C; skip := s; indesc := i; depth := d; old := o; sfields := fs; sdata := sd; sdone := dn; inold := false; stopped := false; trace := [] |}.
Ltac hs2 := cbn [cds skip indesc depth old sfields sdata sdone inold stopped trace stack fty fatts fcd flog
  set_stack set_cds set_skip set_indesc set_depth set_old set_sfields set_sdata set_inold set_trace stop so call_observers].

Lemma raw_run2 o fs sd dn t : forall F c r s i d,
  1 <= s -> s < 1000 -> i < 1000 -> (1 <= i \/ no_description t = true) ->
  d + N.of_nat (xdepth t) <= 100 -> s + N.of_nat (xdepth t) < 1000 -> i + N.of_nat (xdepth t) < 1000 ->
  events [] (so o fs sd dn F (c :: r) s i d) (xevents t) = Ok (so o fs sd dn F ((c ++ raw t) :: r) s i d).
Proof.
  induction t as [n a ks IH|x] using xml_ind2; intros F c r s i d Hs Hs' Hi Hd Hdep Hsd Hid; [|reflexivity].
  cbn [xevents]. rewrite raw_elem. cbn [xdepth] in Hdep, Hsd, Hid. set (D := list_max (map xdepth ks)) in *.
  set (i1 := if (0 <? i) && is_description n then i + 1 else i).
  assert (H1 : event [] (so o fs sd dn F (c :: r) s i d) (EStart n a) = Ok (so o fs sd dn F ((c ++ raw_start n a) :: r) (s + 1) i1 (d + 1))).
  { unfold event. cbn [stopped so]. unfold start_element. cbn [depth set_depth so]. rewrite inc_small by lia.
    replace (max_nesting <? d + 1) with false by (symmetry; apply N.ltb_ge; unfold max_nesting; lia).
    cbn [indesc set_depth so]. unfold i1.
    destruct ((0 <? i) && is_description n); cbn [skip set_indesc set_depth so];
    (replace (0 <? s) with true by (symmetry; apply N.ltb_lt; lia));
    unfold begin_unknown, append_cd; cbn; rewrite ?inc_small by lia; reflexivity. }
  cbn [events]. rewrite H1. cbn [bind]. rewrite events_app.
  assert (HK : forall l c', incl l ks -> events [] (so o fs sd dn F (c' :: r) (s + 1) i1 (d + 1)) (flat_map xevents l) = Ok (so o fs sd dn F ((c' ++ flat_map raw l) :: r) (s + 1) i1 (d + 1))).
  { assert (Hi1 : i1 <= i + 1) by (unfold i1; destruct ((0 <? i) && is_description n); lia).
    induction l as [|k l IHl]; intros c' Hin; [cbn; now rewrite app_nil_r|].
    cbn [flat_map]. rewrite events_app. assert (Hk : In k ks) by (apply Hin; now left).
    assert (Hk1 : (xdepth k <= D)%nat) by (apply list_max_in; now apply in_map).
    rewrite Forall_forall in IH. rewrite IH; try lia; auto.
    - cbn [bind]. rewrite IHl; [now rewrite <- app_assoc|]. intros y Hy. apply Hin. now right.
    - destruct Hd as [Hd|Hd].
      + left. unfold i1. destruct ((0 <? i) && is_description n); lia.
      + right. cbn [no_description] in Hd. apply andb_true_iff in Hd as [_ Hd]. rewrite forallb_forall in Hd. auto. }
  rewrite HK by apply incl_refl. cbn [bind events].
  assert (H2 : forall c', event [] (so o fs sd dn F (c' :: r) (s + 1) i1 (d + 1)) (EEnd n) = Ok (so o fs sd dn F ((c' ++ raw_end n) :: r) s i d)).
  { intros c'. unfold event. cbn [stopped so]. unfold end_element. cbn [depth set_depth so indesc].
    rewrite dec_pos by lia. replace (d + 1 - 1) with d by lia.
    destruct (is_description n) eqn:En.
    - assert (Hi0 : 1 <= i).
      { destruct Hd as [Hd|Hd]; auto. cbn [no_description] in Hd. unfold is_description in En. rewrite En in Hd. discriminate. }
      unfold i1. replace (0 <? i) with true by (symmetry; apply N.ltb_lt; lia). cbn [andb].
      rewrite dec_pos by lia. replace (i + 1 - 1) with i by lia. cbn [indesc set_indesc set_depth so].
      replace (i =? 0) with false by (symmetry; apply N.eqb_neq; lia).
      cbn [skip set_indesc set_depth so]. replace (0 <? s + 1) with true by (symmetry; apply N.ltb_lt; lia).
      unfold append_cd. cbn. rewrite dec_pos by lia. replace (s + 1 - 1) with s by lia.
      replace (s =? 0) with false by (symmetry; apply N.eqb_neq; lia). reflexivity.
    - unfold i1. rewrite andb_false_r. cbn [skip set_depth so].
      replace (0 <? s + 1) with true by (symmetry; apply N.ltb_lt; lia).
      unfold append_cd. cbn. rewrite dec_pos by lia. replace (s + 1 - 1) with s by lia.
      replace (s =? 0) with false by (symmetry; apply N.eqb_neq; lia). reflexivity. }
  rewrite H2. now rewrite <- !app_assoc.
Qed.
Lemma raw_kids2 o fs sd dn l : forall F c r s i d, 1 <= s -> s < 500 -> i < 500 -> (1 <= i \/ forallb no_description l = true) ->
  d + N.of_nat (list_max (map xdepth l)) <= 100 ->
  events [] (so o fs sd dn F (c :: r) s i d) (flat_map xevents l) = Ok (so o fs sd dn F ((c ++ flat_map raw l) :: r) s i d).
Proof.
  induction l as [|k l IH]; intros F c r s i d Hs Hs' Hi Hd Hdep; cbn [flat_map]; [cbn; now rewrite app_nil_r|].
  cbn [map list_max fold_right] in Hdep. change (fold_right Nat.max 0%nat (map xdepth l)) with (list_max (map xdepth l)) in Hdep.
  assert (Hk : 1 <= i \/ no_description k = true /\ forallb no_description l = true).
  { destruct Hd as [Hd|Hd]; [now left|right]. cbn in Hd. now apply andb_true_iff in Hd. }
  rewrite events_app, raw_run2; try lia; try tauto.
  cbn [bind]. rewrite IH; try lia; try tauto. now rewrite <- app_assoc.
Qed.

Section Run.
  Variable S : str.
  Variable fs : list str.
  Hypothesis Sne : S <> [].
  Hypothesis Sschema : eqs S (S_ "Schema") = false.
  Hypothesis Sdesc : is_description S = false.
  Notation so' := (so S fs).
  Definition frame_of (ty : N) (a : option attrs) (l : list entry) : frame := {| fty := ty; fatts := a; fcd := []; flog := l |}.

  Lemma old_set : eqs S [] = false.
  Proof. destruct (eqs S []) eqn:E; [apply eqs_spec in E; contradiction|reflexivity]. Qed.
  (** Start of an element that is not one of the schema. *)
  Lemma start_known2 sd dn F C d n a ty : d + 1 <= 100 -> known_type (top_type F) n = Some ty -> eqs n S = false -> eqs n (S_ "Schema") = false ->
    event [] (so' sd dn F C 0 0 d) (EStart n a) =
    Ok (so' sd dn (frame_of ty (node_atts n a) [] :: F) ([] :: C) (if ty =? Type_description then 1 else 0) (if ty =? Type_description then 1 else 0) (d + 1)).
  Proof.
    intros Hd Hk HS Ho. unfold event. cbn [stopped so]. unfold start_element. cbn [depth set_depth so]. rewrite inc_small by lia.
    replace (max_nesting <? d + 1) with false by (symmetry; apply N.ltb_ge; unfold max_nesting; lia).
    cbn [indesc set_depth skip so]. change (0 <? 0) with false. cbn [andb]. cbn [indesc set_depth skip so]. change (0 <? 0) with false. cbn iota.
    unfold is_schema. rewrite Ho. cbn [set_depth set_cds old so stack cds]. rewrite old_set, HS. cbn [negb andb].
    unfold known_type in Hk. unfold node_atts in *. unfold frame_of.
    destruct (creatable (element_id n)) eqn:Ec.
    - assert (Hns : is_simple (element_id n) = false).
      { unfold creatable in Ec. unfold is_simple. destruct (element_type (Z.of_N (element_id n))); auto; discriminate. }
      rewrite Hns.
      assert (Hty : (if element_id n =? Type_Icon then match F with f :: _ => if fty f =? Type_IconStyle then Type_IconStyleIcon else element_id n | [] => element_id n end else element_id n) = ty).
      { injection Hk as <-. destruct (element_id n =? Type_Icon); cbn [andb]; auto. unfold top_type. destruct F; auto. }
      rewrite Hty. hs2. destruct (ty =? Type_description); hs2; change (inc 0) with 1; reflexivity.
    - destruct (is_simple (element_id n)) eqn:Es; [|discriminate]. injection Hk as <-. hs2.
      destruct (element_id n =? Type_description); hs2; change (inc 0) with 1; reflexivity.
  Qed.
  Lemma start_unknown2 sd dn f F C d n a : d + 1 <= 100 -> known_type (top_type (f :: F)) n = None -> eqs n S = false -> data_name fs n = false -> eqs n (S_ "Schema") = false ->
    event [] (so' sd dn (f :: F) C 0 0 d) (EStart n a) = Ok (so' sd dn (f :: F) (raw_start n a :: C) 1 0 (d + 1)).
  Proof.
    intros Hd Hk HS Hn Ho. unfold event. cbn [stopped so]. unfold start_element. cbn [depth set_depth so]. rewrite inc_small by lia.
    replace (max_nesting <? d + 1) with false by (symmetry; apply N.ltb_ge; unfold max_nesting; lia).
    cbn [indesc set_depth skip so]. change (0 <? 0) with false. cbn [andb]. cbn [indesc set_depth skip so]. change (0 <? 0) with false. cbn iota.
    unfold is_schema. rewrite Ho. cbn [set_depth set_cds old so stack cds sfields]. rewrite old_set, HS. cbn [negb andb].
    unfold known_type in Hk. destruct (creatable (element_id n)) eqn:Ec; [discriminate|]. destruct (is_simple (element_id n)) eqn:Es; [discriminate|].
    unfold data_name in Hn. destruct (is_unknown_type (element_id n)); cbn [andb negb] in *; [rewrite Hn|]; reflexivity.
  Qed.
  (** Start of an element with the name of the schema, and of a field. *)
  Lemma start_place sd dn F C d a : d + 1 <= 100 ->
    event [] (so' sd dn F C 0 0 d) (EStart S a) = Ok (so' sd dn (frame_of Type_Placemark (match a with [] => None | _ => Some (attrs_of a) end) [] :: F) ([] :: C) 0 0 (d + 1)).
  Proof.
    intros Hd. unfold event. cbn [stopped so]. unfold start_element. cbn [depth set_depth so]. rewrite inc_small by lia.
    replace (max_nesting <? d + 1) with false by (symmetry; apply N.ltb_ge; unfold max_nesting; lia).
    cbn [indesc set_depth skip so]. change (0 <? 0) with false. cbn [andb]. cbn [indesc set_depth skip so]. change (0 <? 0) with false. cbn iota.
    unfold is_schema. rewrite Sschema. cbn [set_depth set_cds old so stack cds sfields]. rewrite old_set, eqs_refl. cbn [negb andb].
    change (creatable Type_Placemark) with true. change (Type_Placemark =? Type_Icon) with false. hs2. change (Type_Placemark =? Type_description) with false. reflexivity.
  Qed.
  Definition set_in (h : hstate) : hstate := set_inold h true.
  Lemma start_data sd dn F C d n a : d + 1 <= 100 -> eqs n S = false -> eqs n (S_ "Schema") = false -> data_name fs n = true ->
    event [] (so' sd dn F C 0 0 d) (EStart n a) = Ok (set_in (so' (sd ++ [(n, [])]) dn F ([] :: C) 0 0 (d + 1))).
  Proof.
    intros Hd HS Ho Hn. unfold event. cbn [stopped so]. unfold start_element. cbn [depth set_depth so]. rewrite inc_small by lia.
    replace (max_nesting <? d + 1) with false by (symmetry; apply N.ltb_ge; unfold max_nesting; lia).
    cbn [indesc set_depth skip so]. change (0 <? 0) with false. cbn [andb]. cbn [indesc set_depth skip so]. change (0 <? 0) with false. cbn iota.
    unfold is_schema. rewrite Ho. cbn [set_depth set_cds old so stack cds sfields]. rewrite old_set, HS. cbn [negb andb].
    unfold data_name in Hn. apply andb_prop in Hn as [H1 H2].
    assert (creatable (element_id n) = false) as -> by (unfold is_unknown_type in H1; unfold creatable; destruct (element_type (Z.of_N (element_id n))); auto; discriminate).
    assert (is_simple (element_id n) = false) as -> by (unfold is_unknown_type in H1; unfold is_simple; destruct (element_type (Z.of_N (element_id n))); auto; discriminate).
    rewrite H1. cbn [andb negb]. rewrite H2. reflexivity.
  Qed.
  Lemma text_data ks : text_only ks = true -> forall sd dn F c C d,
    events [] (set_in (so' sd dn F (c :: C) 0 0 d)) (flat_map xevents ks) = Ok (set_in (so' sd dn F ((c ++ direct_text ks) :: C) 0 0 d)).
  Proof.
    induction ks as [|k ks IH]; intros H sd dn F c C d; [cbn; now rewrite app_nil_r|]. cbn [text_only forallb] in H. apply andb_prop in H as [H1 H2]. destruct k as [|x]; [discriminate|].
    cbn [flat_map xevents app events].
    match goal with |- context [event ?o ?h ?e] => replace (event o h e) with (Ok (set_in (so' sd dn F ((c ++ [x]) :: C) 0 0 d))) by reflexivity end. cbn [bind].
    rewrite IH by exact H2. change (direct_text (XChar x :: ks)) with (x :: direct_text ks). now rewrite <- app_assoc.
  Qed.
  Lemma set_last_app l n x t : set_last (l ++ [(n, x)]) t = l ++ [(n, t)].
  Proof. induction l as [|[m y] l IH]; [reflexivity|]. cbn [app set_last]. rewrite IH. destruct l; reflexivity. Qed.
  Lemma end_data sd dn f F C d n m c : d < 1000 -> is_description n = false ->
    event [] (set_in (so' (sd ++ [(m, [])]) dn (f :: F) (c :: C) 0 0 (d + 1))) (EEnd n) = Ok (so' (sd ++ [(m, c)]) dn (f :: F) C 0 0 d).
  Proof.
    intros Hd Hn. unfold event. cbn [stopped set_in set_inold so]. unfold end_element. unfold set_in. hs2. rewrite Hn. rewrite dec_pos by lia. replace (d + 1 - 1) with d by lia.
    hs2. change (0 <? 0) with false. cbn iota. hs2. rewrite app_length. cbn [length]. rewrite Nat.add_comm. cbn [Nat.add Nat.eqb negb andb].
    rewrite set_last_app. reflexivity.
  Qed.
  (** End of elements that are not of the schema. *)
  Lemma end_known2 sd dn f p F c C d n s : d < 1000 -> s = (if is_description n then 1 else 0) -> eqs n S = false -> eqs n (S_ "Schema") = false ->
    event [] (so' sd dn (f :: p :: F) (c :: C) s s (d + 1)) (EEnd n) =
    Ok (so' sd dn (log_entry (LChild (Node (fty f) (fatts f) c (flog f ++ self_entry (fty f) c))) p :: F) C 0 0 d).
  Proof.
    intros Hd Hs HS Ho. unfold event. cbn [stopped so]. unfold end_element. cbn [depth set_depth so indesc]. rewrite dec_pos by lia. replace (d + 1 - 1) with d by lia.
    match goal with |- context [if is_description n then ?A else ?B] => set (h1 := if is_description n then A else B) end.
    assert (Hh : h1 = so' sd dn (f :: p :: F) (c :: C) 0 0 d) by (unfold h1; subst s; destruct (is_description n); reflexivity).
    rewrite Hh. hs2. change (0 <? 0) with false. cbn iota. cbn [andb]. hs2. rewrite old_set. unfold is_schema. rewrite Ho, HS. cbn [negb bind]. hs2.
    assert (Hf : node_of (if self_parsed (fty (set_fcd f c)) then log_entry (LSelf c) (set_fcd f c) else set_fcd f c) = Node (fty f) (fatts f) c (flog f ++ self_entry (fty f) c)).
    { unfold self_entry, node_of. cbn [set_fcd fty]. destruct (self_parsed (fty f)); cbn; [reflexivity|]. now rewrite app_nil_r. }
    rewrite Hf. reflexivity.
  Qed.
  Lemma end_root2 sd dn f c C d n : d < 1000 -> is_description n = false -> eqs n S = false -> eqs n (S_ "Schema") = false ->
    event [] (so' sd dn [f] (c :: C) 0 0 (d + 1)) (EEnd n) =
    Ok (so' sd dn [{| fty := fty f; fatts := fatts f; fcd := c; flog := flog f ++ self_entry (fty f) c |}] C 0 0 d).
  Proof.
    intros Hd Hs HS Ho. unfold event. cbn [stopped so]. unfold end_element. cbn [depth set_depth so indesc]. rewrite dec_pos by lia. replace (d + 1 - 1) with d by lia.
    rewrite Hs. hs2. change (0 <? 0) with false. cbn iota. cbn [andb]. hs2. rewrite old_set. unfold is_schema. rewrite Ho, HS. cbn [negb bind]. hs2.
    unfold self_entry. cbn [set_fcd fty]. destruct (self_parsed (fty f)); [reflexivity|]. unfold so, set_stack. cbn. now rewrite app_nil_r.
  Qed.
  Lemma end_unknown2 sd dn f F c C d n : d < 1000 -> is_description n = false ->
    event [] (so' sd dn (f :: F) (c :: C) 1 0 (d + 1)) (EEnd n) = Ok (so' sd dn (log_entry (LUnknown (c ++ raw_end n ++ ["010"%char])) f :: F) C 0 0 d).
  Proof.
    intros Hd Hn. unfold event. cbn [stopped so]. unfold end_element. cbn [depth set_depth so indesc]. rewrite dec_pos by lia. replace (d + 1 - 1) with d by lia. rewrite Hn.
    cbn [skip set_depth so]. change (0 <? 1) with true. unfold append_cd. hs2. cbn [bind]. hs2.
    change (dec 1) with 0. change (0 =? 0) with true. cbn iota. unfold log_entry. now rewrite <- app_assoc.
  Qed.
  Lemma end_place sd dn f p F c C d : d < 1000 -> fty f = Type_Placemark ->
    event [] (so' sd dn (f :: p :: F) (c :: C) 0 0 (d + 1)) (EEnd S) =
    Ok (so' sd (length sd) (log_entry (LChild (Node Type_Placemark (fatts f) c (flog f ++ [LExtendedData (S ++ S_ "_id") (skipn dn sd)]))) p :: F) C 0 0 d).
  Proof.
    intros Hd Hf. unfold event. cbn [stopped so]. unfold end_element. cbn [depth set_depth so indesc]. rewrite dec_pos by lia. replace (d + 1 - 1) with d by lia.
    rewrite Sdesc. hs2. change (0 <? 0) with false. cbn iota. cbn [andb]. hs2. rewrite old_set. unfold is_schema. rewrite Sschema, eqs_refl. cbn [negb].
    destruct f as [ty fa fc fl]. cbn [fty] in Hf. subst ty. reflexivity.
  Qed.
  Definition own_char (t : xml) : str := match t with XChar c => [c] | _ => [] end.
  Lemma kids_depth n a ks k : In k ks -> (Datatypes.S (xdepth k) <= xdepth (XElem n a ks))%nat.
  Proof. intros H. cbn [xdepth]. apply le_n_S. apply list_max_in. now apply in_map. Qed.

  (** A child inside of the document. *)
  Lemma child_run2 t : forall inside f F l c C d sd dn, fits S fs inside t = true -> (inside = false -> dn = length sd) -> d + N.of_nat (xdepth t) <= 100 ->
    exists sd' dn', events [] (so' sd dn (frame_of (fty f) (fatts f) l :: F) (c :: C) 0 0 d) (xevents t) =
      Ok (so' sd' dn' (frame_of (fty f) (fatts f) (l ++ place_received S fs (fty f) t) :: F) ((c ++ own_char t) :: C) 0 0 d) /\
      if inside then sd' = sd /\ dn' = dn else dn' = length sd'.
  Proof.
    induction t as [n a ks IH|x] using xml_ind2; intros inside f F l c C d sd dn Hfit Hdn Hd.
    2:{ exists sd, dn. cbn [place_received own_char]. rewrite app_nil_r. split; [reflexivity|]. destruct inside; auto. }
    rewrite Forall_forall in IH. cbn [fits] in Hfit. cbn [place_received own_char]. rewrite app_nil_r.
    assert (Hd1 : d + 1 <= 100) by (cbn [xdepth] in Hd; lia).
    assert (Hdk : forall k, In k ks -> d + 1 + N.of_nat (xdepth k) <= 100) by (intros k Hk; pose proof (kids_depth n a ks k Hk); lia).
    cbn [xevents events]. destruct (eqs n S) eqn:En.
    - (* a Placemark *)
      apply eqs_spec in En. subst n. destruct inside; [discriminate|]. cbn [negb andb] in Hfit. specialize (Hdn eq_refl). rewrite start_place by exact Hd1. cbn [bind]. rewrite events_app.
      set (atts := match a with [] => None | _ => Some (attrs_of a) end).
      assert (K : forall ks', incl ks' ks -> forall l0 c0 sd0, events [] (so' sd0 dn (frame_of Type_Placemark atts l0 :: frame_of (fty f) (fatts f) l :: F) (c0 :: c :: C) 0 0 (d + 1)) (flat_map xevents ks') =
        Ok (so' (sd0 ++ flat_map (data_of S fs) ks') dn
              (frame_of Type_Placemark atts (l0 ++ flat_map (fun k => if is_data S fs k then [] else place_received S fs Type_Placemark k) ks') :: frame_of (fty f) (fatts f) l :: F)
              ((c0 ++ direct_text ks') :: c :: C) 0 0 (d + 1))).
      { induction ks' as [|k ks' IHk]; intros Hin l0 c0 sd0; [cbn; now rewrite !app_nil_r|].
        assert (Hk : In k ks) by (apply Hin; now left). assert (Hin' : incl ks' ks) by (intros y Hy; apply Hin; now right).
        rewrite forallb_forall in Hfit. specialize (Hfit k Hk) as Hfk. cbv beta in Hfk. cbn [flat_map]. rewrite events_app.
        change (direct_text (k :: ks')) with (own_char k ++ direct_text ks').
        destruct (is_data S fs k) eqn:Ed.
        - destruct k as [m am km|]; [|discriminate]. cbn [is_data] in Ed. apply andb_prop in Ed as [Ed Et]. apply andb_prop in Ed as [Em Ed].
          apply negb_true_iff in Em.
          assert (Hms : eqs m (S_ "Schema") = false).
          { destruct (eqs m (S_ "Schema")) eqn:E; [|reflexivity]. apply eqs_spec in E. subst m. unfold data_name in Ed. vm_compute in Ed. discriminate. }
          assert (Hmd : is_description m = false).
          { destruct (is_description m) eqn:E; [|reflexivity]. apply description_id in E. unfold data_name in Ed. rewrite E in Ed. vm_compute in Ed. discriminate. }
          pose proof (Hdk _ Hk) as Hdm. cbn [xdepth] in Hdm.
          cbn [xevents events]. rewrite start_data by (auto; lia). cbn [bind]. rewrite events_app, text_data by exact Et. cbn [bind events app]. rewrite end_data by (auto; lia). cbn [bind].
          rewrite (IHk Hin'). cbn [data_of own_char app]. rewrite Em, Ed. cbn [negb andb app]. now rewrite <- app_assoc.
        - cbn [orb] in Hfk. destruct (IH k Hk true (frame_of Type_Placemark atts []) (frame_of (fty f) (fatts f) l :: F) l0 c0 (c :: C) (d + 1) sd0 dn Hfk ltac:(discriminate) (Hdk k Hk)) as (sd1 & dn1 & E1 & -> & ->).
          cbn [fty fatts frame_of] in E1. unfold frame_of in E1 |- *. rewrite E1. cbn [bind].
          unfold frame_of in IHk. rewrite (IHk Hin').
          assert (data_of S fs k = []) as ->.
          { destruct k as [m am km|]; [|reflexivity]. cbn [data_of]. cbn [fits] in Hfk. destruct (eqs m S) eqn:E2; [reflexivity|]. cbn [negb andb].
            destruct (data_name fs m); [discriminate|reflexivity]. }
          cbn [app]. now rewrite <- !app_assoc. }
      change (frame_of Type_Placemark match a with [] => None | _ :: _ => Some (attrs_of a) end []) with (frame_of Type_Placemark atts []).
      rewrite (K ks (incl_refl _)). cbn [bind events app].
      rewrite end_place by (reflexivity || lia). cbn [fatts flog frame_of bind].
      exists (sd ++ flat_map (data_of S fs) ks), (length (sd ++ flat_map (data_of S fs) ks)). split; [|reflexivity].
      rewrite skipn_app, Hdn, skipn_all, Nat.sub_diag. cbn [skipn app]. reflexivity.
    - apply andb_prop in Hfit as [Hfit Hk]. apply andb_prop in Hfit as [Hn Ho]. apply negb_true_iff in Hn, Ho.
      assert (Hkd := known_description (fty f) n).
      assert (B := known_description Type_Unknown n).
      destruct (known_type (fty f) n) as [ty|] eqn:Ek.
      + rewrite (start_known2 _ _ _ _ _ _ _ ty) by (auto; lia). cbn [bind]. rewrite events_app.
        destruct (ty =? Type_description) eqn:Ety.
        * rewrite raw_kids2; try lia; [|cbn [xdepth] in Hd; lia]. cbn [bind events app].
          rewrite (end_known2 _ _ _ _ _ _ _ d _ 1) by (try lia; auto; rewrite <- Hkd; reflexivity). cbn [bind].
          exists sd, dn. split; [|destruct inside; auto]. unfold log_entry, frame_of. cbn [fty fatts fcd flog app].
          apply N.eqb_eq in Ety. subst ty. reflexivity.
        * assert (Hks : forallb (fits S fs inside) ks = true).
          { rewrite <- Hkd in B. destruct (known_type Type_Unknown n) as [ty'|] eqn:E'; [|rewrite (known_type_none _ (fty f)) in E'; congruence].
            rewrite B in Hk. exact Hk. }
          assert (K : forall ks', incl ks' ks -> forall l0 c0 sd0 dn0, (inside = false -> dn0 = length sd0) ->
            exists sd' dn', events [] (so' sd0 dn0 (frame_of ty (node_atts n a) l0 :: frame_of (fty f) (fatts f) l :: F) (c0 :: c :: C) 0 0 (d + 1)) (flat_map xevents ks') =
              Ok (so' sd' dn' (frame_of ty (node_atts n a) (l0 ++ flat_map (place_received S fs ty) ks') :: frame_of (fty f) (fatts f) l :: F) ((c0 ++ direct_text ks') :: c :: C) 0 0 (d + 1)) /\
              if inside then sd' = sd0 /\ dn' = dn0 else dn' = length sd').
          { induction ks' as [|k ks' IHk]; intros Hin l0 c0 sd0 dn0 H0; [exists sd0, dn0; cbn; rewrite !app_nil_r; split; [reflexivity|destruct inside; auto]|].
            assert (Hki : In k ks) by (apply Hin; now left). assert (Hin' : incl ks' ks) by (intros y Hy; apply Hin; now right).
            rewrite forallb_forall in Hks. cbn [flat_map]. rewrite events_app.
            destruct (IH k Hki inside (frame_of ty (node_atts n a) []) (frame_of (fty f) (fatts f) l :: F) l0 c0 (c :: C) (d + 1) sd0 dn0 (Hks k Hki) H0 (Hdk k Hki)) as (sd1 & dn1 & E1 & R1).
            cbn [fty fatts frame_of] in E1. unfold frame_of in E1 |- *. rewrite E1. cbn [bind].
            destruct (IHk Hin' (l0 ++ place_received S fs ty k) (c0 ++ own_char k) sd1 dn1) as (sd2 & dn2 & E2 & R2).
            { intros ->. exact R1. }
            exists sd2, dn2. unfold frame_of in E2. split; [etransitivity; [exact E2|]; change (direct_text (k :: ks')) with (own_char k ++ direct_text ks'); rewrite <- !app_assoc; reflexivity|].
            destruct inside; [|exact R2]. destruct R1, R2. split; congruence. }
          destruct (K ks (incl_refl _) [] [] sd dn Hdn) as (sd1 & dn1 & E1 & R1).
          match goal with |- context [events [] ?A (flat_map xevents ks)] => match type of E1 with events [] ?B _ = _ => change A with B end end.
          rewrite E1. cbn [bind events app].
          rewrite (end_known2 _ _ _ _ _ _ _ d _ 0) by (try lia; auto; rewrite <- Hkd; reflexivity). cbn [bind].
          exists sd1, dn1. split; [reflexivity|exact R1].
      + rewrite start_unknown2 by (auto; lia). cbn [bind]. rewrite events_app.
        assert (Hks : forallb no_description ks = true).
        { pose proof Ek as E'. rewrite (known_type_none _ Type_Unknown) in E'. rewrite E' in Hk. exact Hk. }
        rewrite raw_kids2; try lia; [|now right|cbn [xdepth] in Hd; lia].
        cbn [bind events]. rewrite end_unknown2 by (auto; lia). cbn [bind].
        exists sd, dn. split; [|destruct inside; auto]. unfold log_entry, frame_of. cbn [fty fatts fcd flog]. rewrite raw_elem. now rewrite <- !app_assoc.
  Qed.
End Run.

(** In front of the first instance nothing is different. *)
Lemma place_received_plain S t : forall p, fits S [] true t = true -> place_received S [] p t = received keep_all p t.
Proof.
  induction t as [n a ks IH|x] using xml_ind2; intros p H; [|reflexivity]. rewrite Forall_forall in IH. cbn [fits negb andb] in H. cbn [place_received received].
  destruct (eqs n S); [discriminate|]. apply andb_prop in H as [_ H].
  destruct (known_type p n) as [ty|] eqn:Ek; [|reflexivity]. unfold keep_all at 1. destruct (ty =? Type_description) eqn:Et; [reflexivity|].
  assert (Hks : forallb (fits S [] true) ks = true).
  { pose proof (known_description p n) as A. pose proof (known_description Type_Unknown n) as B. rewrite Ek, Et in A. rewrite <- A in B.
    destruct (known_type Type_Unknown n) eqn:E'; [rewrite B in H; exact H|]. rewrite (known_type_none _ p) in E'. congruence. }
  f_equal. f_equal. f_equal. f_equal. clear - IH Hks. induction ks as [|k ks IHk]; [reflexivity|]. cbn [forallb] in Hks. apply andb_prop in Hks as [H1 H2]. cbn [flat_map].
  rewrite IH by (auto; now left). rewrite IHk; auto. intros y Hy. apply IH. now right.
Qed.
Lemma simple_field_id n : element_id n = Type_SimpleField <-> n = S_ "SimpleField".
Proof.
  split.
  - intros H. destruct (element_id_spec n) as [(i & Hi & He & E)|[E _]].
    + rewrite H in E. subst i. rewrite <- He. vm_compute. reflexivity.
    + rewrite H in E. vm_compute in E. discriminate.
  - intros ->. vm_compute. reflexivity.
Qed.
Lemma fields_of_children sk : schema_fields (flat_map (received keep_all Type_Schema) sk) = field_names sk.
Proof.
  induction sk as [|k sk IH]; [reflexivity|]. cbn [flat_map]. unfold schema_fields in *. rewrite flat_map_app. rewrite IH. unfold field_names at 2. cbn [flat_map]. f_equal.
  destruct k as [n a ks|]; [|reflexivity]. cbn [received]. unfold known_type. change (Type_Schema =? Type_IconStyle) with false. rewrite andb_false_r.
  destruct (N.eq_dec (element_id n) Type_SimpleField) as [E|E].
  - rewrite E. pose proof (proj1 (simple_field_id n) E) as ->.
    change (creatable Type_SimpleField) with true. change (Type_SimpleField =? Type_Icon) with false. change (Type_SimpleField =? Type_description) with false. cbn [andb].
    change (eqs (S_ "SimpleField") (S_ "SimpleField")) with true. unfold keep_all at 1. cbn [flat_map nty natts app]. change (Type_SimpleField =? Type_SimpleField) with true. cbn iota.
    unfold node_atts. change (element_id (S_ "SimpleField")) with Type_SimpleField. change (is_simple Type_SimpleField) with false. rewrite app_nil_r. destruct a; reflexivity.
  - assert (eqs n (S_ "SimpleField") = false) as ->.
    { destruct (eqs n (S_ "SimpleField")) eqn:E2; [|reflexivity]. apply eqs_spec in E2. apply simple_field_id in E2. contradiction. }
    apply N.eqb_neq in E. unfold keep_all at 1.
    destruct (creatable (element_id n)); [|destruct (is_simple (element_id n)); [|reflexivity]];
      cbn [flat_map app]; destruct (element_id n =? Type_description); cbn [nty]; rewrite E; reflexivity.
Qed.

Section Around.
  Variable S : str.
  Variable sa : list (str * str).
  Variable sk : list xml.
  Hypothesis Sne : S <> [].
  Hypothesis Sschema : eqs S (S_ "Schema") = false.
  Hypothesis Sdesc : is_description S = false.
  Hypothesis Hname : find_old_schema sa [] = S.
  Hypothesis Hsk : forallb (fits S [] true) sk = true.
  Notation fs := (field_names sk).

  Lemma kids_run2 fs0 inside ks : forall ty atts F l c C d sd dn, forallb (fits S fs0 inside) ks = true -> (inside = false -> dn = length sd) ->
    (forall k, In k ks -> d + N.of_nat (xdepth k) <= 100) ->
    exists sd' dn', events [] (so S fs0 sd dn (frame_of ty atts l :: F) (c :: C) 0 0 d) (flat_map xevents ks) =
      Ok (so S fs0 sd' dn' (frame_of ty atts (l ++ flat_map (place_received S fs0 ty) ks) :: F) ((c ++ direct_text ks) :: C) 0 0 d) /\
      if inside then sd' = sd /\ dn' = dn else dn' = length sd'.
  Proof.
    induction ks as [|k ks IH]; intros ty atts F l c C d sd dn Hf Hdn Hd; [exists sd, dn; cbn; rewrite !app_nil_r; split; [reflexivity|destruct inside; auto]|].
    cbn [forallb] in Hf. apply andb_prop in Hf as [Hk Hf]. cbn [flat_map]. rewrite events_app.
    destruct (child_run2 S fs0 Sne Sschema Sdesc k inside (frame_of ty atts []) F l c C d sd dn Hk Hdn (Hd k (or_introl eq_refl))) as (sd1 & dn1 & E1 & R1).
    cbn [fty fatts] in E1. match type of E1 with _ = ?R => match goal with |- context [bind ?A _] => replace A with R by (symmetry; exact E1) end end. cbn [bind].
    destruct (IH ty atts F (l ++ place_received S fs0 ty k) (c ++ own_char k) C d sd1 dn1 Hf) as (sd2 & dn2 & E2 & R2).
    { intros ->. exact R1. }
    { intros k' Hk'. apply Hd. now right. }
    exists sd2, dn2. split; [etransitivity; [exact E2|]; change (direct_text (k :: ks)) with (own_char k ++ direct_text ks); rewrite <- !app_assoc; reflexivity|].
    destruct inside; [|exact R2]. destruct R1, R2. split; congruence.
  Qed.
  Lemma before_run ks : forall ty atts F l c C d, forallb (fun t => no_old_schema t && descriptions_ok t) ks = true ->
    (forall k, In k ks -> d + N.of_nat (xdepth k) <= 100) ->
    events [] (so [] [] [] 0 (frame_of ty atts l :: F) (c :: C) 0 0 d) (flat_map xevents ks) =
    Ok (so [] [] [] 0 (frame_of ty atts (l ++ flat_map (received keep_all ty) ks) :: F) ((c ++ direct_text ks) :: C) 0 0 d).
  Proof.
    induction ks as [|k ks IH]; intros ty atts F l c C d Hf Hd; [cbn; rewrite !app_nil_r; reflexivity|].
    cbn [forallb] in Hf. apply andb_prop in Hf as [Hk Hf]. apply andb_prop in Hk as [Hk1 Hk2]. cbn [flat_map]. rewrite events_app.
    destruct (child_run [] k (frame_of ty atts []) F C d {| klog := l; ktext := c; ktr := []; krun := true |} eq_refl Hk1 Hk2 (Hd k (or_introl eq_refl))) as (h & E & A1 & A2 & A3).
    rewrite (observed_passive [] keep_all (fun _ => [])) in A3 by (reflexivity || (intros [] ?; reflexivity)). cbn [klog ktext ktr krun fty fatts fcd frame_of] in E, A3. specialize (A3 eq_refl). subst h.
    match type of E with _ = ?R => match goal with |- context [bind ?A _] => replace A with R by (symmetry; exact E) end end. cbn [bind].
    match goal with |- context [flat_map (fun _ : note => []) ?L] => replace (flat_map (fun _ : note => @nil (nat * note)) L) with (@nil (nat * note)) by (clear; induction L; auto) end.
    cbn [app].
    etransitivity; [apply (IH ty atts F (l ++ received keep_all ty k) (c ++ direct_text [k]) C d Hf); intros k' Hk'; apply Hd; now right|].
    rewrite <- !app_assoc. change (direct_text (k :: ks)) with (own_char k ++ direct_text ks). destruct k; reflexivity.
  Qed.
  Lemma schema_run ty atts F l c C d : d + N.of_nat (xdepth (XElem (S_ "Schema") sa sk)) <= 100 ->
    events [] (so [] [] [] 0 (frame_of ty atts l :: F) (c :: C) 0 0 d) (xevents (XElem (S_ "Schema") sa sk)) =
    Ok (so S fs [] 0 (frame_of ty atts (l ++ place_around S fs sa sk ty []) :: F) (c :: C) 0 0 d).
  Proof.
    intros Hd. assert (Hd1 : d + 1 <= 100) by (cbn [xdepth] in Hd; lia). cbn [xevents events].
    assert (H1 : event [] (so [] [] [] 0 (frame_of ty atts l :: F) (c :: C) 0 0 d) (EStart (S_ "Schema") sa) =
                 Ok (so S [] [] 0 (frame_of Type_Schema (Some (attrs_of sa)) [] :: frame_of ty atts l :: F) ([] :: c :: C) 0 0 (d + 1))).
    { unfold event. cbn [stopped so]. unfold start_element. cbn [depth set_depth so]. rewrite inc_small by lia.
      replace (max_nesting <? d + 1) with false by (symmetry; apply N.ltb_ge; unfold max_nesting; lia).
      cbn [indesc set_depth skip so]. change (0 <? 0) with false. cbn [andb]. cbn [indesc set_depth skip so]. change (0 <? 0) with false. cbn iota.
      change (is_schema (S_ "Schema")) with true. cbn iota. hs2. rewrite Hname.
      assert (eqs (S_ "Schema") S = false) as -> by (destruct (eqs (S_ "Schema") S) eqn:E; [apply eqs_spec in E; subst S; rewrite <- E in Sschema; vm_compute in Sschema; discriminate|reflexivity]).
      rewrite andb_false_r. change (element_id (S_ "Schema")) with Type_Schema. change (creatable Type_Schema) with true. change (Type_Schema =? Type_Icon) with false. hs2.
      change (Type_Schema =? Type_description) with false. cbn iota.
      destruct sa; [exfalso; apply Sne; rewrite <- Hname; reflexivity|reflexivity]. }
    rewrite H1. cbn [bind]. rewrite events_app.
    destruct (kids_run2 [] true sk Type_Schema (Some (attrs_of sa)) (frame_of ty atts l :: F) [] [] (c :: C) (d + 1) [] 0 Hsk ltac:(discriminate)) as (sd1 & dn1 & E1 & -> & ->).
    { intros k Hk. pose proof (kids_depth (S_ "Schema") sa sk k Hk). lia. }
    match type of E1 with _ = ?R => match goal with |- context [bind ?A _] => replace A with R by (symmetry; exact E1) end end. cbn [bind events app].
    assert (flat_map (place_received S [] Type_Schema) sk = flat_map (received keep_all Type_Schema) sk) as ->.
    { clear - Hsk. induction sk as [|k ks IH]; [reflexivity|]. cbn [forallb] in Hsk. apply andb_prop in Hsk as [A B]. cbn [flat_map]. rewrite place_received_plain by exact A. now rewrite IH. }
    unfold event. cbn [stopped so]. unfold end_element. cbn [depth set_depth so indesc]. rewrite dec_pos by lia. replace (d + 1 - 1) with d by lia.
    change (is_description (S_ "Schema")) with false. cbn iota. hs2. change (0 <? 0) with false. cbn iota. cbn [andb]. hs2.
    assert (eqs S [] = false) as -> by (destruct (eqs S []) eqn:E; [apply eqs_spec in E; contradiction|reflexivity]).
    change (is_schema (S_ "Schema")) with true. cbn [negb]. unfold frame_of. hs2.
    repeat match goal with |- context [if self_parsed ?X then ?A else ?B] => change (if self_parsed X then A else B) with B end.
    cbn [set_fcd flog fty]. change (Type_Schema =? Type_Schema) with true. cbn iota. rewrite fields_of_children. reflexivity.
  Qed.
  (** The contents of an element around the Schema, given how the next one runs. *)
  Lemma inside_run (x : xml) (px : N -> list entry) b ks : 
    (forall ty atts F l0 c C d, d + N.of_nat (xdepth x) <= 100 ->
       exists sd, events [] (so [] [] [] 0 (frame_of ty atts l0 :: F) (c :: C) 0 0 d) (xevents x) =
         Ok (so S fs sd (length sd) (frame_of ty atts (l0 ++ px ty) :: F) (c :: C) 0 0 d)) ->
    forallb (fun t => no_old_schema t && descriptions_ok t) b = true -> forallb (fits S fs false) ks = true ->
    forall ty atts F C d, (forall k, In k (b ++ x :: ks) -> d + N.of_nat (xdepth k) <= 100) ->
    exists sd, events [] (so [] [] [] 0 (frame_of ty atts [] :: F) ([] :: C) 0 0 d) (flat_map xevents (b ++ x :: ks)) =
      Ok (so S fs sd (length sd) (frame_of ty atts (flat_map (received keep_all ty) b ++ px ty ++ flat_map (place_received S fs ty) ks) :: F) (direct_text (b ++ ks) :: C) 0 0 d).
  Proof.
    intros Hx Hb Hk ty atts F C d Hd. rewrite flat_map_app. cbn [flat_map]. rewrite events_app.
    rewrite before_run; [|exact Hb|intros k Hin; apply Hd; apply in_or_app; now left]. cbn [bind app]. rewrite events_app.
    destruct (Hx ty atts F (flat_map (received keep_all ty) b) (direct_text b) C d) as [sd E]; [apply Hd; apply in_or_app; right; now left|].
    match type of E with _ = ?R => match goal with |- context [bind (events ?o ?h ?l) ?k] => replace (events o h l) with R by (symmetry; exact E) end end. cbn [bind].
    destruct (kids_run2 fs false ks ty atts F (flat_map (received keep_all ty) b ++ px ty) (direct_text b) C d sd (length sd) Hk ltac:(reflexivity)) as (sd1 & dn1 & E1 & ->).
    { intros k Hin. apply Hd. apply in_or_app. right. now right. }
    exists sd1. etransitivity; [exact E1|]. rewrite <- app_assoc.
    replace (direct_text (b ++ ks)) with (direct_text b ++ direct_text ks) by (unfold direct_text; symmetry; apply flat_map_app). reflexivity.
  Qed.
  Lemma so_st F C s i d : so [] [] [] 0 F C s i d = st F C s i d [].
  Proof. reflexivity. Qed.
  Lemma around_known p n ty : known_type p n = Some ty -> match known_type Type_Unknown n with Some ty => negb (ty =? Type_description) | None => false end = true ->
    (ty =? Type_description) = false /\ is_description n = false.
  Proof.
    intros Hk H. pose proof (known_description p n) as A. pose proof (known_description Type_Unknown n) as B. rewrite Hk in A. destruct (known_type Type_Unknown n); [|discriminate].
    apply negb_true_iff in H. split; congruence.
  Qed.
  Lemma around_run l : forall ty atts F l0 c C d, forallb (around_ok S fs) l = true -> d + N.of_nat (xdepth (plug l (XElem (S_ "Schema") sa sk))) <= 100 ->
    exists sd, events [] (so [] [] [] 0 (frame_of ty atts l0 :: F) (c :: C) 0 0 d) (xevents (plug l (XElem (S_ "Schema") sa sk))) =
      Ok (so S fs sd (length sd) (frame_of ty atts (l0 ++ place_around S fs sa sk ty l) :: F) (c :: C) 0 0 d).
  Proof.
    induction l as [|[n a b ks] r IH]; intros ty atts F l0 c C d Hok Hd.
    - exists []. cbn [plug] in *. now rewrite schema_run by exact Hd.
    - cbn [forallb] in Hok. apply andb_prop in Hok as [Ho Hok]. unfold around_ok in Ho. cbn [ar_name ar_before ar_after] in Ho. apply andb_prop in Ho as [Ho Ha]. apply andb_prop in Ho as [Ho Hb].
      apply andb_prop in Ho as [Ho Hs2]. apply andb_prop in Ho as [Hk Hs1]. apply negb_true_iff in Hs1, Hs2.
      cbn [plug ar_name ar_atts ar_before ar_after place_around] in *. set (x := plug r (XElem (S_ "Schema") sa sk)) in *.
      assert (Hd1 : d + 1 <= 100) by (cbn [xdepth] in Hd; lia).
      destruct (known_type ty n) as [ty1|] eqn:Ek.
      2:{ rewrite (known_type_none _ Type_Unknown) in Ek. rewrite Ek in Hk. discriminate. }
      destruct (around_known _ _ _ Ek Hk) as [Et Edn].
      cbn [xevents events]. rewrite so_st. rewrite (start_known [] _ _ _ _ _ _ ty1) by (try exact Hd1; try exact Ek; now rewrite Hs2). cbn [call_observers]. rewrite Et. cbn [bind]. rewrite events_app.
      destruct (inside_run x (fun t => place_around S fs sa sk t r) b ks (fun ty atts F l0 c C d H => IH ty atts F l0 c C d Hok H) Hb Ha ty1 (node_atts n a) (frame_of ty atts l0 :: F) (c :: C) (d + 1)) as [sd E].
      { intros k Hin. pose proof (kids_depth n a _ k Hin). lia. }
      match type of E with _ = ?R => match goal with |- context [bind ?A _] => replace A with R by (symmetry; exact E) end end. cbn [bind events].
      rewrite end_known2 by (auto; try lia; rewrite Edn; reflexivity). cbn [bind]. exists sd. unfold log_entry, frame_of. cbn [fty fatts fcd flog]. rewrite <- !app_assoc. reflexivity.
  Qed.
  Lemma parse_old n a b ks r : forallb (around_ok S fs) ({| ar_name := n; ar_atts := a; ar_before := b; ar_after := ks |} :: r) = true ->
    (xdepth (plug ({| ar_name := n; ar_atts := a; ar_before := b; ar_after := ks |} :: r) (XElem (S_ "Schema") sa sk)) <= 100)%nat ->
    exists node, parse_events [] (xevents (plug ({| ar_name := n; ar_atts := a; ar_before := b; ar_after := ks |} :: r) (XElem (S_ "Schema") sa sk))) = Ok (Some node) /\
      place_around S fs sa sk Type_Unknown ({| ar_name := n; ar_atts := a; ar_before := b; ar_after := ks |} :: r) = [LChild node].
  Proof.
    intros Hok Hd. cbn [forallb] in Hok. apply andb_prop in Hok as [Ho Hok]. unfold around_ok in Ho. cbn [ar_name ar_before ar_after] in Ho. apply andb_prop in Ho as [Ho Ha]. apply andb_prop in Ho as [Ho Hb].
    apply andb_prop in Ho as [Ho Hs2]. apply andb_prop in Ho as [Hk Hs1]. apply negb_true_iff in Hs1, Hs2.
    cbn [plug ar_name ar_atts ar_before ar_after place_around] in *. set (x := plug r (XElem (S_ "Schema") sa sk)) in *.
    destruct (known_type Type_Unknown n) as [ty1|] eqn:Ek; [|discriminate].
    assert (Hk' : match known_type Type_Unknown n with Some ty => negb (ty =? Type_description) | None => false end = true) by (rewrite Ek; exact Hk).
    destruct (around_known _ _ _ Ek Hk') as [Et Edn].
    eexists. split; [|reflexivity]. unfold parse_events. change h0 with (st [] [] 0 0 0 []).
    cbn [xevents events]. rewrite (start_known [] _ _ _ _ _ _ ty1) by (try exact Ek; try lia; now rewrite Hs2). cbn [call_observers]. rewrite Et. cbn [bind]. rewrite events_app.
    destruct (inside_run x (fun t => place_around S fs sa sk t r) b ks (fun ty atts F l0 c C d H => around_run r ty atts F l0 c C d Hok H) Hb Ha ty1 (node_atts n a) [] [] (0 + 1)) as [sd E].
    { intros k Hin. pose proof (kids_depth n a _ k Hin). lia. }
    match type of E with _ = ?R => match goal with |- context [bind (events ?o ?h ?l) ?k] => replace (events o h l) with R by (symmetry; exact E) end end. cbn [bind events].
    rewrite end_root2 by (auto; lia). cbn [bind pop_root stopped stack so]. unfold node_of. cbn [fty fatts fcd flog frame_of]. rewrite <- !app_assoc. reflexivity.
  Qed.
End Around.

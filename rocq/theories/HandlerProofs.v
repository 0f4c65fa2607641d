From Verif Require Import Common StrMap AttributesModel XsdTables XsdModel XsdProofs XmlSpec XmlSpecProofs HandlerModel HandlerSpec.
Local Open Scope N_scope.

Lemma events_app obs a b h : events obs h (a ++ b) = (do h' <- events obs h a; events obs h' b).
Proof. revert h. induction a as [|e a IH]; intros h; simpl; auto. destruct (event obs h e); simpl; auto. Qed.
Lemma events_stopped obs es h : stopped h = true -> events obs h es = Ok h.
Proof. intros Hs. induction es as [|e es IH]; simpl; auto. unfold event. rewrite Hs. simpl. exact IH. Qed.

Lemma u32_small n : n < 4294967296 -> u32 n = n.
Proof. intros H. unfold u32. now apply N.mod_small. Qed.
Lemma inc_small n : n < 4294967295 -> inc n = n + 1.
Proof. intros H. unfold inc. apply u32_small. lia. Qed.
Lemma dec_pos n : 0 < n -> n < 4294967296 -> dec n = n - 1.
Proof.
  intros H H'. unfold dec, u32. replace (n + 4294967295) with ((n - 1) + 1 * 4294967296) by lia.
  rewrite N.mod_add by lia. apply N.mod_small. lia.
Qed.

Lemma description_id n : element_id n = Type_description <-> is_description n = true.
Proof.
  unfold is_description. rewrite eqs_spec. split.
  - intros H. destruct (element_id_spec n) as [(i & Hi & He & E)|[E _]].
    + rewrite H in E. subst i. rewrite <- He. vm_compute. reflexivity.
    + rewrite H in E. vm_compute in E. discriminate.
  - intros ->. vm_compute. reflexivity.
Qed.

Definition st (F : list frame) (C : list str) (s i d : N) (tr : list (nat * note)) : hstate :=
  {| stack := F; cds := C; skip := s; indesc := i; depth := d; old := []; sfields := []; sdata := [];
     sdone := 0%nat; inold := false; stopped := false; trace := tr |}.

Lemma raw_elem n a ks : raw (XElem n a ks) = raw_start n a ++ flat_map raw ks ++ raw_end n.
Proof. cbn [raw]. unfold raw_start, raw_end, raw_att. now rewrite <- !app_assoc. Qed.

Lemma list_max_in (l : list nat) x : In x l -> (x <= list_max l)%nat.
Proof. intros H. assert (A := proj1 (list_max_le l (list_max l)) (Nat.le_refl _)). rewrite Forall_forall in A. auto. Qed.

Lemma eqs_false_ne a b : a <> b -> eqs a b = false.
Proof. intros H. destruct (eqs a b) eqn:E; auto. apply eqs_spec in E. contradiction. Qed.

Ltac hs := cbn [cds skip indesc depth old sfields sdata sdone inold stopped trace stack fty fatts fcd flog
  set_stack set_cds set_skip set_indesc set_depth set_old set_sfields set_sdata set_inold set_trace stop st].

Section Run.
Variable obs : list observer.

Lemma raw_run t : forall F c r s i d tr,
  1 <= s -> s < 1000 -> i < 1000 -> (1 <= i \/ no_description t = true) ->
  d + N.of_nat (xdepth t) <= 100 -> s + N.of_nat (xdepth t) < 1000 -> i + N.of_nat (xdepth t) < 1000 ->
  events obs (st F (c :: r) s i d tr) (xevents t) = Ok (st F ((c ++ raw t) :: r) s i d tr).
Proof.
  induction t as [n a ks IH|x] using xml_ind2; intros F c r s i d tr Hs Hs' Hi Hd Hdep Hsd Hid.
  2:{ reflexivity. }
  cbn [xevents]. rewrite raw_elem.
  cbn [xdepth] in Hdep, Hsd, Hid.
  set (D := list_max (map xdepth ks)) in *.
  (* start *)
  set (i1 := if (0 <? i) && is_description n then i + 1 else i).
  assert (H1 : event obs (st F (c :: r) s i d tr) (EStart n a) = Ok (st F ((c ++ raw_start n a) :: r) (s + 1) i1 (d + 1) tr)).
  { unfold event. cbn [stopped st]. unfold start_element. cbn [depth set_depth st].
    rewrite inc_small by lia.
    replace (max_nesting <? d + 1) with false by (symmetry; apply N.ltb_ge; unfold max_nesting; lia).
    cbn [indesc set_depth st]. unfold i1.
    destruct ((0 <? i) && is_description n); cbn [skip set_indesc set_depth st];
    (replace (0 <? s) with true by (symmetry; apply N.ltb_lt; lia));
    unfold begin_unknown, append_cd; cbn; rewrite ?inc_small by lia; reflexivity. }
  cbn [events]. rewrite H1. cbn [bind]. rewrite events_app.
  (* kids *)
  assert (HK : forall l c', Forall (fun t => forall F c r s i d tr,
      1 <= s -> s < 1000 -> i < 1000 -> (1 <= i \/ no_description t = true) ->
      d + N.of_nat (xdepth t) <= 100 -> s + N.of_nat (xdepth t) < 1000 -> i + N.of_nat (xdepth t) < 1000 ->
      events obs (st F (c :: r) s i d tr) (xevents t) = Ok (st F ((c ++ raw t) :: r) s i d tr)) l ->
      (forall k, In k l -> (xdepth k <= D)%nat /\ (1 <= i1 \/ no_description k = true)) ->
      events obs (st F (c' :: r) (s + 1) i1 (d + 1) tr) (flat_map xevents l) =
      Ok (st F ((c' ++ flat_map raw l) :: r) (s + 1) i1 (d + 1) tr)).
  { assert (Hi1 : i1 <= i + 1) by (unfold i1; destruct ((0 <? i) && is_description n); lia).
    induction l as [|k l IHl]; intros c' HF Hin.
    - cbn. now rewrite app_nil_r.
    - cbn [flat_map]. inversion HF as [|? ? Hk Hl]; subst. rewrite events_app.
      destruct (Hin k (or_introl eq_refl)) as [Hk1 Hk2].
      rewrite Hk; try lia; auto.
      cbn [bind]. rewrite IHl; auto.
      + now rewrite <- app_assoc.
      + intros k' Hk'. apply Hin. now right. }
  rewrite HK; auto.
  2:{ intros k Hk. split.
      - apply list_max_in. now apply in_map.
      - destruct Hd as [Hd|Hd].
        + left. unfold i1. destruct ((0 <? i) && is_description n); lia.
        + cbn [no_description] in Hd. apply andb_true_iff in Hd as [_ Hd]. rewrite forallb_forall in Hd. auto. }
  cbn [bind events].
  (* end *)
  assert (H2 : forall c', event obs (st F (c' :: r) (s + 1) i1 (d + 1) tr) (EEnd n) = Ok (st F ((c' ++ raw_end n) :: r) s i d tr)).
  { intros c'. unfold event. cbn [stopped st]. unfold end_element. cbn [depth set_depth st indesc].
    rewrite dec_pos by lia. replace (d + 1 - 1) with d by lia.
    destruct (is_description n) eqn:En.
    - assert (Hi0 : 1 <= i).
      { destruct Hd as [Hd|Hd]; auto. cbn [no_description] in Hd. unfold is_description in En. rewrite En in Hd. discriminate. }
      unfold i1. replace (0 <? i) with true by (symmetry; apply N.ltb_lt; lia). cbn [andb].
      rewrite dec_pos by lia. replace (i + 1 - 1) with i by lia. cbn [indesc set_indesc set_depth st].
      replace (i =? 0) with false by (symmetry; apply N.eqb_neq; lia).
      cbn [skip set_indesc set_depth st]. replace (0 <? s + 1) with true by (symmetry; apply N.ltb_lt; lia).
      unfold append_cd. cbn. rewrite dec_pos by lia. replace (s + 1 - 1) with s by lia.
      replace (s =? 0) with false by (symmetry; apply N.eqb_neq; lia). reflexivity.
    - unfold i1. rewrite andb_false_r. cbn [skip set_depth st].
      replace (0 <? s + 1) with true by (symmetry; apply N.ltb_lt; lia).
      unfold append_cd. cbn. rewrite dec_pos by lia. replace (s + 1 - 1) with s by lia.
      replace (s =? 0) with false by (symmetry; apply N.eqb_neq; lia). reflexivity. }
  rewrite H2. now rewrite <- !app_assoc.
Qed.

Lemma raw_kids l : forall F c r s i d tr,
  1 <= s -> s < 500 -> i < 500 -> (1 <= i \/ forallb no_description l = true) ->
  d + N.of_nat (list_max (map xdepth l)) <= 100 ->
  events obs (st F (c :: r) s i d tr) (flat_map xevents l) = Ok (st F ((c ++ flat_map raw l) :: r) s i d tr).
Proof.
  induction l as [|k l IH]; intros F c r s i d tr Hs Hs' Hi Hd Hdep; cbn [flat_map].
  - cbn. now rewrite app_nil_r.
  - cbn [map list_max fold_right] in Hdep. change (fold_right Nat.max 0%nat (map xdepth l)) with (list_max (map xdepth l)) in Hdep.
    assert (Hk : 1 <= i \/ no_description k = true /\ forallb no_description l = true).
    { destruct Hd as [Hd|Hd]; [now left|right]. cbn in Hd. now apply andb_true_iff in Hd. }
    rewrite events_app, raw_run; try lia; try tauto.
    cbn [bind]. rewrite IH; try lia; try tauto. now rewrite <- app_assoc.
Qed.

(** Start of a known element. *)
Definition top_type (F : list frame) : N := match F with f :: _ => fty f | [] => Type_Unknown end.
Lemma start_known F C d tr n a ty : d + 1 <= 100 -> known_type (top_type F) n = Some ty ->
  eqs n (S_ "Schema") && negb (eqs (find_old_schema a []) []) = false ->
  event obs (st F C 0 0 d tr) (EStart n a) =
  (let '(ok, tr') := call_observers obs 0 (NNew ty (node_atts n a)) tr in
   let h := st ({| fty := ty; fatts := node_atts n a; fcd := []; flog := [] |} :: F) ([] :: C)
               (if ty =? Type_description then 1 else 0) (if ty =? Type_description then 1 else 0) (d + 1) tr' in
   Ok (if ok then h else stop h)).
Proof.
  intros Hd Hk Ho. unfold event. cbn [stopped st]. unfold start_element. cbn [depth set_depth st].
  rewrite inc_small by lia.
  replace (max_nesting <? d + 1) with false by (symmetry; apply N.ltb_ge; unfold max_nesting; lia).
  cbn [indesc set_depth skip st h0]. change (0 <? 0) with false. cbn [andb]. cbn [indesc set_depth skip st h0]. change (0 <? 0) with false. cbn iota.
  match goal with |- context [if is_schema n then ?A else ?B] => replace (if is_schema n then A else B) with B end.
  2:{ unfold is_schema. destruct (eqs n (S_ "Schema")); [|reflexivity]. cbn [andb] in Ho.
      apply negb_false_iff in Ho. apply eqs_spec in Ho. cbn [old set_depth st]. rewrite Ho. reflexivity. }
  cbn [set_depth set_cds old eqs negb andb st stack cds].
  unfold known_type in Hk. unfold node_atts in *.
  destruct (creatable (element_id n)) eqn:Ec.
  - assert (Hns : is_simple (element_id n) = false).
    { unfold creatable in Ec. unfold is_simple. destruct (element_type (Z.of_N (element_id n))); auto; discriminate. }
    rewrite Hns.
    assert (Hty : (if element_id n =? Type_Icon then match F with f :: _ => if fty f =? Type_IconStyle then Type_IconStyleIcon else element_id n | [] => element_id n end else element_id n) = ty).
    { injection Hk as <-. destruct (element_id n =? Type_Icon); cbn [andb]; auto. unfold top_type. destruct F; auto. }
    rewrite Hty. hs.
    destruct (ty =? Type_description);
    hs; change (inc 0) with 1;
    destruct (call_observers obs 0 (NNew ty match a with [] => None | _ :: _ => Some (attrs_of a) end) tr) as [ok tr']; reflexivity.
  - destruct (is_simple (element_id n)) eqn:Es; [|discriminate]. injection Hk as <-.
    hs.
    destruct (element_id n =? Type_description);
    hs; change (inc 0) with 1;
    destruct (call_observers obs 0 (NNew (element_id n) None) tr) as [ok tr']; reflexivity.
Qed.

Lemma start_unknown f F C d tr n a : d + 1 <= 100 -> known_type (top_type (f :: F)) n = None ->
  eqs n (S_ "Schema") && negb (eqs (find_old_schema a []) []) = false ->
  event obs (st (f :: F) C 0 0 d tr) (EStart n a) = Ok (st (f :: F) (raw_start n a :: C) 1 0 (d + 1) tr).
Proof.
  intros Hd Hk Ho. unfold event. cbn [stopped st]. unfold start_element. cbn [depth set_depth st].
  rewrite inc_small by lia.
  replace (max_nesting <? d + 1) with false by (symmetry; apply N.ltb_ge; unfold max_nesting; lia).
  cbn [indesc set_depth skip st h0]. change (0 <? 0) with false. cbn [andb]. cbn [indesc set_depth skip st h0]. change (0 <? 0) with false. cbn iota.
  match goal with |- context [if is_schema n then ?A else ?B] => replace (if is_schema n then A else B) with B end.
  2:{ unfold is_schema. destruct (eqs n (S_ "Schema")); [|reflexivity]. cbn [andb] in Ho.
      apply negb_false_iff in Ho. apply eqs_spec in Ho. cbn [old set_depth st]. rewrite Ho. reflexivity. }
  cbn [set_depth set_cds old eqs negb andb st stack cds].
  unfold known_type in Hk.
  destruct (creatable (element_id n)) eqn:Ec; [discriminate|].
  destruct (is_simple (element_id n)) eqn:Es; [discriminate|].
  rewrite andb_false_r. reflexivity.
Qed.

Lemma known_description p n : (match known_type p n with Some ty => ty =? Type_description | None => false end) = is_description n.
Proof.
  assert (H := description_id n). unfold known_type.
  destruct (is_description n) eqn:E.
  - rewrite (proj2 H eq_refl). vm_compute. reflexivity.
  - assert (Hne : element_id n <> Type_description) by (intros A; apply H in A; discriminate).
    destruct (creatable _).
    + destruct ((element_id n =? Type_Icon) && (p =? Type_IconStyle)); [reflexivity|]. now apply N.eqb_neq.
    + destruct (is_simple _); auto. now apply N.eqb_neq.
Qed.
Lemma known_type_none p q n : known_type p n = None <-> known_type q n = None.
Proof. unfold known_type. destruct (creatable _); [split; discriminate|]. destruct (is_simple _); split; auto; discriminate. Qed.

(** End of a known element (skip already corrected for a description). *)
Lemma end_known f F c C d tr n s : d < 1000 -> s = (if is_description n then 1 else 0) ->
  event obs (st (f :: F) (c :: C) s s (d + 1) tr) (EEnd n) =
  (let child := Node (fty f) (fatts f) c (flog f ++ self_entry (fty f) c) in
   match F with
   | [] => Ok (st [{| fty := fty f; fatts := fatts f; fcd := c; flog := flog f ++ self_entry (fty f) c |}] C 0 0 d tr)
   | p :: F' =>
       let '(kp, tr) := call_observers obs 0 (NEnd (fty p) child) tr in
       let '(go, tr) := call_observers obs 0 (NAdd (fty p) child) tr in
       let h := st ((if kp then log_entry (LChild child) p else p) :: F') C 0 0 d tr in
       Ok (if go then h else stop h)
   end).
Proof.
  intros Hd Hs. unfold event. cbn [stopped st]. unfold end_element. cbn [depth set_depth st indesc].
  rewrite dec_pos by lia. replace (d + 1 - 1) with d by lia.
  match goal with |- context [if is_description n then ?A else ?B] => set (h1 := if is_description n then A else B) end.
  assert (Hh : h1 = st (f :: F) (c :: C) 0 0 d tr).
  { unfold h1. subst s. destruct (is_description n); [|reflexivity]. vm_compute. reflexivity. }
  rewrite Hh. cbn [skip st]. change (0 <? 0) with false. cbn [stack cds inold old sdata length eqs negb andb].
  cbn [set_cds stack st cds skip indesc depth old sfields sdata sdone inold stopped trace eqs negb andb bind].
  assert (Hf : node_of (if self_parsed (fty (set_fcd f c)) then log_entry (LSelf c) (set_fcd f c) else set_fcd f c)
          = Node (fty f) (fatts f) c (flog f ++ self_entry (fty f) c)).
  { unfold self_entry, node_of. cbn [set_fcd fty]. destruct (self_parsed (fty f)); cbn; [reflexivity|]. now rewrite app_nil_r. }
  destruct F as [|p F'].
  - unfold self_entry. cbn [set_fcd fty]. destruct (self_parsed (fty f)); cbn; [reflexivity|].
    unfold set_stack, set_cds. cbn. rewrite app_nil_r. reflexivity.
  - rewrite Hf. cbn [set_cds trace st].
    destruct (call_observers obs 0 (NEnd (fty p) _) tr) as [kp tr1].
    replace (fty (if kp then log_entry _ p else p)) with (fty p) by (destruct kp; reflexivity).
    destruct (call_observers obs 0 (NAdd (fty p) _) tr1) as [go tr2].
    destruct go; reflexivity.
Qed.

Lemma end_unknown f F c C d tr n : d < 1000 -> is_description n = false ->
  event obs (st (f :: F) (c :: C) 1 0 (d + 1) tr) (EEnd n) =
  Ok (st (log_entry (LUnknown (c ++ raw_end n ++ ["010"%char])) f :: F) C 0 0 d tr).
Proof.
  intros Hd Hn. unfold event. cbn [stopped st]. unfold end_element. cbn [depth set_depth st indesc].
  rewrite dec_pos by lia. replace (d + 1 - 1) with d by lia. rewrite Hn.
  cbn [skip set_depth st]. change (0 <? 1) with true. unfold append_cd. hs. cbn [bind]. hs.
  change (dec 1) with 0. change (0 =? 0) with true. cbn iota. unfold log_entry. now rewrite <- app_assoc.
Qed.

Definition add_logs (f : frame) (l : list entry) : frame :=
  {| fty := fty f; fatts := fatts f; fcd := fcd f; flog := flog f ++ l |}.

(** State reached after a child: exact when still running, else only stopped flag and trace. *)
Definition after (h : hstate) (f : frame) (F : list frame) (C : list str) (d : N) (s : kst) : Prop :=
  ktr s = trace h /\ stopped h = negb (krun s) /\
  (krun s = true -> h = st ({| fty := fty f; fatts := fatts f; fcd := fcd f; flog := klog s |} :: F) (ktext s :: C) 0 0 d (ktr s)).

Lemma observed_stop p t s : krun s = false -> observed obs p t s = s.
Proof. intros H. destruct t; cbn [observed]; rewrite H; reflexivity. Qed.
Lemma observed_fold_stop p l s : krun s = false -> fold_left (fun s k => observed obs p k s) l s = s.
Proof. intros H. induction l as [|k l IH]; cbn [fold_left]; auto. rewrite observed_stop by auto. exact IH. Qed.

Lemma desc_forall p n a ks : descriptions_ok (XElem n a ks) = true ->
  match known_type p n with
  | None => forallb no_description ks = true
  | Some ty => (ty =? Type_description) = false -> forallb descriptions_ok ks = true
  end.
Proof.
  cbn [descriptions_ok]. intros H.
  assert (A := known_description p n). assert (B := known_description Type_Unknown n).
  destruct (known_type p n) as [ty|] eqn:E.
  - intros Hty. rewrite Hty in A. rewrite <- A in B.
    destruct (known_type Type_Unknown n) as [ty'|] eqn:E'.
    + rewrite B in H. exact H.
    + rewrite (known_type_none _ p) in E'. rewrite E' in E. discriminate.
  - rewrite (known_type_none _ Type_Unknown) in E. rewrite E in H. exact H.
Qed.

Lemma child_run t : forall f F C d s,
  krun s = true -> no_old_schema t = true -> descriptions_ok t = true -> d + N.of_nat (xdepth t) <= 100 ->
  exists h', events obs (st ({| fty := fty f; fatts := fatts f; fcd := fcd f; flog := klog s |} :: F) (ktext s :: C) 0 0 d (ktr s)) (xevents t) = Ok h' /\
             after h' f F C d (observed obs (fty f) t s).
Proof.
  induction t as [n a ks IH|x] using xml_ind2; intros f F C d s Hrun Ho Hdo Hd.
  2:{ cbn [xevents observed]. rewrite Hrun. cbn [negb]. eexists. split; [reflexivity|].
      split; [reflexivity|]. split; [reflexivity|]. intros _. reflexivity. }
  cbn [xevents]. cbn [xdepth] in Hd. cbn [observed]. rewrite Hrun. cbn [negb].
  assert (Hos : eqs n (S_ "Schema") && negb (eqs (find_old_schema a []) []) = false /\ forallb no_old_schema ks = true).
  { cbn [no_old_schema] in Ho. apply andb_true_iff in Ho as [H1 H2]. split; auto.
    destruct (eqs n (S_ "Schema")); auto. cbn [negb orb] in H1. rewrite H1. reflexivity. }
  destruct Hos as [Hos Hok].
  assert (Hdesc := desc_forall (fty f) n a ks Hdo).
  assert (Hkd := known_description (fty f) n).
  destruct (known_type (fty f) n) as [ty|] eqn:Ek.
  - cbn [events]. rewrite (start_known _ _ _ _ _ _ ty) by (auto; lia).
    destruct (call_observers obs 0 (NNew ty (node_atts n a)) (ktr s)) as [ok tr1] eqn:Eo.
    destruct ok.
    2:{ cbn [bind]. rewrite events_stopped by reflexivity.
        eexists. split; [reflexivity|].
        destruct (ty =? Type_description); [|rewrite observed_fold_stop by reflexivity]; cbn;
        (split; [reflexivity|split; [reflexivity|discriminate]]). }
    cbn [bind]. rewrite events_app.
    destruct (ty =? Type_description) eqn:Ety.
    + (* description *)
      rewrite raw_kids; try lia; auto.
      cbn [bind events app krun]. 
      rewrite (end_known _ _ _ _ d _ _ 1) by (try lia; rewrite <- Hkd; reflexivity).
      cbn [fty fatts flog klog ktext ktr app].
      cbn [bind].
      destruct (call_observers obs 0 (NEnd _ _) tr1) as [kp tr2].
      destruct (call_observers obs 0 (NAdd _ _) tr2) as [go tr3].
      cbn [bind]. eexists. split; [reflexivity|].
      split; [destruct go; reflexivity|]. split; [destruct go; reflexivity|].
      cbn [krun klog ktext ktr]. intros ->.
      destruct kp; [reflexivity|]. now rewrite app_nil_r.
    + (* ordinary known element *)
      specialize (Hdesc eq_refl).
      set (g := {| fty := ty; fatts := node_atts n a; fcd := []; flog := [] |}).
      assert (HK : forall l s0, incl l ks -> krun s0 = true ->
        exists h', events obs (st ({| fty := fty g; fatts := fatts g; fcd := fcd g; flog := klog s0 |} :: {| fty := fty f; fatts := fatts f; fcd := fcd f; flog := klog s |} :: F)
                         (ktext s0 :: ktext s :: C) 0 0 (d + 1) (ktr s0)) (flat_map xevents l) = Ok h' /\
             after h' g ({| fty := fty f; fatts := fatts f; fcd := fcd f; flog := klog s |} :: F) (ktext s :: C) (d + 1)
               (fold_left (fun s k => observed obs ty k s) l s0)).
      { induction l as [|k l IHl]; intros s0 Hin Hr.
        - cbn. eexists. split; [reflexivity|]. split; [reflexivity|]. rewrite Hr. split; reflexivity.
        - cbn [flat_map fold_left]. rewrite events_app.
          assert (Hkin : In k ks) by (apply Hin; now left).
          rewrite Forall_forall in IH.
          destruct (IH k Hkin g ({| fty := fty f; fatts := fatts f; fcd := fcd f; flog := klog s |} :: F) (ktext s :: C) (d + 1) s0 Hr) as (h1 & E1 & A1 & A2 & A3).
          + rewrite forallb_forall in Hok. auto.
          + rewrite forallb_forall in Hdesc. auto.
          + assert (xdepth k <= list_max (map xdepth ks))%nat by (apply list_max_in; now apply in_map). lia.
          + rewrite E1. cbn [bind]. change (fty g) with ty in *. 
            destruct (krun (observed obs ty k s0)) eqn:Er.
            * rewrite (A3 eq_refl). apply IHl; auto. intros y Hy. apply Hin. now right.
            * rewrite events_stopped by (now rewrite A2). rewrite observed_fold_stop by exact Er.
              eexists. split; [reflexivity|]. split; auto. split; [now rewrite Er|]. rewrite Er. discriminate. }
      destruct (HK ks {| klog := []; ktext := []; ktr := tr1; krun := true |} (incl_refl _) eq_refl) as (h1 & E1 & A1 & A2 & A3).
      cbn [klog ktext ktr] in E1. change {| fty := fty g; fatts := fatts g; fcd := fcd g; flog := [] |} with g in E1.
      fold g. cbv zeta in *. match goal with |- context [events obs ?A (flat_map xevents ks)] => match type of E1 with events obs ?B _ = _ => change A with B end end.
      rewrite E1. cbn [bind].
      set (s2 := fold_left _ _ _) in *.
      destruct (krun s2) eqn:Er.
      * rewrite (A3 eq_refl). cbn [events].
        rewrite (end_known _ _ _ _ d _ _ 0) by (try lia; rewrite <- Hkd; reflexivity).
        cbn [fty fatts flog g].
        destruct (call_observers obs 0 (NEnd _ _) (ktr s2)) as [kp tr2].
        destruct (call_observers obs 0 (NAdd _ _) tr2) as [go tr3].
        cbn [bind]. eexists. split; [reflexivity|].
        split; [destruct go; reflexivity|]. split; [destruct go; reflexivity|].
        cbn [krun klog ktext ktr]. intros ->.
        destruct kp; [reflexivity|]. now rewrite app_nil_r.
      * rewrite events_stopped by (now rewrite A2).
        eexists. split; [reflexivity|]. split; auto. split; [now rewrite A2|]. discriminate.
  - (* unknown *)
    cbn [events]. rewrite start_unknown by (auto; lia). cbn [bind]. rewrite events_app.
    rewrite raw_kids; try lia; auto.
    cbn [bind events]. rewrite end_unknown by (auto; lia). cbn [bind].
    eexists. split; [reflexivity|]. split; [reflexivity|]. split; [reflexivity|]. intros _.
    cbn [klog ktext ktr]. unfold log_entry. cbn [fty fatts fcd flog].
    rewrite raw_elem. now rewrite <- !app_assoc.
Qed.

(** Whole documents. *)
Theorem parse_observed t : no_old_schema t = true -> descriptions_ok t = true -> (xdepth t <= 100)%nat ->
  (exists n a ks, t = XElem n a ks) ->
  exists h, events obs h0 (xevents t) = Ok h /\ (pop_root h, trace h) = observed_doc obs t.
Proof.
  intros Ho Hdo Hd (n & a & ks & ->).
  cbn [xevents events]. cbn [xdepth] in Hd.
  assert (Hos : eqs n (S_ "Schema") && negb (eqs (find_old_schema a []) []) = false /\ forallb no_old_schema ks = true).
  { cbn [no_old_schema] in Ho. apply andb_true_iff in Ho as [H1 H2]. split; auto.
    destruct (eqs n (S_ "Schema")); auto. cbn [negb orb] in H1. rewrite H1. reflexivity. }
  destruct Hos as [Hos Hok].
  assert (Hdesc := desc_forall Type_Unknown n a ks Hdo).
  assert (Hkd := known_description Type_Unknown n).
  unfold observed_doc. destruct (known_type Type_Unknown n) as [ty|] eqn:Ek.
  - change h0 with (st [] [] 0 0 0 []).
    rewrite (start_known _ _ _ _ _ _ ty) by (auto; lia).
    destruct (call_observers obs 0 (NNew ty (node_atts n a)) []) as [ok tr1] eqn:Eo.
    destruct ok.
    2:{ cbn [bind]. rewrite events_stopped by reflexivity. eexists. split; [reflexivity|].
        destruct (ty =? Type_description); [|rewrite observed_fold_stop by reflexivity]; reflexivity. }
    cbn [bind]. rewrite events_app.
    destruct (ty =? Type_description) eqn:Ety.
    + rewrite raw_kids; try lia; auto.
      cbn [bind events app krun].
      rewrite (end_known _ _ _ _ 0 _ _ 1) by (try lia; rewrite <- Hkd; reflexivity).
      cbn [bind]. eexists. split; [reflexivity|]. reflexivity.
    + specialize (Hdesc eq_refl).
      set (g := {| fty := ty; fatts := node_atts n a; fcd := []; flog := [] |}).
      assert (HK : forall l s0, incl l ks -> krun s0 = true ->
        exists h', events obs (st ({| fty := fty g; fatts := fatts g; fcd := fcd g; flog := klog s0 |} :: [])
                         (ktext s0 :: []) 0 0 (0 + 1) (ktr s0)) (flat_map xevents l) = Ok h' /\
             after h' g [] [] (0 + 1) (fold_left (fun s k => observed obs ty k s) l s0)).
      { induction l as [|k l IHl]; intros s0 Hin Hr.
        - cbn. eexists. split; [reflexivity|]. split; [reflexivity|]. rewrite Hr. split; reflexivity.
        - cbn [flat_map fold_left]. rewrite events_app.
          assert (Hkin : In k ks) by (apply Hin; now left).
          destruct (child_run k g [] [] (0 + 1) s0 Hr) as (h1 & E1 & A1 & A2 & A3).
          + rewrite forallb_forall in Hok. auto.
          + rewrite forallb_forall in Hdesc. auto.
          + assert (xdepth k <= list_max (map xdepth ks))%nat by (apply list_max_in; now apply in_map). lia.
          + rewrite E1. cbn [bind]. change (fty g) with ty in *.
            destruct (krun (observed obs ty k s0)) eqn:Er.
            * rewrite (A3 eq_refl). apply IHl; auto. intros y Hy. apply Hin. now right.
            * rewrite events_stopped by (now rewrite A2). rewrite observed_fold_stop by exact Er.
              eexists. split; [reflexivity|]. split; auto. split; [now rewrite Er|]. rewrite Er. discriminate. }
      destruct (HK ks {| klog := []; ktext := []; ktr := tr1; krun := true |} (incl_refl _) eq_refl) as (h1 & E1 & A1 & A2 & A3).
      cbn [klog ktext ktr] in E1. change {| fty := fty g; fatts := fatts g; fcd := fcd g; flog := [] |} with g in E1.
      fold g. cbv zeta in *. match goal with |- context [events obs ?A (flat_map xevents ks)] => match type of E1 with events obs ?B _ = _ => change A with B end end.
      rewrite E1. cbn [bind].
      set (s2 := fold_left _ _ _) in *.
      destruct (krun s2) eqn:Er.
      * rewrite (A3 eq_refl). cbn [events].
        rewrite (end_known _ _ _ _ 0 _ _ 0) by (try lia; rewrite <- Hkd; reflexivity).
        cbn [bind]. eexists. split; reflexivity.
      * rewrite events_stopped by (now rewrite A2).
        eexists. split; [reflexivity|]. unfold pop_root. rewrite A2. cbn [negb]. now rewrite A1.
  - change h0 with (st [] [] 0 0 0 []).
    unfold event. cbn [stopped st]. unfold start_element. cbn [depth set_depth st].
    rewrite inc_small by lia. change (max_nesting <? 0 + 1) with false.
    cbn [indesc set_depth skip st]. change (0 <? 0) with false. cbn [andb]. cbn [indesc set_depth skip st]. change (0 <? 0) with false. cbn iota.
    match goal with |- context [if is_schema n then ?A else ?B] => replace (if is_schema n then A else B) with B end.
    2:{ unfold is_schema. destruct (eqs n (S_ "Schema")); [|reflexivity]. cbn [andb] in Hos.
        apply negb_false_iff in Hos. apply eqs_spec in Hos. cbn [old set_depth st]. rewrite Hos. reflexivity. }
    cbn [set_depth set_cds old eqs negb andb st stack cds].
    unfold known_type in Ek.
    destruct (creatable (element_id n)) eqn:Ec; [discriminate|].
    destruct (is_simple (element_id n)) eqn:Es; [discriminate|].
    rewrite andb_false_r. hs. cbn [bind]. rewrite events_stopped by reflexivity. eexists. split; reflexivity.
Qed.
End Run.

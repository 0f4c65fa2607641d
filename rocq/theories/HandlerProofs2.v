From Verif Require Import Common StrMap AttributesModel XsdTables XsdModel XsdProofs XmlSpec XmlSpecProofs HandlerModel HandlerSpec HandlerProofs.
Local Open Scope N_scope.

(** ** Observers that never stop the parse *)
Section Passive.
  Variable obs : list observer.
  Variable keep : N -> node -> bool.
  Variable tag : note -> list (nat * note).
  Definition ok_of (n : note) : bool := match n with NEnd p c => keep p c | _ => true end.
  Hypothesis Hc : forall n tr, call_observers obs 0 n tr = (ok_of n, tag n ++ tr).

  Lemma observed_passive t : forall p s, krun s = true ->
    observed obs p t s = {| klog := klog s ++ received keep p t; ktext := ktext s ++ direct_text [t];
                            ktr := flat_map tag (rev (notes keep p t)) ++ ktr s; krun := true |}.
  Proof.
    induction t as [n a ks IH|x] using xml_ind2; intros p s Hr.
    2:{ cbn [observed]. rewrite Hr. cbn [negb received notes rev flat_map app direct_text]. now rewrite app_nil_r. }
    cbn [observed received notes]. rewrite Hr. cbn [negb].
    assert (HK : forall ty l s0, krun s0 = true -> incl l ks ->
      fold_left (fun s k => observed obs ty k s) l s0 =
      {| klog := klog s0 ++ flat_map (received keep ty) l; ktext := ktext s0 ++ direct_text l;
         ktr := flat_map tag (rev (flat_map (notes keep ty) l)) ++ ktr s0; krun := true |}).
    { rewrite Forall_forall in IH. intros ty l. induction l as [|k l IHl]; intros s0 H0 Hin.
      - cbn. rewrite !app_nil_r. destruct s0; cbn in *; subst; reflexivity.
      - cbn [fold_left flat_map]. rewrite IH by (auto; apply Hin; now left).
        rewrite IHl by (auto; intros y Hy; apply Hin; now right).
        cbn [klog ktext ktr]. unfold direct_text. cbn [flat_map]. rewrite rev_app_distr, flat_map_app, app_nil_r, <- !app_assoc. reflexivity. }
    destruct (known_type p n) as [ty|].
    - rewrite !Hc. cbn [ok_of].
      destruct (ty =? Type_description) eqn:Ety.
      + cbn [krun ktext ktr klog]. rewrite ?Hc. cbn [ok_of]. rewrite ?Hc. cbn [ok_of].
        assert (Hse : forall x, self_entry ty x = []).
        { apply N.eqb_eq in Ety. subst ty. reflexivity. }
        rewrite Hse. cbn [app]. unfold direct_text. cbn [flat_map app rev].
        cbn [flat_map]. rewrite !app_nil_r, <- !app_assoc. reflexivity.
      + rewrite HK by (auto using incl_refl). cbn [krun ktext ktr klog app]. rewrite ?Hc. cbn [ok_of]. rewrite ?Hc. cbn [ok_of].
        f_equal.
        * unfold direct_text at 1. cbn [flat_map]. now rewrite !app_nil_r.
        * cbn [rev]. rewrite rev_app_distr. cbn [rev app]. cbn [flat_map]. rewrite flat_map_app. cbn [flat_map].
          rewrite !app_nil_r, <- !app_assoc. reflexivity.
    - unfold direct_text. cbn. now rewrite app_nil_r.
  Qed.

  Lemma observed_doc_passive t : observed_doc obs t = (tree keep t, flat_map tag (rev (all_notes keep t))).
  Proof.
    destruct t as [n a ks|x]; [|reflexivity]. cbn [observed_doc tree all_notes].
    destruct (known_type Type_Unknown n) as [ty|]; [|reflexivity].
    rewrite Hc. cbn [ok_of].
    destruct (ty =? Type_description) eqn:Ety.
    - assert (Hse : forall x, self_entry ty x = []).
      { apply N.eqb_eq in Ety. subst ty. reflexivity. }
      cbn [krun ktext klog ktr app rev flat_map]. now rewrite Hse, !app_nil_r.
    - assert (HK : forall l s0, krun s0 = true ->
        fold_left (fun s k => observed obs ty k s) l s0 =
        {| klog := klog s0 ++ flat_map (received keep ty) l; ktext := ktext s0 ++ direct_text l;
           ktr := flat_map tag (rev (flat_map (notes keep ty) l)) ++ ktr s0; krun := true |}).
      { induction l as [|k l IHl]; intros s0 H0.
        - cbn. rewrite !app_nil_r. destruct s0; cbn in *; subst; reflexivity.
        - cbn [fold_left flat_map]. rewrite observed_passive by auto. rewrite IHl by auto.
          cbn [klog ktext ktr]. unfold direct_text. cbn [flat_map]. rewrite rev_app_distr, flat_map_app, app_nil_r, <- !app_assoc. reflexivity. }
      rewrite HK by reflexivity. cbn [krun ktext klog ktr app rev]. rewrite !app_nil_r. f_equal.
      rewrite flat_map_app. cbn [flat_map]. now rewrite !app_nil_r.
  Qed.
End Passive.

(** Observers that accept everything. *)
Definition accepting (obs : list observer) : Prop := Forall (fun o : observer => forall tr n, o tr n = true) obs.
Lemma accepting_call obs : accepting obs -> forall i n tr,
  call_observers obs i n tr = (true, rev (map (fun j => (j, n)) (seq i (length obs))) ++ tr).
Proof.
  induction 1 as [|o obs Ho Hobs IH]; intros i n tr; [reflexivity|].
  cbn [call_observers length seq map rev]. rewrite Ho, IH. now rewrite <- app_assoc.
Qed.
(** Observers that only decide which finished children reach their parent. *)
Definition vetoing (ks : list (N -> node -> bool)) : list observer :=
  map (fun k (_ : list (nat * note)) n => match n with NEnd p c => k p c | _ => true end) ks.
Definition all_keep (ks : list (N -> node -> bool)) (p : N) (c : node) : bool := forallb (fun k => k p c) ks.
(** How many observers hear of a notification. *)
Fixpoint heard (ks : list (N -> node -> bool)) (n : note) : nat :=
  match ks with
  | [] => 0
  | k :: r => match n with NEnd p c => if k p c then S (heard r n) else 1 | _ => S (heard r n) end
  end.
Lemma vetoing_call ks : forall i n tr,
  call_observers (vetoing ks) i n tr = (ok_of (all_keep ks) n, rev (map (fun j => (j, n)) (seq i (heard ks n))) ++ tr).
Proof.
  induction ks as [|k ks IH]; intros i n tr.
  - destruct n; reflexivity.
  - cbn [vetoing map call_observers heard]. fold (vetoing ks). rewrite IH. unfold all_keep. cbn [ok_of forallb].
    destruct n as [ty a|p c|p c]; cbn [ok_of]; cbn [seq map rev]; rewrite ?app_assoc_reverse; try reflexivity.
    destruct (k p c); cbn [andb ok_of seq map rev app]; rewrite <- ?app_assoc; reflexivity.
Qed.

(** ** The parse stops exactly when an observer asks for it, and nobody is notified afterwards *)
Section Stops.
  Variable obs : list observer.
  Definition answer (i : nat) (tr : list (nat * note)) (n : note) : bool :=
    match nth_error obs i with Some o => o tr n | None => true end.
  Definition is_end (n : note) : bool := match n with NEnd _ _ => true | _ => false end.
  Fixpoint clean (tr : list (nat * note)) : Prop :=
    match tr with
    | [] => True
    | (i, n) :: r => (is_end n = true \/ answer i r n = true) /\ clean r
    end.
  Definition broken (tr : list (nat * note)) : Prop :=
    exists i n r, tr = (i, n) :: r /\ is_end n = false /\ answer i r n = false /\ clean r.

  Lemma call_clean n : forall l i tr, (forall j, nth_error obs (i + j) = nth_error l j) -> clean tr ->
    let '(ok, tr') := call_observers l i n tr in
    if is_end n then clean tr' else if ok then clean tr' else broken tr'.
  Proof.
    induction l as [|o l IH]; intros i tr Hn Hc.
    - cbn. destruct (is_end n); auto.
    - cbn [call_observers].
      assert (Ha : answer i tr n = o tr n) by (unfold answer; rewrite <- (Nat.add_0_r i), Hn; reflexivity).
      destruct (o tr n) eqn:Eo.
      + apply (IH (S i) ((i, n) :: tr)).
        * intros j. replace (S i + j)%nat with (i + S j)%nat by lia. rewrite Hn. reflexivity.
        * cbn. rewrite Ha. auto.
      + destruct (is_end n) eqn:En.
        * cbn. rewrite En. auto.
        * exists i, n, tr. auto.
  Qed.
  Lemma call_clean0 n tr : clean tr ->
    let '(ok, tr') := call_observers obs 0 n tr in
    if is_end n then clean tr' else if ok then clean tr' else broken tr'.
  Proof. intros H. apply call_clean; auto. Qed.

  Definition inv (s : kst) : Prop := if krun s then clean (ktr s) else broken (ktr s).
  Lemma observed_inv t : forall p s, inv s -> inv (observed obs p t s).
  Proof.
    induction t as [n a ks IH|x] using xml_ind2; intros p s Hs.
    2:{ cbn [observed]. destruct (krun s) eqn:E; cbn [negb]; auto. unfold inv in *. rewrite E in Hs. exact Hs. }
    cbn [observed]. destruct (krun s) eqn:E; cbn [negb]; auto.
    assert (Hcl : clean (ktr s)) by (unfold inv in Hs; rewrite E in Hs; exact Hs).
    destruct (known_type p n) as [ty|]; [|exact Hcl].
    assert (H1 := call_clean0 (NNew ty (node_atts n a)) _ Hcl).
    destruct (call_observers obs 0 (NNew ty (node_atts n a)) (ktr s)) as [ok tr1]. cbn [is_end] in H1.
    match goal with |- inv (if krun ?S then _ else _) => set (s2 := S) end.
    assert (H2 : inv s2).
    { unfold s2. destruct (ty =? Type_description); [exact H1|].
      assert (HK : forall l s0, Forall (fun t => forall p s, inv s -> inv (observed obs p t s)) l -> inv s0 ->
                inv (fold_left (fun s k => observed obs ty k s) l s0)).
      { clear. induction l as [|k l IHl]; intros s0 HF H0; cbn [fold_left]; auto. inversion HF; subst. auto. }
      apply HK; auto. }
    clearbody s2. unfold inv in H2. destruct (krun s2).
    - set (c := Node _ _ _ _). clearbody c.
      assert (H3 := call_clean0 (NEnd p c) _ H2). destruct (call_observers obs 0 (NEnd p c) (ktr s2)) as [kp tr2]. cbn [is_end] in H3.
      assert (H4 := call_clean0 (NAdd p c) _ H3). destruct (call_observers obs 0 (NAdd p c) tr2) as [go tr3]. cbn [is_end] in H4.
      exact H4.
    - exact H2.
  Qed.
  Lemma observed_doc_inv t r tr : (exists n a ks ty, t = XElem n a ks /\ known_type Type_Unknown n = Some ty) ->
    observed_doc obs t = (r, tr) -> match r with Some _ => clean tr | None => broken tr end.
  Proof.
    intros (n & a & ks & ty & -> & Ek) H. cbn [observed_doc] in H. rewrite Ek in H.
    assert (H1 := call_clean0 (NNew ty (node_atts n a)) [] I).
    destruct (call_observers obs 0 (NNew ty (node_atts n a)) []) as [ok tr1]. cbn [is_end] in H1.
    match type of H with (if krun ?S then _ else _, _) = _ => set (s2 := S) in * end.
    assert (H2 : inv s2).
    { unfold s2. destruct (ty =? Type_description); [exact H1|].
      assert (HK : forall l s0, inv s0 -> inv (fold_left (fun s k => observed obs ty k s) l s0)).
      { clear. induction l as [|k l IHl]; intros s0 H0; cbn [fold_left]; auto. apply IHl. now apply observed_inv. }
      apply HK. exact H1. }
    injection H as <- <-. unfold inv in H2. destruct (krun s2); exact H2.
  Qed.
End Stops.

(** ** Nesting limit, for every document and every observer *)
Ltac inv H := inversion H; subst; clear H.
Section Depth.
  Variable obs : list observer.

  Lemma append_cd_depth h s h' : append_cd h s = Ok h' -> depth h' = depth h /\ stopped h' = stopped h.
  Proof. unfold append_cd. destruct (cds h); intros H; inv H. auto. Qed.
  Lemma begin_unknown_depth h n a h' : begin_unknown h n a = Ok h' -> depth h' = depth h /\ stopped h' = stopped h.
  Proof.
    unfold begin_unknown. destruct (append_cd h (raw_start n a)) as [h1| | |] eqn:E; cbn; intros H; inv H.
    apply append_cd_depth in E. exact E.
  Qed.
  Lemma start_depth h n a h' : start_element obs h n a = Ok h' ->
    depth h' = inc (depth h) /\ (100 < inc (depth h) -> stopped h' = true).
  Proof.
    unfold start_element. cbn [depth set_depth].
    destruct (max_nesting <? inc (depth h)) eqn:El.
    { intros H; inv H. auto. }
    intros H. split; [|intros A; apply N.ltb_ge in El; unfold max_nesting in El; lia].
    set (h1 := if (0 <? _) && _ then _ else _) in H.
    assert (D1 : depth h1 = inc (depth h)) by (unfold h1; destruct ((0 <? _) && _); reflexivity).
    clearbody h1. destruct (0 <? skip h1).
    { apply begin_unknown_depth in H. now rewrite (proj1 H). }
    set (h2 := if is_schema n then _ else _) in H.
    assert (D2 : depth h2 = inc (depth h)) by (unfold h2; destruct (is_schema n); exact D1).
    clearbody h2. cbn [old set_cds stack] in H.
    set (ty := if negb _ && _ then _ else _) in H. clearbody ty.
    assert (HP : forall f h', (let hh := set_stack (set_cds h2 ([] :: cds h2)) (f :: stack h2) in
      let hh := if fty f =? Type_description then set_indesc (set_skip hh (inc (skip hh))) (inc (indesc hh)) else hh in
      let '(ok, tr) := call_observers obs 0 (NNew (fty f) (fatts f)) (trace hh) in
      let hh := set_trace hh tr in Ok (if ok then hh else stop hh)) = Ok h' -> depth h' = inc (depth h)).
    { intros f h''. cbv zeta. destruct (fty f =? Type_description);
      match goal with |- context [call_observers obs 0 ?x ?y] => destruct (call_observers obs 0 x y) as [[] tr] end;
      intros HH; inv HH; exact D2. }
    destruct (creatable ty); [eapply HP; exact H|].
    destruct (is_simple ty); [eapply HP; exact H|].
    destruct (is_unknown_type ty && _).
    - destruct (existsb (eqs n) _); [inv H; exact D2|].
      cbn [stack set_inold set_cds] in H. destruct (stack h2); [inv H; exact D2|].
      apply begin_unknown_depth in H. rewrite (proj1 H). exact D2.
    - destruct (stack h2); [inv H; exact D2|].
      apply begin_unknown_depth in H. rewrite (proj1 H). exact D2.
  Qed.
  Lemma end_depth h n h' : end_element obs h n = Ok h' -> depth h' = dec (depth h).
  Proof.
    unfold end_element.
    set (h1 := if is_description n then _ else _).
    assert (D1 : depth h1 = dec (depth h)).
    { unfold h1. destruct (is_description n); [|reflexivity]. cbn. destruct (_ =? 0); reflexivity. }
    clearbody h1. destruct (0 <? skip h1).
    { destruct (append_cd h1 (raw_end n)) as [h2| | |] eqn:E; cbn [bind]; intros H; try discriminate.
      apply append_cd_depth in E as [E _]. rewrite <- D1, <- E. clear E.
      destruct (skip (set_skip h2 (dec (skip h2))) =? 0); [|inv H; reflexivity].
      cbn [cds stack set_skip] in H.
      destruct (cds h2); [discriminate|]. destruct (stack h2); [discriminate|]. inv H. reflexivity. }
    destruct (stack h1) as [|f fr]; [intros H; inv H; exact D1|].
    destruct (cds h1) as [|c cr]; [discriminate|]. cbn [inold sdata old set_cds sfields sdone].
    destruct (inold h1 && _); [intros H; inv H; exact D1|].
    match goal with |- (do p <- ?E; @?k p) = _ -> _ => destruct E as [[h2 g]| | |] eqn:E2; cbn [bind]; try discriminate end.
    assert (D2 : depth h2 = dec (depth h)).
    { destruct (negb (eqs (old h1) [])); [|inv E2; exact D1].
      destruct (is_schema n); [destruct (_ =? Type_Schema); inv E2; exact D1|].
      destruct (eqs n (old h1)); [destruct (_ =? Type_Placemark); inv E2; exact D1|]. inv E2. exact D1. }
    clear E2. destruct fr as [|p pr]; [intros H; inv H; exact D2|].
    destruct (call_observers obs 0 (NEnd _ _) _) as [kp tr1].
    destruct (call_observers obs 0 (NAdd _ _) tr1) as [go tr2]. intros H.
    inv H. destruct go; exact D2.
  Qed.

  Lemma depth_run t : forall h h', stopped h = false -> depth h <= 100 -> events obs h (xevents t) = Ok h' ->
    stopped h' = false -> depth h' = depth h /\ depth h + N.of_nat (xdepth t) <= 100.
  Proof.
    induction t as [n a ks IH|x] using xml_ind2; intros h h' Hs Hd H Hs'.
    2:{ cbn in H. unfold event in H. rewrite Hs in H. destruct (append_cd h [x]) as [h1| | |] eqn:E; try discriminate.
        cbn in H. inv H. apply append_cd_depth in E. cbn. rewrite (proj1 E). split; auto. lia. }
    cbn [xevents events] in H. unfold event at 1 in H. rewrite Hs in H.
    destruct (start_element obs h n a) as [h1| | |] eqn:E1; cbn [bind] in H; try discriminate.
    apply start_depth in E1 as [D1 D2]. rewrite inc_small in D1, D2 by lia.
    assert (Hkeep : forall es g g', stopped g = true -> events obs g es = Ok g' -> stopped g' = true).
    { intros es g g' A B. rewrite events_stopped in B by auto. inv B. auto. }
    destruct (stopped h1) eqn:S1.
    { apply Hkeep in H; auto. congruence. }
    assert (D3 : depth h + 1 <= 100) by (destruct (N.le_gt_cases (depth h + 1) 100); auto; apply D2 in H0; discriminate).
    rewrite events_app in H.
    destruct (events obs h1 (flat_map xevents ks)) as [h2| | |] eqn:E2; cbn [bind] in H; try discriminate.
    assert (HK : forall l g g', Forall (fun t => forall h h', stopped h = false -> depth h <= 100 -> events obs h (xevents t) = Ok h' ->
        stopped h' = false -> depth h' = depth h /\ depth h + N.of_nat (xdepth t) <= 100) l ->
        stopped g = false -> depth g <= 100 -> events obs g (flat_map xevents l) = Ok g' -> stopped g' = false ->
        depth g' = depth g /\ depth g + N.of_nat (list_max (map xdepth l)) <= 100).
    { clear - Hkeep. induction l as [|k l IHl]; intros g g' HF Hg Hdg Hev Hg'.
      - cbn in Hev. inv Hev. cbn. split; auto. lia.
      - cbn [flat_map] in Hev. rewrite events_app in Hev. inversion HF as [|? ? Hk Hl]; subst.
        destruct (events obs g (xevents k)) as [g1| | |] eqn:E; cbn [bind] in Hev; try discriminate.
        destruct (stopped g1) eqn:S1. { apply Hkeep in Hev; auto. congruence. }
        destruct (Hk _ _ Hg Hdg E S1) as [A1 A2].
        destruct (IHl g1 g' Hl S1) as [B1 B2]; auto; [lia|].
        cbn [map list_max fold_right]. change (fold_right Nat.max 0%nat (map xdepth l)) with (list_max (map xdepth l)). lia. }
    destruct (stopped h2) eqn:S2.
    { apply Hkeep in H; auto. congruence. }
    destruct (HK ks h1 h2 IH S1) as [A1 A2]; auto; [lia|].
    cbn [events] in H. unfold event in H. rewrite S2 in H.
    destruct (end_element obs h2 n) as [h3| | |] eqn:E3; cbn [bind] in H; try discriminate. inv H.
    apply end_depth in E3. rewrite dec_pos in E3 by lia. cbn [xdepth]. split; lia.
  Qed.
  Lemma too_deep t r : (100 < xdepth t)%nat -> parse_events obs (xevents t) = Ok r -> r = None.
  Proof.
    intros Hd. unfold parse_events. destruct (events obs h0 (xevents t)) as [h| | |] eqn:E; cbn [bind]; try discriminate.
    intros H. inv H. unfold pop_root. destruct (stopped h) eqn:Es; auto.
    destruct (depth_run t h0 h eq_refl ltac:(cbn; lia) E Es) as [_ A]. cbn in A. lia.
  Qed.
End Depth.

Ltac use E := match type of E with events ?o ?A ?L = _ =>
  match goal with |- context [events o ?B L] => change (events o B L) with (events o A L) end end; rewrite E.
(** ** No undefined behaviour without an old-style Schema *)
Section Safe.
  Variable obs : list observer.
  (** The description counter as an integer. *)
  Definition u (z : Z) : N := Z.to_N (z mod 4294967296).
  Lemma u_inc z : inc (u z) = u (z + 1).
  Proof.
    unfold inc, u32, u.
    apply N2Z.inj. rewrite N2Z.inj_mod, N2Z.inj_add, !Z2N.id by (apply Z.mod_pos_bound; lia).
    change (Z.of_N 1) with 1%Z. change (Z.of_N 4294967296) with 4294967296%Z.
    now rewrite Zplus_mod_idemp_l.
  Qed.
  Lemma u_dec z : dec (u z) = u (z - 1).
  Proof.
    unfold dec, u32, u.
    apply N2Z.inj. rewrite N2Z.inj_mod, N2Z.inj_add, !Z2N.id by (apply Z.mod_pos_bound; lia).
    change (Z.of_N 4294967295) with 4294967295%Z. change (Z.of_N 4294967296) with 4294967296%Z.
    rewrite Zplus_mod_idemp_l. replace (z + 4294967295)%Z with (z - 1 + 1 * 4294967296)%Z by lia.
    now rewrite Z_mod_plus_full.
  Qed.
  Lemma u_zero z : (-2147483648 <= z < 2147483648)%Z -> (u z =? 0) = (z =? 0)%Z.
  Proof.
    intros H. unfold u. destruct (Z.eqb_spec z 0) as [->|Hz]; [reflexivity|].
    apply N.eqb_neq. intros A. assert (B := Z.mod_pos_bound z 4294967296 ltac:(lia)).
    assert (C : (z mod 4294967296 = 0)%Z) by lia.
    apply Z.mod_divide in C; [|lia]. destruct C as [k Hk]. lia.
  Qed.
  Lemma u_pos z : (-2147483648 <= z < 2147483648)%Z -> (0 <? u z) = negb (z =? 0)%Z.
  Proof.
    intros H. rewrite <- (u_zero z H). destruct (N.eqb_spec (u z) 0); [rewrite e; reflexivity|].
    apply N.ltb_lt. lia.
  Qed.

  (** A state without old-style Schema data. *)
  Definition plain_st (h : hstate) : Prop := old h = [] /\ inold h = false.
  Definition stf (F : list frame) (C : list str) (s : N) (z : Z) (d : N) (tr : list (nat * note)) : hstate :=
    st F C s (u z) d tr.
  Definition lim : Z := 2147483000.


  (** Inside unknown markup or a description. *)
  Lemma safe_raw t : forall F c C s z d tr, 1 <= s -> s <= 1 + d -> d <= 100 -> (-lim <= z <= 200)%Z ->
    (1 <= z -> z <= 1 + Z.of_N d)%Z -> (Z.of_nat (xsize t) <= lim + z)%Z ->
    exists h', events obs (stf F (c :: C) s z d tr) (xevents t) = Ok h' /\
      (stopped h' = true \/
       exists c' z', h' = stf F (c' :: C) s z' d tr /\ ((1 <= z)%Z -> z' = z) /\ ((z <= 0)%Z -> (z - Z.of_nat (xsize t) <= z' <= 0)%Z)).
  Proof.
    induction t as [n a ks IH|x] using xml_ind2; intros F c C s z d tr Hs Hsd Hd Hz Hz1 Hsz.
    2:{ cbn [xevents events]. unfold event, append_cd. cbn. eexists. split; [reflexivity|]. right.
        exists (c ++ [x]), z. split; [reflexivity|]. cbn [xsize map list_sum fold_right]. lia. }
    cbn [xevents events]. cbn [xsize] in Hsz.
    set (z1 := if negb (z =? 0)%Z && is_description n then (z + 1)%Z else z).
    destruct (N.le_gt_cases 100 d) as [Hdd|Hdd].
    { assert (E : event obs (stf F (c :: C) s z d tr) (EStart n a) = Ok (stop (stf F (c :: C) s z (d + 1) tr))).
      { unfold event, stf. cbn [stopped st]. unfold start_element. hs. rewrite inc_small by lia.
        replace (max_nesting <? d + 1) with true by (symmetry; apply N.ltb_lt; unfold max_nesting; lia). reflexivity. }
      rewrite E. cbn [bind]. rewrite events_stopped by reflexivity. eexists. split; [reflexivity|]. now left. }
    assert (Ex : exists cc : str, event obs (stf F (c :: C) s z d tr) (EStart n a) = Ok (stf F (cc :: C) (s + 1) z1 (d + 1) tr)).
    { exists (c ++ raw_start n a). unfold event, stf. cbn [stopped st]. unfold start_element. hs. rewrite inc_small by lia.
      replace (max_nesting <? d + 1) with false by (symmetry; apply N.ltb_ge; unfold max_nesting; lia).
      cbv zeta. rewrite u_pos by (unfold lim in *; lia). unfold z1.
      destruct (negb (z =? 0)%Z && is_description n); hs;
      (replace (0 <? s) with true by (symmetry; apply N.ltb_lt; lia)); unfold begin_unknown, append_cd; hs; cbn [bind]; hs;
      rewrite ?u_inc, inc_small by lia; reflexivity. }
    destruct Ex as [cc E]. rewrite E. cbn [bind]. rewrite events_app. clear E.
    assert (Hz1b : (z1 <= z + 1)%Z /\ (z <= z1)%Z /\ ((z <= 0)%Z -> (z1 <= 0)%Z)).
    { unfold z1. destruct (Z.eqb_spec z 0); cbn [negb andb]; [lia|]. destruct (is_description n); lia. }
    assert (HK : forall l c0 zz, incl l ks -> (-lim <= zz <= 200)%Z -> ((1 <= zz)%Z -> (zz <= 2 + Z.of_N d)%Z) ->
      (Z.of_nat (list_sum (map xsize l)) <= lim + zz)%Z ->
      exists h', events obs (stf F (c0 :: C) (s + 1) zz (d + 1) tr) (flat_map xevents l) = Ok h' /\
        (stopped h' = true \/ exists c' z', h' = stf F (c' :: C) (s + 1) z' (d + 1) tr /\ ((1 <= zz)%Z -> z' = zz) /\
          ((zz <= 0)%Z -> (zz - Z.of_nat (list_sum (map xsize l)) <= z' <= 0)%Z))).
    { rewrite Forall_forall in IH. clear - IH Hs Hsd Hdd.
      induction l as [|k l IHl]; intros c0 zz Hin Hzz Hzd Hsum.
      - cbn. eexists. split; [reflexivity|]. right. exists c0, zz. split; [reflexivity|]. cbn [xsize map list_sum fold_right]. lia.
      - cbn [flat_map map list_sum fold_right] in *. change (fold_right plus 0%nat (map xsize l)) with (list_sum (map xsize l)) in *.
        rewrite events_app.
        destruct (IH k (Hin k (or_introl eq_refl)) F c0 C (s + 1) zz (d + 1) tr) as (h1 & E1 & [Hst|(c1 & z2 & -> & A1 & A2)]); try lia.
        + rewrite E1. cbn [bind]. rewrite events_stopped by auto. eexists. split; [reflexivity|]. now left.
        + rewrite E1. cbn [bind].
          assert (Hb : ((1 <= zz)%Z -> z2 = zz) /\ ((zz <= 0)%Z -> (zz - Z.of_nat (xsize k) <= z2 <= 0)%Z)) by tauto.
          destruct (IHl c1 z2) as (h2 & E2 & [Hst|(c2 & z3 & -> & B1 & B2)]).
          * intros y Hy. apply Hin. now right.
          * lia.
          * lia.
          * lia.
          * exists h2. split; auto.
          * exists (stf F (c2 :: C) (s + 1) z3 (d + 1) tr). split; auto. right. exists c2, z3. split; [reflexivity|]. lia. }
    destruct (HK ks cc z1 (incl_refl _)) as (h1 & E1 & [Hst|(c1 & z2 & -> & A1 & A2)]); try lia.
    - rewrite E1. cbn [bind]. rewrite events_stopped by auto. eexists. split; [reflexivity|]. now left.
    - rewrite E1. cbn [bind events]. clear E1.
      assert (E : event obs (stf F (c1 :: C) (s + 1) z2 (d + 1) tr) (EEnd n) =
                  Ok (stf F ((c1 ++ raw_end n) :: C) s (if is_description n then z2 - 1 else z2)%Z d tr)).
      { unfold event, stf. cbn [stopped st]. unfold end_element. hs. rewrite (dec_pos (d + 1)) by lia. replace (d + 1 - 1) with d by lia.
        destruct (is_description n) eqn:En.
        - cbv zeta. rewrite u_dec. rewrite u_zero by (unfold lim in *; lia).
          assert (Hne : (z2 - 1 =? 0)%Z = false).
          { apply Z.eqb_neq. unfold z1 in *. destruct (Z.eqb_spec z 0); cbn [negb andb] in *; lia. }
          rewrite Hne. hs. replace (0 <? s + 1) with true by (symmetry; apply N.ltb_lt; lia).
          unfold append_cd. hs. cbn [bind]. hs. rewrite (dec_pos (s + 1)) by lia. replace (s + 1 - 1) with s by lia.
          replace (s =? 0) with false by (symmetry; apply N.eqb_neq; lia). reflexivity.
        - hs. replace (0 <? s + 1) with true by (symmetry; apply N.ltb_lt; lia).
          unfold append_cd. hs. cbn [bind]. hs. rewrite (dec_pos (s + 1)) by lia. replace (s + 1 - 1) with s by lia.
          replace (s =? 0) with false by (symmetry; apply N.eqb_neq; lia). reflexivity. }
      rewrite E. cbn [bind]. eexists. split; [reflexivity|]. right.
      exists (c1 ++ raw_end n), (if is_description n then z2 - 1 else z2)%Z. split; [reflexivity|].
      cbn [xsize]. unfold z1 in *. destruct (Z.eqb_spec z 0); destruct (is_description n); cbn [negb andb] in *; lia.
  Qed.

  (** In known elements: the description counter is never positive there. *)
  Lemma safe_known t : forall f F c C z d tr, d <= 100 -> (-lim <= z <= 0)%Z -> no_old_schema t = true ->
    (Z.of_nat (xsize t) <= lim + z)%Z ->
    exists h', events obs (stf (f :: F) (c :: C) 0 z d tr) (xevents t) = Ok h' /\
      (stopped h' = true \/
       exists f' F' c' z' tr', h' = stf (f' :: F') (c' :: C) 0 z' d tr' /\ (z - Z.of_nat (xsize t) <= z' <= 0)%Z).
  Proof.
    induction t as [n a ks IH|x] using xml_ind2; intros f F c C z d tr Hd Hz Ho Hsz.
    2:{ cbn [xevents events]. unfold event, append_cd. cbn. eexists. split; [reflexivity|]. right.
        exists f, F, (c ++ [x]), z, tr. split; [reflexivity|]. cbn [xsize map list_sum fold_right]. lia. }
    cbn [xevents events]. cbn [xsize] in Hsz.
    assert (Hos : eqs n (S_ "Schema") && negb (eqs (find_old_schema a []) []) = false /\ forallb no_old_schema ks = true).
    { cbn [no_old_schema] in Ho. apply andb_true_iff in Ho as [H1 H2]. split; auto.
      destruct (eqs n (S_ "Schema")); auto. cbn [negb orb] in H1. rewrite H1. reflexivity. }
    destruct Hos as [Hos Hok].
    destruct (N.le_gt_cases 100 d) as [Hdd|Hdd].
    { assert (E : event obs (stf (f :: F) (c :: C) 0 z d tr) (EStart n a) = Ok (stop (stf (f :: F) (c :: C) 0 z (d + 1) tr))).
      { unfold event, stf. cbn [stopped st]. unfold start_element. hs. rewrite inc_small by lia.
        replace (max_nesting <? d + 1) with true by (symmetry; apply N.ltb_lt; unfold max_nesting; lia). reflexivity. }
      rewrite E. cbn [bind]. rewrite events_stopped by reflexivity. eexists. split; [reflexivity|]. now left. }
    assert (Hkd := known_description (fty f) n).
    (* the start tag *)
    assert (E : event obs (stf (f :: F) (c :: C) 0 z d tr) (EStart n a) =
      match known_type (fty f) n with
      | Some ty =>
          let z1 := if is_description n then (if (z =? 0)%Z then 1 else z + 2)%Z else z in
          let '(ok, tr') := call_observers obs 0 (NNew ty (node_atts n a)) tr in
          let h := stf ({| fty := ty; fatts := node_atts n a; fcd := []; flog := [] |} :: f :: F) ([] :: c :: C)
                     (if is_description n then 1 else 0) z1 (d + 1) tr' in
          Ok (if ok then h else stop h)
      | None => Ok (stf (f :: F) (raw_start n a :: c :: C) 1 z (d + 1) tr)
      end).
    { unfold event, stf. cbn [stopped st]. unfold start_element. hs. rewrite inc_small by lia.
      replace (max_nesting <? d + 1) with false by (symmetry; apply N.ltb_ge; unfold max_nesting; lia).
      cbv zeta. rewrite u_pos by (unfold lim in *; lia).
      set (z0 := if negb (z =? 0)%Z && is_description n then (z + 1)%Z else z).
      match goal with |- context [if negb (z =? 0)%Z && is_description n then ?A else ?B] =>
        replace (if negb (z =? 0)%Z && is_description n then A else B) with (st (f :: F) (c :: C) 0 (u z0) (d + 1) tr) end.
      2:{ unfold z0. destruct (negb (z =? 0)%Z && is_description n); hs; rewrite ?u_inc; reflexivity. }
      hs. change (0 <? 0) with false. cbn iota.
      match goal with |- context [if is_schema n then ?A else ?B] => replace (if is_schema n then A else B) with B end.
      2:{ unfold is_schema. destruct (eqs n (S_ "Schema")); [|reflexivity]. cbn [andb] in Hos.
          apply negb_false_iff in Hos. apply eqs_spec in Hos. hs. rewrite Hos. reflexivity. }
      hs. cbn [eqs negb andb].
      unfold known_type in *. unfold node_atts.
      destruct (creatable (element_id n)) eqn:Ec.
      - assert (Hns : is_simple (element_id n) = false).
        { unfold creatable in Ec. unfold is_simple. destruct (element_type (Z.of_N (element_id n))); auto; discriminate. }
        rewrite Hns. set (ty := if _ && _ then Type_IconStyleIcon else _) in *.
        match goal with |- context [if element_id n =? Type_Icon then ?A else ?B] =>
          replace (if element_id n =? Type_Icon then A else B) with ty by (unfold ty; destruct (element_id n =? Type_Icon); reflexivity) end.
        hs. rewrite Hkd. unfold z0. destruct (is_description n); hs.
        + rewrite andb_true_r, ?u_inc. change (inc 0) with 1.
          replace ((if negb (z =? 0)%Z then z + 1 else z) + 1)%Z with (if (z =? 0)%Z then 1 else z + 2)%Z by (destruct (Z.eqb_spec z 0); cbn [negb]; lia).
          destruct (call_observers obs 0 _ tr) as [[] tr']; reflexivity.
        + rewrite andb_false_r. destruct (call_observers obs 0 _ tr) as [[] tr']; reflexivity.
      - destruct (is_simple (element_id n)) eqn:Es.
        + hs. rewrite Hkd. unfold z0. destruct (is_description n); hs.
          * rewrite andb_true_r, ?u_inc. change (inc 0) with 1.
            replace ((if negb (z =? 0)%Z then z + 1 else z) + 1)%Z with (if (z =? 0)%Z then 1 else z + 2)%Z by (destruct (Z.eqb_spec z 0); cbn [negb]; lia).
            destruct (call_observers obs 0 _ tr) as [[] tr']; reflexivity.
          * rewrite andb_false_r. destruct (call_observers obs 0 _ tr) as [[] tr']; reflexivity.
        + rewrite andb_false_r. unfold z0. rewrite <- Hkd, andb_false_r. reflexivity. }
    rewrite E. clear E.
    destruct (known_type (fty f) n) as [ty|] eqn:Ek.
    - cbv zeta. destruct (call_observers obs 0 (NNew ty (node_atts n a)) tr) as [[] tr1].
      2:{ cbn [bind]. rewrite events_stopped by reflexivity. eexists. split; [reflexivity|]. now left. }
      cbn [bind]. rewrite events_app.
      destruct (is_description n) eqn:En.
      + (* description: its content is raw *)
        set (z1 := if (z =? 0)%Z then 1%Z else (z + 2)%Z).
        assert (Hz1g : (z <= z1)%Z) by (unfold z1; destruct (Z.eqb_spec z 0); lia).
        assert (Hz1 : (-lim <= z1 <= 1)%Z) by (unfold z1, lim in *; destruct (Z.eqb_spec z 0); lia).
        assert (HK : forall l c0 zz tr0 F0 C0, (-lim <= zz <= 1)%Z -> (Z.of_nat (list_sum (map xsize l)) <= lim + zz)%Z ->
          exists h', events obs (stf F0 (c0 :: C0) 1 zz (d + 1) tr0) (flat_map xevents l) = Ok h' /\
            (stopped h' = true \/ exists c' z', h' = stf F0 (c' :: C0) 1 z' (d + 1) tr0 /\ ((1 <= zz)%Z -> z' = zz) /\
              ((zz <= 0)%Z -> (zz - Z.of_nat (list_sum (map xsize l)) <= z' <= 0)%Z))).
        { clear - Hdd. induction l as [|k l IHl]; intros c0 zz tr0 F0 C0 Hzz Hsum.
          - cbn. eexists. split; [reflexivity|]. right. exists c0, zz. split; [reflexivity|]. cbn [xsize map list_sum fold_right]. lia.
          - cbn [flat_map map list_sum fold_right] in *. change (fold_right plus 0%nat (map xsize l)) with (list_sum (map xsize l)) in *.
            rewrite events_app.
            destruct (safe_raw k F0 c0 C0 1 zz (d + 1) tr0) as (h1 & E1 & [Hst|(c1 & z2 & -> & A1 & A2)]); try lia.
            + use E1. cbn [bind]. rewrite events_stopped by auto. eexists. split; [reflexivity|]. now left.
            + use E1. cbn [bind].
              destruct (IHl c1 z2 tr0 F0 C0) as (h2 & E2 & [Hst|(c2 & z3 & -> & B1 & B2)]); try lia.
              * exists h2. split; auto.
              * eexists. split; [exact E2|]. right. exists c2, z3. split; [reflexivity|]. lia. }
        destruct (HK ks [] z1 tr1 ({| fty := ty; fatts := node_atts n a; fcd := []; flog := [] |} :: f :: F) (c :: C) Hz1)
          as (h1 & E1 & [Hst|(c1 & z2 & -> & A1 & A2)]).
        { unfold z1. destruct (Z.eqb_spec z 0); lia. }
        { use E1. cbn [bind]. rewrite events_stopped by auto. eexists. split; [reflexivity|]. now left. }
        use E1. cbn [bind events]. clear E1.
        unfold event, stf. cbn [stopped st]. unfold end_element. hs. rewrite (dec_pos (d + 1)) by lia. replace (d + 1 - 1) with d by lia.
        rewrite En. cbv zeta. rewrite u_dec. rewrite u_zero by (unfold lim in *; lia).
        destruct (Z.eqb_spec (z2 - 1) 0) as [Hz2|Hz2].
        * hs. change (dec 1) with 0. change (0 <? 0) with false. cbn iota. cbn [andb eqs negb].
          cbn [bind]. hs.
          set (child := node_of _).
          destruct (call_observers obs 0 (NEnd (fty f) child) tr1) as [kp tr2].
          match goal with |- context [call_observers obs 0 ?x tr2] => destruct (call_observers obs 0 x tr2) as [go tr3] end.
          cbn [bind]. eexists. split; [reflexivity|]. destruct go; [right|now left].
          exists (if kp then log_entry (LChild child) f else f), F, c, 0%Z, tr3. split.
          { rewrite Hz2. reflexivity. }
          { cbn [xsize]. lia. }
        * hs. change (0 <? 1) with true. cbn iota. unfold append_cd. hs. cbn [bind]. hs. change (dec 1) with 0. change (0 =? 0) with true. cbn iota. cbn [bind].
          eexists. split; [reflexivity|]. right.
          do 2 eexists. exists c, (z2 - 1)%Z, tr1. split; [reflexivity|].
          cbn [xsize]. unfold z1 in *. destruct (Z.eqb_spec z 0); lia.
      + (* other known elements *)
        assert (HK : forall l f0 F0 c0 zz tr0, incl l ks -> (-lim <= zz <= 0)%Z -> (Z.of_nat (list_sum (map xsize l)) <= lim + zz)%Z ->
          exists h', events obs (stf (f0 :: F0) (c0 :: c :: C) 0 zz (d + 1) tr0) (flat_map xevents l) = Ok h' /\
            (stopped h' = true \/ exists f' F' c' z' tr', h' = stf (f' :: F') (c' :: c :: C) 0 z' (d + 1) tr' /\
              (zz - Z.of_nat (list_sum (map xsize l)) <= z' <= 0)%Z)).
        { rewrite Forall_forall in IH. rewrite forallb_forall in Hok. clear - IH Hok Hdd.
          induction l as [|k l IHl]; intros f0 F0 c0 zz tr0 Hin Hzz Hsum.
          - cbn. eexists. split; [reflexivity|]. right. exists f0, F0, c0, zz, tr0. split; [reflexivity|]. cbn [xsize map list_sum fold_right]. lia.
          - cbn [flat_map map list_sum fold_right] in *. change (fold_right plus 0%nat (map xsize l)) with (list_sum (map xsize l)) in *.
            rewrite events_app.
            assert (Hk : In k ks) by (apply Hin; now left).
            destruct (IH k Hk f0 F0 c0 (c :: C) zz (d + 1) tr0) as (h1 & E1 & [Hst|(f1 & F1 & c1 & z2 & tr2 & -> & A1)]); auto; try lia.
            + use E1. cbn [bind]. rewrite events_stopped by auto. eexists. split; [reflexivity|]. now left.
            + use E1. cbn [bind].
              destruct (IHl f1 F1 c1 z2 tr2) as (h2 & E2 & [Hst|(f2 & F2 & c2 & z3 & tr3 & -> & B1)]); try lia.
              * intros y Hy. apply Hin. now right.
              * exists h2. split; auto.
              * eexists. split; [exact E2|]. right. exists f2, F2, c2, z3, tr3. split; [reflexivity|]. lia. }
        destruct (HK ks {| fty := ty; fatts := node_atts n a; fcd := []; flog := [] |} (f :: F) [] z tr1 (incl_refl _))
          as (h1 & E1 & [Hst|(f1 & F1 & c1 & z2 & tr2 & -> & A1)]); try lia.
        { use E1. cbn [bind]. rewrite events_stopped by auto. eexists. split; [reflexivity|]. now left. }
        use E1. cbn [bind events]. clear E1.
        unfold event, stf. cbn [stopped st]. unfold end_element. hs. rewrite (dec_pos (d + 1)) by lia. replace (d + 1 - 1) with d by lia.
        rewrite En. hs. change (0 <? 0) with false. cbn iota. cbn [andb eqs negb]. cbn [bind]. hs.
        destruct F1 as [|p F1].
        * eexists. split; [reflexivity|]. right. do 2 eexists. exists c, z2, tr2. split; [reflexivity|]. cbn [xsize]. lia.
        * set (child := node_of _).
          destruct (call_observers obs 0 (NEnd (fty p) child) tr2) as [kp tr3].
          match goal with |- context [call_observers obs 0 ?x tr3] => destruct (call_observers obs 0 x tr3) as [go tr4] end.
          cbn [bind]. eexists. split; [reflexivity|]. destruct go; [right|now left].
          exists (if kp then log_entry (LChild child) p else p), F1, c, z2, tr4. split; [reflexivity|]. cbn [xsize]. lia.
    - (* unknown *)
      cbn [bind]. rewrite events_app.
      assert (HK : forall l c0 zz, (-lim <= zz <= 0)%Z -> (Z.of_nat (list_sum (map xsize l)) <= lim + zz)%Z ->
          exists h', events obs (stf (f :: F) (c0 :: c :: C) 1 zz (d + 1) tr) (flat_map xevents l) = Ok h' /\
            (stopped h' = true \/ exists c' z', h' = stf (f :: F) (c' :: c :: C) 1 z' (d + 1) tr /\
              (zz - Z.of_nat (list_sum (map xsize l)) <= z' <= 0)%Z)).
      { clear - Hdd. induction l as [|k l IHl]; intros c0 zz Hzz Hsum.
        - cbn. eexists. split; [reflexivity|]. right. exists c0, zz. split; [reflexivity|]. cbn [xsize map list_sum fold_right]. lia.
        - cbn [flat_map map list_sum fold_right] in *. change (fold_right plus 0%nat (map xsize l)) with (list_sum (map xsize l)) in *.
          rewrite events_app.
          destruct (safe_raw k (f :: F) c0 (c :: C) 1 zz (d + 1) tr) as (h1 & E1 & [Hst|(c1 & z2 & -> & A1 & A2)]); try lia.
          + use E1. cbn [bind]. rewrite events_stopped by auto. eexists. split; [reflexivity|]. now left.
          + use E1. cbn [bind].
            destruct (IHl c1 z2) as (h2 & E2 & [Hst|(c2 & z3 & -> & B1)]); try lia.
            * exists h2. split; auto.
            * eexists. split; [exact E2|]. right. exists c2, z3. split; [reflexivity|]. lia. }
      destruct (HK ks (raw_start n a) z) as (h1 & E1 & [Hst|(c1 & z2 & -> & A1)]); try lia.
      { use E1. cbn [bind]. rewrite events_stopped by auto. eexists. split; [reflexivity|]. now left. }
      use E1. cbn [bind events]. clear E1.
      unfold event, stf. cbn [stopped st]. unfold end_element. hs. rewrite (dec_pos (d + 1)) by lia. replace (d + 1 - 1) with d by lia.
      rewrite <- Hkd. hs. change (0 <? 1) with true. cbn iota. unfold append_cd. hs. cbn [bind]. hs. change (dec 1) with 0. change (0 =? 0) with true. cbn iota. cbn [bind].
      eexists. split; [reflexivity|]. right. do 2 eexists. exists c, z2, tr. split; [reflexivity|]. cbn [xsize]. lia.
  Qed.

  Lemma safe_kids l : forall f F c C z d tr, d <= 100 -> (-lim <= z <= 0)%Z -> forallb no_old_schema l = true ->
    (Z.of_nat (list_sum (map xsize l)) <= lim + z)%Z ->
    exists h', events obs (stf (f :: F) (c :: C) 0 z d tr) (flat_map xevents l) = Ok h' /\
      (stopped h' = true \/
       exists f' F' c' z' tr', h' = stf (f' :: F') (c' :: C) 0 z' d tr' /\ (-lim <= z' <= 0)%Z).
  Proof.
    induction l as [|k l IH]; intros f F c C z d tr Hd Hz Ho Hs.
    - cbn. eexists. split; [reflexivity|]. right. exists f, F, c, z, tr. auto.
    - cbn [flat_map map list_sum fold_right forallb] in *. change (fold_right plus 0%nat (map xsize l)) with (list_sum (map xsize l)) in *.
      apply andb_true_iff in Ho as [Ho1 Ho2]. rewrite events_app.
      destruct (safe_known k f F c C z d tr) as (h1 & E1 & [Hst|(f1 & F1 & c1 & z2 & tr2 & -> & A1)]); auto; try lia.
      + use E1. cbn [bind]. rewrite events_stopped by auto. eexists. split; [reflexivity|]. now left.
      + use E1. cbn [bind]. apply IH; auto; lia.
  Qed.
  Lemma safe_raw_kids l : forall F c C z d tr, d <= 100 -> (z = 1)%Z ->
    (Z.of_nat (list_sum (map xsize l)) <= lim)%Z ->
    exists h', events obs (stf F (c :: C) 1 z d tr) (flat_map xevents l) = Ok h' /\
      (stopped h' = true \/ exists c', h' = stf F (c' :: C) 1 1 d tr).
  Proof.
    induction l as [|k l IH]; intros F c C z d tr Hd Hz Hs.
    - cbn. eexists. split; [reflexivity|]. right. exists c. now subst z.
    - cbn [flat_map map list_sum fold_right] in *. change (fold_right plus 0%nat (map xsize l)) with (list_sum (map xsize l)) in *.
      rewrite events_app.
      destruct (safe_raw k F c C 1 z d tr) as (h1 & E1 & [Hst|(c1 & z2 & -> & A1 & A2)]); try (unfold lim in *; lia).
      + use E1. cbn [bind]. rewrite events_stopped by auto. eexists. split; [reflexivity|]. now left.
      + use E1. cbn [bind]. apply IH; auto; lia.
  Qed.

  Theorem parse_safe t : no_old_schema t = true -> (Z.of_nat (xsize t) <= lim)%Z -> (exists n a ks, t = XElem n a ks) ->
    exists r, parse_events obs (xevents t) = Ok r.
  Proof.
    intros Ho Hsz (n & a & ks & ->). cbn [xsize] in Hsz. unfold parse_events.
    assert (H : exists h, events obs h0 (xevents (XElem n a ks)) = Ok h).
    2:{ destruct H as [h E]. rewrite E. eexists. reflexivity. }
    cbn [xevents events].
    assert (Hos : eqs n (S_ "Schema") && negb (eqs (find_old_schema a []) []) = false /\ forallb no_old_schema ks = true).
    { cbn [no_old_schema] in Ho. apply andb_true_iff in Ho as [H1 H2]. split; auto.
      destruct (eqs n (S_ "Schema")); auto. cbn [negb orb] in H1. rewrite H1. reflexivity. }
    destruct Hos as [Hos Hok].
    assert (Hkd := known_description Type_Unknown n).
    change h0 with (st [] [] 0 0 0 []).
    destruct (known_type Type_Unknown n) as [ty|] eqn:Ek.
    - rewrite (start_known _ _ _ _ _ _ _ ty) by (auto; lia). rewrite Hkd.
      destruct (call_observers obs 0 (NNew ty (node_atts n a)) []) as [[] tr1].
      2:{ cbn [bind]. rewrite events_stopped by reflexivity. eexists. reflexivity. }
      cbn [bind]. rewrite events_app. cbv zeta.
      set (g := {| fty := ty; fatts := node_atts n a; fcd := []; flog := [] |}).
      destruct (is_description n) eqn:En.
      + destruct (safe_raw_kids ks [g] [] [] 1 (0 + 1) tr1) as (h1 & E1 & [Hst|(c1 & ->)]); try lia.
        * use E1. cbn [bind]. rewrite events_stopped by auto. eexists. reflexivity.
        * use E1. cbn [bind events]. change (stf [g] [c1] 1 1 (0 + 1) tr1) with (st [g] [c1] 1 1 (0 + 1) tr1).
          rewrite (end_known _ _ _ _ _ 0 _ _ 1) by (rewrite ?En; auto; lia). cbn [bind]. eexists. reflexivity.
      + destruct (safe_kids ks g [] [] [] 0 (0 + 1) tr1) as (h1 & E1 & [Hst|(f1 & F1 & c1 & z2 & tr2 & -> & A1)]); auto; try (unfold lim in *; lia).
        * use E1. cbn [bind]. rewrite events_stopped by auto. eexists. reflexivity.
        * use E1. cbn [bind events].
          unfold event, stf. cbn [stopped st]. unfold end_element. hs. rewrite En. hs. change (0 <? 0) with false. cbn iota. cbn [andb eqs negb]. cbn [bind]. hs.
          destruct F1 as [|p F1]; [eexists; reflexivity|].
          destruct (call_observers obs 0 (NEnd (fty p) _) tr2) as [kp tr3].
          match goal with |- context [call_observers obs 0 ?x tr3] => destruct (call_observers obs 0 x tr3) as [go tr4] end.
          eexists. reflexivity.
    - unfold event. cbn [stopped st]. unfold start_element. cbn [depth set_depth st].
      rewrite inc_small by lia. change (max_nesting <? 0 + 1) with false.
      cbn [indesc set_depth skip st]. change (0 <? 0) with false. cbn [andb]. cbn [indesc set_depth skip st]. change (0 <? 0) with false. cbn iota.
      match goal with |- context [if is_schema n then ?A else ?B] => replace (if is_schema n then A else B) with B end.
      2:{ unfold is_schema. destruct (eqs n (S_ "Schema")); [|reflexivity]. cbn [andb] in Hos.
          apply negb_false_iff in Hos. apply eqs_spec in Hos. cbn [old set_depth st]. rewrite Hos. reflexivity. }
      cbn [set_depth set_cds old eqs negb andb st stack cds].
      unfold known_type in Ek.
      destruct (creatable (element_id n)) eqn:Ec; [discriminate|].
      destruct (is_simple (element_id n)) eqn:Es; [discriminate|].
      rewrite andb_false_r. hs. cbn [bind]. rewrite events_stopped by reflexivity. eexists. reflexivity.
  Qed.
End Safe.

(** ** Attributes of simple elements have no effect *)
Fixpoint strip (t : xml) : xml :=
  match t with
  | XChar c => XChar c
  | XElem n a ks =>
      match known_type Type_Unknown n with
      | None => t
      | Some ty => if ty =? Type_description then XElem n [] ks
                   else XElem n (if is_simple (element_id n) then [] else a) (map strip ks)
      end
  end.
Lemma strip_atts n a : node_atts n (if is_simple (element_id n) then [] else a) = node_atts n a.
Proof. unfold node_atts. destruct (is_simple _); reflexivity. Qed.
Lemma direct_strip ks : direct_text (map strip ks) = direct_text ks.
Proof.
  unfold direct_text. induction ks as [|k ks IH]; [reflexivity|]. cbn [map flat_map]. rewrite IH. f_equal.
  destruct k as [n a l|c]; [|reflexivity]. cbn [strip]. destruct (known_type _ _) as [ty|]; [|reflexivity]. destruct (ty =? Type_description); reflexivity.
Qed.
Lemma description_simple : is_simple Type_description = true.
Proof. vm_compute. reflexivity. Qed.
Lemma strip_received keep t : forall p, received keep p (strip t) = received keep p t.
Proof.
  induction t as [n a ks IH|c] using xml_ind2; intros p; [|reflexivity]. cbn [strip].
  assert (Hd := known_description p n). assert (Hd' := known_description Type_Unknown n).
  destruct (known_type Type_Unknown n) as [ty|] eqn:E; [|reflexivity].
  destruct (known_type p n) as [ty'|] eqn:E'; [|rewrite (known_type_none _ Type_Unknown) in E'; rewrite E' in E; discriminate].
  destruct (ty =? Type_description) eqn:Et.
  - cbn [received]. rewrite E', Hd, <- Hd'.
    assert (Hn : is_simple (element_id n) = true).
    { rewrite (proj2 (description_id n)) by auto. exact description_simple. }
    unfold node_atts. rewrite Hn. reflexivity.
  - cbn [received]. rewrite E', Hd, <- Hd', strip_atts, direct_strip.
    replace (flat_map (received keep ty') (map strip ks)) with (flat_map (received keep ty') ks); [reflexivity|].
    clear - IH. induction IH as [|k ks Hk Hks IHks]; [reflexivity|]. cbn [map flat_map]. now rewrite Hk, IHks.
Qed.
Lemma strip_tree keep t : tree keep (strip t) = tree keep t.
Proof.
  destruct t as [n a ks|c]; [|reflexivity]. cbn [strip].
  assert (Hd' := known_description Type_Unknown n).
  destruct (known_type Type_Unknown n) as [ty|] eqn:E; [|reflexivity].
  destruct (ty =? Type_description) eqn:Et.
  - cbn [tree]. rewrite E, Et.
    assert (Hn : is_simple (element_id n) = true).
    { rewrite (proj2 (description_id n)) by auto. exact description_simple. }
    unfold node_atts. rewrite Hn. reflexivity.
  - cbn [tree]. rewrite E, Et, strip_atts, direct_strip.
    replace (flat_map (received keep ty) (map strip ks)) with (flat_map (received keep ty) ks); [reflexivity|].
    clear. induction ks as [|k ks IHks]; [reflexivity|]. cbn [map flat_map]. now rewrite strip_received, IHks.
Qed.

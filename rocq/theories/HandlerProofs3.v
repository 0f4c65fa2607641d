From Verif Require Import Common StrMap AttributesModel XsdTables XsdModel XsdProofs XmlSpec XmlSpecProofs HandlerModel HandlerSpec HandlerProofs HandlerProofs2.
Local Open Scope N_scope.

(** ** The parse stack stays within the nesting limit *)
Ltac sm := left; split; cbn [length stack st depth set_cds h0] in *; lia.
Section Bound.
  Variable obs : list observer.
  Definition small (h : hstate) : Prop :=
    N.of_nat (length (stack h)) <= depth h /\ depth h <= 100 \/ N.of_nat (length (stack h)) <= 1.
  (** Every state reached on the way is small. *)
  Definition bnd (h : hstate) (es : list ev) : Prop :=
    forall a b h', es = a ++ b -> events obs h a = Ok h' -> small h'.

  Lemma bnd_app h xs ys : bnd h xs -> (forall h1, events obs h xs = Ok h1 -> bnd h1 ys) -> bnd h (xs ++ ys).
  Proof.
    intros Hx Hy a b h' E Hev.
    destruct (Nat.le_gt_cases (length a) (length xs)) as [Hl|Hl].
    - apply (Hx a (skipn (length a) xs) h'); auto.
      rewrite <- (firstn_skipn (length a) xs) at 1. f_equal.
      apply (f_equal (firstn (length a))) in E. rewrite !firstn_app in E.
      rewrite Nat.sub_diag, firstn_all in E. replace (length a - length xs)%nat with 0%nat in E by lia.
      cbn [firstn] in E. now rewrite !app_nil_r in E.
    - assert (Ea : a = xs ++ skipn (length xs) a).
      { rewrite <- (firstn_skipn (length xs) a) at 1. f_equal.
        apply (f_equal (firstn (length xs))) in E. rewrite !firstn_app in E.
        rewrite Nat.sub_diag, firstn_all in E. replace (length xs - length a)%nat with 0%nat in E by lia.
        cbn [firstn] in E. rewrite !app_nil_r in E. now symmetry. }
      rewrite Ea in Hev. rewrite events_app in Hev.
      destruct (events obs h xs) as [h1| | |] eqn:Eh; cbn [bind] in Hev; try discriminate.
      refine (Hy h1 eq_refl (skipn (length xs) a) b h' _ Hev).
      rewrite Ea in E. rewrite <- app_assoc in E. now apply app_inv_head in E.
  Qed.
  Lemma bnd_cons h e es : small h -> (forall h1, event obs h e = Ok h1 -> bnd h1 es) -> bnd h (e :: es).
  Proof.
    intros Hs He a b h' E Hev. destruct a as [|x a].
    - cbn in Hev. inv Hev. auto.
    - cbn [app] in E. injection E as -> ->. cbn [events] in Hev.
      destruct (event obs h x) as [h1| | |] eqn:E1; cbn [bind] in Hev; try discriminate.
      exact (He h1 eq_refl a b h' eq_refl Hev).
  Qed.
  Lemma bnd_nil h : small h -> bnd h [].
  Proof. intros H a b h' E Hev. destruct a; [|discriminate]. cbn in Hev. inv Hev. auto. Qed.
  Lemma bnd_stopped h es : small h -> stopped h = true -> bnd h es.
  Proof. intros H Hs a b h' E Hev. rewrite events_stopped in Hev by auto. inv Hev. auto. Qed.
  Lemma bnd_last h es : bnd h es -> forall h', events obs h es = Ok h' -> small h'.
  Proof. intros H h' E. apply (H es [] h'); auto. now rewrite app_nil_r. Qed.

  Lemma bnd_raw t : forall F c C s i d tr,
    1 <= s -> (1 <= i \/ no_description t = true) ->
    d + N.of_nat (xdepth t) <= 100 -> s + N.of_nat (xdepth t) < 500 -> i + N.of_nat (xdepth t) < 500 ->
    N.of_nat (length F) <= d ->
    bnd (st F (c :: C) s i d tr) (xevents t).
  Proof.
    induction t as [n a ks IH|x] using xml_ind2; intros F c C s i d tr Hs Hi Hd Hsd Hid HF.
    2:{ apply bnd_cons; [sm|]. intros h1 E. cbn in E. inv E. apply bnd_nil. sm. }
    assert (Hrun := raw_run obs (XElem n a ks) F c C s i d tr Hs).
    cbn [xevents xdepth] in *. set (D := list_max (map xdepth ks)) in *.
    apply bnd_cons; [sm|]. intros h1 E1.
    set (i1 := if (0 <? i) && is_description n then i + 1 else i).
    assert (H1 : event obs (st F (c :: C) s i d tr) (EStart n a) = Ok (st F ((c ++ raw_start n a) :: C) (s + 1) i1 (d + 1) tr)).
    { unfold event. cbn [stopped st]. unfold start_element. hs. rewrite inc_small by lia.
      replace (max_nesting <? d + 1) with false by (symmetry; apply N.ltb_ge; unfold max_nesting; lia).
      unfold i1. destruct ((0 <? i) && is_description n); hs;
      (replace (0 <? s) with true by (symmetry; apply N.ltb_lt; lia));
      unfold begin_unknown, append_cd; hs; cbn [bind]; hs; rewrite ?inc_small by lia; reflexivity. }
    rewrite H1 in E1. injection E1 as <-.
    assert (Hi1 : i1 <= i + 1) by (unfold i1; destruct ((0 <? i) && is_description n); lia).
    assert (Hk : forall k, In k ks -> (xdepth k <= D)%nat /\ (1 <= i1 \/ no_description k = true)).
    { intros k Hk. split.
      - apply list_max_in. now apply in_map.
      - destruct Hi as [Hi|Hi].
        + left. unfold i1. destruct ((0 <? i) && is_description n); lia.
        + cbn [no_description] in Hi. apply andb_true_iff in Hi as [_ Hi]. rewrite forallb_forall in Hi. auto. }
    assert (HK : forall l c0, incl l ks -> bnd (st F (c0 :: C) (s + 1) i1 (d + 1) tr) (flat_map xevents l)).
    { rewrite Forall_forall in IH. induction l as [|k l IHl]; intros c0 Hin.
      - apply bnd_nil. sm.
      - cbn [flat_map]. assert (Hkk : In k ks) by (apply Hin; now left). destruct (Hk k Hkk) as [A B].
        apply bnd_app.
        + apply IH; auto; lia.
        + intros h1 E. rewrite raw_run in E by (auto; lia). injection E as <-. apply IHl. intros y Hy. apply Hin. now right. }
    apply bnd_app; [apply HK, incl_refl|].
    intros h2 E2.
    assert (Hsm : small h2) by (apply (bnd_last _ _ (HK ks (c ++ raw_start n a) (incl_refl _)) h2 E2)).
    apply bnd_cons; [exact Hsm|]. intros h3 E3. apply bnd_nil.
    cbn [events] in Hrun. rewrite H1 in Hrun. cbn [bind] in Hrun. rewrite events_app, E2 in Hrun. cbn [bind events] in Hrun.
    rewrite E3 in Hrun. cbn [bind] in Hrun. specialize (Hrun ltac:(lia) ltac:(lia) Hi ltac:(lia) ltac:(lia) ltac:(lia)).
    injection Hrun as ->. sm.
  Qed.
  Lemma bnd_raw_kids l : forall F c C s i d tr,
    1 <= s -> s < 200 -> i < 200 -> (1 <= i \/ forallb no_description l = true) ->
    d + N.of_nat (list_max (map xdepth l)) <= 100 ->
    N.of_nat (length F) <= d -> bnd (st F (c :: C) s i d tr) (flat_map xevents l).
  Proof.
    induction l as [|k l IH]; intros F c C s i d tr Hs Hs' Hi' Hi Hd HF.
    - apply bnd_nil. sm.
    - cbn [flat_map]. cbn [map list_max fold_right] in Hd. change (fold_right Nat.max 0%nat (map xdepth l)) with (list_max (map xdepth l)) in Hd.
      assert (Hk : 1 <= i \/ no_description k = true /\ forallb no_description l = true).
      { destruct Hi as [Hi|Hi]; [now left|right]. cbn in Hi. now apply andb_true_iff in Hi. }
      apply bnd_app.
      + apply bnd_raw; try lia; tauto.
      + intros h1 E. rewrite raw_run in E by (try lia; tauto). injection E as <-. apply IH; auto; try lia; tauto.
  Qed.

  Lemma stop_small h : small h -> small (stop h).
  Proof. exact (fun H => H). Qed.

  Lemma bnd_child t : forall f F c C d tr, no_old_schema t = true -> descriptions_ok t = true ->
    d + N.of_nat (xdepth t) <= 100 -> N.of_nat (length (f :: F)) <= d ->
    bnd (st (f :: F) (c :: C) 0 0 d tr) (xevents t).
  Proof.
    induction t as [n a ks IH|x] using xml_ind2; intros f F c C d tr Ho Hdo Hd HF.
    2:{ apply bnd_cons; [sm|]. intros h1 E. cbn in E. inv E. apply bnd_nil. sm. }
    cbn [xevents xdepth] in *. cbn [length] in HF.
    assert (Hos : eqs n (S_ "Schema") && negb (eqs (find_old_schema a []) []) = false /\ forallb no_old_schema ks = true).
    { cbn [no_old_schema] in Ho. apply andb_true_iff in Ho as [H1 H2]. split; auto.
      destruct (eqs n (S_ "Schema")); auto. cbn [negb orb] in H1. rewrite H1. reflexivity. }
    destruct Hos as [Hos Hok].
    assert (Hdesc := desc_forall (fty f) n a ks Hdo).
    assert (Hkd := known_description (fty f) n).
    apply bnd_cons; [sm|]. intros h1 E1.
    destruct (known_type (fty f) n) as [ty|] eqn:Ek.
    - rewrite (start_known _ _ _ _ _ _ _ ty) in E1 by (auto; lia).
      destruct (call_observers obs 0 (NNew ty (node_atts n a)) tr) as [[] tr1]; cbv zeta in E1; injection E1 as <-.
      2:{ apply bnd_stopped; [|reflexivity]. apply stop_small. sm. }
      destruct (ty =? Type_description) eqn:Ety.
      + apply bnd_app.
        * apply bnd_raw_kids; try lia. cbn [length]. lia.
        * intros h2 E2. rewrite raw_kids in E2 by (try lia; auto). injection E2 as <-.
          apply bnd_cons; [sm|]. intros h3 E3. apply bnd_nil.
          rewrite (end_known _ _ _ _ _ d _ _ 1) in E3 by (try lia; rewrite <- Hkd; reflexivity).
          cbv zeta in E3.
          destruct (call_observers obs 0 (NEnd _ _) tr1) as [kp tr2].
          destruct (call_observers obs 0 (NAdd _ _) tr2) as [go tr3]. injection E3 as <-.
          destruct go; [|apply stop_small]; sm.
      + specialize (Hdesc eq_refl).
        set (g := {| fty := ty; fatts := node_atts n a; fcd := []; flog := [] |}).
        assert (HK : forall l s0, incl l ks -> krun s0 = true ->
          bnd (st ({| fty := fty g; fatts := fatts g; fcd := fcd g; flog := klog s0 |} :: f :: F) (ktext s0 :: c :: C) 0 0 (d + 1) (ktr s0)) (flat_map xevents l) /\
          (forall h', events obs (st ({| fty := fty g; fatts := fatts g; fcd := fcd g; flog := klog s0 |} :: f :: F) (ktext s0 :: c :: C) 0 0 (d + 1) (ktr s0)) (flat_map xevents l) = Ok h' ->
             after h' g (f :: F) (c :: C) (d + 1) (fold_left (fun s k => observed obs ty k s) l s0))).
        { rewrite Forall_forall in IH. rewrite forallb_forall in Hok, Hdesc.
          induction l as [|k l IHl]; intros s0 Hin Hr.
          - split; [apply bnd_nil; sm|]. intros h' E. cbn in E. injection E as <-. cbn [fold_left].
            split; [reflexivity|]. rewrite Hr. split; reflexivity.
          - cbn [flat_map fold_left]. assert (Hkk : In k ks) by (apply Hin; now left).
            assert (Hdk : (xdepth k <= list_max (map xdepth ks))%nat) by (apply list_max_in; now apply in_map).
            destruct (child_run obs k g (f :: F) (c :: C) (d + 1) s0 Hr (Hok k Hkk) (Hdesc k Hkk)) as (h1 & E1 & A1 & A2 & A3); [lia|].
            change (fty g) with ty in A1, A2, A3.
            assert (Hb : bnd (st ({| fty := fty g; fatts := fatts g; fcd := fcd g; flog := klog s0 |} :: f :: F) (ktext s0 :: c :: C) 0 0 (d + 1) (ktr s0)) (xevents k)).
            { apply IH; auto; cbn [length]; try lia. }
            destruct (krun (observed obs ty k s0)) eqn:Er.
            + destruct (IHl (observed obs ty k s0)) as [B1 B2]; auto. { intros y Hy. apply Hin. now right. }
              rewrite (A3 eq_refl) in E1.
              split.
              * apply bnd_app; auto. intros h2 E2. rewrite E1 in E2. injection E2 as <-. exact B1.
              * intros h' E. rewrite events_app, E1 in E. cbn [bind] in E. apply B2. exact E.
            + assert (Hst : stopped h1 = true) by (rewrite A2; reflexivity). split.
              * apply bnd_app; auto. intros h2 E2. rewrite E1 in E2. injection E2 as <-. apply bnd_stopped; auto.
                apply (bnd_last _ _ Hb h1 E1).
              * intros h' E. rewrite events_app, E1 in E. cbn [bind] in E. rewrite events_stopped in E by auto. injection E as <-.
                rewrite observed_fold_stop by exact Er. split; auto. split; [now rewrite Er|]. rewrite Er. discriminate. }
        destruct (HK ks {| klog := []; ktext := []; ktr := tr1; krun := true |} (incl_refl _) eq_refl) as [B1 B2].
        apply bnd_app; [exact B1|]. intros h2 E2. assert (Hsm := bnd_last _ _ B1 h2 E2).
        apply bnd_cons; [exact Hsm|]. intros h3 E3. apply bnd_nil.
        destruct (B2 h2 E2) as (A1 & A2 & A3). set (s2 := fold_left _ _ _) in *.
        destruct (krun s2) eqn:Er.
        * rewrite (A3 eq_refl) in E3. rewrite (end_known _ _ _ _ _ d _ _ 0) in E3 by (try lia; rewrite <- Hkd; reflexivity).
          cbv zeta in E3. cbn [fty fatts flog g] in E3.
          destruct (call_observers obs 0 (NEnd _ _) (ktr s2)) as [kp tr2].
          destruct (call_observers obs 0 (NAdd _ _) tr2) as [go tr3]. injection E3 as <-.
          destruct go; [|apply stop_small]; sm.
        * unfold event in E3. rewrite A2 in E3. cbn [negb] in E3. injection E3 as <-. exact Hsm.
    - rewrite start_unknown in E1 by (auto; lia). injection E1 as <-.
      apply bnd_app.
      + apply bnd_raw_kids; try lia; auto. cbn [length]. lia.
      + intros h2 E2. rewrite raw_kids in E2 by (try lia; auto). injection E2 as <-.
        apply bnd_cons; [sm|]. intros h3 E3. apply bnd_nil.
        rewrite end_unknown in E3 by (auto; lia). injection E3 as <-. sm.
  Qed.

  Lemma bnd_kids l : forall f F c C d tr s0, forallb no_old_schema l = true -> forallb descriptions_ok l = true ->
    d + N.of_nat (list_max (map xdepth l)) <= 100 -> N.of_nat (length (f :: F)) <= d -> krun s0 = true ->
    c = ktext s0 -> tr = ktr s0 -> flog f = klog s0 ->
    bnd (st (f :: F) (c :: C) 0 0 d tr) (flat_map xevents l).
  Proof.
    induction l as [|k l IH]; intros f F c C d tr s0 Ho Hdo Hd HF Hr Hc Ht Hl.
    - apply bnd_nil. sm.
    - cbn [flat_map map forallb] in *. apply andb_true_iff in Ho as [Ho1 Ho2]. apply andb_true_iff in Hdo as [Hd1 Hd2].
      cbn [list_max fold_right] in Hd. change (fold_right Nat.max 0%nat (map xdepth l)) with (list_max (map xdepth l)) in Hd.
      assert (Hb : bnd (st (f :: F) (c :: C) 0 0 d tr) (xevents k)) by (apply bnd_child; auto; lia).
      apply bnd_app; [exact Hb|]. intros h1 E1. assert (Hsm := bnd_last _ _ Hb h1 E1).
      destruct (child_run obs k f F C d s0 Hr Ho1 Hd1) as (h2 & E2 & A1 & A2 & A3); [lia|].
      assert (Ef : {| fty := fty f; fatts := fatts f; fcd := fcd f; flog := klog s0 |} = f) by (destruct f; cbn in *; subst; reflexivity).
      rewrite Ef in E2. subst c tr. rewrite E1 in E2. injection E2 as <-.
      destruct (krun (observed obs (fty f) k s0)) eqn:Er.
      + rewrite (A3 eq_refl). apply (IH _ _ _ _ _ _ (observed obs (fty f) k s0)); auto; cbn [length] in *; lia.
      + apply bnd_stopped; auto.
  Qed.

  Theorem stack_bounded n a ks : no_old_schema (XElem n a ks) = true -> descriptions_ok (XElem n a ks) = true ->
    (xdepth (XElem n a ks) <= 100)%nat ->
    forall es1 es2 h, xevents (XElem n a ks) = es1 ++ es2 -> events obs h0 es1 = Ok h ->
    (length (stack h) <= 100)%nat.
  Proof.
    intros Ho Hdo Hd es1 es2 h Hes Hev.
    (* the limit is reached through small states *)
    assert (Hsm : small h).
    { revert es1 es2 h Hes Hev.
      change (bnd h0 (xevents (XElem n a ks))). cbn [xevents xdepth] in *.
      assert (Hos : eqs n (S_ "Schema") && negb (eqs (find_old_schema a []) []) = false /\ forallb no_old_schema ks = true).
      { cbn [no_old_schema] in Ho. apply andb_true_iff in Ho as [H1 H2]. split; auto.
        destruct (eqs n (S_ "Schema")); auto. cbn [negb orb] in H1. rewrite H1. reflexivity. }
      destruct Hos as [Hos Hok].
      assert (Hdesc := desc_forall Type_Unknown n a ks Hdo).
      assert (Hkd := known_description Type_Unknown n).
      apply bnd_cons; [sm|]. intros h1 E1.
      change h0 with (st [] [] 0 0 0 []) in E1.
      destruct (known_type Type_Unknown n) as [ty|] eqn:Ek.
      - rewrite (start_known _ _ _ _ _ _ _ ty) in E1 by (auto; lia).
        destruct (call_observers obs 0 (NNew ty (node_atts n a)) []) as [[] tr1]; cbv zeta in E1; injection E1 as <-.
        2:{ apply bnd_stopped; [|reflexivity]. apply stop_small. sm. }
        destruct (ty =? Type_description) eqn:Ety.
        + apply bnd_app.
          * apply bnd_raw_kids; try lia. cbn [length]. lia.
          * intros h2 E2. rewrite raw_kids in E2 by (try lia; auto). injection E2 as <-.
            apply bnd_cons; [sm|]. intros h3 E3. apply bnd_nil.
            rewrite (end_known obs _ [] _ [] 0 tr1 n 1) in E3 by (try lia; rewrite <- Hkd; reflexivity).
            injection E3 as <-. right. cbn [length stack st]. lia.
        + specialize (Hdesc eq_refl).
          set (g := {| fty := ty; fatts := node_atts n a; fcd := []; flog := [] |}).
          set (s0 := {| klog := []; ktext := []; ktr := tr1; krun := true |}).
          assert (Hb : bnd (st [g] [[]] 0 0 (0 + 1) tr1) (flat_map xevents ks)).
          { apply (bnd_kids ks g [] [] [] (0 + 1) tr1 s0); auto; cbn [length]; lia. }
          apply bnd_app; [exact Hb|]. intros h2 E2. assert (Hsm := bnd_last _ _ Hb h2 E2).
          apply bnd_cons; [exact Hsm|]. intros h3 E3. apply bnd_nil.
          assert (HK : forall l s0, incl l ks -> krun s0 = true ->
            exists h', events obs (st ({| fty := fty g; fatts := fatts g; fcd := fcd g; flog := klog s0 |} :: [])
                             (ktext s0 :: []) 0 0 (0 + 1) (ktr s0)) (flat_map xevents l) = Ok h' /\
                 after h' g [] [] (0 + 1) (fold_left (fun s k => observed obs ty k s) l s0)).
          { rewrite forallb_forall in Hok, Hdesc. clear - Hok Hdesc Hd. induction l as [|k l IHl]; intros s0 Hin Hr.
            - cbn. eexists. split; [reflexivity|]. split; [reflexivity|]. rewrite Hr. split; reflexivity.
            - cbn [flat_map fold_left]. rewrite events_app.
              assert (Hkin : In k ks) by (apply Hin; now left).
              destruct (child_run obs k g [] [] (0 + 1) s0 Hr) as (h1 & E1 & A1 & A2 & A3); auto.
              + assert (xdepth k <= list_max (map xdepth ks))%nat by (apply list_max_in; now apply in_map). lia.
              + rewrite E1. cbn [bind]. change (fty g) with ty in *.
                destruct (krun (observed obs ty k s0)) eqn:Er.
                * rewrite (A3 eq_refl). apply IHl; auto. intros y Hy. apply Hin. now right.
                * rewrite events_stopped by (now rewrite A2). rewrite observed_fold_stop by exact Er.
                  eexists. split; [reflexivity|]. split; auto. split; [now rewrite Er|]. rewrite Er. discriminate. }
          destruct (HK ks s0 (incl_refl _) eq_refl) as (h4 & E4 & A1 & A2 & A3).
          cbn [klog ktext ktr s0] in E4. change {| fty := fty g; fatts := fatts g; fcd := fcd g; flog := [] |} with g in E4.
          assert (Heq : Ok h4 = Ok h2) by exact (eq_trans (eq_sym E4) E2). injection Heq as ->.
          set (s2 := fold_left _ _ _) in *.
          destruct (krun s2) eqn:Er.
          * rewrite (A3 eq_refl) in E3. rewrite (end_known obs _ [] _ [] 0 _ n 0) in E3 by (try lia; rewrite <- Hkd; reflexivity).
            injection E3 as <-. right. cbn [length stack st]. lia.
          * unfold event in E3. rewrite A2 in E3. cbn [negb] in E3. injection E3 as <-. exact Hsm.
      - assert (E : event obs (st [] [] 0 0 0 []) (EStart n a) = Ok (stop (st [] [[]] 0 0 1 []))).
        { unfold event. cbn [stopped st]. unfold start_element. cbn [depth set_depth st].
          rewrite inc_small by lia. change (max_nesting <? 0 + 1) with false.
          cbn [indesc set_depth skip st]. change (0 <? 0) with false. cbn [andb]. cbn [indesc set_depth skip st]. change (0 <? 0) with false. cbn iota.
          match goal with |- context [if is_schema n then ?A else ?B] => replace (if is_schema n then A else B) with B end.
          2:{ unfold is_schema. destruct (eqs n (S_ "Schema")); [|reflexivity]. cbn [andb] in Hos.
              apply negb_false_iff in Hos. apply eqs_spec in Hos. cbn [old set_depth st]. rewrite Hos. reflexivity. }
          cbn [set_depth set_cds old eqs negb andb st stack cds].
          unfold known_type in Ek.
          destruct (creatable (element_id n)) eqn:Ec; [discriminate|].
          destruct (is_simple (element_id n)) eqn:Es; [discriminate|].
          rewrite andb_false_r. reflexivity. }
        rewrite E in E1. injection E1 as <-. apply bnd_stopped; [|reflexivity]. right. cbn. lia. }
    destruct Hsm; lia.
  Qed.
End Bound.

(** ** Depth of the result *)
Fixpoint ndepth (n : node) : nat :=
  let 'Node _ _ _ l := n in S (list_max (map (fun e => match e with LChild c => ndepth c | _ => 0%nat end) l)).
Definition edepth (e : entry) : nat := match e with LChild c => ndepth c | _ => 0%nat end.
Lemma ndepth_eq ty a c l : ndepth (Node ty a c l) = S (list_max (map edepth l)).
Proof. reflexivity. Qed.
Lemma list_max_bound (l : list nat) m : (forall x, In x l -> x <= m)%nat -> (list_max l <= m)%nat.
Proof. intros H. apply list_max_le. apply Forall_forall. auto. Qed.
Lemma self_edepth ty s e : In e (self_entry ty s) -> edepth e = 0%nat.
Proof. unfold self_entry. destruct (self_parsed ty); cbn; [intros [<-|[]]|tauto]; reflexivity. Qed.
Lemma received_depth keep t : forall p e, In e (received keep p t) -> (edepth e <= xdepth t)%nat.
Proof.
  induction t as [n a ks IH|c] using xml_ind2; intros p e He; [|destruct He].
  cbn [received xdepth] in *. destruct (known_type p n) as [ty|].
  2:{ destruct He as [<-|[]]. cbn. lia. }
  destruct (keep p _); [|destruct He]. destruct He as [<-|[]]. cbn [edepth].
  destruct (ty =? Type_description); [rewrite ndepth_eq; cbn; lia|].
  rewrite ndepth_eq. apply le_n_S. apply list_max_bound. intros x Hx.
  apply in_map_iff in Hx as (e & <- & He). apply in_app_or in He as [He|He].
  - apply in_flat_map in He as (k & Hk & He). rewrite Forall_forall in IH. apply (IH k Hk) in He.
    assert (xdepth k <= list_max (map xdepth ks))%nat by (apply list_max_in; now apply in_map). lia.
  - rewrite (self_edepth _ _ _ He). lia.
Qed.
Lemma tree_depth keep t r : tree keep t = Some r -> (ndepth r <= xdepth t)%nat.
Proof.
  destruct t as [n a ks|c]; [|discriminate]. cbn [tree xdepth]. destruct (known_type Type_Unknown n) as [ty|]; [|discriminate].
  intros H. injection H as <-. destruct (ty =? Type_description); [rewrite ndepth_eq; cbn; lia|].
  rewrite ndepth_eq. apply le_n_S. apply list_max_bound. intros x Hx.
  apply in_map_iff in Hx as (e & <- & He). apply in_app_or in He as [He|He].
  - apply in_flat_map in He as (k & Hk & He). apply received_depth in He.
    assert (xdepth k <= list_max (map xdepth ks))%nat by (apply list_max_in; now apply in_map). lia.
  - rewrite (self_edepth _ _ _ He). lia.
Qed.

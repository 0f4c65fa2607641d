(** Properties of parsing from a stream (C88). *)
From Verif Require Import Common StringsModel AttributesModel XsdTables XsdModel XmlSpec XmlSpecProofs HandlerModel HandlerSpec HandlerProofs HandlerProofs2 HandlerProps StreamModel.
Local Open Scope N_scope.
Ltac inv H := inversion H; subst; clear H.

Section Handler.
  Variable obs : list observer.
  Definition schema_ok (n : str) (a : list (str * str)) : bool := negb (eqs n (S_ "Schema")) || eqs (find_old_schema a []) [].

  Lemma append_keeps h s h' : append_cd h s = Ok h' -> old h' = old h /\ stopped h' = stopped h /\ depth h' = depth h /\ stack h' = stack h /\ skip h' = skip h.
  Proof. unfold append_cd. destruct (cds h); intros H; inv H. auto. Qed.
  Lemma unknown_keeps h n a h' : begin_unknown h n a = Ok h' -> old h' = old h /\ stopped h' = stopped h.
  Proof.
    unfold begin_unknown. destruct (append_cd h (raw_start n a)) as [h1| | |] eqn:E; cbn; intros H; inv H.
    apply append_keeps in E. cbn. tauto.
  Qed.
  (** Start of an element: the schema stays unset; if the parse is stopped there, the two stacks are not empty or the root is not known. *)
  Lemma start_keeps h n a h' : old h = [] -> schema_ok n a = true -> inc (depth h) <= 100 -> stopped h = false -> start_element obs h n a = Ok h' ->
    old h' = [] /\ (stopped h' = true -> cds h' <> [] /\ (stack h' <> [] \/ stack h' = [] /\ skip h' = 0 /\ is_description n = false)).
  Proof.
    intros Ho Hs Hd Hp. unfold start_element. cbn [depth set_depth].
    destruct (max_nesting <? inc (depth h)) eqn:El; [apply N.ltb_lt in El; unfold max_nesting in El; lia|].
    set (h1 := if (0 <? _) && _ then _ else _).
    assert (D1 : old h1 = [] /\ stopped h1 = false /\ skip h1 = skip h) by (unfold h1; destruct ((0 <? _) && _); auto).
    clearbody h1. destruct D1 as (D1 & D1' & D1''). destruct (0 <? skip h1) eqn:Ek.
    { intros H. apply unknown_keeps in H as [H1 H2]. split; congruence. }
    apply N.ltb_ge in Ek. assert (Ek' : skip h1 = 0) by lia. clear Ek.
    set (h2 := if is_schema n then _ else _).
    assert (D2 : old h2 = [] /\ stopped h2 = false /\ skip h2 = 0).
    { unfold h2. destruct (is_schema n) eqn:Es; [|auto]. cbn. split; [|auto]. rewrite D1. unfold schema_ok, is_schema in *. rewrite Es in Hs. cbn in Hs. now apply eqs_spec in Hs. }
    clearbody h2. destruct D2 as (D2 & D2' & D2''). cbn [old set_cds stack]. rewrite D2. cbn [eqs negb andb]. rewrite andb_false_r.
    assert (HP : forall f h', (let hh := set_stack (set_cds h2 ([] :: cds h2)) (f :: stack h2) in
      let hh := if fty f =? Type_description then set_indesc (set_skip hh (inc (skip hh))) (inc (indesc hh)) else hh in
      let '(ok, tr) := call_observers obs 0 (NNew (fty f) (fatts f)) (trace hh) in
      let hh := set_trace hh tr in Ok (if ok then hh else stop hh)) = Ok h' -> old h' = [] /\ (stopped h' = true -> cds h' <> [] /\ (stack h' <> [] \/ stack h' = [] /\ skip h' = 0 /\ is_description n = false))).
    { intros f h''. cbv zeta. destruct (fty f =? Type_description);
      match goal with |- context [call_observers obs 0 ?x ?y] => destruct (call_observers obs 0 x y) as [[] tr] end;
      intros HH; inv HH; cbn; (split; [exact D2|]); intros _; (split; [discriminate|]); left; discriminate. }
    destruct (creatable (element_id n)) eqn:Ec; [intros H; eapply HP; exact H|].
    destruct (is_simple (element_id n)) eqn:Esi; [intros H; eapply HP; exact H|].
    destruct (stack h2) eqn:Est.
    - intros H; inv H. cbn. split; [exact D2|]. intros _. split; [discriminate|]. right. split; [exact Est|]. split; [exact D2''|].
      destruct (is_description n) eqn:Ed; [|reflexivity]. apply eqs_spec in Ed. subst n. vm_compute in Esi. discriminate.
    - intros H. apply unknown_keeps in H as [H1 H2]. cbn in H1, H2. split; congruence.
  Qed.
  Lemma end_keeps h n h' : end_element obs h n = Ok h' -> old h' = old h /\ (stopped h = true -> stopped h' = true).
  Proof.
    unfold end_element.
    set (h1 := if is_description n then _ else _).
    assert (D1 : old h1 = old h /\ stopped h1 = stopped h).
    { unfold h1. destruct (is_description n); [|auto]. cbn. destruct (_ =? 0); auto. }
    clearbody h1. destruct D1 as [D1 S1]. rewrite <- D1, <- S1. clear D1 S1. destruct (0 <? skip h1).
    { destruct (append_cd h1 (raw_end n)) as [h2| | |] eqn:E; cbn [bind]; intros H; try discriminate.
      apply append_keeps in E as (E1 & E2 & _). rewrite <- E1, <- E2. clear E1 E2.
      destruct (skip (set_skip h2 (dec (skip h2))) =? 0); [|inv H; auto].
      cbn [cds stack set_skip] in H.
      destruct (cds h2); [discriminate|]. destruct (stack h2); [discriminate|]. inv H. auto. }
    destruct (stack h1) as [|f fr]; [intros H; inv H; auto|].
    destruct (cds h1) as [|c cr]; [discriminate|]. cbn [inold sdata old set_cds sfields sdone].
    destruct (inold h1 && _); [intros H; inv H; auto|].
    match goal with |- (do p <- ?E; @?k p) = _ -> _ => destruct E as [[h2 g]| | |] eqn:E2; cbn [bind]; try discriminate end.
    assert (D2 : old h2 = old h1 /\ stopped h2 = stopped h1).
    { destruct (negb (eqs (old h1) [])); [|inv E2; auto].
      destruct (is_schema n); [destruct (_ =? Type_Schema); inv E2; auto|].
      destruct (eqs n (old h1)); [destruct (_ =? Type_Placemark); inv E2; auto|]. inv E2. auto. }
    clear E2. destruct D2 as [D2 S2]. rewrite <- D2, <- S2. destruct fr as [|p pr]; [intros H; inv H; auto|].
    destruct (call_observers obs 0 (NEnd _ _) _) as [kp tr1].
    destruct (call_observers obs 0 (NAdd _ _) tr1) as [go tr2]. intros H.
    inv H. destruct go; auto.
  Qed.
  Lemma end_total h n : old h = [] -> cds h <> [] -> (stack h <> [] \/ stack h = [] /\ skip h = 0 /\ is_description n = false) -> exists h', end_element obs h n = Ok h'.
  Proof.
    intros Ho Hc Hs. unfold end_element. destruct Hs as [Hs|(Hs & Hk & Hd)].
    2: { rewrite Hd. cbn [skip set_depth]. rewrite Hk. cbn. rewrite Hs. eauto. }
    set (h1 := if is_description n then _ else _).
    assert (D1 : old h1 = [] /\ cds h1 <> [] /\ stack h1 <> []).
    { unfold h1. destruct (is_description n); [|auto]. cbn. destruct (_ =? 0); auto. }
    clearbody h1. clear h Ho Hc Hs. destruct D1 as (Ho & Hc & Hs).
    destruct (cds h1) as [|c cr] eqn:Ec; [congruence|]. destruct (stack h1) as [|f fr] eqn:Es; [congruence|]. destruct (0 <? skip h1).
    - unfold append_cd. rewrite Ec. cbn [bind]. cbn [skip set_skip set_cds cds stack]. destruct (_ =? 0); rewrite ?Es; eauto.
    - cbn [inold set_cds sdata old]. rewrite Ho. destruct (inold h1 && _); [eauto|]. cbn [eqs negb bind]. destruct fr as [|p pr]; [eauto|].
      destruct (call_observers obs 0 (NEnd _ _) _) as [kp tr1]. destruct (call_observers obs 0 (NAdd _ _) tr1) as [go tr2]. eauto.
  Qed.

  (** Nesting and schemas of a list of events, in an element at depth [d]. *)
  Fixpoint fits (d : N) (es : list ev) : bool :=
    match es with
    | [] => true
    | EStart n a :: r => (d <? 100) && schema_ok n a && fits (d + 1) r
    | EEnd _ :: r => (0 <? d) && fits (d - 1) r
    | EChar _ :: r => fits d r
    end.
  Lemma events_stopped h es : stopped h = true -> events obs h es = Ok h.
  Proof. intros H. induction es as [|e es IH]; [reflexivity|]. cbn [events]. unfold event. rewrite H. cbn [bind]. exact IH. Qed.
  Lemma pieces_stopped h ps : stopped h = true -> take_pieces obs h ps = Ok h.
  Proof. intros H. induction ps as [|p ps IH]; [reflexivity|]. cbn [take_pieces]. unfold take_piece. rewrite H. cbn [bind]. exact IH. Qed.
  Lemma events_app es1 : forall h es2, events obs h (es1 ++ es2) = do h <- events obs h es1; events obs h es2.
  Proof. induction es1 as [|e es1 IH]; intros h es2; [reflexivity|]. cbn [app events]. destruct (event obs h e); cbn [bind]; auto. Qed.
  Lemma text_events s : forall h, stopped h = false -> s <> [] -> events obs h (map EChar s) = append_cd h s.
  Proof.
    induction s as [|c s IH]; intros h Hp Hn; [congruence|]. cbn [map events]. unfold event. rewrite Hp. destruct s as [|c' s].
    - cbn [map events]. unfold append_cd. destruct (cds h); reflexivity.
    - unfold append_cd at 1. destruct (cds h) as [|x r] eqn:Ec; cbn [bind]; [unfold append_cd; now rewrite Ec|].
      rewrite IH; [|exact Hp|discriminate]. unfold append_cd. cbn [cds set_cds]. rewrite Ec. f_equal. unfold set_cds. cbn. now rewrite <- app_assoc.
  Qed.
  (** Equal outcomes, or both stopped. *)
  Definition alike (r1 r2 : res hstate) : Prop := r1 = r2 \/ exists h1 h2, r1 = Ok h1 /\ r2 = Ok h2 /\ stopped h1 = true /\ stopped h2 = true.
  Lemma small d : d <= 100 -> inc d = d + 1 /\ (0 < d -> dec d = d - 1).
  Proof.
    intros H. unfold inc, dec, u32. split; [apply N.mod_small; lia|]. intros G.
    replace (d + 4294967295) with ((d - 1) + 1 * 4294967296) by lia. rewrite N.mod_add by lia. apply N.mod_small. lia.
  Qed.
  Lemma pieces_alike ps : forall h d, depth h = d -> d <= 100 -> old h = [] -> stopped h = false -> (forall p, In p ps -> p <> PText []) ->
    fits d (flat_map flatten ps) = true -> alike (events obs h (flat_map flatten ps)) (take_pieces obs h ps).
  Proof.
    induction ps as [|p ps IH]; intros h d Hd Hle Ho Hp Hne Hf; [now left|]. cbn [flat_map take_pieces]. cbn [flat_map] in Hf. rewrite events_app. unfold take_piece. rewrite Hp.
    destruct (small d Hle) as [Hinc Hdec].
    assert (Hend : forall h1 d1 n, depth h1 = d1 -> d1 <= 100 -> 0 < d1 -> old h1 = [] -> stopped h1 = false -> fits (d1 - 1) (flat_map flatten ps) = true ->
      alike (do h <- end_element obs h1 n; events obs h (flat_map flatten ps)) (do h <- end_element obs h1 n; take_pieces obs h ps)).
    { intros h1 d1 n H1 H2 H3 H4 H5 H6. destruct (end_element obs h1 n) as [h2| | |] eqn:E; cbn [bind]; [|now left|now left|now left].
      pose proof (end_depth obs h1 n h2 E) as De. destruct (end_keeps h1 n h2 E) as [Oe _]. destruct (stopped h2) eqn:Sp.
      - rewrite events_stopped, pieces_stopped by assumption. now left.
      - apply (IH h2 (d1 - 1)); auto; try lia; [rewrite De, H1; apply small; lia|congruence|intros q Hq; apply Hne; now right]. }
    destruct p as [n a e|n|s]; cbn [flatten].
    - cbn [flatten] in Hf. replace (fits d ((EStart n a :: (if e then [EEnd n] else [])) ++ flat_map flatten ps)) with
        ((d <? 100) && schema_ok n a && fits (d + 1) ((if e then [EEnd n] else []) ++ flat_map flatten ps)) in Hf by reflexivity.
      apply andb_true_iff in Hf as [Hf Hf']. apply andb_true_iff in Hf as [Hlt Hsch]. apply N.ltb_lt in Hlt.
      cbn [events]. unfold event at 1. rewrite Hp. destruct (start_element obs h n a) as [h1| | |] eqn:E; cbn [bind]; [|now left|now left|now left].
      destruct (start_depth obs h n a h1 E) as [D1 _]. rewrite Hd, Hinc in D1.
      destruct (start_keeps h n a h1 Ho Hsch ltac:(rewrite Hd, Hinc; lia) Hp E) as [O1 K1]. destruct (stopped h1) eqn:S1.
      + rewrite events_stopped by assumption. cbn [bind]. rewrite events_stopped by assumption. destruct e.
        * destruct (K1 eq_refl) as [C1 C2]. destruct (end_total h1 n O1 C1 C2) as [h2 E2]. rewrite E2. cbn [bind]. destruct (end_keeps h1 n h2 E2) as [_ S2].
          rewrite pieces_stopped by auto. right. exists h1, h2. auto.
        * cbn [bind]. rewrite pieces_stopped by assumption. now left.
      + destruct e.
        * cbn [events]. unfold event at 1. rewrite S1. cbn [app fits] in Hf'. apply andb_true_iff in Hf' as [_ Hf'].
          pose proof (Hend h1 (d + 1) n D1 ltac:(lia) ltac:(lia) O1 S1 Hf') as G. destruct (end_element obs h1 n); exact G.
        * cbn [events bind app] in *. apply (IH h1 (d + 1)); auto; try lia. intros q Hq. apply Hne. now right.
    - cbn [flatten app fits] in Hf. apply andb_true_iff in Hf as [H0 Hf]. apply N.ltb_lt in H0. cbn [events]. unfold event at 1. rewrite Hp.
      pose proof (Hend h d n Hd Hle H0 Ho Hp Hf) as G. destruct (end_element obs h n); exact G.
    - rewrite text_events; [|assumption|intros ->; apply (Hne (PText [])); [now left|reflexivity]].
      destruct (append_cd h s) as [h1| | |] eqn:E; cbn [bind]; [|now left|now left|now left]. apply append_keeps in E as (E1 & E2 & E3 & _).
      apply (IH h1 d); try congruence; [intros q Hq; apply Hne; now right|].
      cbn [flatten] in Hf. clear - Hf. induction s as [|c s IHs]; [exact Hf|]. apply IHs. exact Hf.
  Qed.
  Lemma tree_fits t : forall d r, no_old_schema t = true -> d + N.of_nat (xdepth t) <= 100 -> fits d (xevents t ++ r) = fits d r.
  Proof.
    induction t as [n a ks IH|c] using xml_ind2; intros d r Ho Hd; [|reflexivity]. cbn [no_old_schema] in Ho. apply andb_true_iff in Ho as [H1 H2].
    cbn [xdepth] in Hd. cbn [xevents]. rewrite <- app_comm_cons, <- app_assoc. cbn [fits]. unfold schema_ok. rewrite H1.
    destruct (N.ltb_spec d 100); [|lia]. cbn [andb].
    assert (Hk : forall x, In x ks -> d + 1 + N.of_nat (xdepth x) <= 100).
    { intros x Hx. assert (xdepth x <= list_max (map xdepth ks))%nat; [|lia]. clear - Hx. induction ks as [|k ks IHk]; [destruct Hx|]. cbn [map list_max fold_right]. destruct Hx as [<-|Hx]; [lia|]. specialize (IHk Hx). unfold list_max in IHk. lia. }
    clear Hd H1. induction ks as [|k ks IHk].
    - cbn [flat_map app fits]. destruct (N.ltb_spec 0 (d + 1)); [|lia]. cbn [andb]. f_equal. lia.
    - cbn [flat_map]. rewrite <- app_assoc. inversion IH as [|k' ks' K1 K2]; subst. cbn [forallb] in H2. apply andb_true_iff in H2 as [G1 G2]. rewrite K1; [|assumption|apply Hk; now left].
      apply IHk; auto. intros x Hx. apply Hk. now right.
  Qed.
End Handler.

Lemma stopped_iff obs t : no_old_schema t = true -> descriptions_ok t = true -> (xdepth t <= 100)%nat ->
  (exists n a ks, t = XElem n a ks) ->
  exists h, events obs h0 (xevents t) = Ok h /\ stopped h = match pop_root h with Some _ => false | None => true end.
Proof.
  intros Ho Hdo Hd (n & a & ks & ->).
  cbn [xevents events]. cbn [xdepth] in Hd.
  assert (Hos : eqs n (S_ "Schema") && negb (eqs (find_old_schema a []) []) = false /\ forallb no_old_schema ks = true).
  { cbn [no_old_schema] in Ho. apply andb_true_iff in Ho as [H1 H2]. split; auto.
    destruct (eqs n (S_ "Schema")); auto. cbn [negb orb] in H1. rewrite H1. reflexivity. }
  destruct Hos as [Hos Hok].
  assert (Hdesc := desc_forall Type_Unknown n a ks Hdo).
  assert (Hkd := known_description Type_Unknown n).
  destruct (known_type Type_Unknown n) as [ty|] eqn:Ek.
  - change h0 with (st [] [] 0 0 0 []).
    rewrite (start_known _ _ _ _ _ _ _ ty) by (auto; lia).
    destruct (call_observers obs 0 (NNew ty (node_atts n a)) []) as [ok tr1] eqn:Eo.
    destruct ok.
    2:{ cbn [bind]. rewrite (HandlerProofs.events_stopped obs) by reflexivity. eexists. split; [reflexivity|].
        reflexivity. }
    cbn [bind]. rewrite (HandlerProofs.events_app obs).
    destruct (ty =? Type_description) eqn:Ety.
    + rewrite raw_kids; try lia; auto.
      cbn [bind events app krun].
      rewrite (end_known _ _ _ _ _ 0 _ _ 1) by (try lia; rewrite <- Hkd; reflexivity).
      cbn [bind]. eexists. split; [reflexivity|]. reflexivity.
    + specialize (Hdesc eq_refl).
      set (g := {| fty := ty; fatts := node_atts n a; fcd := []; flog := [] |}).
      assert (HK : forall l s0, incl l ks -> krun s0 = true ->
        exists h', events obs (st ({| fty := fty g; fatts := fatts g; fcd := fcd g; flog := klog s0 |} :: [])
                         (ktext s0 :: []) 0 0 (0 + 1) (ktr s0)) (flat_map xevents l) = Ok h' /\
             after h' g [] [] (0 + 1) (fold_left (fun s k => observed obs ty k s) l s0)).
      { induction l as [|k l IHl]; intros s0 Hin Hr.
        - cbn. eexists. split; [reflexivity|]. split; [reflexivity|]. rewrite Hr. split; reflexivity.
        - cbn [flat_map fold_left]. rewrite (HandlerProofs.events_app obs).
          assert (Hkin : In k ks) by (apply Hin; now left).
          destruct (child_run obs k g [] [] (0 + 1) s0 Hr) as (h1 & E1 & A1 & A2 & A3).
          + rewrite forallb_forall in Hok. auto.
          + rewrite forallb_forall in Hdesc. auto.
          + assert (xdepth k <= list_max (map xdepth ks))%nat by (apply list_max_in; now apply in_map). lia.
          + rewrite E1. cbn [bind]. change (fty g) with ty in *.
            destruct (krun (observed obs ty k s0)) eqn:Er.
            * rewrite (A3 eq_refl). apply IHl; auto. intros y Hy. apply Hin. now right.
            * rewrite (HandlerProofs.events_stopped obs) by (now rewrite A2). rewrite observed_fold_stop by exact Er.
              eexists. split; [reflexivity|]. split; auto. split; [now rewrite Er|]. rewrite Er. discriminate. }
      destruct (HK ks {| klog := []; ktext := []; ktr := tr1; krun := true |} (incl_refl _) eq_refl) as (h1 & E1 & A1 & A2 & A3).
      cbn [klog ktext ktr] in E1. change {| fty := fty g; fatts := fatts g; fcd := fcd g; flog := [] |} with g in E1.
      fold g. cbv zeta in *. match goal with |- context [events obs ?A (flat_map xevents ks)] => match type of E1 with events obs ?B _ = _ => change A with B end end.
      rewrite E1. cbn [bind].
      set (s2 := fold_left _ _ _) in *.
      destruct (krun s2) eqn:Er.
      * rewrite (A3 eq_refl). cbn [events].
        rewrite (end_known _ _ _ _ _ 0 _ _ 0) by (try lia; rewrite <- Hkd; reflexivity).
        cbn [bind]. eexists. split; reflexivity.
      * rewrite (HandlerProofs.events_stopped obs) by (now rewrite A2).
        eexists. split; [reflexivity|]. unfold pop_root. rewrite A2. reflexivity.
  - change h0 with (st [] [] 0 0 0 []).
    unfold event. cbn [stopped st]. unfold start_element. cbn [depth set_depth st].
    rewrite inc_small by lia. change (max_nesting <? 0 + 1) with false.
    cbn [indesc set_depth skip st]. change (0 <? 0) with false. cbn [andb]. cbn [indesc set_depth skip st]. change (0 <? 0) with false. cbn iota.
    match goal with |- context [if is_schema n then ?A else ?B] => replace (if is_schema n then A else B) with B end.
    2:{ unfold is_schema. destruct (eqs n (S_ "Schema")); [|reflexivity]. cbn [andb] in Hos.
        apply negb_false_iff in Hos. apply eqs_spec in Hos. cbn [old set_depth st]. rewrite Hos. reflexivity. }
    cbn [set_depth set_cds old eqs negb andb st stack cds].
    unfold known_type in Ek.
    destruct (creatable (element_id n)) eqn:Ec; [discriminate|].
    destruct (is_simple (element_id n)) eqn:Es; [discriminate|].
    rewrite andb_false_r. hs. cbn [bind]. rewrite (HandlerProofs.events_stopped obs) by reflexivity. eexists. split; reflexivity.
Qed.

(** The outcome of a run, NULL if it was stopped. *)
Lemma alike_root obs t ps : regular t -> (forall p, In p ps -> p <> PText []) -> flat_map flatten ps = xevents t ->
  exists h, take_pieces obs h0 ps = Ok h /\ parse_events obs (xevents t) = Ok (pop_root h) /\ stopped h = match pop_root h with Some _ => false | None => true end.
Proof.
  intros Hr Hne Hf. destruct Hr as (Hx & Ho & Hd & Hdep). destruct (stopped_iff obs t Ho Hd Hdep Hx) as (h1 & E1 & S1).
  assert (Hfit : fits 0 (flat_map flatten ps) = true).
  { rewrite Hf. rewrite <- (app_nil_r (xevents t)). rewrite tree_fits; auto. lia. }
  pose proof (pieces_alike obs ps h0 0 eq_refl ltac:(lia) eq_refl eq_refl Hne Hfit) as Ha. rewrite Hf, E1 in Ha. unfold parse_events. rewrite E1. cbn [bind].
  destruct Ha as [Ha|(x1 & x2 & A1 & A2 & A3 & A4)].
  - exists h1. split; [now rewrite <- Ha|]. split; [reflexivity|exact S1].
  - inversion A1; subst x1. exists x2. split; [exact A2|]. assert (P1 : pop_root h1 = None) by (unfold pop_root; now rewrite A3). assert (P2 : pop_root x2 = None) by (unfold pop_root; now rewrite A4).
    rewrite P1, P2. auto.
Qed.
(** C88. How the parser cuts the character data into pieces, and which elements are written as empty-element tags, makes no difference. *)
Theorem pieces_irrelevant : forall obs t ps, regular t -> (forall p, In p ps -> p <> PText []) -> flat_map flatten ps = xevents t ->
  (do h <- take_pieces obs h0 ps; Ok (pop_root h)) = parse_events obs (xevents t).
Proof. intros obs t ps Hr Hne Hf. destruct (alike_root obs t ps Hr Hne Hf) as (h & E & P & _). now rewrite E, P. Qed.
Print Assumptions pieces_irrelevant.

(** ** Expat *)
(** The calls for the blocks of a document. *)
Fixpoint calls (expat : list str -> str -> bool -> list piece * bool) (before : list str) (cs : list str) : list (list piece * bool) :=
  match cs with
  | [] => []
  | c :: r => expat before c (match r with [] => true | _ => false end) :: calls expat (before ++ [c]) r
  end.
(** A conforming XML parser: whatever the blocks are, for a well-formed document it reports the document and no error, for another one an error. *)
Definition conforming (expat : list str -> str -> bool -> list piece * bool) : Prop :=
  forall cs, cs <> [] -> let k := calls expat [] cs in
    (forall p, In p (flat_map fst k) -> p <> PText []) /\
    match xml_tree (concat cs) with
    | Some t => (forall x, In x k -> snd x = true) /\ flat_map flatten (flat_map fst k) = xevents t
    | None => exists x, In x k /\ snd x = false
    end.
(** The reads of an intact stream, cut into blocks in some way. *)
Fixpoint intact (cs : list str) : list (str * read_state) :=
  match cs with
  | [] => []
  | c :: r => (c, match r with [] => Eof | _ => Good end) :: intact r
  end.
Lemma loop_ok obs expat cs : forall before h, (forall x, In x (calls expat before cs) -> snd x = true) -> cs <> [] -> 
  stream_loop obs expat before h (intact cs) = do h <- take_pieces obs h (flat_map fst (calls expat before cs)); Ok (if stopped h then None else Some h).
Proof.
  induction cs as [|c cs IH]; intros before h Hok Hn; [congruence|]. cbn [intact calls flat_map stream_loop].
  set (e := match cs with [] => Eof | _ => Good end). assert (Ee : is_eof e = match cs with [] => true | _ => false end) by (unfold e; destruct cs; reflexivity). rewrite Ee.
  destruct (expat before c _) as [ps ok] eqn:Ex. cbn [fst].
  assert (Ho : ok = true). { specialize (Hok (ps, ok)). cbn [calls] in Hok. rewrite Ex in Hok. apply Hok. now left. } subst ok.
  assert (Happ : forall h, take_pieces obs h (ps ++ flat_map fst (calls expat (before ++ [c]) cs)) = do h <- take_pieces obs h ps; take_pieces obs h (flat_map fst (calls expat (before ++ [c]) cs))).
  { clear. induction ps as [|p ps IHp]; intros h; [reflexivity|]. cbn [app take_pieces]. destruct (take_piece obs h p); cbn [bind]; auto. }
  rewrite Happ. destruct (take_pieces obs h ps) as [h1| | |]; cbn [bind]; try reflexivity.
  destruct (stopped h1) eqn:Es; cbn [negb andb].
  - rewrite pieces_stopped by assumption. cbn [bind]. now rewrite Es.
  - unfold e. destruct cs as [|c2 cs]; [cbn [calls flat_map take_pieces bind]; now rewrite Es|].
    apply IH; [|discriminate]. intros x Hx. apply Hok. cbn [calls]. now right.
Qed.
Lemma loop_error obs expat cs : forall before h r, (exists x, In x (calls expat before cs) /\ snd x = false) ->
  stream_loop obs expat before h (intact cs) = Ok r -> r = None.
Proof.
  induction cs as [|c cs IH]; intros before h r (x & Hx & Hs); [destruct Hx|]. cbn [intact stream_loop].
  set (e := match cs with [] => Eof | _ => Good end). assert (Ee : is_eof e = match cs with [] => true | _ => false end) by (unfold e; destruct cs; reflexivity). rewrite Ee.
  cbn [calls] in Hx. destruct (expat before c _) as [ps ok] eqn:Ex. destruct (take_pieces obs h ps) as [h1| | |]; cbn [bind]; try discriminate.
  destruct ok; [|cbn [andb]; congruence]. destruct Hx as [<-|Hx]; [discriminate|]. cbn [andb]. destruct (negb (stopped h1)); [|congruence].
  unfold e. destruct cs as [|c2 cs]; [destruct Hx|]. apply IH. eauto.
Qed.
(** C88. Reading a document from an intact stream gives the same as parsing it as a text, however it is cut into blocks. *)
Theorem stream_correct : forall obs expat cs t, conforming expat -> cs <> [] -> xml_tree (concat cs) = Some t -> regular t ->
  parse_stream obs expat (intact cs) = do r <- parse_text obs (concat cs); Ok (option_map Some r).
Proof.
  intros obs expat cs t Hc Hn Ht Hr. destruct (Hc cs Hn) as [H1 H2]. rewrite Ht in H2. destruct H2 as [H2 H3]. unfold parse_stream, parse_text. rewrite loop_ok by assumption. rewrite Ht.
  destruct (alike_root obs t _ Hr H1 H3) as (h & E & P & S). rewrite E, P. cbn [bind]. destruct (pop_root h) as [n|] eqn:Er; rewrite S; cbn [option_map]; [|reflexivity].
  unfold pop_root in Er. rewrite S in Er. unfold root_of. now rewrite Er.
Qed.
Print Assumptions stream_correct.
(** C88. Nothing comes from a stream whose contents are not a well-formed document. *)
Theorem stream_malformed : forall obs expat cs r, conforming expat -> cs <> [] -> xml_tree (concat cs) = None -> parse_stream obs expat (intact cs) = Ok r -> r = None.
Proof.
  intros obs expat cs r Hc Hn Ht. destruct (Hc cs Hn) as [_ H2]. rewrite Ht in H2. unfold parse_stream. destruct (stream_loop obs expat [] h0 (intact cs)) as [x| | |] eqn:E; cbn [bind]; try discriminate.
  apply (loop_error obs expat cs [] h0 x H2) in E. subst x. cbn. congruence.
Qed.
Print Assumptions stream_malformed.
(** The blocks of 4096 bytes: their concatenation is the contents. *)
Lemma reads_intact fuel : forall s, (length s < fuel)%nat -> exists cs, cs <> [] /\ concat cs = s /\ reads_of fuel s = intact cs.
Proof.
  induction fuel as [|k IH]; intros s Hl; [lia|]. cbn [reads_of]. destruct (Nat.ltb_spec (length s) 4096).
  - exists [s]. split; [discriminate|]. split; [cbn; apply app_nil_r|reflexivity].
  - destruct (IH (skipn 4096 s)) as (cs & Hn & Hc & Hi); [rewrite skipn_length; lia|]. exists (firstn 4096 s :: cs). split; [discriminate|]. split.
    + cbn [concat]. rewrite Hc. apply firstn_skipn.
    + rewrite Hi. destruct cs; [congruence|]. reflexivity.
Qed.
(** C88. The same for the blocks the library reads. *)
Theorem stream_blocks : forall obs expat s t, conforming expat -> xml_tree s = Some t -> regular t ->
  parse_stream obs expat (reads_of (S (length s)) s) = do r <- parse_text obs s; Ok (option_map Some r).
Proof.
  intros obs expat s t Hc Ht Hr. destruct (reads_intact (S (length s)) s ltac:(lia)) as (cs & Hn & <- & ->). now apply (stream_correct obs expat cs t).
Qed.
Print Assumptions stream_blocks.
(** C88. Parsing a text: the root and no error, or no root and an error. *)
Theorem string_correct : forall obs expat s, conforming expat -> s <> [] ->
  match xml_tree s with
  | Some t => regular t -> parse_string obs expat s = do r <- parse_text obs s; Ok (r, match r with Some _ => false | None => true end)
  | None => forall r, parse_string obs expat s = Ok r -> r = (None, true)
  end.
Proof.
  intros obs expat s Hc Hn. destruct (Hc [s] ltac:(discriminate)) as [H1 H2]. cbn [calls concat flat_map fst] in H1, H2. rewrite app_nil_r in H2.
  assert (En : eqs s [] = false) by now apply eqs_neq. unfold parse_string, parse_text. rewrite En. cbn [negb].
  destruct (expat [] s true) as [ps ok] eqn:Ex. cbn [fst] in *. rewrite app_nil_r in H1. destruct (xml_tree s) as [t|].
  - intros Hr. destruct H2 as [H2 H3]. rewrite app_nil_r in H3. specialize (H2 (ps, ok) (or_introl eq_refl)). cbn in H2. subst ok.
    destruct (alike_root obs t ps Hr H1 H3) as (h & E & P & S). rewrite E, P. cbn [bind]. destruct (pop_root h) as [n|] eqn:Er; rewrite S; cbn [negb andb]; [|reflexivity].
    unfold pop_root in Er. rewrite S in Er. unfold root_of. now rewrite Er.
  - destruct H2 as (x & [<-|[]] & Hs). cbn in Hs. subst ok. intros r. destruct (take_pieces obs h0 ps); cbn [bind andb]; congruence.
Qed.
Print Assumptions string_correct.
(** There are conforming parsers: one which reports everything at the end. *)
Definition pieces_of (e : ev) : piece := match e with EStart n a => PStart n a false | EEnd n => PEnd n | EChar c => PText [c] end.
Definition late_expat (before : list str) (c : str) (final : bool) : list piece * bool :=
  if final then match xml_tree (concat before ++ c) with Some t => (map pieces_of (xevents t), true) | None => ([], false) end else ([], true).
Lemma late_calls cs : forall before, cs <> [] -> exists l, calls late_expat before cs = l ++ [late_expat (before ++ removelast cs) (last cs []) true] /\ (forall x, In x l -> x = ([], true)).
Proof.
  induction cs as [|c cs IH]; intros before Hn; [congruence|]. destruct cs as [|c2 cs].
  - exists []. cbn [calls removelast last app]. rewrite app_nil_r. split; [reflexivity|intros x []].
  - destruct (IH (before ++ [c]) ltac:(discriminate)) as (l & El & Hl). exists (([], true) :: l). split.
    + change (calls late_expat before (c :: c2 :: cs)) with (late_expat before c false :: calls late_expat (before ++ [c]) (c2 :: cs)). rewrite El.
      change (removelast (c :: c2 :: cs)) with (c :: removelast (c2 :: cs)). change (last (c :: c2 :: cs) []) with (last (c2 :: cs) []). rewrite <- app_assoc. reflexivity.
    + intros x [<-|Hx]; auto.
Qed.
Example conforming_sample : conforming late_expat.
Proof.
  intros cs Hn k. destruct (late_calls cs [] Hn) as (l & El & Hl). unfold k. rewrite El. cbn [app]. rewrite flat_map_app.
  assert (Hz : flat_map fst l = []). { clear - Hl. induction l as [|x l IH]; [reflexivity|]. cbn [flat_map]. rewrite (Hl x (or_introl eq_refl)). cbn [fst app]. apply IH. intros y Hy. apply Hl. now right. }
  rewrite Hz. cbn [flat_map app fst]. rewrite app_nil_r. assert (Hc : concat (removelast cs) ++ last cs [] = concat cs).
  { rewrite (app_removelast_last [] Hn) at 3. rewrite concat_app. cbn. now rewrite app_nil_r. }
  unfold late_expat. rewrite Hc. destruct (xml_tree (concat cs)) as [t|].
  - split; [|split].
    + cbn [fst]. intros p Hp. apply in_map_iff in Hp as ([] & <- & _); discriminate.
    + intros x Hx. apply in_app_or in Hx as [Hx|[<-|[]]]; [now rewrite (Hl x Hx)|reflexivity].
    + cbn [fst]. induction (xevents t) as [|e es IH]; [reflexivity|]. cbn [map flat_map]. rewrite IH. destruct e; reflexivity.
  - split; [intros p []|]. exists ([], false). split; [apply in_or_app; right; now left|reflexivity].
Qed.
Example stream_sample : parse_stream [] late_expat (intact [S_ "<Place"; S_ "mark><na"; S_ "me>a b</name></Placemark>"]) = do r <- parse_text [] (S_ "<Placemark><name>a b</name></Placemark>"); Ok (option_map Some r).
Proof. vm_compute. reflexivity. Qed.

(** ** Violations *)
(** C88. A stream which is not good at the beginning gives a KmlStream without a root, not NULL. *)
Theorem stream_not_good_refuted : forall obs expat, parse_stream obs expat [] = Ok (Some None).
Proof. reflexivity. Qed.
Print Assumptions stream_not_good_refuted.
(** C88. After a failing read the part read so far is taken for a document, if expat has reported it. *)
Definition half_text : str := S_ "<Placemark><name>a</name>".
Definition half_pieces : list piece := [PStart (S_ "Placemark") [] false; PStart (S_ "name") [] false; PText (S_ "a"); PEnd (S_ "name")].
Theorem stream_broken_refuted : xml_tree half_text = None /\ xml_tokens half_text = Some (flat_map flatten half_pieces) /\
  forall expat, expat [] half_text false = (half_pieces, true) ->
    exists n, parse_stream [] expat [(half_text, Bad)] = Ok (Some (Some n)) /\ nty n = Type_Placemark /\ length (nlog n) = 1%nat.
Proof.
  split; [vm_compute; reflexivity|]. split; [vm_compute; reflexivity|]. intros expat He. unfold parse_stream. cbn [stream_loop is_eof]. rewrite He. eexists. vm_compute. split; [reflexivity|]. split; reflexivity.
Qed.
Print Assumptions stream_broken_refuted.
(** C88. The empty text is not a document, but parsing it reports no error, as expat is not told that it is complete. *)
Theorem empty_text_refuted : xml_tree [] = None /\ forall obs expat, expat [] [] false = ([], true) -> parse_string obs expat [] = Ok (None, false).
Proof. split; [vm_compute; reflexivity|]. intros obs expat He. unfold parse_string. cbn [eqs negb]. rewrite He. reflexivity. Qed.
Print Assumptions empty_text_refuted.
(** C24. Observers are notified of the end of an element and of a child after one of them has stopped the parse, if the element was written as an empty-element tag. *)
Definition stop_at (ty : N) : observer := fun _ n => match n with NNew t _ => negb (t =? ty) | _ => true end.
Theorem stop_empty_tag_refuted :
  let obs := [stop_at Type_Placemark] in
  flat_map flatten [PStart (S_ "Folder") [] false; PStart (S_ "Placemark") [] true; PEnd (S_ "Folder")] = xevents (XElem (S_ "Folder") [] [XElem (S_ "Placemark") [] []]) /\
  exists h p, take_pieces obs h0 [PStart (S_ "Folder") [] false; PStart (S_ "Placemark") [] true; PEnd (S_ "Folder")] = Ok h /\ stopped h = true /\
    trace h = [(0%nat, NAdd Type_Folder p); (0%nat, NEnd Type_Folder p); (0%nat, NNew Type_Placemark None); (0%nat, NNew Type_Folder None)].
Proof. split; [reflexivity|]. eexists. eexists. split; [vm_compute; reflexivity|]. split; vm_compute; reflexivity. Qed.
Print Assumptions stop_empty_tag_refuted.

(** Styles without their ids, and resolving with two tables of styles which agree. *)
From Verif Require Import Common StrMap StringsModel ColorModel AttributesModel AttributesProofs XsdTables XsdModel SerializerModel.
From Verif Require Import CoordModel HandlerModel DomTables DomModel DomSpec DomProofs DomProofs2 DomParsed CloneModel CloneProofs MergeModel MergeProofs.
From Verif Require Import IdModel IdProofs StyleModel StyleProofs StylePlain SplitProofs.
Local Open Scope N_scope.

(** ** Elements which differ in ids only *)
Definition less_id (ka ka' : attrs) : Prop := ka' = ka \/ ka' = mdel (S_ "id") ka.
Inductive twin : obj -> obj -> Prop :=
| twin_i ty ka ka' ea tx vec sl sl' mis mis' unk : less_id ka ka' -> Forall2 (Forall2 twin) sl sl' -> Forall2 twin mis mis' -> twin (Obj ty ka ea tx vec sl mis unk) (Obj ty ka' ea tx vec sl' mis' unk).
Lemma Forall2_same {A} (P : A -> A -> Prop) l : Forall (fun x => P x x) l -> Forall2 P l l.
Proof. induction 1; constructor; auto. Qed.
Lemma Forall2_length {A B} (P : A -> B -> Prop) l m : Forall2 P l m -> length l = length m.
Proof. induction 1; cbn [length]; congruence. Qed.
Lemma twin_refl o : twin o o.
Proof.
  induction o as [ty ka ea tx vec sl mis unk Hsl Hm] using obj_all. constructor; [now left| |].
  - apply Forall2_same. rewrite Forall_forall in *. intros l Hl. apply Forall2_same. now apply Hsl.
  - now apply Forall2_same.
Qed.
Lemma mdel_twice {V} k (m : list (str * V)) : mdel k (mdel k m) = mdel k m.
Proof. induction m as [|[a b] m IH]; [reflexivity|]. unfold mdel in *. cbn [filter fst]. destruct (eqs k a) eqn:E; cbn [negb]; [exact IH|]. cbn [filter fst]. rewrite E. cbn [negb]. now rewrite IH. Qed.
Lemma less_id_trans a b c : less_id a b -> less_id b c -> less_id a c.
Proof. unfold less_id. intros [->| ->] [->| ->]; auto. right. apply mdel_twice. Qed.
Lemma Forall2_compose {A} (P : A -> A -> Prop) l : Forall (fun x => forall y z, P x y -> P y z -> P x z) l -> forall m k, Forall2 P l m -> Forall2 P m k -> Forall2 P l k.
Proof. induction 1 as [|x l Hx Hl IH]; intros m k H1 H2; inversion H1; subst; inversion H2; subst; constructor; eauto. Qed.
Lemma twin_trans a : forall b c, twin a b -> twin b c -> twin a c.
Proof.
  induction a as [ty ka ea tx vec sl mis unk Hsl Hm] using obj_all. intros b c H1 H2. inversion H1; subst. inversion H2; subst. constructor.
  - eapply less_id_trans; eauto.
  - eapply Forall2_compose; [|eauto|eauto]. rewrite Forall_forall in *. intros l Hl y z. apply Forall2_compose. rewrite Forall_forall. specialize (Hsl l Hl). rewrite Forall_forall in Hsl. auto.
  - eapply Forall2_compose; [|eauto|eauto]. exact Hm.
Qed.
Lemma Forall2_set {A} (P : A -> A -> Prop) l : (forall x, P x x) -> forall i v, (forall x, nth_error l i = Some x -> P x v) -> Forall2 P l (set_nth i v l).
Proof.
  intros Hr. induction l as [|x l IH]; intros i v H; destruct i as [|i]; cbn [set_nth]; constructor; auto.
  apply Forall2_same. apply Forall_forall. auto.
Qed.
Lemma twin_lists o ls : Forall2 (Forall2 twin) (lists o) ls -> twin o (set_lists o ls).
Proof.
  destruct o as [ty ka ea tx vec sl mis unk]. unfold lists, set_lists. cbn [oslots omis set_slots set_mis]. intros H. apply Forall2_app_inv_l in H as (l1 & l2 & H1 & H2 & ->). inversion H2 as [|? m' ? l3 Hm Hn]; subst. inversion Hn; subst.
  pose proof (Forall2_length _ _ _ H1) as Hl. rewrite Hl, firstn_app, firstn_all, Nat.sub_diag, firstn_O, app_nil_r, app_nth2, Nat.sub_diag by lia. cbn [nth]. constructor; auto. now left.
Qed.
Lemma lists_refl l : Forall2 twin l l.
Proof. apply Forall2_same, Forall_forall. intros x _. apply twin_refl. Qed.
Lemma clear_at_twin p : forall o, twin o (change_at p clear_id o).
Proof.
  induction p as [|[i j] p IH]; intros o; cbn [change_at].
  - destruct o. unfold clear_id. cbn [set_ka oka]. constructor; [now right| |apply lists_refl]. apply Forall2_same, Forall_forall. intros l _. apply lists_refl.
  - destruct (nth_error (nth i (lists o) []) j) as [c|] eqn:Ec; [|apply twin_refl]. apply twin_lists. apply Forall2_set; [apply lists_refl|]. intros l Hl.
    rewrite (nth_error_nth _ _ [] Hl) in *. apply Forall2_set; [apply twin_refl|]. intros x Hx. assert (x = c) by congruence. subst. apply IH.
Qed.
Lemma clear_ids_twin o : twin o (clear_ids o).
Proof.
  unfold clear_ids. assert (G : forall m o1, twin o o1 -> twin o (fold_left (fun o e => change_at (@snd str address e) clear_id o) m o1)).
  { induction m as [|e m IH]; intros o1 H; [exact H|]. cbn [fold_left]. apply IH. eapply twin_trans; [exact H|]. apply clear_at_twin. }
  intros. apply G, twin_refl.
Qed.

(** ** What they have in common *)
Lemma twin_ty a b : twin a b -> oty b = oty a.
Proof. now inversion 1. Qed.
Lemma twin_data a b : twin a b -> char_data b = char_data a.
Proof. now inversion 1. Qed.
Lemma twin_slots a b : twin a b -> Forall2 (Forall2 twin) (oslots a) (oslots b).
Proof. now inversion 1. Qed.
Lemma twins_types l m : Forall2 twin l m -> map oty m = map oty l.
Proof. induction 1 as [|a b l m H _ IH]; [reflexivity|]. cbn [map]. rewrite IH. f_equal. now apply twin_ty. Qed.
Lemma twins_concat l m : Forall2 (Forall2 twin) l m -> Forall2 twin (concat l) (concat m).
Proof. induction 1; cbn [concat]; [constructor|]. now apply Forall2_app. Qed.
Lemma twins_first ty l m : Forall2 twin l m -> match first ty l, first ty m with Some a, Some b => twin a b | None, None => True | _, _ => False end.
Proof.
  unfold first. induction 1 as [|a b l m H _ IH]; [exact I|]. cbn [filter]. rewrite (twin_ty _ _ H). destruct (oty a =? ty); [exact H|exact IH].
Qed.
Lemma twin_child ty a b : twin a b -> match child ty a, child ty b with Some x, Some y => twin x y | None, None => True | _, _ => False end.
Proof. intros H. apply twins_first, twins_concat, twin_slots, H. Qed.
Lemma twin_path p : forall a b, twin a b -> match at_path p a, at_path p b with Some x, Some y => twin x y | None, None => True | _, _ => False end.
Proof.
  induction p as [|ty p IH]; intros a b H; [exact H|]. cbn [at_path]. pose proof (twin_child ty a b H) as G. destruct (child ty a), (child ty b); try contradiction; [|exact I]. exact (IH _ _ G).
Qed.
Lemma twins_forallb (f g : obj -> bool) l m : Forall2 twin l m -> (forall a b, In a l -> twin a b -> g b = f a) -> forallb g m = forallb f l.
Proof. induction 1 as [|a b l m H _ IH]; intros G; [reflexivity|]. cbn [forallb]. rewrite (G a b), IH; auto; [intros; apply G; auto; now right|now left]. Qed.
Lemma twinss_forallb (f g : list obj -> bool) l m : Forall2 (Forall2 twin) l m -> (forall a b, In a l -> Forall2 twin a b -> g b = f a) -> forallb g m = forallb f l.
Proof. induction 1 as [|a b l m H _ IH]; intros G; [reflexivity|]. cbn [forallb]. rewrite (G a b), IH; auto; [intros; apply G; auto; now right|now left]. Qed.
Lemma twins_length l m : Forall2 twin l m -> length m = length l.
Proof. intros H. symmetry. exact (Forall2_length _ _ _ H). Qed.
Lemma twins_nil l m : Forall2 twin l m -> nilb m = nilb l.
Proof. now intros [|]. Qed.

(** ** Plain styles *)
Section Plain.
  Variable E : env.
  Hypothesis HE : numbers_stable E.
  Lemma twin_values p f l m : Forall2 twin l m -> values_wf E p f m = values_wf E p f l.
  Proof. intros H. apply (twins_forallb _ _ _ _ H). intros a b _ Hab. now rewrite (twin_ty _ _ Hab), (twin_data _ _ Hab). Qed.
  Lemma twin_slots_wf p ss : forall i sl sl', Forall2 (Forall2 twin) sl sl' -> slots_wf E p i ss sl' = slots_wf E p i ss sl.
  Proof.
    induction ss as [|s ss IH]; intros i sl sl' H; destruct H as [|l l' sl sl' Hl H]; try reflexivity. cbn [slots_wf]. rewrite (IH _ _ _ H). f_equal. unfold slot_wf. rewrite (twins_length _ _ Hl). f_equal.
    - apply (twins_forallb _ _ _ _ Hl). intros a b _ Hab. now rewrite (twin_ty _ _ Hab).
    - destruct (s_kind s); rewrite ?(twin_values _ _ _ _ Hl); reflexivity.
  Qed.
  Lemma attrs_kept r : msorted (oka r) -> oea r = no_attrs -> (forall k v, view (oka r) k = Some v -> exists kd, att_kind (c_atts (cls (oty r))) k = Some kd /\ norm_att E (oty r) k kd v = Some v) -> attrs_same E (oty r) r = true.
  Proof.
    intros Hs He Hk. unfold attrs_same. rewrite parse_attributes_create. cbn zeta.
    destruct (cut_known_spec E (oty r) (c_atts (cls (oty r))) (out_attributes r) [] (out_attributes_sorted r) msorted_nil) as (D1 & D2 & D3 & D4).
    assert (Vo : forall k, view (out_attributes r) k = view (oka r) k) by (apply out_known; auto).
    assert (Hkept : forall k, kept E (oty r) (c_atts (cls (oty r))) (out_attributes r) k = view (oka r) k).
    { intros k. unfold kept. rewrite Vo. destruct (view (oka r) k) as [v|] eqn:Ev; [|now destruct (att_kind _ k)]. destruct (Hk k v Ev) as (kd & -> & H). exact H. }
    assert (Hka : snd (cut_known E (oty r) (c_atts (cls (oty r))) (out_attributes r) []) = oka r).
    { apply msorted_ext; auto. intros k. etransitivity; [exact (D4 k)|]. rewrite Hkept. change (mget k (oka r)) with (view (oka r) k). now destruct (view (oka r) k). }
    assert (Hun : fst (cut_known E (oty r) (c_atts (cls (oty r))) (out_attributes r) []) = []).
    { apply empty_view; auto. intros k. rewrite D3. destruct (att_kind (c_atts (cls (oty r))) k) eqn:Ek; [reflexivity|]. rewrite Vo, <- Hkept. unfold kept. now rewrite Ek. }
    destruct (cut_known E (oty r) (c_atts (cls (oty r))) (out_attributes r) []) as [u' ka']. cbn [fst snd] in *. subst u' ka'.
    cbn [create set_ea set_ka oka oea]. rewrite attrs_eqb_refl, He. reflexivity.
  Qed.
  Lemma simple_twin a b : twin a b -> is_simple (oty a) = true -> wf E a = true -> cloneable E a = true -> b = a.
  Proof.
    intros H Hs Hw Hc. pose proof (wf_field E a Hw Hc Hs) as Hf. destruct H as [ty ka ka' ea tx vec sl sl' mis mis' unk Hka Hsl Hm]. cbn [oty] in Hf. unfold field in Hf. injection Hf. intros. subst.
    assert (ka' = []) as -> by (destruct Hka as [->| ->]; reflexivity). inversion Hsl; subst. inversion Hm; subst. reflexivity.
  Qed.
  Lemma twin_plain a : forall b, twin a b -> plain E a -> plain E b.
  Proof.
    induction a as [ty ka ea tx vec sl mis unk Hsl _] using obj_all. intros b Hab Hp. pose proof (plain_parts E _ Hp) as (P1 & P2 & P3 & P4 & P5). cbn [oty oea omis oslots] in *. subst ea mis.
    pose proof (good_atts E _ (proj1 Hp)) as [Sa Va]. cbn [oka oty] in Sa, Va.
    destruct (style_classes _ P1) as (Q1 & Q2 & Q3 & Q4 & Q5 & Q6 & Q7).
    assert (Hkids : forall l c d, In l sl -> In c l -> twin c d -> wf E d = true /\ cloneable E d = true /\ (is_simple (oty d) || plain_style d = true)).
    { intros l c d Hl Hc Hcd. destruct (good_in E _ l c (proj1 Hp) Hl Hc) as [W1 W2]. destruct (is_simple (oty c)) eqn:Es.
      - rewrite (simple_twin c d Hcd Es W1 W2), Es. auto.
      - rewrite Forall_forall in Hsl. specialize (Hsl l Hl). rewrite Forall_forall in Hsl. destruct (Hsl c Hc d Hcd (P5 l c Hl Hc Es)) as [(G1 & G2 & G3) G4]. rewrite G4, orb_true_r. auto. }
    inversion Hab as [? ? ka' ? ? ? ? sl' ? mis' ? Hka Hslots Hmis]. subst. inversion Hmis; subst.
    assert (Hatts : attrs_same E ty (Obj ty ka' no_attrs tx vec sl' [] unk) = true).
    { apply (attrs_kept (Obj ty ka' no_attrs tx vec sl' [] unk)); cbn [oka oea oty]; auto.
      - destruct Hka as [->| ->]; [exact Sa|]. now apply mdel_sorted.
      - intros k v Hv. assert (Hv' : view ka k = Some v) by (destruct Hka as [->| ->]; [exact Hv|]; unfold view, find_value in *; rewrite mget_mdel in Hv; destruct (eqs k _); [discriminate|exact Hv]).
        rewrite Va in Hv'. unfold kept in Hv'. destruct (att_kind (c_atts (cls ty)) k) as [kd|]; [|discriminate]. exists kd. split; [reflexivity|]. destruct (view (out_attributes _) k) as [s|]; [|discriminate]. exact (norm_att_stable E HE _ _ _ _ _ Hv'). }
    destruct Hp as [(Hw & Hc & _) Hps]. cbn [wf cloneable plain_style] in Hw, Hc, Hps. rewrite Q2, ?Q3, ?Q4, ?Q5, ?Q6 in *. rewrite !andb_true_iff in Hw, Hc, Hps.
    assert (K1 : forallb (forallb (wf E)) sl' = true /\ forallb (forallb (cloneable E)) sl' = true /\ forallb (forallb (fun c => is_simple (oty c) || plain_style c)) sl' = true).
    { assert (G : forall (f : obj -> bool), (forall l c d, In l sl -> In c l -> twin c d -> f d = true) -> forallb (forallb f) sl' = true).
      { intros f Hf. rewrite (twinss_forallb (fun _ => true) _ _ _ Hslots); [now apply forallb_forall|]. intros l m Hl Hlm. rewrite (twins_forallb (fun _ => true) _ _ _ Hlm); [now apply forallb_forall|]. intros c d Hc' Hcd. now apply (Hf l c d). }
      repeat split; apply G; intros l c d Hl Hc' Hcd; now apply (Hkids l c d). }
    destruct K1 as (K1 & K2 & K3). split; [split; [|split]|].
    - cbn [wf]. rewrite Q2, ?Q3, ?Q4, ?Q5, ?Q6, Hatts, (twin_slots_wf _ _ _ _ _ Hslots), K1. cbn [forallb nilb]. rewrite !andb_true_r. rewrite !andb_true_iff in Hw. rewrite !andb_true_iff. tauto.
    - cbn [cloneable]. rewrite Q2, Q3, K2. cbn [forallb]. rewrite !andb_true_r. rewrite !andb_true_iff. destruct Hc as ((((C1 & C2) & C3) & _) & _). repeat split.
      + now destruct tx as [[|]|].
      + clear -C2 Hslots. revert sl' sl Hslots C2. induction (c_slots (cls ty)) as [|s ss IH]; intros sl' sl H C; destruct H as [|l l' sl sl' Hl H]; try reflexivity. cbn [combine forallb fst snd] in *. apply andb_true_iff in C as [C1 C2]. rewrite (IH _ _ H C2), andb_true_r.
        unfold href_values in *. destruct (s_kind s); auto; rewrite <- C1; f_equal; apply (twins_forallb _ _ _ _ Hl); intros a b _ Hab; now rewrite (twin_ty _ _ Hab), (twin_data _ _ Hab).
      + clear -C3 Hslots. revert sl' sl Hslots C3. induction (keys (c_slots (cls ty))) as [|s ss IH]; intros sl' sl H C; destruct H as [|l l' sl sl' Hl H]; try reflexivity. cbn [combine forallb] in *. apply andb_true_iff in C as [C1 C2]. rewrite (IH _ _ H C2), andb_true_r. now destruct Hl.
    - exact Q2.
    - cbn [plain_style]. rewrite P1, K3. cbn [nilb]. rewrite !andb_true_r. destruct Hps as ((_ & N) & _). change (ea_eqb no_attrs no_attrs) with true. cbn [andb]. rewrite <- N. apply (twinss_forallb _ _ _ _ Hslots). intros l m _ Hlm. now rewrite (twins_types _ _ Hlm).
  Qed.

  (** ** Resolving gives plain styles *)
  Inductive plain_selector : obj -> Prop :=
  | plain_sel s : (oty s = Type_Style -> plain E s) -> (forall p c, In p (pairs s) -> own_selector p = Some c -> plain_selector c) -> plain_selector s.
  Definition fine (m : merger) : Prop := plain E (style m) /\ oty (style m) = Type_Style.
  Lemma select_fine h url : (forall u m m', fine m -> url u m = Ok m' -> fine m') -> forall s m m', plain_selector s -> fine m -> select E h url s m = Ok m' -> fine m'.
  Proof.
    intros Hu. induction s as [s IH] using selector_ind. intros m m' Hs Hm H. inversion Hs as [? S1 S2]; subst. rewrite select_eq in H. destruct (oty s =? Type_Style) eqn:E1.
    { apply N.eqb_eq in E1. unfold merge_in in H. destruct Hm as [M1 M2]. destruct (plain_merge E HE s (style m) (S1 E1) M1 ltac:(congruence)) as (r & Hr & Hp & Ht). rewrite Hr in H. injection H as <-. split; [exact Hp|]. cbn [with_style style]. congruence. }
    destruct (oty s =? Type_StyleMap); [|injection H as <-; exact Hm].
    assert (G : forall l, incl l (pairs s) -> forall m m', fine m -> run_all (map (pair_do E h url) l) m = Ok m' -> fine m').
    { induction l as [|p l IHl]; intros Hl x x' Hx H'; cbn [map run_all] in H'; [injection H' as <-; exact Hx|]. destruct (pair_do E h url p x) as [y| | |] eqn:Ey; cbn [bind] in H'; try discriminate.
      apply (IHl (fun z Hz => Hl z (or_intror Hz)) y x'); [|exact H']. unfold pair_do in Ey. destruct (Bool.eqb _ h); [|injection Ey as <-; exact Hx]. destruct (url (style_url p) x) as [z| | |] eqn:Ez; cbn [bind] in Ey; try discriminate.
      pose proof (Hu _ _ _ Hx Ez) as Hz. destruct (own_selector p) as [c|] eqn:Ec; [|injection Ey as <-; exact Hz]. apply (IH p c (Hl p (or_introl eq_refl)) Ec z y); auto. apply (S2 p c); auto. apply Hl. now left. }
    apply (G (pairs s) (incl_refl _) m m'); auto.
  Qed.
  Lemma url_fine split_uri fetch shared h : (forall u s, find_style split_uri fetch shared u = Some s -> plain_selector s) ->
    forall fuel u m m', fine m -> merge_url E split_uri fetch shared h fuel u m = Ok m' -> fine m'.
  Proof.
    intros Hp. induction fuel as [|fuel IH]; intros u m m' Hm H; cbn [merge_url] in H.
    - destruct (budget m); [injection H as <-; exact Hm|discriminate].
    - destruct (budget m); [injection H as <-; exact Hm|]. destruct (find_style split_uri fetch shared u) as [s|] eqn:Es; [|injection H as <-; exact Hm].
      eapply (select_fine h _ IH s); [eauto| |exact H]. exact Hm.
  Qed.
End Plain.

(** ** Two tables of styles *)
Section Same.
  Variables (E : env) (highlight : bool) (clean : str -> Prop).
  Hypothesis clean_nil : clean [].
  Lemma select_same (url url2 : str -> merger -> res merger) : (forall u m, clean u -> url u m = url2 u m) ->
    forall s m, clean_in clean s -> select E highlight url s m = select E highlight url2 s m.
  Proof.
    intros Hu. induction s as [s IH] using selector_ind. intros m Hc. rewrite !select_eq. destruct (oty s =? Type_Style); [reflexivity|]. destruct (oty s =? Type_StyleMap); [|reflexivity].
    assert (G : forall l, incl l (pairs s) -> forall m, run_all (map (pair_do E highlight url) l) m = run_all (map (pair_do E highlight url2) l) m).
    { induction l as [|p l IHl]; intros Hl x; [reflexivity|]. cbn [map run_all]. assert (Hin : In p (pairs s)) by (apply Hl; now left). assert (Hcp : clean_in clean p) by (intros u Hx; apply Hc; eapply refs_pair; eauto).
      assert (Q : pair_do E highlight url p x = pair_do E highlight url2 p x).
      { unfold pair_do. destruct (Bool.eqb _ highlight); [|reflexivity]. rewrite (Hu _ x (clean_url clean clean_nil p Hcp)). destruct (url2 (style_url p) x) as [y| | |]; cbn [bind]; auto. destruct (own_selector p) as [c|] eqn:Ec; [|reflexivity].
        apply (IH p c Hin Ec). intros u Hx. apply Hcp. eapply refs_own; eauto. }
      rewrite Q. destruct (pair_do E highlight url2 p x); cbn [bind]; auto. apply IHl. intros z Hz. apply Hl. now right. }
    apply G, incl_refl.
  Qed.
  Variables (split_uri : str -> option (str * str)) (fetch fetch2 : str -> option (list (str * obj))) (shared shared2 : list (str * obj)).
  Hypothesis same_found : forall u, clean u -> find_style split_uri fetch shared u = find_style split_uri fetch2 shared2 u.
  Hypothesis found_clean : forall u s, clean u -> find_style split_uri fetch shared u = Some s -> clean_in clean s.
  Lemma urls_same : forall fuel u m, clean u -> merge_url E split_uri fetch shared highlight fuel u m = merge_url E split_uri fetch2 shared2 highlight fuel u m.
  Proof.
    induction fuel as [|fuel IH]; intros u m Hu; cbn [merge_url]; [reflexivity|]. destruct (budget m); [reflexivity|]. rewrite <- (same_found u Hu). destruct (find_style split_uri fetch shared u) as [s|] eqn:Es; [|reflexivity].
    apply select_same; [exact IH|]. eapply found_clean; eauto.
  Qed.
  Lemma resolve_same fuel u o : clean u -> (forall s, o = Some s -> clean_in clean s) -> resolve E split_uri fetch shared highlight fuel u o = resolve E split_uri fetch2 shared2 highlight fuel u o.
  Proof.
    intros Hu Ho. unfold resolve. rewrite (urls_same fuel u _ Hu). destruct (merge_url _ _ _ _ _ _ _ _) as [m| | |]; cbn [bind]; auto. destruct o as [s|]; [|reflexivity]. apply select_same; [intros; now apply urls_same|auto].
  Qed.
End Same.

(** Proofs about SplitModel.v: merging and resolving do not depend on the attributes of a selector; merging into a new selector copies. *)
From Verif Require Import Common StrMap StringsModel ColorModel AttributesModel AttributesProofs XsdTables XsdModel XmlSpec SerializerModel CoordModel HandlerModel.
From Verif Require Import DomTables DomModel DomSpec DomProofs DomProofs2 DomParsed CloneModel CloneProofs MergeModel MergeProofs IdModel StyleModel StyleProofs SplitModel.
Local Open Scope N_scope.

(** ** An element but for its attributes *)
Definition body (o : obj) := (oty o, otext o, ovec o, oslots o, omis o, ounk o).
(** What merging takes from a source besides its attributes. *)
Definition content_of (o : obj) := (oty o, ovec o, oslots o, omis o).
Lemma body_intro o o2 : oty o = oty o2 -> otext o = otext o2 -> ovec o = ovec o2 -> oslots o = oslots o2 -> omis o = omis o2 -> ounk o = ounk o2 -> body o = body o2.
Proof. unfold body. congruence. Qed.
Lemma body_attrs o o2 : body o = body o2 -> exists ka ea, o2 = set_ea (set_ka o ka) ea.
Proof. destruct o, o2. unfold body. cbn. intros H. inversion H; subst. repeat eexists. Qed.
Definition body_res (r : res obj) : res _ := match r with Ok a => Ok (body a) | UB => UB | Throw => Throw | Fuel => Fuel end.
Section Body.
  Variable E : env.
  Lemma add_element_body t t2 c : body t = body t2 -> body_res (add_element E t c) = body_res (add_element E t2 c).
  Proof.
    intros H. apply body_attrs in H as (ka & ea & ->). destruct t as [ty ka0 ea0 tx vec sl mis unk]. unfold add_element. cbn [set_ea set_ka oty oslots omis].
    destruct (snippet_type ty); [reflexivity|]. destruct (ty =? Type_coordinates); [reflexivity|]. destruct ((ty =? Type_SimpleData) && (oty c =? Type_SimpleData)); [reflexivity|].
    destruct (find_slot (oty c) (c_slots (cls ty)) 0) as [[i s]|]; [|reflexivity]. destruct (s_kind s) as [f|f| |]; try reflexivity;
      match goal with |- context [norm ?a ?b ?c ?d ?e ?f] => destruct (norm a b c d e f) end; reflexivity.
  Qed.
  Lemma opt_res_body r r2 : body_res r = body_res r2 -> option_map body (opt_res r) = option_map body (opt_res r2).
  Proof. destruct r, r2; cbn; congruence. Qed.
  Lemma fold_body {A} (f g : option obj -> A -> option obj) l : (forall x t t2, In x l -> option_map body t = option_map body t2 -> option_map body (f t x) = option_map body (g t2 x)) ->
    forall t t2, option_map body t = option_map body t2 -> option_map body (fold_left f l t) = option_map body (fold_left g l t2).
  Proof.
    induction l as [|x l IH]; intros H t t2 Ht; [exact Ht|]. cbn [fold_left]. apply IH; [intros y a b Hy; apply H; now right|]. apply H; [now left|exact Ht].
  Qed.
  Lemma add_fields_body l t t2 : body t = body t2 -> option_map body (add_fields E l t) = option_map body (add_fields E l t2).
  Proof.
    intros H. unfold add_fields. apply fold_body; [|cbn; congruence]. intros x [a|] [b|] _ Hab; cbn [option_map] in *; try congruence; try discriminate. inversion Hab.
    apply opt_res_body, add_element_body. unfold body. congruence.
  Qed.
  Lemma parse_attributes_body t a : body (parse_attributes E t a) = body t.
  Proof. unfold parse_attributes. destruct (cut_known E (oty t) (c_atts (cls (oty t))) a (oka t)) as [x y]. now destruct t. Qed.
  Lemma body_ty t t2 : body t = body t2 -> oty t = oty t2.
  Proof. unfold body. congruence. Qed.
  Lemma set_vec_body t t2 v : body t = body t2 -> body (set_vec t v) = body (set_vec t2 v).
  Proof. destruct t, t2. unfold body. cbn. congruence. Qed.
  Lemma set_slots_body t t2 v : body t = body t2 -> body (set_slots t v) = body (set_slots t2 v).
  Proof. destruct t, t2. unfold body. cbn. congruence. Qed.
  Lemma body_slots t t2 : body t = body t2 -> oslots t = oslots t2.
  Proof. unfold body. congruence. Qed.
  Lemma body_mis t t2 : body t = body t2 -> omis t = omis t2.
  Proof. unfold body. congruence. Qed.
  Lemma merge_fields_body s s2 t t2 : content_of s = content_of s2 -> body t = body t2 -> option_map body (merge_fields E s t) = option_map body (merge_fields E s2 t2).
  Proof.
    unfold content_of. intros Hs Ht. inversion Hs as [[H1 H2 H3 H4]]. unfold merge_fields. rewrite <- H1, <- H2, <- H3, <- H4. apply add_fields_body.
    set (u := parse_attributes E t _). set (u2 := parse_attributes E t2 _). assert (Hu : body u = body u2) by (unfold u, u2; now rewrite !parse_attributes_body).
    rewrite <- (body_ty _ _ Hu). destruct (oty u =? Type_coordinates); auto. now apply set_vec_body.
  Qed.
  Lemma kid_at_body t t2 ty : body t = body t2 -> kid_at ty t = kid_at ty t2.
  Proof. intros H. unfold kid_at. rewrite <- (body_ty _ _ H). generalize (c_ser (cls (oty t))). induction l as [|k l IH]; [reflexivity|]. cbn [scan]. rewrite <- (body_ty _ _ H), <- (body_slots _ _ H). rewrite IH. reflexivity. Qed.
  Lemma modify_body t t2 ij m : body t = body t2 -> option_map body (modify t ij m) = option_map body (modify t2 ij m).
  Proof.
    intros H. unfold modify. destruct ij as [i j]. rewrite <- (body_slots _ _ H). destruct (nth_error (nth i (oslots t) []) j) as [c|]; [|reflexivity]. destruct (m c); [|reflexivity].
    cbn [option_map]. f_equal. now apply set_slots_body.
  Qed.
  Lemma merge_body s s2 t t2 : content_of s = content_of s2 -> body t = body t2 -> option_map body (merge E s t) = option_map body (merge E s2 t2).
  Proof.
    intros Hs Ht. pose proof Hs as Hs0. unfold content_of in Hs. inversion Hs as [[H1 H2 H3 H4]]. rewrite !merge_eq. unfold simple_mis. rewrite <- H1, <- H4, <- (body_ty _ _ Ht), <- (body_mis _ _ Ht).
    destruct (is_simple (oty s) || is_simple (oty t) || negb (forallb (fun c => is_simple (oty c)) (omis s)) || negb (forallb (fun c => is_simple (oty c)) (omis t))); [reflexivity|].
    assert (Hk : kids s2 = kids s) by (unfold kids; now rewrite <- H1, <- H3). rewrite Hk.
    assert (G : option_map body (merge_kids E t (map (fun c => (c, merge E c)) (kids s)) t) = option_map body (merge_kids E t2 (map (fun c => (c, merge E c)) (kids s)) t2)).
    { unfold merge_kids. apply fold_body; [|cbn; congruence]. intros [c m] [a|] [b|] _ Hab; cbn [option_map fst snd] in *; try congruence; try discriminate.
      assert (Hb : body a = body b) by (inversion Hab; unfold body; congruence). rewrite <- (kid_at_body t t2 (oty c) Ht). destruct (kid_at (oty c) t) as [ij|]; [now apply modify_body|].
      destruct (clone E c); try reflexivity. apply opt_res_body, add_element_body, Hb. }
    destruct (merge_kids E t _ t) as [a|], (merge_kids E t2 _ t2) as [b|]; cbn [option_map] in G; try discriminate; [|reflexivity]. apply merge_fields_body; auto. inversion G. unfold body. congruence.
  Qed.
End Body.

(** ** Resolving *)
(** The style URLs in an element. *)
Fixpoint refs (o : obj) : list str :=
  let 'Obj ty _ _ _ _ sl _ _ := o in map char_data (pick (cls ty) sl Type_styleUrl) ++ flat_map (flat_map refs) sl.
Lemma refs_in o l c : In l (oslots o) -> In c l -> incl (refs c) (refs o).
Proof. intros Hl Hc u Hu. destruct o as [ty ka ea tx vec sl mis unk]. cbn [refs oslots] in *. apply in_or_app. right. apply in_flat_map. exists l. split; auto. apply in_flat_map. eauto. Qed.
Lemma refs_url o : style_url o = [] \/ In (style_url o) (refs o).
Proof.
  destruct o as [ty ka ea tx vec sl mis unk]. unfold style_url. cbn [oty oslots refs]. destruct (pick (cls ty) sl Type_styleUrl) as [|u l]; [now left|]. right. now left.
Qed.
Lemma refs_pair s p : In p (pairs s) -> incl (refs p) (refs s).
Proof. intros H. apply pick_in in H as (l & Hl & Hp). eapply refs_in; eauto. Qed.
Lemma refs_own p c : own_selector p = Some c -> incl (refs c) (refs p).
Proof. intros H. apply selector_in in H as (l & Hl & Hp). eapply refs_in; eauto. Qed.
Definition like (m m2 : merger) : Prop := budget m = budget m2 /\ body (style m) = body (style m2).
Definition like_res (r r2 : res merger) : Prop := match r, r2 with Ok m, Ok m2 => like m m2 | UB, UB => True | Throw, Throw => True | Fuel, Fuel => True | _, _ => False end.
Section Like.
  Variables (E : env) (highlight : bool) (clean : str -> Prop).
  Hypothesis clean_nil : clean [].
  Definition clean_in (o : obj) : Prop := forall u, In u (refs o) -> clean u.
  Lemma clean_url o : clean_in o -> clean (style_url o).
  Proof. intros H. destruct (refs_url o) as [->|Hu]; auto. Qed.
  Section Select.
    Variables (url url2 : str -> merger -> res merger) (b : nat).
    Hypothesis Hends : forall u, ends (url u) b.
    Hypothesis Hlike : forall u m m2, clean u -> (budget m <= b)%nat -> like m m2 -> like_res (url u m) (url2 u m2).
    Lemma select_like s : forall s2 m m2, clean_in s -> content_of s = content_of s2 -> (budget m <= b)%nat -> like m m2 -> like_res (select E highlight url s m) (select E highlight url2 s2 m2).
    Proof.
      induction s as [s IH] using selector_ind. intros s2 m m2 Hc Hs Hb Hm. rewrite (select_eq E highlight url s m), (select_eq E highlight url2 s2 m2). pose proof Hs as Hs0. unfold content_of in Hs. inversion Hs as [[H1 H2 H3 H4]].
      destruct (oty s =? Type_Style).
      { unfold merge_in. pose proof (merge_body E s s2 (style m) (style m2) Hs0 (proj2 Hm)) as G. destruct (merge E s (style m)), (merge E s2 (style m2)); cbn [option_map] in G; try discriminate; cbn [like_res]; [|exact I].
        split; [exact (proj1 Hm)|]. cbn [with_style style]. inversion G. unfold body. congruence. }
      destruct (oty s =? Type_StyleMap); [|exact Hm].
      assert (Hp : pairs s2 = pairs s) by (unfold pairs; now rewrite <- H1, <- H3). rewrite Hp.
      assert (G : forall l, incl l (pairs s) -> forall m m2, (budget m <= b)%nat -> like m m2 -> like_res (run_all (map (pair_do E highlight url) l) m) (run_all (map (pair_do E highlight url2) l) m2)).
      { induction l as [|p l IHl]; intros Hl m' m2' Hb' Hm'; [exact Hm'|]. cbn [map run_all].
        assert (Hin : In p (pairs s)) by (apply Hl; now left).
        assert (Hcp : clean_in p) by (intros u Hu; apply Hc; eapply refs_pair; eauto).
        assert (Q : like_res (pair_do E highlight url p m') (pair_do E highlight url2 p m2') /\ match pair_do E highlight url p m' with Ok x => (budget x <= b)%nat | _ => True end).
        { unfold pair_do. destruct (Bool.eqb (highlights p) highlight); [|split; auto].
          pose proof (Hlike (style_url p) m' m2' (clean_url p Hcp) Hb' Hm') as K. pose proof (Hends (style_url p) m' Hb') as Ke.
          destruct (url (style_url p) m') as [x| | |], (url2 (style_url p) m2') as [x2| | |]; cbn [like_res bind] in *; try contradiction; auto.
          destruct (own_selector p) as [c|] eqn:Ec.
          - assert (Hcc : clean_in c) by (intros u Hu; apply Hcp; eapply refs_own; eauto). split; [apply (IH p c Hin Ec c); auto; lia|].
            pose proof (proj1 (select_ends E highlight url url b Hends (fun u m _ => eq_refl) c) x ltac:(lia)) as Z. destruct (select E highlight url c x); auto. lia.
          - split; auto. lia. }
        destruct Q as [Q1 Q2]. destruct (pair_do E highlight url p m') as [x| | |], (pair_do E highlight url2 p m2') as [x2| | |]; cbn [like_res bind] in *; try contradiction; auto.
        apply IHl; auto. intros z Hz. apply Hl. now right. }
      apply G; auto. apply incl_refl.
    Qed.
  End Select.
  Section Urls.
    Variables (split_uri split_uri2 : str -> option (str * str)) (fetch fetch2 : str -> option (list (str * obj))) (shared shared2 : list (str * obj)).
    Hypothesis same_found : forall u, clean u -> find_style split_uri fetch shared u = find_style split_uri2 fetch2 shared2 u.
    Hypothesis found_clean : forall u s, clean u -> find_style split_uri fetch shared u = Some s -> clean_in s.
    Lemma urls_like b : forall fuel fuel2 u m m2, (b <= fuel)%nat -> (b <= fuel2)%nat -> clean u -> (budget m <= b)%nat -> like m m2 ->
      like_res (merge_url E split_uri fetch shared highlight fuel u m) (merge_url E split_uri2 fetch2 shared2 highlight fuel2 u m2).
    Proof.
      induction b as [|b IH]; intros fuel fuel2 u m m2 Hf Hf2 Hu Hb Hm; pose proof Hm as [Hb2 Hbody].
      - destruct fuel, fuel2; cbn [merge_url]; rewrite <- Hb2; destruct (budget m) eqn:Eb; try lia; exact Hm.
      - destruct fuel as [|fuel]; [lia|]. destruct fuel2 as [|fuel2]; [lia|]. cbn [merge_url]. rewrite <- Hb2. destruct (budget m) as [|k] eqn:Ek; [exact Hm|].
        rewrite <- (same_found u Hu). destruct (find_style split_uri fetch shared u) as [s|] eqn:Es.
        + apply (select_like (merge_url E split_uri fetch shared highlight fuel) (merge_url E split_uri2 fetch2 shared2 highlight fuel2) b); auto.
          * intros u'. apply url_ends. lia.
          * intros u' x x2 Hx Hxb Hxx. apply IH; auto; lia.
          * eapply found_clean; eauto.
          * cbn [budget]. lia.
          * split; [reflexivity|exact Hbody].
        + cbn [like_res]. split; [reflexivity|exact Hbody].
    Qed.
    Lemma resolve_like fuel u o o2 : (max_urls <= fuel)%nat -> clean u -> (forall s, o = Some s -> clean_in s) ->
      match o, o2 with Some s, Some s2 => content_of s = content_of s2 | None, None => True | _, _ => False end ->
      like_res (resolve E split_uri fetch shared highlight fuel u o) (resolve E split_uri2 fetch2 shared2 highlight fuel u o2).
    Proof.
      intros Hf Hu Ho Hoo. unfold resolve.
      assert (H0 : like (fresh max_urls) (fresh max_urls)) by (split; reflexivity).
      pose proof (urls_like max_urls fuel fuel u (fresh max_urls) (fresh max_urls) Hf Hf Hu (le_n _) H0) as G. pose proof (proj1 (url_ends E split_uri fetch shared highlight fuel max_urls u Hf) (fresh max_urls) (le_n _)) as Ge.
      destruct (merge_url E split_uri fetch shared highlight fuel u (fresh max_urls)) as [m| | |], (merge_url E split_uri2 fetch2 shared2 highlight fuel u (fresh max_urls)) as [m2| | |]; cbn [like_res bind] in *; try contradiction; auto.
      destruct o as [s|], o2 as [s2|]; try contradiction; auto.
      apply (select_like (merge_url E split_uri fetch shared highlight fuel) (merge_url E split_uri2 fetch2 shared2 highlight fuel) max_urls); auto.
      - intros u'. apply url_ends. exact Hf.
      - intros u' x x2 Hx Hxb Hxx. now apply (urls_like max_urls).
      - cbn [fresh budget] in Ge. lia.
    Qed.
    (** An inline selector and a reference to an equal one. *)
    Lemma inline_like fuel s u2 s2 : (max_urls <= fuel)%nat -> clean_in s -> content_of s = content_of s2 -> find_style split_uri2 fetch2 shared2 u2 = Some s2 ->
      like_res (resolve E split_uri fetch shared highlight fuel [] (Some s)) (resolve E split_uri2 fetch2 shared2 highlight fuel u2 None).
    Proof.
      intros Hf Hc Hs H2. unfold resolve. destruct fuel as [|fuel]; [unfold max_urls in Hf; lia|]. cbn [merge_url fresh budget max_urls find_style bind]. rewrite H2.
      pose proof (select_like (merge_url E split_uri fetch shared highlight (S fuel)) (merge_url E split_uri2 fetch2 shared2 highlight fuel) 4) as G.
      match goal with |- like_res (select _ _ _ _ ?x) (do _ <- select _ _ _ _ ?y; _) => specialize (G) with (s := s) (s2 := s2) (m := x) (m2 := y) end.
      match goal with |- like_res ?a (do m <- ?b; Ok m) => assert (K : like_res a b -> like_res a (do m <- b; Ok m)) by (destruct b; auto) end.
      apply K, G; clear K G; auto.
      - intros u'. apply url_ends. unfold max_urls in Hf. lia.
      - intros u' x x2 Hx Hxb Hxx. apply (urls_like 4); auto; unfold max_urls in Hf; lia.
      - split; reflexivity.
    Qed.
  End Urls.
End Like.

(** ** Merging into a new selector *)
Section Copy.
  Variable E : env.
  Definition selector_type (ty : N) : bool := (ty =? Type_Style) || (ty =? Type_StyleMap).
  Lemma selector_cases ty : selector_type ty = true -> ty = Type_Style \/ ty = Type_StyleMap.
  Proof. unfold selector_type. rewrite orb_true_iff, !N.eqb_eq. auto. Qed.
  Lemma children_complex o c : selector_type (oty o) = true -> good E o -> In c (children (oty o) (oslots o)) -> is_simple (oty c) = false.
  Proof.
    intros Ht Hg Hc. destruct (children_slot E o c Hg Hc) as (i & s & Hf & _).
    assert (G : forall ty, find_slot (oty c) (c_slots (cls ty)) 0 = Some (i, s) -> forallb (fun s => forallb (fun t => match t with TType t => negb (is_simple t) | TIsA _ => false end) (s_tests s)) (c_slots (cls ty)) = true -> is_simple (oty c) = false).
    { clear. intros ty. generalize 0%nat. induction (c_slots (cls ty)) as [|x l IH]; intros j H Hl; cbn [find_slot forallb] in *; [discriminate|]. apply andb_true_iff in Hl as [H1 H2]. destruct (takes (oty c) x) eqn:Et; [|eauto].
      unfold takes in Et. apply existsb_exists in Et as (t & Hin & Ha). rewrite forallb_forall in H1. specialize (H1 t Hin). destruct t; [|discriminate]. cbn [accepts] in Ha. apply N.eqb_eq in Ha. subst. now apply negb_true_iff. }
    apply (G _ Hf). destruct (selector_cases _ Ht) as [->| ->]; vm_compute; reflexivity.
  Qed.
  Lemma filter_all {A} (f : A -> bool) l : (forall x, In x l -> f x = true) -> filter f l = l.
  Proof. induction l as [|x l IH]; intros H; [reflexivity|]. cbn [filter]. rewrite (H x) by now left. f_equal. apply IH. intros y Hy. apply H. now right. Qed.
  Lemma filter_nothing {A} (f : A -> bool) l : (forall x, In x l -> f x = false) -> filter f l = [].
  Proof. induction l as [|x l IH]; intros H; [reflexivity|]. cbn [filter]. rewrite (H x) by now left. apply IH. intros y Hy. apply H. now right. Qed.
  Lemma parse_id t a : selector_type (oty t) = true -> msorted (oka t) ->
    mget (S_ "id") (oka (parse_attributes E t a)) = match mget (S_ "id") a with Some v => Some v | None => mget (S_ "id") (oka t) end.
  Proof.
    intros Hs Hm. assert (Hc : c_atts (cls (oty t)) = object_atts) by (destruct (selector_cases _ Hs) as [->| ->]; reflexivity). unfold parse_attributes. rewrite Hc. unfold object_atts. cbn [cut_known]. unfold cut_value.
    assert (G : forall x b, mget (S_ "id") (oka (set_ea (set_ka t x) b)) = mget (S_ "id") x) by (intros; now destruct t).
    assert (T : forall v (x : attrs), msorted x -> mget (S_ "id") (mset (S_ "targetId") v x) = mget (S_ "id") x).
    { intros v x Hx. rewrite mget_mset by exact Hx. reflexivity. }
    destruct (mget (S_ "id") a) as [v|]; cbn [norm_att].
    - assert (Hx : msorted (mset (S_ "id") v (oka t))) by now apply mset_sorted.
      destruct (mget (S_ "targetId") (mdel (S_ "id") a)) as [w|]; cbn [norm_att]; rewrite G, ?T by auto; rewrite mget_mset by exact Hm; now rewrite eqs_refl.
    - destruct (mget (S_ "targetId") a) as [w|]; cbn [norm_att]; rewrite G, ?T by auto; reflexivity.
  Qed.
  Lemma empty_kid ty t : (forall i, nth i (oslots t) [] = []) -> kid_at ty t = None.
  Proof.
    intros H. unfold kid_at. generalize (c_ser (cls (oty t))). induction l as [|k l IH]; [reflexivity|]. cbn [scan]. destruct (index_of_key k (c_slots (cls (oty t))) 0) as [i|]; [|exact IH]. rewrite H. exact IH.
  Qed.
  Lemma new_empty ty i : nth i (oslots (create ty)) [] = [].
  Proof. unfold create. cbn [oslots]. generalize (c_slots (cls ty)). intros l. revert i. induction l as [|x l IH]; intros [|i]; auto. cbn [map nth]. apply IH. Qed.
  Lemma clones_added l : (forall c, In c l -> clone E c = Done c) -> forall t0 t, (forall i, nth i (oslots t0) [] = []) ->
    merge_kids E t0 (map (fun c => (c, merge E c)) l) t = opt_res (adds E l t).
  Proof.
    intros Hl t0 t H0. unfold merge_kids. revert t. induction l as [|c l IH]; intros t; [reflexivity|]. cbn [map fold_left fst snd adds]. rewrite (empty_kid _ t0 H0), (Hl c (or_introl eq_refl)).
    destruct (add_element E t c) as [t'| | |]; cbn [opt_res bind]; [apply IH; intros x Hx; apply Hl; now right|..]; clear; induction l as [|x l IH]; auto.
  Qed.
  (** The copy of a selector in a new one with an id. *)
  Lemma copy_any s id : good E s -> selector_type (oty s) = true -> omis s = [] ->
    exists r, merge E s (set_id id (create (oty s))) = Some r /\ content_of r = content_of s /\ (id_of s = None -> id_of r = Some id).
  Proof.
    intros Hg Ht Hm. pose proof Hg as (Hw & Hc & Hs). assert (Hnc : (oty s =? Type_coordinates) = false) by (destruct (selector_cases _ Ht) as [->| ->]; reflexivity).
    rewrite merge_eq. rewrite Hs. unfold simple_mis. rewrite Hm.
    set (t := set_id id (create (oty s))). change (oty t) with (oty s). rewrite Hs. change (omis t) with (@nil obj). cbn [forallb negb orb].
    assert (Hch : kids s = children (oty s) (oslots s)).
    { unfold kids. apply filter_all. intros c Hin. unfold complex. now rewrite (children_complex s c Ht Hg Hin). }
    rewrite Hch, clones_added.
    2:{ intros c Hin. pose proof (children_complex s c Ht Hg Hin) as Hcx. destruct (children_slot E s c Hg Hin) as (i & sl & _ & Hi & Hl). destruct (good_in E s _ c Hg Hl Hi). now apply clone_equal. }
    2:{ intros i. exact (new_empty (oty s) i). }
    assert (Hfill : adds E (children (oty s) (oslots s)) t = Ok (Obj (oty s) (oka t) no_attrs None [] (oslots s) [] [])).
    { unfold children. rewrite (fill_all E (oty s) (oslots s)); auto.
      - destruct (selector_cases _ Ht) as [->| ->]; reflexivity.
      - pose proof (good_slots E s Hg) as Hgs. destruct s as [ty ka ea tx vec sl mis unk]. cbn [oty oslots] in *. cbn [cloneable] in Hc. rewrite Hs, Hnc in Hc. rewrite !andb_true_iff in Hc. apply slots_wf_fit; tauto.
      - intros l c Hl Hin Hsc. destruct (good_in E s l c Hg Hl Hin). now apply (wf_field E).
      - destruct s as [ty ka ea tx vec sl mis unk]. cbn [oty oslots] in *. cbn [cloneable] in Hc. rewrite Hs, Hnc in Hc. rewrite !andb_true_iff in Hc. tauto. }
    rewrite Hfill. cbn [opt_res]. unfold merge_fields. rewrite Hm. cbn [filter]. rewrite app_nil_r. rewrite (filter_nothing (fun c => is_simple (oty c)) (children (oty s) (oslots s))) by (intros c Hin; now apply (children_complex s)).
    unfold add_fields. cbn [fold_left].
    set (t1 := Obj (oty s) (oka t) no_attrs None [] (oslots s) [] []). rewrite Hnc.
    set (r := parse_attributes E t1 _). assert (Hb : body r = body t1) by apply parse_attributes_body.
    assert (Hr : oty r = oty s) by exact (body_ty _ _ Hb). rewrite Hr, Hnc. exists r. split; [reflexivity|]. split.
    - unfold content_of. rewrite Hr, (body_slots _ _ Hb), (body_mis _ _ Hb), Hm. assert (Hv : ovec r = ovec t1) by (unfold body in Hb; congruence). rewrite Hv. cbn [t1 oslots omis ovec].
      assert (ovec s = []) as ->; [|reflexivity]. destruct s as [ty ka ea tx vec sl mis unk]. cbn [oty ovec] in *. cbn [wf] in Hw. rewrite Hs, Hnc in Hw. rewrite !andb_true_iff in Hw. destruct vec; [reflexivity|]. exfalso. revert Hw. cbn. intuition discriminate.
    - intros Hid. unfold id_of. rewrite Hr. assert (is_a (oty s) Type_Object = true) as -> by (destruct (selector_cases _ Ht) as [->| ->]; reflexivity). unfold find_value, r. rewrite parse_id; [|exact Ht|].
      + change (mget (S_ "id") (merge_attributes (out_attributes t1) (out_attributes s))) with (view (merge_attributes (out_attributes t1) (out_attributes s)) (S_ "id")).
        rewrite merge_view by apply out_attributes_sorted. assert (Hn : view (out_attributes s) (S_ "id") = None).
        { unfold id_of in Hid. assert (Ho : is_a (oty s) Type_Object = true) by (destruct (selector_cases _ Ht) as [->| ->]; reflexivity). rewrite Ho in Hid. destruct (good_atts E s Hg) as [_ Hv]. specialize (Hv (S_ "id")). unfold view at 1 in Hv. rewrite Hid in Hv.
          unfold kept in Hv. assert (Hc' : c_atts (cls (oty s)) = object_atts) by (destruct (selector_cases _ Ht) as [->| ->]; reflexivity). rewrite Hc' in Hv. change (att_kind object_atts (S_ "id")) with (Some AString) in Hv. cbv iota in Hv.
          destruct (view (out_attributes s) (S_ "id")); [discriminate|reflexivity]. }
        rewrite Hn. unfold view, find_value, out_attributes. cbn [t1 oka oea t set_id create set_ka]. cbn. reflexivity.
      + cbn [t1 oka t set_id create set_ka]. apply mset_sorted, msorted_nil.
  Qed.
  Lemma copy_selector s id : good E s -> selector_type (oty s) = true -> omis s = [] -> id_of s = None ->
    exists r, merge E s (set_id id (create (oty s))) = Some r /\ content_of r = content_of s /\ id_of r = Some id.
  Proof. intros Hg Ht Hm Hid. destruct (copy_any s id Hg Ht Hm) as (r & R1 & R2 & R3). exists r. auto. Qed.
End Copy.

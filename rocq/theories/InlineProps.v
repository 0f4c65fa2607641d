(** Properties of InlineStyles. *)
From Verif Require Import Common StrMap StringsModel ColorModel AttributesModel AttributesProofs XsdTables XsdModel XmlSpec XmlSpecProofs.
From Verif Require Import SerializerModel SerializerProofs CoordModel CoordProofs HandlerModel HandlerSpec HandlerProps.
From Verif Require Import DomTables DomModel DomSpec DomProofs DomProofs2 DomParsed DomProps CloneModel CloneProofs MergeModel MergeProofs MergeProps.
From Verif Require Import IdModel IdProofs IdProps StyleModel StyleProofs StylePlain StyleProps SplitModel SplitProofs SplitProofs2 SplitProofs3 SplitProofs4 SplitProofs5 SplitProps.
From Verif Require Import StyleTwin InlineProofs.
Local Open Scope N_scope.

(** ** Specification *)
(** A reference to a shared style of the file. *)
Definition refers_to_shared (split_uri : str -> option (str * str)) (o : obj) (u : str) : Prop := exists id x, shared_in o id x /\ split_uri u = Some ([], id).
(** Resolved styles with the same values and attributes everywhere, ids aside. *)
Definition same_values (r r2 : res merger) : Prop :=
  match r, r2 with
  | Ok m, Ok m2 => (forall p f, is_simple f = true -> value p f (style m2) = value p f (style m)) /\ (forall p k, k <> S_ "id" -> attribute p k (style m2) = attribute p k (style m))
  | UB, UB => True
  | _, _ => False
  end.
(** Every feature has the same style before and after. *)
Definition values_kept (E : env) split_uri fetch (o o' : obj) : Prop := forall shared shared' highlight fuel, (max_urls <= fuel)%nat -> style_table o shared -> style_table o' shared' ->
  Forall2 (fun f f' => oty f' = oty f /\ same_values (resolve_feature E split_uri fetch shared highlight fuel f) (resolve_feature E split_uri fetch shared' highlight fuel f')) (features o) (features o').

(** ** Lemmas *)
Lemma same_values_refl r : match r with Ok _ | UB => True | _ => False end -> same_values r r.
Proof. destruct r; cbn; auto. Qed.
Lemma twin_value p f a b : twin a b -> value p f b = value p f a.
Proof.
  intros H. unfold value. pose proof (twin_path p a b H) as G. destruct (at_path p a) as [x|], (at_path p b) as [y|]; try contradiction; [|reflexivity].
  pose proof (twin_child f x y G) as K. destruct (child f x), (child f y); try contradiction; [|reflexivity]. cbn [option_map]. now rewrite (twin_data _ _ K).
Qed.
Lemma twin_attribute p k a b : twin a b -> k <> S_ "id" -> attribute p k b = attribute p k a.
Proof.
  intros H Hk. unfold attribute. pose proof (twin_path p a b H) as G. destruct (at_path p a) as [x|], (at_path p b) as [y|]; try contradiction; [|reflexivity].
  inversion G as [ty ka ka' ea tx vec sl sl' mis mis' unk Hka]; subst. cbn [oka oea]. destruct Hka as [->| ->]; [reflexivity|]. unfold view, find_value. rewrite mget_mdel. destruct (eqs k (S_ "id")) eqn:Ek; [apply eqs_spec in Ek; contradiction|reflexivity].
Qed.
Section Pairs.
  Variable x : obj.
  Definition pair_of (h : bool) : obj := put (put (create Type_Pair) Type_key [field Type_key (if h then S_ "highlight" else S_ "normal")]) Type_StyleSelector [x].
  Lemma pair_highlights h : highlights (pair_of h) = h.
  Proof. destruct h; reflexivity. Qed.
  Lemma pair_url h : style_url (pair_of h) = [].
  Proof. destruct h; reflexivity. Qed.
  Lemma pair_own h : own_selector (pair_of h) = Some x.
  Proof. destruct h; reflexivity. Qed.
End Pairs.
Lemma map_pairs a b : pairs (put (create Type_StyleMap) Type_Pair [a; b]) = [a; b].
Proof. reflexivity. Qed.
Lemma map_type a b : oty (put (create Type_StyleMap) Type_Pair [a; b]) = Type_StyleMap.
Proof. reflexivity. Qed.

Section Inlined.
  Variables (E : env) (split_uri : str -> option (str * str)) (fetch : str -> option (list (str * obj))).
  Hypothesis HE : numbers_stable E.
  (** A StyleMap made by the inliner. *)
  Lemma made_map C u m : resolved_selector E split_uri C u = Ok m ->
    exists n h, resolve E split_uri (fun _ => None) C false max_urls u None = Ok n /\ resolve E split_uri (fun _ => None) C true max_urls u None = Ok h /\
      m = put (create Type_StyleMap) Type_Pair [pair_of (clear_ids (style n)) false; pair_of (clear_ids (style h)) true].
  Proof.
    unfold resolved_selector, resolved_pair. destruct (resolve _ _ _ _ false _ _ _) as [n| | |]; cbn [bind]; try discriminate. destruct (resolve _ _ _ _ true _ _ _) as [h| | |]; cbn [bind]; try discriminate.
    intros H. exists n, h. split; [reflexivity|]. split; [reflexivity|]. now injection H.
  Qed.
  Lemma no_url shared h fuel m : (0 < fuel)%nat -> (0 < budget m)%nat -> exists m', merge_url E split_uri fetch shared h fuel [] m = Ok m' /\ style m' = style m /\ S (budget m') = budget m.
  Proof.
    intros Hf Hb. destruct fuel as [|fuel]; [lia|]. destruct m as [b fo st]. cbn [budget] in Hb. destruct b as [|b]; [lia|]. cbn [merge_url budget style followed find_style]. eexists. split; [reflexivity|]. auto.
  Qed.
  (** Its use. *)
  Lemma use_map shared n h hl fuel : (max_urls <= fuel)%nat -> plain E (clear_ids n) -> oty (clear_ids n) = Type_Style -> plain E (clear_ids h) -> oty (clear_ids h) = Type_Style ->
    exists m r, resolve E split_uri fetch shared hl fuel [] (Some (put (create Type_StyleMap) Type_Pair [pair_of (clear_ids n) false; pair_of (clear_ids h) true])) = Ok m /\ style m = r /\
      merge E (clear_ids (if hl then h else n)) (create Type_Style) = Some r.
  Proof.
    intros Hf Hn Tn Hh Th. unfold max_urls in Hf. unfold resolve. destruct (no_url shared hl fuel (fresh max_urls)) as (m1 & Hm1 & S1 & B1); [lia|cbn; unfold max_urls; lia|]. rewrite Hm1. cbn [bind]. rewrite select_eq, map_pairs, map_type.
    change (Type_StyleMap =? Type_Style) with false. change (Type_StyleMap =? Type_StyleMap) with true. cbv iota. cbn [map run_all]. cbn [fresh budget style] in *.
    assert (G : forall x, plain E x -> oty x = Type_Style -> exists m r, (do m' <- merge_url E split_uri fetch shared hl fuel [] m1; select E hl (merge_url E split_uri fetch shared hl fuel) x m') = Ok m /\ style m = r /\ merge E x (create Type_Style) = Some r).
    { intros x Hx Tx. destruct (no_url shared hl fuel m1) as (m2 & Hm2 & S2 & B2); [lia|unfold max_urls in *; lia|]. rewrite Hm2. cbn [bind]. rewrite select_eq, Tx, N.eqb_refl. unfold merge_in. rewrite S2, S1.
      destruct (plain_merge E HE x (create Type_Style) Hx (create_plain E) Tx) as (r & Hr & _). rewrite Hr. exists (with_style m2 r), r. auto. }
    unfold pair_do. rewrite !pair_highlights, !pair_url, !pair_own. destruct hl; cbn [Bool.eqb].
    - cbn [bind]. destruct (G (clear_ids h) Hh Th) as (m & r & G1 & G2 & G3). rewrite G1. cbn [bind]. eauto.
    - destruct (G (clear_ids n) Hn Tn) as (m & r & G1 & G2 & G3). rewrite G1. cbn [bind]. eauto.
  Qed.
  Lemma fresh_fine n : fine E (fresh n).
  Proof. split; [apply create_plain|reflexivity]. Qed.
  (** What the merge with a fresh Style gives. *)
  Lemma merge_fresh x r : plain E x -> oty x = Type_Style -> merge E x (create Type_Style) = Some r ->
    (forall p f, is_simple f = true -> value p f r = value p f x) /\ (forall p k, attribute p k r = attribute p k x).
  Proof.
    intros Hx Tx Hr. destruct (merges_plain E [x] HE ltac:(repeat constructor; apply Hx || exact Tx) (create Type_Style) (create_plain E) eq_refl) as (r' & H & _ & _ & V & A).
    unfold merges in H. cbn in H. rewrite Hr in H. injection H as <-. split.
    - intros p f Hf. rewrite (V p f Hf), (proj1 (create_empty p)). cbn. now destruct (value p f x).
    - intros p k. rewrite (A p k), (proj2 (create_empty p)). cbn. now destruct (attribute p k x).
  Qed.
End Inlined.

(** ** The whole document *)
Lemma shared_listed o d : features o = d :: flat_map features (get d gF) -> oty d = Type_Document -> Forall (fun f => is_a (oty f) Type_Document = false) (flat_map features (get d gF)) -> shared_list o = get d gS.
Proof.
  intros H Hd Hf. unfold shared_list. rewrite H. cbn [flat_map]. rewrite Hd. change (Type_Document =? Type_Document) with true. cbv iota.
  assert (G : flat_map (fun d => if oty d =? Type_Document then get d Type_StyleSelector else []) (flat_map features (get d gF)) = []).
  { clear H. induction Hf as [|f l Hx Hl IH]; [reflexivity|]. cbn [flat_map]. rewrite IH, app_nil_r. destruct (oty f =? Type_Document) eqn:E1; [|reflexivity]. apply N.eqb_eq in E1. rewrite E1 in Hx. discriminate. }
  now rewrite G, app_nil_r.
Qed.
Lemma result_values E split_uri fetch o o' : numbers_stable E -> iresult E split_uri o o' -> distinct_ids o ->
  (forall id x, shared_in o id x -> plain_selector E x /\ forall u path i, In u (refs x) -> split_uri u = Some (path, i) -> path = []) ->
  (forall f x u, In f (features o) -> oty f <> Type_Document -> In x (get f Type_StyleSelector) -> In u (refs x) -> ~ refers_to_shared split_uri o u) ->
  (forall d, In d (features o) -> oty d = Type_Document -> ~ refers_to_shared split_uri o (style_url d)) ->
  (forall v m id x u, fetch v = Some m -> mget id m = Some x -> In u (refs x) -> ~ refers_to_shared split_uri o u) ->
  values_kept E split_uri fetch o o' /\ (forall id x, ~ shared_in o' id x) /\ (forall f, In f (features o') -> style_url f = [] \/ ~ refers_to_shared split_uri o (style_url f)).
Proof.
  intros HE (d & d' & Td & Td' & Fo & Fo' & Ud & Sd & HF) Hdist Hplain Hinl Hdoc Hfetch. set (C := style_map (get d gS)) in *.
  assert (N1 : Forall (fun f => is_a (oty f) Type_Document = false) (flat_map features (get d gF))).
  { rewrite Forall_forall. intros f Hf. destruct (Forall2_left _ _ _ _ HF Hf) as (f' & _ & Ho). destruct Ho; assumption. }
  assert (N2 : Forall (fun f => is_a (oty f) Type_Document = false) (flat_map features (get d' gF))).
  { rewrite Forall_forall. intros f' Hf. destruct (Forall2_right _ _ _ _ HF Hf) as (f & _ & Ho). destruct Ho; congruence. }
  assert (L1 : shared_list o = get d gS) by (apply shared_listed; auto).
  assert (L2 : shared_list o' = get d' gS) by (apply shared_listed; auto).
  assert (TC : style_table o C) by (pose proof (table_ok o) as T; rewrite L1 in T; exact T).
  assert (None' : forall id x, ~ shared_in o' id x).
  { intros id x Hx. apply shared_list_in in Hx as [Hx Hi]. rewrite L2, Sd in Hx. apply filter_In in Hx as [_ Hx]. unfold unnamed in Hx. rewrite Hi in Hx. discriminate. }
  assert (Away : forall u, away split_uri C u <-> u = [] \/ ~ refers_to_shared split_uri o u).
  { intros u. unfold away. split; intros [H|H]; auto; right.
    - intros (id & x & Hx & Hs). destruct (proj2 TC id x Hx) as [y Hy]. rewrite (H id Hs) in Hy. discriminate.
    - intros id Hs. destruct (mget id C) as [x|] eqn:Ex; [|reflexivity]. exfalso. apply H. exists id, x. split; [now apply (proj1 TC)|exact Hs]. }
  split; [|split; [exact None'|]].
  2:{ intros f Hf. rewrite Fo' in Hf. destruct Hf as [<-|Hf].
      - right. rewrite style_url_get. change Type_styleUrl with gU. rewrite Ud. change (~ refers_to_shared split_uri o (style_url d)). apply Hdoc; auto. rewrite Fo. now left.
      - destruct (Forall2_right _ _ _ _ HF Hf) as (f0 & _ & Ho). destruct Ho as [H1 H2 H3 H4 H5|u id x m H1 H2 H3 H4 H5 H6 H7 H8 H9].
        + rewrite (url_same _ _ H3). now apply Away.
        + left. rewrite style_url_get. change Type_styleUrl with gU. now rewrite H5. }
  intros shared shared' h fuel Hfuel [T1 T2] [T1' T2'].
  assert (Tsame : forall id, mget id shared = mget id C).
  { intros id. destruct (mget id shared) as [x|] eqn:E1, (mget id C) as [y|] eqn:E2; auto.
    - f_equal. apply (Hdist id); [now apply T1|now apply (proj1 TC)].
    - destruct (proj2 TC id x (T1 _ _ E1)) as [y Hy]. congruence.
    - destruct (T2 id y (proj1 TC _ _ E2)) as [x Hx]. congruence. }
  assert (Tnone : forall id, mget id shared' = None).
  { intros id. destruct (mget id shared') as [x|] eqn:E1; [|reflexivity]. exfalso. exact (None' _ _ (T1' _ _ E1)). }
  assert (Hends : forall f, match resolve_feature E split_uri fetch shared h fuel f with Ok _ | UB => True | _ => False end).
  { intros f. pose proof (resolve_terminates E split_uri fetch shared h fuel (style_url f) (inline_style f) Hfuel) as [_ G]. unfold resolve_feature. destruct (resolve _ _ _ _ _ _ _ _); auto. }
  (* references which are kept *)
  assert (Hkept : forall u s, away split_uri C u -> (forall x, s = Some x -> clean_in (away split_uri C) x) -> resolve E split_uri fetch shared h fuel u s = resolve E split_uri fetch shared' h fuel u s).
  { intros u s Hu Hs. apply (resolve_same E h (away split_uri C) (or_introl eq_refl)); auto.
    - intros v [->|Hv]; [reflexivity|]. unfold find_style. destruct v as [|ch v]; [reflexivity|]. destruct (split_uri (ch :: v)) as [[path [|c id]]|]; try reflexivity. destruct path; [|reflexivity]. rewrite Tsame, Tnone. now apply Hv.
    - intros v x [->|Hv]; [discriminate|]. unfold find_style. destruct v as [|ch v]; [discriminate|]. destruct (split_uri (ch :: v)) as [[path [|c id]]|]; try discriminate. destruct path; [rewrite Tsame, Hv by reflexivity; discriminate|].
      destruct (fetch (ch :: v)) as [m|] eqn:Ef; [|discriminate]. intros G w Hw. apply Away. right. eapply Hfetch; eauto. }
  rewrite Fo, Fo'. constructor.
  - split; [congruence|]. unfold resolve_feature. assert (style_url d' = style_url d) as -> by (rewrite !style_url_get; change Type_styleUrl with gU; now rewrite Ud). rewrite !inline_get, Td, Td'. change (Type_Document =? Type_Document) with true. cbv iota.
    rewrite <- Hkept; [|apply Away; right; apply Hdoc; [rewrite Fo; now left|exact Td]|congruence]. apply same_values_refl. pose proof (Hends d) as G. unfold resolve_feature in G. rewrite inline_get, Td in G. exact G.
  - apply (Forall2_refine (iown E split_uri C)); [exact HF|]. intros f f' Hf Ho. assert (Hfo : In f (features o)) by (rewrite Fo; now right). destruct Ho as [H1 H2 H3 H4 H5|u id x m H1 H2 H3 H4 H5 H6 H7 H8 H9]; (split; [exact H1|]).
    + assert (Hnd : (oty f =? Type_Document) = false) by (apply N.eqb_neq; intros G; rewrite G in H2; discriminate).
      assert (Hi : inline_style f' = inline_style f) by (rewrite !inline_get, H1; change Type_StyleSelector with gS; now rewrite H4).
      unfold resolve_feature. rewrite (url_same _ _ H3), Hi. rewrite <- Hkept; auto; [apply same_values_refl; apply Hends|].
      intros y Hy v Hv. rewrite inline_get, Hnd in Hy. destruct (get f Type_StyleSelector) as [|z l] eqn:Eg; [discriminate|]. injection Hy as ->. apply Away. right. apply (Hinl f y v Hfo); auto; [now apply N.eqb_neq|rewrite Eg; now left].
    + assert (Hnd : (oty f =? Type_Document) = false) by (apply N.eqb_neq; intros G; rewrite G in H2; discriminate).
      unfold resolve_feature. rewrite !inline_get, H1, Hnd. change Type_StyleSelector with gS. rewrite H4, H6. rewrite !style_url_get. change Type_styleUrl with gU. rewrite H3, H5. change (char_data (field gU u)) with u.
      destruct (made_map E split_uri C u m H9) as (n & hh & Hn & Hh & ->).
      set (local := fun v : str => forall path i, split_uri v = Some (path, i) -> path = []) in *.
      assert (Same : forall hl, resolve E split_uri fetch shared hl fuel u None = resolve E split_uri (fun _ => None) C hl max_urls u None).
      { intros hl. rewrite (proj1 (resolve_terminates E split_uri fetch shared hl fuel u None Hfuel)). apply (resolve_same E hl (fun v => v = [] \/ local v) (or_introl eq_refl)).
        - intros v [->|Hv]; [reflexivity|]. unfold find_style. destruct v as [|ch v]; [reflexivity|]. destruct (split_uri (ch :: v)) as [[path [|c i]]|] eqn:Es; try reflexivity. rewrite (Hv _ _ Es). apply Tsame.
        - intros v y [->|Hv]; [discriminate|]. unfold find_style. destruct v as [|ch v]; [discriminate|]. destruct (split_uri (ch :: v)) as [[path [|c i]]|] eqn:Es; try discriminate. rewrite (Hv _ _ Es). intros G w Hw. right. intros path' i' Hs. exact (proj2 (Hplain _ _ (T1 _ _ G)) w path' i' Hw Hs).
        - right. intros path i Hs. rewrite H7 in Hs. now injection Hs.
        - discriminate. }
      assert (Fine : forall hl k, resolve E split_uri (fun _ => None) C hl max_urls u None = Ok k -> fine E k).
      { intros hl k Hk. unfold resolve in Hk. destruct (merge_url _ _ _ _ _ _ _ _) as [k'| | |] eqn:Ek; cbn [bind] in Hk; try discriminate. injection Hk as <-. eapply (url_fine E HE); [|apply fresh_fine|exact Ek].
        intros v y. unfold find_style. destruct v as [|ch v]; [discriminate|]. destruct (split_uri (ch :: v)) as [[path [|c i]]|]; try discriminate. destruct path; [|discriminate]. intros G. exact (proj1 (Hplain _ _ (proj1 TC _ _ G))). }
      assert (Clear : forall k, fine E k -> plain E (clear_ids (style k)) /\ oty (clear_ids (style k)) = Type_Style).
      { intros k [K1 K2]. split; [exact (twin_plain E HE _ _ (clear_ids_twin _) K1)|]. now rewrite (twin_ty _ _ (clear_ids_twin (style k))). }
      destruct (Clear n (Fine _ _ Hn)) as [Pn Tn]. destruct (Clear hh (Fine _ _ Hh)) as [Ph Th].
      destruct (use_map E split_uri fetch HE shared' (style n) (style hh) h fuel Hfuel Pn Tn Ph Th) as (r & s & Hr & Hs & Hm). rewrite Hr, (Same h).
      assert (G : forall k, resolve E split_uri (fun _ => None) C h max_urls u None = Ok k -> (if h then style hh else style n) = style k) by (intros k Hk; destruct h; congruence).
      destruct (resolve E split_uri (fun _ => None) C h max_urls u None) as [k| | |] eqn:Ek; [|destruct h; congruence..]. specialize (G k eq_refl). rewrite G in Hm. destruct (Clear k (Fine _ _ Ek)) as [Pk Tk].
      destruct (merge_fresh E HE _ _ Pk Tk Hm) as [V A]. unfold same_values. rewrite Hs. split.
      * intros p g Hg. rewrite (V p g Hg). apply twin_value, clear_ids_twin.
      * intros p g Hg. rewrite (A p g). apply twin_attribute; [apply clear_ids_twin|exact Hg].
Qed.

(** C33. InlineStyles keeps the resolved style of every feature of a file of one Document, ids aside, leaves no shared style, and
    no reference of a feature to one.  The conditions: in the Document (tidy) the shared styles come before the features, a
    feature with a reference into the file has no other style or reference, styles and references contain no features, and there is no
    further Document and no Update; the shared styles have different ids, their Styles are plain (StylePlain.v: MergeElements copies
    them) and they refer to this file only; and no reference from another place (in an inline StyleMap, of the Document, in fetched
    files) is to a shared style. *)
Theorem inline_preserves : forall E split_uri fetch n o o', numbers_stable E -> tidy_document E split_uri n -> build E n = Ok o -> inline_styles E split_uri n = Ok o' -> distinct_ids o ->
  (forall id x, shared_in o id x -> plain_selector E x /\ forall u path i, In u (refs x) -> split_uri u = Some (path, i) -> path = []) ->
  (forall f x u, In f (features o) -> oty f <> Type_Document -> In x (get f Type_StyleSelector) -> In u (refs x) -> ~ refers_to_shared split_uri o u) ->
  (forall d, In d (features o) -> oty d = Type_Document -> ~ refers_to_shared split_uri o (style_url d)) ->
  (forall v m id x u, fetch v = Some m -> mget id m = Some x -> In u (refs x) -> ~ refers_to_shared split_uri o u) ->
  values_kept E split_uri fetch o o' /\ (forall id x, ~ shared_in o' id x) /\ (forall f, In f (features o') -> style_url f = [] \/ ~ refers_to_shared split_uri o (style_url f)).
Proof. intros E sp fe n o o' HE H1 H2 H3. apply result_values; [exact HE|]. now apply (inline_result E sp n). Qed.
Print Assumptions inline_preserves.

(** Checking the hypotheses on an example. *)
Definition tidy_documentb (E : env) split_uri (n : node) : bool :=
  let 'Node ty _ _ log := n in
  if ty =? Type_Document then tidy E split_uri log
  else (ty =? Type_kml) && match first_child log with Some (a, c, b) => (nty c =? Type_Document) && childless b && (let 'Node _ _ _ dlog := c in tidy E split_uri dlog) | None => false end.
Lemma tidy_documentb_spec E sp n : tidy_documentb E sp n = true -> tidy_document E sp n.
Proof.
  destruct n as [ty a cd log]. unfold tidy_documentb. destruct (ty =? Type_Document) eqn:E1; [apply N.eqb_eq in E1; subst; now apply tidy_bare|].
  rewrite andb_true_iff, N.eqb_eq. intros [-> H]. destruct (first_child log) as [[[p c] q]|] eqn:E2; [|discriminate]. apply first_child_spec in E2 as [-> Hp]. rewrite !andb_true_iff, N.eqb_eq in H. destruct H as ((H1 & H2) & H3).
  destruct c as [t da dcd dlog]. cbn [nty] in H1. subst t. now apply tidy_kml.
Qed.
(** Styles, and maps of references. *)
Definition flat_selector (E : env) (x : obj) : bool := (negb (oty x =? Type_Style) || plainb E x) && forallb (fun p => match own_selector p with None => true | _ => false end) (pairs x).
Lemma flat_selector_spec E x : flat_selector E x = true -> plain_selector E x.
Proof.
  unfold flat_selector. rewrite andb_true_iff. intros [H1 H2]. constructor.
  - intros Ht. apply plainb_plain. apply N.eqb_eq in Ht. now rewrite Ht in H1.
  - intros p c Hp Hc. rewrite forallb_forall in H2. specialize (H2 p Hp). rewrite Hc in H2. discriminate.
Qed.
Definition to_shared (o : obj) (u : str) : bool := match split0 u with Some ([], id) => existsb (fun x => match id_of x with Some i => eqs i id | None => false end) (shared_list o) | _ => false end.
Lemma to_shared_spec o u : to_shared o u = false -> ~ refers_to_shared split0 o u.
Proof.
  unfold to_shared. intros H (id & x & Hx & Hs). rewrite Hs in H. apply shared_list_in in Hx as [Hx Hi]. assert (existsb (fun x => match id_of x with Some i => eqs i id | None => false end) (shared_list o) = true); [|congruence].
  apply existsb_exists. exists x. split; [exact Hx|]. rewrite Hi. apply eqs_refl.
Qed.
Definition remoteb (u : str) : bool := match split0 u with Some (_ :: _, _) => true | _ => false end.
Definition inline_conditions (o : obj) : bool :=
  uniq (map id_of (shared_list o)) && forallb (fun x => flat_selector E0 x && forallb (fun u => negb (remoteb u)) (refs x)) (shared_list o) &&
  forallb (fun f => if oty f =? Type_Document then negb (to_shared o (style_url f)) else forallb (fun x => forallb (fun u => negb (to_shared o u)) (refs x)) (get f Type_StyleSelector)) (features o).
Lemma inline_conditions_spec o : inline_conditions o = true -> distinct_ids o /\
  (forall id x, shared_in o id x -> plain_selector E0 x /\ forall u path i, In u (refs x) -> split0 u = Some (path, i) -> path = []) /\
  (forall f x u, In f (features o) -> oty f <> Type_Document -> In x (get f Type_StyleSelector) -> In u (refs x) -> ~ refers_to_shared split0 o u) /\
  (forall d, In d (features o) -> oty d = Type_Document -> ~ refers_to_shared split0 o (style_url d)).
Proof.
  unfold inline_conditions. rewrite !andb_true_iff. intros ((H1 & H2) & H3). rewrite forallb_forall in H2, H3. split; [|split; [|split]].
  - intros id x y Hx Hy. apply shared_list_in in Hx as [Hx Ix], Hy as [Hy Iy]. now apply (uniq_spec _ H1 id).
  - intros id x Hx. apply shared_list_in in Hx as [Hx _]. specialize (H2 x Hx). apply andb_true_iff in H2 as [K1 K2]. split; [now apply flat_selector_spec|]. intros u path i Hu Hs. rewrite forallb_forall in K2. specialize (K2 u Hu). unfold remoteb in K2. rewrite Hs in K2. now destruct path.
  - intros f x u Hf Hn Hx Hu. specialize (H3 f Hf). apply N.eqb_neq in Hn. rewrite Hn in H3. rewrite forallb_forall in H3. specialize (H3 x Hx). rewrite forallb_forall in H3. specialize (H3 u Hu). apply to_shared_spec. now apply negb_true_iff.
  - intros f Hf Ht. specialize (H3 f Hf). rewrite Ht in H3. change (Type_Document =? Type_Document) with true in H3. apply to_shared_spec. now apply negb_true_iff.
Qed.
Definition inline_from (n : node) : obj := match inline_styles E0 split0 n with Ok o => o | _ => create 0 end.
Definition isample : node := node_of_text (S_ "<kml><Document><name>d</name><Style id=""a""><PolyStyle><fill>0</fill></PolyStyle></Style><Style id=""b""><LineStyle><width>3</width></LineStyle></Style><StyleMap id=""m""><Pair><key>normal</key><styleUrl>#a</styleUrl></Pair><Pair><key>highlight</key><styleUrl>#b</styleUrl></Pair></StyleMap><Placemark><styleUrl>#m</styleUrl></Placemark><Folder><Placemark><styleUrl>#a</styleUrl></Placemark><Placemark><styleUrl>o.kml#a</styleUrl><Style id=""x""><LineStyle><width>2</width></LineStyle></Style></Placemark><Placemark><styleUrl>#c</styleUrl></Placemark></Folder></Document></kml>").
Definition ilooks (h : bool) (o : obj) : list (option str) := map (resolved h (table (shared_list o))) (features o).
Example inline_sample : tidy_document E0 split0 isample /\ build E0 isample = Ok (made_from isample) /\ inline_styles E0 split0 isample = Ok (inline_from isample) /\ inline_conditions (made_from isample) = true /\
  ilooks true (made_from isample) = [Some (S_ "<Style/>"); Some (S_ "<Style id=""b""><LineStyle><width>3</width></LineStyle></Style>"); Some (S_ "<Style/>"); Some (S_ "<Style id=""a""><PolyStyle><fill>0</fill></PolyStyle></Style>"); Some (S_ "<Style id=""x""><LineStyle><width>2</width></LineStyle></Style>"); Some (S_ "<Style/>")] /\
  ilooks true (inline_from isample) = [Some (S_ "<Style/>"); Some (S_ "<Style><LineStyle><width>3</width></LineStyle></Style>"); Some (S_ "<Style/>"); Some (S_ "<Style><PolyStyle><fill>0</fill></PolyStyle></Style>"); Some (S_ "<Style id=""x""><LineStyle><width>2</width></LineStyle></Style>"); Some (S_ "<Style/>")].
Proof. split; [apply tidy_documentb_spec; vm_compute; reflexivity|]. repeat split; vm_compute; reflexivity. Qed.

(** The conditions are needed. *)
Definition lengths (h : bool) (o : obj) : list bool := map (fun f => match resolve_feature E0 split0 no_fetch (table (shared_list o)) h max_urls f with Ok m => match value [Type_LineStyle] Type_width (style m) with Some _ => true | None => false end | _ => false end) (features o).
Fixpoint same_bools (a b : list bool) : bool := match a, b with [], [] => true | x :: a, y :: b => Bool.eqb x y && same_bools a b | _, _ => false end.
Definition inline_breaks (n : node) : Prop := exists o o', build E0 n = Ok o /\ inline_styles E0 split0 n = Ok o' /\ ~ values_kept E0 split0 no_fetch o o'.
Lemma values_lengths h o o' : values_kept E0 split0 no_fetch o o' -> same_bools (lengths h o) (lengths h o') = true.
Proof.
  intros H. specialize (H _ _ h max_urls (le_n _) (table_ok o) (table_ok o')). unfold lengths. revert H. 
  generalize (resolve_feature E0 split0 no_fetch (table (shared_list o)) h max_urls) as g. generalize (resolve_feature E0 split0 no_fetch (table (shared_list o')) h max_urls) as g'. intros g' g.
  induction 1 as [|f f' l l' [_ Hf] Hl IH]; [reflexivity|]. cbn [map same_bools]. rewrite IH, andb_true_r. unfold same_values in Hf. destruct (g f), (g' f'); try contradiction; auto. rewrite (proj1 Hf [Type_LineStyle] Type_width eq_refl). apply Bool.eqb_reflx.
Qed.
Lemma inline_breaks_spec h n : match build E0 n, inline_styles E0 split0 n with Ok o, Ok o' => same_bools (lengths h o) (lengths h o') | _, _ => true end = false -> inline_breaks n.
Proof.
  unfold inline_breaks. destruct (build E0 n) as [o| | |], (inline_styles E0 split0 n) as [o'| | |]; try discriminate. intros H. exists o, o'. split; [reflexivity|]. split; [reflexivity|]. intros K. apply (values_lengths h) in K. rewrite K in H. discriminate.
Qed.
Ltac ibroken := apply (inline_breaks_spec false); vm_compute; reflexivity.
(** The style comes after the feature: it is taken out of the Document but not put into the feature. *)
Theorem inline_forward_reference_refuted : inline_breaks (node_of_text (S_ "<Document><Placemark><styleUrl>#a</styleUrl></Placemark><Style id=""a""><LineStyle><width>1</width></LineStyle></Style></Document>")).
Proof. ibroken. Qed.
Print Assumptions inline_forward_reference_refuted.
(** The Document itself refers to the style. *)
Theorem inline_document_reference_refuted : inline_breaks (node_of_text (S_ "<Document><styleUrl>#a</styleUrl><Style id=""a""><LineStyle><width>1</width></LineStyle></Style></Document>")).
Proof. ibroken. Qed.
Print Assumptions inline_document_reference_refuted.
(** A feature with a reference and a style of its own. *)
Theorem inline_both_refuted : inline_breaks (node_of_text (S_ "<Document><Style id=""a""><LineStyle><width>1</width></LineStyle></Style><Placemark><styleUrl>#a</styleUrl><Style><PolyStyle><fill>0</fill></PolyStyle></Style></Placemark></Document>")).
Proof. ibroken. Qed.
Print Assumptions inline_both_refuted.
(** A feature whose own StyleMap refers to the style. *)
Theorem inline_map_reference_refuted : inline_breaks (node_of_text (S_ "<Document><Style id=""a""><LineStyle><width>1</width></LineStyle></Style><Placemark><StyleMap><Pair><key>normal</key><styleUrl>#a</styleUrl></Pair></StyleMap></Placemark></Document>")).
Proof. ibroken. Qed.
Print Assumptions inline_map_reference_refuted.

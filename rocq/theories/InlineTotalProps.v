(** Resolving and inlining styles is defined whenever the styles are plain (C29, C33). *)
From Verif Require Import Common StrMap StringsModel ColorModel AttributesModel AttributesProofs XsdTables XsdModel XsdProofs XmlSpec XmlSpecProofs SerializerModel CoordModel HandlerModel HandlerSpec HandlerProps.
From Verif Require Import DomTables DomModel DomSpec DomProofs DomProofs2 DomParsed CloneModel CloneProofs MergeModel MergeProofs IdModel StyleModel StyleProofs StylePlain StyleTwin SplitModel SplitProofs SplitProofs2 SplitProofs3.
From Verif Require Import FileProps InlineProofs DomProps StyleProps SplitProps InlineProps BareSpec BareProps SplitTotalProps.
Local Open Scope N_scope.

Definition fine_end (E : env) (r : res merger) : Prop := match r with Ok m => fine E m | Fuel => True | _ => False end.
Section Defined.
  Variable E : env.
  Hypothesis HE : numbers_stable E.
  Lemma select_end h url : (forall u m, fine E m -> fine_end E (url u m)) -> forall s m, plain_selector E s -> fine E m -> fine_end E (select E h url s m).
  Proof.
    intros Hu. induction s as [s IH] using selector_ind. intros m Hs Hm. inversion Hs as [? S1 S2]; subst. rewrite select_eq. destruct (oty s =? Type_Style) eqn:E1.
    { apply N.eqb_eq in E1. unfold merge_in. destruct Hm as [M1 M2]. destruct (plain_merge E HE s (style m) (S1 E1) M1 ltac:(congruence)) as (r & Hr & Hp & Ht). rewrite Hr. split; [exact Hp|]. cbn [with_style style]. congruence. }
    destruct (oty s =? Type_StyleMap); [|exact Hm].
    assert (G : forall l, incl l (pairs s) -> forall m, fine E m -> fine_end E (run_all (map (pair_do E h url) l) m)).
    { induction l as [|p l IHl]; intros Hl x Hx; cbn [map run_all]; [exact Hx|].
      assert (K : fine_end E (pair_do E h url p x)).
      { unfold pair_do. destruct (Bool.eqb _ h); [|exact Hx]. pose proof (Hu (style_url p) x Hx) as Hz. destruct (url (style_url p) x) as [z| | |]; cbn [bind]; try exact Hz.
        destruct (own_selector p) as [c|] eqn:Ec; [|exact Hz]. apply (IH p c (Hl p (or_introl eq_refl)) Ec z); auto. apply (S2 p c); auto. apply Hl. now left. }
      destruct (pair_do E h url p x) as [y| | |]; cbn [bind]; try exact K. apply IHl; [|exact K]. intros z Hz. apply Hl. now right. }
    apply (G (pairs s) (incl_refl _) m Hm).
  Qed.
  Lemma url_end split_uri fetch shared h : (forall u s, find_style split_uri fetch shared u = Some s -> plain_selector E s) ->
    forall fuel u m, fine E m -> fine_end E (merge_url E split_uri fetch shared h fuel u m).
  Proof.
    intros Hp. induction fuel as [|fuel IH]; intros u m Hm; cbn [merge_url].
    - destruct (budget m); [exact Hm|exact I].
    - destruct (budget m); [exact Hm|]. destruct (find_style split_uri fetch shared u) as [s|] eqn:Es; [|exact Hm].
      apply select_end; [exact IH|eauto|exact Hm].
  Qed.
End Defined.
(** C29. With plain styles (StylePlain.v: nothing unknown, misplaced or repeated in them) resolving is always defined: it gives a Style, which is plain again. *)
Theorem resolve_defined : forall E split_uri fetch shared highlight fuel u s, numbers_stable E -> (max_urls <= fuel)%nat ->
  (forall v x, find_style split_uri fetch shared v = Some x -> plain_selector E x) -> (forall x, s = Some x -> plain_selector E x) ->
  exists m, resolve E split_uri fetch shared highlight fuel u s = Ok m /\ oty (style m) = Type_Style /\ plain E (style m) /\ (length (followed m) <= 5)%nat.
Proof.
  intros E split_uri fetch shared h fuel u s HE Hf Hp Hs.
  assert (K : fine_end E (resolve E split_uri fetch shared h fuel u s)).
  { unfold resolve. pose proof (url_end E HE split_uri fetch shared h Hp fuel u (fresh max_urls) (fresh_fine E max_urls)) as K. destruct (merge_url E split_uri fetch shared h fuel u (fresh max_urls)) as [m| | |]; cbn [bind]; try exact K.
    destruct s as [x|]; [|exact K]. apply (select_end E HE h); [|now apply Hs|exact K]. intros v k Hk. now apply url_end. }
  pose proof (resolve_terminates E split_uri fetch shared h fuel u s Hf) as [_ T]. destruct (resolve E split_uri fetch shared h fuel u s) as [m| | |]; try contradiction. exists m. destruct K as [K1 K2]. auto.
Qed.
Print Assumptions resolve_defined.

Section Total.
  Variables (E : env) (split_uri : str -> option (str * str)).
  Hypothesis HE : numbers_stable E.
  (** The named styles of Documents in the text are plain, and contain no features or Updates. *)
  Definition named_plain (n : node) : Prop := forall p c, inside n p c -> is_a p Type_Document = true -> is_a (nty c) Type_StyleSelector = true ->
    calm c = true /\ forall x, build E c = Ok x -> plain_selector E x.
  Definition caught (s : inliner) : Prop := msorted (captured s) /\ forall id x, mget id (captured s) = Some x -> plain_selector E x.
  Lemma calm_busy n : calm n = true -> forall s, in_update s = true -> inline_build E split_uri n s = do o <- build E n; Ok (o, s).
  Proof.
    induction n as [ty a cd log IH] using node_all. cbn [calm]. rewrite !andb_true_iff, !negb_true_iff. intros ((H1 & H2) & H3) s Hs. rewrite inline_build_eq, build_eq, inline_new_same by exact H2.
    generalize (start E ty a cd) as o. revert IH H3. induction log as [|e l IHl]; intros IH H3 o; [reflexivity|]. cbn [forallb] in H3. apply andb_true_iff in H3 as [He H3].
    assert (IH' : forall c, In (LChild c) l -> calm c = true -> forall s, in_update s = true -> inline_build E split_uri c s = do o <- build E c; Ok (o, s)) by (intros c Hc; apply IH; now right).
    cbn [iloop DomProofs.steps]. destruct e as [c|x|x|x|u sd].
    2,3,4,5: rewrite entry_same by congruence; destruct (add_entry E _ o) as [o1| | |] eqn:E1; cbn [bind]; try reflexivity; apply IHl; auto.
    cbn [entry_step]. rewrite (IH c (or_introl eq_refl) He s Hs). destruct (build E c) as [c'| | |] eqn:Ec; cbn [bind]; try reflexivity. destruct (build_ty E _ _ Ec) as [_ Tc].
    assert (Hc : is_a (oty c') Type_Update = false) by (rewrite Tc; destruct c; cbn [calm nty] in *; rewrite !andb_true_iff, !negb_true_iff in He; tauto).
    unfold inline_end. rewrite Hs, Hc. destruct (add_element E o c') as [o1| | |] eqn:E1; cbn [bind]; try reflexivity. apply IHl; auto.
  Qed.
  Lemma calm_same n : calm n = true -> forall s, inline_build E split_uri n s = do o <- build E n; Ok (o, s).
  Proof. intros H s. destruct (in_update s) eqn:Es; [now apply calm_busy|now apply inline_calm]. Qed.
  Lemma selector_defined C u : (forall id x, mget id C = Some x -> plain_selector E x) -> exists m, resolved_selector E split_uri C u = Ok m.
  Proof.
    intros HC. assert (F : forall v x, find_style split_uri (fun _ => None) C v = Some x -> plain_selector E x).
    { intros v x. unfold find_style. destruct v as [|a v]; [discriminate|]. destruct (split_uri (a :: v)) as [[path [|i id]]|]; try discriminate. destruct path; [apply HC|discriminate]. }
    unfold resolved_selector, resolved_pair.
    destruct (resolve_defined E split_uri (fun _ => None) C false max_urls u None HE (le_n _) F ltac:(discriminate)) as (m1 & -> & _).
    destruct (resolve_defined E split_uri (fun _ => None) C true max_urls u None HE (le_n _) F ltac:(discriminate)) as (m2 & -> & _). cbn [bind]. eauto.
  Qed.
  Lemma end_defined p p' c c' s q : bare p = bare p' -> bare c = bare c' -> add_element E p c = Ok q -> caught s ->
    (in_update s = false -> is_a (oty p) Type_Document = true -> is_a (oty c) Type_StyleSelector = true -> plain_selector E c') ->
    exists q' s', inline_end E split_uri p' c' s = Ok (q', s') /\ caught s'.
  Proof.
    intros Hp Hc Hq [Hs Hx] Hpl. unfold inline_end.
    assert (A : forall s1, caught s1 -> exists q' s', (do p1 <- add_element E p' c'; Ok (p1, s1)) = Ok (q', s') /\ caught s').
    { intros s1 H1. destruct (add_defined E p' p c' c q (eq_sym Hp) (eq_sym Hc) Hq) as [q' ->]. cbn [bind]. eauto. }
    set (after := if is_a (oty c') Type_Update then {| captured := captured s; in_update := false |} else s).
    assert (Ha : caught after /\ captured after = captured s) by (unfold after; destruct (is_a (oty c') Type_Update); split; try reflexivity; split; auto).
    destruct Ha as [Ha Hcap]. destruct (in_update s) eqn:Eu; [now apply A|]. match goal with |- context [if ?b then Ok _ else _] => destruct b eqn:Eb end.
    { apply andb_prop in Eb as [Eb _]. apply andb_prop in Eb as [Eb1 Eb2]. eexists. eexists. split; [reflexivity|]. split; cbn [captured]; [now apply mset_sorted|].
      intros id x. rewrite mget_mset by exact Hs. destruct (eqs id _); [|apply Hx]. intros G; injection G as <-. apply Hpl; [reflexivity|now rewrite (bare_same_ty _ _ Hp)|now rewrite (bare_same_ty _ _ Hc)]. }
    match goal with |- context [if ?b then match _ with _ => _ end else _] => destruct b eqn:Ez end; [|now apply A].
    destruct (split_uri (char_data c')) as [[[|y u] id]|]; [|now apply A..]. destruct (mget id (captured s)); [|now apply A].
    destruct (selector_defined (captured s) (char_data c') Hx) as [m ->]. cbn [bind]. eauto.
  Qed.
  Lemma inline_total n : concrete n = true -> named_plain n -> forall s r, caught s -> build E n = Ok r -> exists r' s', inline_build E split_uri n s = Ok (r', s') /\ caught s'.
  Proof.
    induction n as [ty a cd log IH] using node_all. intros Hcon Hpl s r Hs Hr. cbn [concrete] in Hcon. apply andb_prop in Hcon as [Hty Hcon]. apply negb_true_iff, N.eqb_neq in Hty.
    rewrite build_eq in Hr. rewrite inline_build_eq. destruct (start_sized E ty a cd) as [S0 T0].
    assert (Hs0 : caught (inline_new ty s)) by (destruct Hs; split; assumption). revert Hs0. generalize (inline_new ty s). clear s Hs. intros s Hs.
    assert (Hchild : forall c, In (LChild c) log -> named_plain c /\ (is_a ty Type_Document = true -> is_a (nty c) Type_StyleSelector = true -> calm c = true /\ forall x, build E c = Ok x -> plain_selector E x)).
    { intros c Hc. split; [intros p d Hd; apply (Hpl p d); now apply in_deeper with (c := c)|]. apply (Hpl ty c). now apply in_here. }
    clear Hpl. assert (Hb : bare (start E ty a cd) = bare (start E ty a cd)) by reflexivity. revert S0 T0 Hb Hr.
    generalize (start E ty a cd) at 1 2 3 5. generalize (start E ty a cd). intros o' o. revert o o' s Hs.
    induction log as [|e l IHl]; intros o o' s Hs S0 T0 Hb Hr; [cbn; eauto|].
    cbn [forallb] in Hcon. apply andb_prop in Hcon as [He Hcon].
    assert (IH' : forall c, In (LChild c) l -> concrete c = true -> named_plain c -> forall s r, caught s -> build E c = Ok r -> exists r' s', inline_build E split_uri c s = Ok (r', s') /\ caught s') by (intros c Hc; apply IH; now right).
    assert (Hch' : forall c, In (LChild c) l -> named_plain c /\ (is_a ty Type_Document = true -> is_a (nty c) Type_StyleSelector = true -> calm c = true /\ forall x, build E c = Ok x -> plain_selector E x)) by (intros c Hc; apply Hchild; now right).
    cbn [DomProofs.steps iloop] in Hr |- *. destruct e as [c|x|x|x|u sd].
    2,3,4,5: (rewrite entry_same in Hr by congruence; destruct (add_entry E _ o) as [o1| | |] eqn:E1 in Hr; cbn [bind] in Hr; try discriminate;
      destruct (entry_defined E _ _ _ _ (eq_sym Hb) E1) as [o1' E1']; rewrite E1'; cbn [bind];
      pose proof (entry_same2 E _ _ _ _ _ Hb E1 E1') as Hb1; apply entry_get in E1 as (S1 & T1 & _); [|congruence|exact S0];
      apply (IHl IH' Hcon Hch' o1 o1' s); auto; congruence).
    cbn [entry_step] in Hr. destruct (build E c) as [c1| | |] eqn:Ec; cbn [bind] in Hr; try discriminate. destruct (add_element E o c1) as [o1| | |] eqn:E1; cbn [bind] in Hr; try discriminate.
    destruct (Hchild c (or_introl eq_refl)) as [Hp1 Hp2]. destruct (build_ty E _ _ Ec) as [_ Tc].
    destruct (IH c (or_introl eq_refl) He Hp1 s c1 Hs Ec) as (c2 & s2 & Ec2 & Hs2). rewrite Ec2. cbn [bind].
    destruct (inline_bare E split_uri c He _ _ _ Ec2) as (c0 & Ec0 & Hc). assert (c0 = c1) by congruence. subst c0.
    destruct (end_defined o o' c1 c2 s2 o1 Hb Hc E1 Hs2) as (o2 & s3 & E2 & Hs3).
    { rewrite T0, Tc. intros _ Hd HS. destruct (Hp2 Hd HS) as [Hcalm Hplain]. rewrite (calm_same c Hcalm), Ec in Ec2. cbn [bind] in Ec2. injection Ec2 as <- <-. now apply Hplain. }
    rewrite E2. cbn [bind]. destruct (inline_end_same E split_uri _ _ _ _ _ _ _ Hb Hc ltac:(congruence) E2) as (o3 & E3 & Hb1). assert (o3 = o1) by congruence. subst o3.
    apply add_get in E1 as (S1 & T1 & _); [|exact S0]. apply (IHl IH' Hcon Hch' o1 o2 s3); auto. congruence.
  Qed.
End Total.
(** C33. Inlining is defined for every document that can be read, if the named styles of its Documents are plain. *)
Theorem inline_defined : forall E split_uri n o, numbers_stable E -> concrete n = true -> named_plain E n -> build E n = Ok o -> exists o', inline_styles E split_uri n = Ok o' /\ bare o' = bare o.
Proof.
  intros E split_uri n o HE Hc Hp Hb. assert (H0 : caught E inliner0) by (split; [exact msorted_nil|discriminate]).
  destruct (inline_total E split_uri HE n Hc Hp inliner0 o H0 Hb) as (r & s & Hr & _). exists r. assert (K : inline_styles E split_uri n = Ok r) by (unfold inline_styles; rewrite Hr; reflexivity). split; [exact K|].
  destruct (inline_only_styles E split_uri n r Hc K) as (o1 & Ho1 & G). congruence.
Qed.
Print Assumptions inline_defined.
(** So every document of the tidy form has an inlined one, which looks the same. *)
Theorem inline_keeps_looks : forall E split_uri fetch n o, numbers_stable E -> concrete n = true -> named_plain E n -> tidy_document E split_uri n -> build E n = Ok o -> distinct_ids o ->
  (forall id x, shared_in o id x -> plain_selector E x /\ forall u path i, In u (refs x) -> split_uri u = Some (path, i) -> path = []) ->
  (forall f x u, In f (features o) -> oty f <> Type_Document -> In x (get f Type_StyleSelector) -> In u (refs x) -> ~ refers_to_shared split_uri o u) ->
  (forall d, In d (features o) -> oty d = Type_Document -> ~ refers_to_shared split_uri o (style_url d)) ->
  (forall v m id x u, fetch v = Some m -> mget id m = Some x -> In u (refs x) -> ~ refers_to_shared split_uri o u) ->
  exists o', inline_styles E split_uri n = Ok o' /\ bare o' = bare o /\ values_kept E split_uri fetch o o' /\ (forall id x, ~ shared_in o' id x).
Proof.
  intros E sp fe n o HE Hc Hp Ht Hb Hd H1 H2 H3 H4. destruct (inline_defined E sp n o HE Hc Hp Hb) as (o' & Ho' & Hbare). exists o'.
  destruct (inline_preserves E sp fe n o o' HE Ht Hb Ho' Hd H1 H2 H3 H4) as (K1 & K2 & _). auto.
Qed.
Print Assumptions inline_keeps_looks.
(** Checking the hypothesis on an example. *)
Fixpoint named_plainb (E : env) (n : node) : bool :=
  let 'Node ty _ _ log := n in
  forallb (fun e => match e with
    | LChild c => (if is_a ty Type_Document && is_a (nty c) Type_StyleSelector then calm c && match build E c with Ok x => flat_selector E x | _ => true end else true) && named_plainb E c
    | _ => true end) log.
Lemma named_plainb_spec E n : named_plainb E n = true -> named_plain E n.
Proof.
  intros H p c Hi. revert H. induction Hi as [ty a cd log c Hc|ty a cd log d p c Hc Hi IH]; cbn [named_plainb]; rewrite forallb_forall; intros H; specialize (H _ Hc); cbn beta iota in H; apply andb_prop in H as [H1 H2].
  - intros Hd HS. rewrite Hd, HS in H1. cbn [andb] in H1. apply andb_prop in H1 as [H1 H3]. split; [exact H1|]. intros x Hx. rewrite Hx in H3. now apply flat_selector_spec.
  - now apply IH.
Qed.
Example inline_defined_sample : concrete isample = true /\ named_plain E0 isample /\ (exists o, build E0 isample = Ok o) /\ numbers_stable E0.
Proof.
  split; [vm_compute; reflexivity|]. split; [apply named_plainb_spec; vm_compute; reflexivity|]. split; [exists (made_from isample); vm_compute; reflexivity|exact E0_stable].
Qed.

(** Splitting the styles of any document, with features outside of its Document or behind it (C32), and documents which are left as they are (C117). *)
From Verif Require Import Common StrMap StringsModel ColorModel AttributesModel AttributesProofs XsdTables XsdModel XsdProofs XmlSpec XmlSpecProofs SerializerModel CoordModel HandlerModel HandlerSpec HandlerProps.
From Verif Require Import DomTables DomModel DomSpec DomProofs DomProofs2 DomParsed CloneModel CloneProofs MergeModel MergeProofs IdModel StyleModel StyleProofs SplitModel SplitProofs SplitProofs2 SplitProofs3 SplitProofs4 SplitProofs5.
From Verif Require Import FileProps InlineProofs DomProps StyleProps SplitProps InlineProps BareSpec BareProps SplitTotalProps.
Local Open Scope N_scope.

Section Any.
  Variables (E : env) (late : list obj).
  Notation sb := (split_build E late).
  (** What a document may be for its styles to be left alone: [busy] says whether all of it is inside of an Update. *)
  Lemma end_add p c s : updating s = true \/ is_a (oty c) Type_StyleSelector && non_document_feature (oty p) = false ->
    split_end E p c s = do p' <- add_element E p c; Ok (p', if is_a (oty c) Type_Update then {| made := made s; added := added s; counter := counter s; doc := doc s; updating := false |} else s).
  Proof. intros H. unfold split_end. destruct H as [->|H]; [reflexivity|]. destruct (updating s); [reflexivity|]. destruct (doc s); [reflexivity|rewrite H; reflexivity..]. Qed.
  Lemma calm_any n : calm n = true -> forall s, sb n s = do o <- build E n; Ok (o, s).
  Proof.
    induction n as [ty a cd log IH] using node_all. cbn [calm]. rewrite !andb_true_iff, !negb_true_iff. intros ((H1 & H2) & H3) s.
    assert (Hd : is_a ty Type_Document = false) by (destruct (is_a ty Type_Document) eqn:Ed; [apply document_feature in Ed; congruence|reflexivity]).
    rewrite split_build_eq, build_eq. cbv zeta. replace (match doc s with NoHome => is_a ty Type_Document | _ => false end) with false by (destruct (doc s); auto).
    assert (split_new ty s = s) as -> by (destruct s as [m ad co d u]; unfold split_new; cbn; rewrite Hd, H2, orb_false_r; f_equal; now destruct d). cbn [closes].
    assert (K : sloop E late false log (start E ty a cd) s = do o <- DomProofs.steps E log (start E ty a cd); Ok (o, s)); [|rewrite K; destruct (DomProofs.steps _ _ _); reflexivity].
    destruct (start_sized E ty a cd) as [S0 T0]. revert S0 T0. generalize (start E ty a cd) as o. revert IH H3. induction log as [|e l IHl]; intros IH H3 o S0 T0; [reflexivity|]. cbn [forallb] in H3. apply andb_true_iff in H3 as [He H3].
    assert (IH' : forall c, In (LChild c) l -> calm c = true -> forall s, sb c s = do o <- build E c; Ok (o, s)) by (intros c Hc; apply IH; now right).
    cbn [sloop DomProofs.steps]. destruct e as [c|x|x|x|u sd].
    2,3,4,5: rewrite entry_same by congruence; destruct (add_entry E _ o) as [o1| | |] eqn:E1; cbn [bind]; try reflexivity; apply entry_get in E1 as (S1 & T1 & _); [|congruence|exact S0]; apply IHl; auto; congruence.
    cbn [entry_step]. rewrite (IH c (or_introl eq_refl) He s). destruct (build E c) as [c'| | |] eqn:Ec; cbn [bind]; try reflexivity. destruct (build_ty E _ _ Ec) as [_ Tc].
    assert (Hc : is_a (oty c') Type_Update = false) by (rewrite Tc; destruct c; cbn [calm nty] in *; rewrite !andb_true_iff, !negb_true_iff in He; tauto).
    rewrite end_add by (right; unfold non_document_feature; rewrite T0, H1; apply andb_false_r). rewrite Hc.
    destruct (add_element E o c') as [o1| | |] eqn:E1; cbn [bind]; try reflexivity. apply add_get in E1 as (S1 & T1 & _); [|exact S0]. apply IHl; auto. congruence.
  Qed.
  (** The styles of features in the text are plain: they contain no features or Updates, and can be copied. *)
  Definition own_plain (n : node) : Prop := forall p c, inside n p c -> non_document_feature p = true -> is_a (nty c) Type_StyleSelector = true ->
    calm c = true /\ forall x, build E c = Ok x -> wf E x = true /\ cloneable E x = true /\ selector_type (oty x) = true /\ omis x = [].
  Lemma end_any p p' c c' s q : bare p = bare p' -> bare c = bare c' -> add_element E p c = Ok q ->
    (is_a (oty c) Type_StyleSelector = true -> non_document_feature (oty p) = true -> good E c' /\ selector_type (oty c') = true /\ omis c' = []) ->
    exists q' s', split_end E p' c' s = Ok (q', s').
  Proof.
    intros Hp Hc Hq Hpl. unfold split_end.
    assert (A : forall s1 : splitter, exists q' s', (do p1 <- add_element E p' c'; Ok (p1, s1)) = Ok (q', s')).
    { intros s1. destruct (add_defined E p' p c' c q (eq_sym Hp) (eq_sym Hc) Hq) as [q' ->]. cbn [bind]. eauto. }
    destruct (updating s); [apply A|]. destruct (doc s); [apply A|..];
      (destruct (is_a (oty c') Type_StyleSelector && non_document_feature (oty p') && negb (has_style_url p')) eqn:Eb; [|apply A]);
      (destruct (mget (unique_id (counter s)) (made s)); [apply A|]);
      apply andb_prop in Eb as [Eb _]; apply andb_prop in Eb as [Eb1 Eb2]; rewrite <- (bare_same_ty _ _ Hc) in Eb1; rewrite <- (bare_same_ty _ _ Hp) in Eb2;
      destruct (Hpl Eb1 Eb2) as (P1 & P2 & P3); destruct (copy_any E c' (unique_id (counter s)) P1 P2 P3) as (x & -> & _); eauto.
  Qed.
  Lemma any_total n : concrete n = true -> own_plain n -> forall s r, build E n = Ok r -> exists r' s', sb n s = Ok (r', s').
  Proof.
    induction n as [ty a cd log IH] using node_all. intros Hcon Hpl s r Hr. cbn [concrete] in Hcon. apply andb_prop in Hcon as [Hty Hcon]. apply negb_true_iff, N.eqb_neq in Hty.
    rewrite build_eq in Hr. rewrite split_build_eq. cbv zeta. set (mine := match doc s with NoHome => is_a ty Type_Document | _ => false end).
    assert (Hmine : mine = true -> is_a ty Type_Document = true) by (unfold mine; destruct (doc s); auto; discriminate). clearbody mine.
    enough (K : exists r' s', sloop E late mine log (start E ty a cd) (split_new ty s) = Ok (r', s')) by (destruct K as (r' & s' & ->); cbn [bind]; eauto).
    generalize (split_new ty s). clear s. intros s. destruct (start_sized E ty a cd) as [S0 T0].
    assert (Hchild : forall c, In (LChild c) log -> own_plain c /\ (non_document_feature ty = true -> is_a (nty c) Type_StyleSelector = true -> calm c = true /\ forall x, build E c = Ok x -> wf E x = true /\ cloneable E x = true /\ selector_type (oty x) = true /\ omis x = [])).
    { intros c Hc. split; [intros p d Hd; apply (Hpl p d); now apply in_deeper with (c := c)|]. apply (Hpl ty c). now apply in_here. }
    clear Hpl. assert (Hb : bare (start E ty a cd) = bare (start E ty a cd)) by reflexivity. revert S0 T0 Hb Hr.
    generalize (start E ty a cd) at 1 2 3 5. generalize (start E ty a cd). intros o' o. revert o o' s.
    induction log as [|e l IHl]; intros o o' s S0 T0 Hb Hr; [cbn; eauto|].
    cbn [forallb] in Hcon. apply andb_prop in Hcon as [He Hcon].
    assert (IH' : forall c, In (LChild c) l -> concrete c = true -> own_plain c -> forall s r, build E c = Ok r -> exists r' s', sb c s = Ok (r', s')) by (intros c Hc; apply IH; now right).
    assert (Hch' : forall c, In (LChild c) l -> own_plain c /\ (non_document_feature ty = true -> is_a (nty c) Type_StyleSelector = true -> calm c = true /\ forall x, build E c = Ok x -> wf E x = true /\ cloneable E x = true /\ selector_type (oty x) = true /\ omis x = [])) by (intros c Hc; apply Hchild; now right).
    cbn [DomProofs.steps sloop] in Hr |- *. destruct e as [c|x|x|x|u sd].
    2,3,4,5: (rewrite entry_same in Hr by congruence; destruct (add_entry E _ o) as [o1| | |] eqn:E1 in Hr; cbn [bind] in Hr; try discriminate;
      destruct (entry_defined E _ _ _ _ (eq_sym Hb) E1) as [o1' E1']; rewrite E1'; cbn [bind];
      pose proof (entry_same2 E _ _ _ _ _ Hb E1 E1') as Hb1; apply entry_get in E1 as (S1 & T1 & _); [|congruence|exact S0];
      apply (IHl IH' Hcon Hch' o1 o1' s); auto; congruence).
    cbn [entry_step] in Hr. destruct (build E c) as [c1| | |] eqn:Ec; cbn [bind] in Hr; try discriminate. destruct (add_element E o c1) as [o1| | |] eqn:E1; cbn [bind] in Hr; try discriminate.
    destruct (Hchild c (or_introl eq_refl)) as [Hp1 Hp2]. destruct (build_ty E _ _ Ec) as [_ Tc].
    destruct (IH c (or_introl eq_refl) He Hp1 s c1 Ec) as (c2 & s2 & Ec2). rewrite Ec2. cbn [bind].
    destruct (split_bare E late c He _ _ _ Ec2) as (c0 & Ec0 & Hc). assert (c0 = c1) by congruence. subst c0.
    assert (Hrec : bare o = bare (if mine then receive o' (skipn (length (added s)) (added s2)) else o')).
    { destruct mine; [|exact Hb]. unfold receive. rewrite put_hidden; [exact Hb| |now right]. rewrite <- (bare_same_ty _ _ Hb), T0. apply document_feature. auto. }
    destruct (end_any o _ c1 c2 s2 o1 Hrec Hc E1) as (o2 & s3 & E2).
    { rewrite T0, Tc. intros HS Hd. destruct (Hp2 Hd HS) as [Hcalm Hplain]. rewrite (calm_any c Hcalm), Ec in Ec2. cbn [bind] in Ec2. injection Ec2 as <- <-. destruct (Hplain _ Ec) as (P1 & P2 & P3 & P4).
      split; [|auto]. repeat split; auto. destruct (selector_cases _ P3) as [->| ->]; reflexivity. }
    rewrite E2. cbn [bind]. destruct (split_end_same E _ _ _ _ _ _ _ Hrec Hc ltac:(congruence) E2) as (o3 & E3 & Hb1). assert (o3 = o1) by congruence. subst o3.
    apply add_get in E1 as (S1 & T1 & _); [|exact S0]. apply (IHl IH' Hcon Hch' o1 o2 s3); auto. congruence.
  Qed.
End Any.
(** C32. Splitting is defined for every document that can be read, whatever its parts and their order are, if the styles of its features can be copied; and it changes styles only. *)
Theorem split_any_defined : forall E n o, concrete n = true -> own_plain E n -> build E n = Ok o -> exists o', split_styles E n = Ok o' /\ bare o' = bare o.
Proof.
  intros E n o Hc Hp Hb. assert (K : exists o', split_styles E n = Ok o').
  { unfold split_styles. destruct (any_total E [] n Hc Hp splitter0 o Hb) as (r & s & ->). cbn [bind]. destruct (added s) as [|x l]; [eauto|].
    destruct (any_total E (x :: l) n Hc Hp splitter0 o Hb) as (r' & s' & ->). cbn [bind]. eauto. }
  destruct K as [o' K]. exists o'. split; [exact K|]. destruct (split_only_styles E n o' Hc K) as (o1 & Ho1 & G). congruence.
Qed.
Print Assumptions split_any_defined.

(** ** Documents which are left as they are *)
(** No feature outside of Updates has a style of its own; there is no Update in an Update. *)
Fixpoint no_own_styles (n : node) : bool := let 'Node ty _ _ log := n in
  if is_a ty Type_Update then forallb (fun e => match e with LChild c => quiet c | _ => true end) log
  else forallb (fun e => match e with LChild c => negb (is_a (nty c) Type_StyleSelector && non_document_feature ty) && no_own_styles c | _ => true end) log.
(** No Document outside of Updates has a style with an id; there is no Update in an Update. *)
Fixpoint no_shared_styles (E : env) (n : node) : bool := let 'Node ty _ _ log := n in
  if is_a ty Type_Update then forallb (fun e => match e with LChild c => quiet c | _ => true end) log
  else forallb (fun e => match e with
    | LChild c => negb (is_a ty Type_Document && is_a (nty c) Type_StyleSelector && match build E c with Ok x => match id_of x with Some _ => true | None => false end | _ => false end) && no_shared_styles E c
    | _ => true end) log.
Lemma receive_nothing o : sized o -> receive o [] = o.
Proof.
  intros Hs. unfold receive. rewrite app_nil_r. unfold put, get. destruct (index_of_key Type_StyleSelector (c_slots (cls (oty o))) 0) as [i|] eqn:Ei; [|reflexivity].
  assert (G : forall (l : list (list obj)) i, update i (nth i l []) l = l) by (induction l as [|x l IH]; intros [|j]; cbn; auto; now rewrite IH).
  rewrite G. now destruct o.
Qed.
Section Same.
  Variable E : env.
  Notation sb := (split_build E []).
  Definition alone (n : node) : Prop := forall s, added s = [] -> (updating s = true /\ quiet n = true) \/ (updating s = false /\ no_own_styles n = true) ->
    exists s', sb n s = (do o <- build E n; Ok (o, s')) /\ added s' = [] /\ updating s' = updating s || is_a (nty n) Type_Update.
  Lemma alone_loop mine ty l : (forall c, In (LChild c) l -> alone c) -> forall o s, sized o -> oty o = ty -> added s = [] ->
    (updating s = true /\ forallb (fun e => match e with LChild c => quiet c | _ => true end) l = true) \/
    (updating s = false /\ forallb (fun e => match e with LChild c => negb (is_a (nty c) Type_StyleSelector && non_document_feature ty) && no_own_styles c | _ => true end) l = true) ->
    exists s', sloop E [] mine l o s = (do r <- DomProofs.steps E l o; Ok (r, s')) /\ added s' = [] /\ updating s' = updating s.
  Proof.
    induction l as [|e l IHl]; intros IH o s S0 T0 Ha Hs; [exists s; auto|].
    assert (IH' : forall c, In (LChild c) l -> alone c) by (intros c Hc; apply IH; now right).
    assert (Hs' : forall s1, updating s1 = updating s -> (updating s1 = true /\ forallb (fun e => match e with LChild c => quiet c | _ => true end) l = true) \/
      (updating s1 = false /\ forallb (fun e => match e with LChild c => negb (is_a (nty c) Type_StyleSelector && non_document_feature ty) && no_own_styles c | _ => true end) l = true)).
    { intros s1 ->. cbn [forallb] in Hs. destruct Hs as [[H1 H2]|[H1 H2]]; apply andb_prop in H2 as [_ H2]; auto. }
    cbn [sloop DomProofs.steps]. destruct e as [c|x|x|x|u sd].
    2,3,4,5: rewrite entry_same by congruence; destruct (add_entry E _ o) as [o1| | |] eqn:E1; cbn [bind]; [|exists s; auto..]; apply entry_get in E1 as (S1 & T1 & _); [|congruence|exact S0]; apply IHl; auto; congruence.
    cbn [forallb] in Hs. assert (Hc : (updating s = true /\ quiet c = true) \/ (updating s = false /\ no_own_styles c = true)) by (destruct Hs as [[H1 H2]|[H1 H2]]; rewrite ?andb_true_iff in H2; tauto).
    destruct (IH c (or_introl eq_refl) s Ha Hc) as (s1 & -> & A1 & U1). cbn [entry_step]. destruct (build E c) as [c'| | |] eqn:Ec; cbn [bind]; [|exists s; auto..]. destruct (build_ty E _ _ Ec) as [_ Tc].
    rewrite A1, Ha. cbn [length skipn]. assert ((if mine then receive o [] else o) = o) as -> by (destruct mine; [now apply receive_nothing|reflexivity]).
    assert (Hq : is_a (nty c) Type_Update = true -> updating s = false).
    { intros Hu. destruct Hs as [[H1 H2]|[H1 H2]]; [|exact H1]. apply andb_prop in H2 as [H2 _]. destruct c as [t ? ? ?]. cbn [quiet nty] in *. rewrite Hu in H2. discriminate. }
    rewrite end_add.
    2:{ destruct Hs as [[H1 H2]|[H1 H2]]; [left; now rewrite U1, H1|]. apply andb_prop in H2 as [H2 _]. apply andb_prop in H2 as [H2 _]. right. rewrite Tc, T0. now apply negb_true_iff. }
    destruct (add_element E o c') as [o1| | |] eqn:E1; cbn [bind]; [|exists s; auto..]. apply add_get in E1 as (S1 & T1 & _); [|exact S0].
    set (s2 := if is_a (oty c') Type_Update then _ else s1).
    assert (K : added s2 = [] /\ updating s2 = updating s).
    { unfold s2. rewrite Tc. destruct (is_a (nty c) Type_Update) eqn:Eu; cbn [added updating]; [split; [exact A1|symmetry; auto]|]. rewrite orb_false_r in U1. auto. }
    destruct K as [K1 K2]. destruct (IHl IH' o1 s2 S1 ltac:(congruence) K1 (Hs' s2 K2)) as (s3 & G1 & G2 & G3). exists s3. split; [exact G1|]. split; [exact G2|congruence].
  Qed.
  Lemma alone_all n : alone n.
  Proof.
    induction n as [ty a cd log IH] using node_all. intros s Ha Hs. rewrite split_build_eq, build_eq. cbv zeta. destruct (start_sized E ty a cd) as [S0 T0]. cbn [nty].
    set (mine := match doc s with NoHome => is_a ty Type_Document | _ => false end).
    destruct (alone_loop mine ty log IH (start E ty a cd) (split_new ty s) S0 T0 Ha) as (s' & -> & A & U).
    { unfold split_new. cbn [updating]. cbn [quiet no_own_styles] in Hs. destruct Hs as [[H1 H2]|[H1 H2]].
      - left. rewrite H1. apply andb_prop in H2 as [_ H2]. auto.
      - rewrite H1. cbn [orb]. destruct (is_a ty Type_Update); [left|right]; auto. }
    exists (closes mine s'). split.
    - destruct (DomProofs.steps E log _); cbn [bind]; try reflexivity. now destruct mine.
    - split; [now destruct mine|]. transitivity (updating s'); [now destruct mine|exact U].
  Qed.
  (** Inlining *)
  Variable split_uri : str -> option (str * str).
  Notation ib := (inline_build E split_uri).
  Definition apart (n : node) : Prop := forall s, captured s = [] -> (in_update s = true /\ quiet n = true) \/ (in_update s = false /\ no_shared_styles E n = true) ->
    exists s', ib n s = (do o <- build E n; Ok (o, s')) /\ captured s' = [] /\ in_update s' = in_update s || is_a (nty n) Type_Update.
  Lemma iend_add p c s : captured s = [] -> in_update s = true \/ is_a (oty p) Type_Document && is_a (oty c) Type_StyleSelector && match id_of c with Some _ => true | None => false end = false ->
    inline_end E split_uri p c s = do p' <- add_element E p c; Ok (p', if is_a (oty c) Type_Update then {| captured := captured s; in_update := false |} else s).
  Proof.
    intros Hc H. unfold inline_end. destruct H as [->|H]; [reflexivity|]. destruct (in_update s); [reflexivity|]. rewrite H. destruct (non_document_feature (oty p) && (oty c =? Type_styleUrl)); [|reflexivity].
    destruct (split_uri (char_data c)) as [[[|x u] id]|]; try reflexivity. rewrite Hc. reflexivity.
  Qed.
  Lemma apart_all n : apart n.
  Proof.
    induction n as [ty a cd log IH] using node_all. intros s Ha Hs. rewrite inline_build_eq, build_eq. destruct (start_sized E ty a cd) as [S0 T0]. cbn [nty].
    assert (Ha' : captured (inline_new ty s) = []) by exact Ha. change (in_update s || is_a ty Type_Update) with (in_update (inline_new ty s)).
    assert (Hs' : (in_update (inline_new ty s) = true /\ forallb (fun e => match e with LChild c => quiet c | _ => true end) log = true) \/
      (in_update (inline_new ty s) = false /\ forallb (fun e => match e with
    | LChild c => negb (is_a ty Type_Document && is_a (nty c) Type_StyleSelector && match build E c with Ok x => match id_of x with Some _ => true | None => false end | _ => false end) && no_shared_styles E c
    | _ => true end) log = true)).
    { unfold inline_new. cbn [in_update]. cbn [quiet no_shared_styles] in Hs. destruct Hs as [[H1 H2]|[H1 H2]].
      - left. rewrite H1. apply andb_prop in H2 as [_ H2]. auto.
      - rewrite H1. cbn [orb]. destruct (is_a ty Type_Update); [left|right]; auto. }
    revert Ha' Hs'. generalize (inline_new ty s). clear s Ha Hs. intros s Ha Hs. revert S0 T0. generalize (start E ty a cd) as o. intros o. revert o s Ha Hs.
    induction log as [|e l IHl]; intros o s Ha Hs S0 T0; [exists s; auto|].
    assert (IH' : forall c, In (LChild c) l -> apart c) by (intros c Hc; apply IH; now right).
    assert (Hs' : forall s1, in_update s1 = in_update s -> (in_update s1 = true /\ forallb (fun e => match e with LChild c => quiet c | _ => true end) l = true) \/
      (in_update s1 = false /\ forallb (fun e => match e with
    | LChild c => negb (is_a ty Type_Document && is_a (nty c) Type_StyleSelector && match build E c with Ok x => match id_of x with Some _ => true | None => false end | _ => false end) && no_shared_styles E c
    | _ => true end) l = true)).
    { intros s1 ->. cbn [forallb] in Hs. destruct Hs as [[H1 H2]|[H1 H2]]; apply andb_prop in H2 as [_ H2]; auto. }
    cbn [iloop DomProofs.steps]. destruct e as [c|x|x|x|u sd].
    2,3,4,5: rewrite entry_same by congruence; destruct (add_entry E _ o) as [o1| | |] eqn:E1; cbn [bind]; [|exists s; auto..]; apply entry_get in E1 as (S1 & T1 & _); [|congruence|exact S0]; apply IHl; auto; congruence.
    cbn [forallb] in Hs. assert (Hc : (in_update s = true /\ quiet c = true) \/ (in_update s = false /\ no_shared_styles E c = true)) by (destruct Hs as [[H1 H2]|[H1 H2]]; rewrite ?andb_true_iff in H2; tauto).
    destruct (IH c (or_introl eq_refl) s Ha Hc) as (s1 & -> & A1 & U1). cbn [entry_step]. destruct (build E c) as [c'| | |] eqn:Ec; cbn [bind]; [|exists s; auto..]. destruct (build_ty E _ _ Ec) as [_ Tc].
    assert (Hq : is_a (nty c) Type_Update = true -> in_update s = false).
    { intros Hu. destruct Hs as [[H1 H2]|[H1 H2]]; [|exact H1]. apply andb_prop in H2 as [H2 _]. destruct c as [t ? ? ?]. cbn [quiet nty] in *. rewrite Hu in H2. discriminate. }
    rewrite iend_add; [|exact A1|].
    2:{ destruct Hs as [[H1 H2]|[H1 H2]]; [left; now rewrite U1, H1|]. apply andb_prop in H2 as [H2 _]. apply andb_prop in H2 as [H2 _]. right. rewrite Tc, T0. now apply negb_true_iff. }
    destruct (add_element E o c') as [o1| | |] eqn:E1; cbn [bind]; [|exists s; auto..]. apply add_get in E1 as (S1 & T1 & _); [|exact S0].
    set (s2 := if is_a (oty c') Type_Update then _ else s1).
    assert (K : captured s2 = [] /\ in_update s2 = in_update s).
    { unfold s2. rewrite Tc. destruct (is_a (nty c) Type_Update) eqn:Eu; cbn [captured in_update]; [split; [exact A1|symmetry; auto]|]. rewrite orb_false_r in U1. auto. }
    destruct K as [K1 K2]. destruct (IHl IH' o1 s2 K1 (Hs' s2 K2) S1 ltac:(congruence)) as (s3 & G1 & G2 & G3). exists s3. split; [exact G1|]. split; [exact G2|congruence].
  Qed.
End Same.
(** C117. A document whose features have no styles of their own is not changed by splitting at all; what is inside of an Update does not count and is never changed. *)
Theorem split_nothing : forall E n, no_own_styles n = true -> split_styles E n = build E n.
Proof.
  intros E n H. unfold split_styles. destruct (alone_all E n splitter0 eq_refl (or_intror (conj eq_refl H))) as (s' & -> & A & _). destruct (build E n); cbn [bind]; try reflexivity. rewrite A. reflexivity.
Qed.
Print Assumptions split_nothing.
(** C117. A document without shared styles is not changed by inlining. *)
Theorem inline_nothing : forall E split_uri n, no_shared_styles E n = true -> inline_styles E split_uri n = build E n.
Proof.
  intros E split_uri n H. unfold inline_styles. destruct (apart_all E split_uri n inliner0 eq_refl (or_intror (conj eq_refl H))) as (s' & -> & A & _). destruct (build E n); reflexivity.
Qed.
Print Assumptions inline_nothing.
(** An Update that sets a style, and a document with features behind its Document: the style goes to the Document. *)
Definition updates : node := node_of_text (S_ "<kml><NetworkLinkControl><Update><targetHref>a</targetHref><Change><Placemark targetId=""p""><Style><LineStyle><width>1</width></LineStyle></Style></Placemark></Change></Update></NetworkLinkControl></kml>").
Definition behind : node := node_of_text (S_ "<Folder><Document><name>d</name></Document><Placemark><Style><LineStyle><width>1</width></LineStyle></Style></Placemark></Folder>").
Definition split_text (n : node) : option str := match split_styles E0 n with Ok o => match write_raw o with Ok w => Some w | _ => None end | _ => None end.
Fixpoint own_plainb (n : node) : bool := let 'Node ty _ _ log := n in
  forallb (fun e => match e with
    | LChild c => (if non_document_feature ty && is_a (nty c) Type_StyleSelector then calm c && match build E0 c with Ok x => wf E0 x && cloneable E0 x && selector_type (oty x) && match omis x with [] => true | _ => false end | _ => true end else true) && own_plainb c
    | _ => true end) log.
Lemma own_plainb_spec n : own_plainb n = true -> own_plain E0 n.
Proof.
  intros H p c Hi. revert H. induction Hi as [ty a cd log c Hc|ty a cd log d p c Hc Hi IH]; cbn [own_plainb]; rewrite forallb_forall; intros H; specialize (H _ Hc); cbn beta iota in H; apply andb_prop in H as [H1 H2].
  - intros Hd HS. rewrite Hd, HS in H1. cbn [andb] in H1. apply andb_prop in H1 as [H1 H3]. split; [exact H1|]. intros x Hx. rewrite Hx in H3. rewrite !andb_true_iff in H3. destruct (omis x); [tauto|]. destruct H3; discriminate.
  - now apply IH.
Qed.
Example behind_sample : concrete behind = true /\ own_plain E0 behind /\ build E0 behind = Ok (made_from behind) /\
  split_text behind = Some (S_ "<Folder><Document><name>d</name><Style id=""_0""><LineStyle><width>1</width></LineStyle></Style></Document><Placemark><styleUrl>#_0</styleUrl></Placemark></Folder>").
Proof. split; [vm_compute; reflexivity|]. split; [apply own_plainb_spec; vm_compute; reflexivity|]. split; vm_compute; reflexivity. Qed.
Example updates_sample : no_own_styles updates = true /\ no_shared_styles E0 updates = true /\ build E0 updates = Ok (made_from updates) /\ own_plainb updates = true.
Proof. repeat split; vm_compute; reflexivity. Qed.

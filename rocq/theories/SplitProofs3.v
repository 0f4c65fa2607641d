(** Proofs about SplitModel.v: the features of a document before and after SplitStyles. *)
From Verif Require Import Common StrMap StringsModel ColorModel AttributesModel AttributesProofs XsdTables XsdModel XmlSpec SerializerModel CoordModel HandlerModel.
From Verif Require Import DomTables DomModel DomSpec DomProofs DomProofs2 DomParsed CloneModel CloneProofs MergeModel MergeProofs IdModel StyleModel StyleProofs SplitModel SplitProofs SplitProofs2.
Local Open Scope N_scope.

(** ** Features *)
(** The features of an element, in document order. *)
Fixpoint features (o : obj) : list obj :=
  let 'Obj ty _ _ _ _ sl _ _ := o in (if is_a ty Type_Feature then [o] else []) ++ concat (pick (cls ty) (map (map features) sl) Type_Feature).
Lemma features_eq o : features o = (if is_a (oty o) Type_Feature then [o] else []) ++ flat_map features (get o Type_Feature).
Proof.
  destruct o as [ty ka ea tx vec sl mis unk]. cbn [features oty]. f_equal. unfold get, pick. cbn [oty oslots]. destruct (index_of_key Type_Feature (c_slots (cls ty)) 0) as [i|]; [|reflexivity].
  rewrite flat_map_concat_map. f_equal. clear. revert i. induction sl as [|l sl IH]; intros [|i]; cbn [map nth]; auto.
Qed.

(** ** Shape of the input *)
(** No feature and no Update in an element; no Update. *)
Fixpoint calm (n : node) : bool := let 'Node ty _ _ log := n in
  negb (is_a ty Type_Feature) && negb (is_a ty Type_Update) && forallb (fun e => match e with LChild c => calm c | _ => true end) log.
Fixpoint quiet (n : node) : bool := let 'Node ty _ _ log := n in
  negb (is_a ty Type_Update) && forallb (fun e => match e with LChild c => quiet c | _ => true end) log.
(** A style or a reference to one. *)
Definition styling (c : node) : bool := is_a (nty c) Type_StyleSelector || (nty c =? Type_styleUrl).
Definition still (log : list entry) : bool := on_children (fun c => negb (styling c)) log.
Section Neat.
  Variable E : env.
  (** A style without an id and without anything misplaced in it. *)
  Definition plain_inline (c : node) : bool :=
    match build E c with
    | Ok o => wf E o && cloneable E o && negb (is_simple (oty o)) && selector_type (oty o) && match omis o with [] => true | _ => false end && match id_of o with None => true | _ => false end
    | _ => true
    end.
  (** The first of the styles and style references of a feature is a reference, or is the only one and plain. *)
  Fixpoint orderly (log : list entry) : bool :=
    match log with
    | [] => true
    | LChild c :: r => if nty c =? Type_styleUrl then true else if is_a (nty c) Type_StyleSelector then plain_inline c && still r else orderly r
    | _ :: r => orderly r
    end.
  Fixpoint neat (n : node) : bool := let 'Node ty _ _ log := n in
    if is_a ty Type_Update then on_children quiet log
    else negb (ty =? Type_Feature) && (if is_a ty Type_Feature then on_children (fun c => negb (styling c) || calm c) log else true) &&
         (if non_document_feature ty then orderly log else true) && forallb (fun e => match e with LChild c => neat c | _ => true end) log.
End Neat.

(** ** Unfolding *)
Section Loop.
  Variables (E : env) (late : list obj).
  Fixpoint sloop (mine : bool) (l : list entry) (o : obj) (s : splitter) : res (obj * splitter) :=
    match l with
    | [] => Ok (o, s)
    | LChild c :: r =>
        do (c', s1) <- split_build E late c s;
        let o1 := if mine then receive o (skipn (length (added s)) (added s1)) else o in
        do (o2, s2) <- split_end E o1 c' s1;
        sloop mine r o2 s2
    | e :: r => do o1 <- add_entry E e o; sloop mine r o1 s
    end.
  Definition closes (mine : bool) (s : splitter) : splitter :=
    if mine then {| made := made s; added := []; counter := counter s; doc := ClosedHome; updating := updating s |} else s.
  Lemma split_build_eq ty a cd log s : split_build E late (Node ty a cd log) s =
    let mine := match doc s with NoHome => is_a ty Type_Document | _ => false end in
    do (o, s') <- sloop mine log (start E ty a cd) (split_new ty s); Ok (if mine then receive_late late o else o, closes mine s').
  Proof.
    cbn [split_build]. set (mine := match doc s with NoHome => _ | _ => _ end). cbv zeta. fold (closes mine).
    match goal with |- (do x <- ?f log _ _; _) = _ => assert (G : forall l o s, f l o s = sloop mine l o s) end.
    { induction l as [|e l IH]; intros o0 s0; [reflexivity|]. destruct e as [c|x|x|x|u sd]; cbn [sloop]; try (destruct (add_entry E _ o0); cbn [bind]; [apply IH|reflexivity..]).
      destruct (split_build E late c s0) as [[c' s1]| | |]; cbn [bind]; try reflexivity. destruct (split_end E _ c' s1) as [[o2 s2]| | |]; cbn [bind]; try reflexivity. apply IH. }
    rewrite G. destruct (sloop mine log _ _) as [[o s']| | |]; reflexivity.
  Qed.
  Lemma steps_ty l : forall o r, sized o -> DomProofs.steps E l o = Ok r -> sized r /\ oty r = oty o.
  Proof.
    induction l as [|e l IH]; intros o r Hs H; cbn [DomProofs.steps] in H; [injection H as <-; auto|].
    destruct (entry_step E o e) as [o1| | |] eqn:E1; cbn [bind] in H; try discriminate.
    assert (G : sized o1 /\ oty o1 = oty o).
    { destruct e as [c|x|x|x|u sd]; [|rewrite entry_same in E1 by congruence; apply entry_get in E1; [tauto|congruence|auto]..].
      cbn [entry_step] in E1. destruct (build E c) as [c'| | |]; cbn [bind] in E1; try discriminate. apply add_get in E1; tauto. }
    destruct G as [G1 G2]. destruct (IH _ _ G1 H). split; auto. congruence.
  Qed.
  Lemma build_ty n o : build E n = Ok o -> sized o /\ oty o = nty n.
  Proof. destruct n as [ty a cd log]. rewrite build_eq. intros H. destruct (start_sized E ty a cd) as [H1 H2]. destruct (steps_ty _ _ _ H1 H). split; auto. cbn [nty]. congruence. Qed.

  (** ** Elements without features, and elements in an Update *)
  Definition busy (s : splitter) : splitter := {| made := made s; added := added s; counter := counter s; doc := doc s; updating := true |}.
  Lemma split_new_same ty s : doc s <> NoHome -> updating s = true \/ is_a ty Type_Update = false -> split_new ty s = s.
  Proof.
    intros Hd Hu. destruct s as [m ad co d u]. unfold split_new. cbn in *. f_equal; [destruct d; congruence|]. destruct Hu as [->| ->]; [reflexivity|apply orb_false_r].
  Qed.
  Lemma split_end_plain p c s : doc s <> NoHome -> is_a (oty c) Type_Update = false -> updating s = true \/ is_a (oty p) Type_Feature = false ->
    split_end E p c s = do p' <- add_element E p c; Ok (p', s).
  Proof.
    intros Hd Hc Hp. unfold split_end. rewrite Hc. destruct (updating s) eqn:Eu; [reflexivity|]. destruct Hp as [|Hp]; [discriminate|].
    destruct (doc s) eqn:Ed; [contradiction|..]; unfold non_document_feature; rewrite Hp; cbn [andb]; rewrite andb_false_r; reflexivity.
  Qed.
  Lemma sloop_same l : (forall c, In (LChild c) l -> forall s, doc s = OpenHome -> updating s = true \/ calm c = true -> quiet c = true -> split_build E late c s = do o <- build E c; Ok (o, s)) ->
    forall o s, doc s = OpenHome -> on_children quiet l = true -> updating s = true \/ (is_a (oty o) Type_Feature = false /\ on_children calm l = true) -> sized o ->
    sloop false l o s = do r <- DomProofs.steps E l o; Ok (r, s).
  Proof.
    induction l as [|e l IH]; intros Hl o s Hd Hq Hs Hz; [reflexivity|]. cbn [sloop DomProofs.steps]. unfold on_children in Hq, Hs. cbn [forallb] in Hq, Hs. fold (on_children quiet l) in Hq. fold (on_children calm l) in Hs. apply andb_true_iff in Hq as [Hq1 Hq2].
    assert (Hl' : forall c, In (LChild c) l -> forall s, doc s = OpenHome -> updating s = true \/ calm c = true -> quiet c = true -> split_build E late c s = do o <- build E c; Ok (o, s)) by (intros c Hc; apply Hl; now right).
    destruct e as [c|x|x|x|u sd].
    2,3,4,5: rewrite entry_same by congruence; destruct (add_entry E _ o) as [o1| | |] eqn:E1; cbn [bind]; try reflexivity; apply entry_get in E1 as (S1 & T1 & _); [|congruence|exact Hz]; apply IH; auto; rewrite T1; tauto.
    cbn [entry_step]. rewrite (Hl c (or_introl eq_refl) s Hd) by (try (destruct Hs as [|[_ Hs]]; [now left|right; now apply andb_true_iff in Hs]); auto).
    destruct (build E c) as [c'| | |] eqn:Ec; cbn [bind]; try reflexivity. destruct (build_ty _ _ Ec) as [_ Tc].
    assert (Hu : is_a (oty c') Type_Update = false) by (rewrite Tc; destruct c as [t a cd lg]; cbn [quiet nty] in *; apply andb_true_iff in Hq1 as [Hq1 _]; now apply negb_true_iff).
    rewrite split_end_plain; [|congruence|exact Hu|tauto]. destruct (add_element E o c') as [o1| | |] eqn:E1; cbn [bind]; try reflexivity. apply add_get in E1 as (S1 & T1 & _); [|exact Hz].
    apply IH; auto. rewrite T1. destruct Hs as [|[Hs1 Hs2]]; [now left|right]. apply andb_true_iff in Hs2. tauto.
  Qed.
  Lemma calm_quiet n : calm n = true -> quiet n = true.
  Proof.
    induction n as [ty a cd log IH] using node_all. cbn [calm quiet]. rewrite !andb_true_iff. intros ((_ & H1) & H2). split; [exact H1|]. rewrite forallb_forall in *. intros e He. specialize (H2 e He). destruct e; auto.
  Qed.
  Lemma split_same n : forall s, doc s = OpenHome -> updating s = true \/ calm n = true -> quiet n = true -> split_build E late n s = do o <- build E n; Ok (o, s).
  Proof.
    induction n as [ty a cd log IH] using node_all. intros s Hd Hs Hq. rewrite split_build_eq, build_eq. rewrite Hd. cbv zeta. destruct (start_sized E ty a cd) as [S0 T0].
    cbn [calm quiet] in Hs, Hq. apply andb_true_iff in Hq as [Hq1 Hq2]. apply negb_true_iff in Hq1.
    rewrite split_new_same; [|congruence|auto]. rewrite (sloop_same log IH); auto.
    - destruct (DomProofs.steps E log _); reflexivity.
    - rewrite T0. destruct Hs as [|Hs]; [now left|right]. rewrite !andb_true_iff, !negb_true_iff in Hs. tauto.
  Qed.
  Lemma split_calm n s : doc s = OpenHome -> calm n = true -> split_build E late n s = do o <- build E n; Ok (o, s).
  Proof. intros Hd Hc. apply split_same; auto. now apply calm_quiet. Qed.
  Lemma split_update n s : doc s = OpenHome -> is_a (nty n) Type_Update = true -> neat E n = true -> split_build E late n s = do o <- build E n; Ok (o, busy s).
  Proof.
    destruct n as [ty a cd log]. cbn [nty neat]. intros Hd Hu Hn. rewrite Hu in Hn. rewrite split_build_eq, build_eq, Hd. cbv zeta. destruct (start_sized E ty a cd) as [S0 T0].
    assert (split_new ty s = busy s) as -> by (unfold split_new, busy; rewrite Hd, Hu, orb_true_r; reflexivity).
    rewrite sloop_same; auto.
    - destruct (DomProofs.steps E log _); reflexivity.
    - intros c _ s0. apply split_same.
  Qed.
End Loop.

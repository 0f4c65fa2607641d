(** Splitting the styles of a document is defined whenever reading it is (C32). *)
From Verif Require Import Common StrMap StringsModel ColorModel AttributesModel AttributesProofs XsdTables XsdModel XsdProofs XmlSpec XmlSpecProofs SerializerModel CoordModel HandlerModel HandlerSpec HandlerProps.
From Verif Require Import DomTables DomModel DomSpec DomProofs DomProofs2 DomParsed CloneModel CloneProofs MergeModel MergeProofs IdModel StyleModel StyleProofs SplitModel SplitProofs SplitProofs2 SplitProofs3 SplitProofs4 SplitProofs5.
From Verif Require Import InlineProofs DomProps StyleProps SplitProps InlineProps BareSpec BareProps.
Local Open Scope N_scope.

Section Total.
  Variable E : env.
  Definition total (n : node) : Prop := forall s r, neat E n = true -> concrete n = true -> is_a (nty n) Type_Update = false -> good_state s ->
    build E n = Ok r -> exists r' s', split_build E [] n s = Ok (r', s').
  (** A child is read, whatever it is. *)
  Lemma child_total c s cr : total c -> neat E c = true -> concrete c = true -> good_state s -> build E c = Ok cr ->
    exists c' s1, split_build E [] c s = Ok (c', s1) /\ bare cr = bare c' /\ (calm c = true -> c' = cr /\ s1 = s).
  Proof.
    intros Ht Hn Hc Hg Hb. pose proof Hg as (Hd & Hu & _).
    assert (K : exists c' s1, split_build E [] c s = Ok (c', s1)).
    { destruct (is_a (nty c) Type_Update) eqn:Eu; [|now apply (Ht s cr)]. rewrite (split_update E [] c s Hd Eu Hn), Hb. cbn [bind]. eauto. }
    destruct K as (c' & s1 & Es). exists c', s1. split; [exact Es|]. split.
    - destruct (split_bare E [] c Hc _ _ _ Es) as (o & Ho & Hbo). congruence.
    - intros Hcalm. rewrite (split_calm E [] c s Hd Hcalm), Hb in Es. cbn [bind] in Es. injection Es as <- <-. auto.
  Qed.
  Lemma end_total s l c p p' cr q c' s1 : (is_a (oty p) gF = true -> styling c = true -> calm c = true) -> oty p <> gF -> good_state s -> inv E s (LChild c :: l) p p' -> bare p = bare p' ->
    build E c = Ok cr -> add_element E p cr = Ok q -> bare cr = bare c' -> (calm c = true -> c' = cr /\ s1 = s) -> exists q' s2, split_end E p' c' s1 = Ok (q', s2).
  Proof.
    intros Hcalm Hn Hst [Tp [Sp Sp'] Hbelow Hown] Hbp Hb Ha Hbc Hc. destruct (build_ty E _ _ Hb) as [Sc Tc].
    destruct (is_a (oty c') gS && non_document_feature (oty p') && negb (has_style_url p')) eqn:Eb.
    2:{ rewrite split_end_add by exact Eb. destruct (add_defined E p' p c' cr q (eq_sym Hbp) (eq_sym Hbc) Ha) as [q' ->]. cbn [bind]. eauto. }
    apply andb_prop in Eb as [Eb Eh]. apply andb_prop in Eb as [HS Hnd]. apply negb_true_iff in Eh. pose proof (bare_same_ty _ _ Hbc) as Tcc.
    rewrite Tp in Hnd. assert (Hf : is_a (oty p) gF = true) by (unfold non_document_feature in Hnd; now apply andb_prop in Hnd).
    assert (Edoc : is_a (oty p) Type_Document = false) by (unfold non_document_feature in Hnd; apply andb_prop in Hnd as [_ G]; now apply negb_true_iff in G).
    assert (Hsty : styling c = true) by (unfold styling; rewrite <- Tc, Tcc, HS; reflexivity).
    destruct (Hc (Hcalm Hf Hsty)) as [-> ->]. specialize (Hown Hf). rewrite Edoc in Hown.
    destruct Hown as [(H1 & H2 & H3 & H4 & H5)|[(H1 & H2 & H3)|[H1 _]]].
    - cbn [orderly] in H5. rewrite <- Tc in H5. destruct (oty cr =? gU) eqn:E1; [apply N.eqb_eq in E1; now apply selector_not_url in HS|]. rewrite HS in H5. apply andb_true_iff in H5 as [H5 H6].
      destruct (plain_inline_spec E _ _ H5 Hb) as (P1 & P2 & P3 & P4). destruct Hst as (Hd & Hu & _).
      unfold split_end. rewrite Hu, Hd, HS, Tp, Hnd, Eh. cbn [negb andb]. destruct (mget (unique_id (counter s)) (made s)).
      + destruct (add_defined E p' p cr cr q (eq_sym Hbp) eq_refl Ha) as [q' ->]. cbn [bind]. eauto.
      + destruct (copy_selector E cr (unique_id (counter s)) P1 P2 P3 P4) as (x & -> & _). eauto.
    - unfold has_style_url in Eh. rewrite H2 in Eh. destruct (get p gU); [contradiction|discriminate].
    - exfalso. unfold still, on_children in H1. cbn [forallb] in H1. rewrite Hsty in H1. discriminate.
  Qed.
  Lemma loop_total l : (forall c, In (LChild c) l -> total c) -> forall p p' s r, (forall c, In (LChild c) l -> neat E c = true /\ (is_a (oty p) gF = true -> styling c = true -> calm c = true)) ->
    (forall c, In (LChild c) l -> concrete c = true) -> oty p <> gF -> good_state s -> inv E s l p p' -> bare p = bare p' ->
    DomProofs.steps E l p = Ok r -> exists r' s', sloop E [] false l p' s = Ok (r', s').
  Proof.
    induction l as [|e l IH]; intros Hm p p' s r Hc Hcon Hn Hg Hi Hbp H; [cbn; eauto|].
    assert (Hm' : forall c, In (LChild c) l -> total c) by (intros c Hin; apply Hm; now right).
    assert (Hc' : forall c, In (LChild c) l -> neat E c = true /\ (is_a (oty p) gF = true -> styling c = true -> calm c = true)) by (intros c Hin; apply Hc; now right).
    assert (Hcon' : forall c, In (LChild c) l -> concrete c = true) by (intros c Hin; apply Hcon; now right).
    cbn [DomProofs.steps sloop] in H |- *. pose proof Hi as [Tp [Sp Sp'] Hb Ho]. destruct e as [c|x|x|x|u sd].
    2,3,4,5: rewrite entry_same in H by congruence; destruct (add_entry E _ p) as [q| | |] eqn:E1; cbn [bind] in H; try discriminate;
      destruct (entry_defined E _ _ _ _ (eq_sym Hbp) E1) as [q' E2]; rewrite E2; cbn [bind]; pose proof (entry_same2 E _ _ _ _ _ Hbp E1 E2) as Hbq;
      apply entry_get in E1 as (S1 & T1 & G1); [|congruence|exact Sp]; apply entry_get in E2 as (S2 & T2 & G2); [|congruence|exact Sp'];
      apply (IH Hm' q q' s r); auto; try (now rewrite T1);
      constructor; [congruence|auto|rewrite G1, G2 by discriminate; exact Hb|]; rewrite T1; intros Hf; specialize (Ho Hf);
      destruct (is_a (oty p) Type_Document); [rewrite !G1, !G2 by discriminate; exact Ho|];
      eapply phase_same; [exact Ho|exact I|exact T1|exact T2|]; intros k Hk; split; [apply G1|apply G2]; destruct Hk as [->| ->]; discriminate.
    cbn [entry_step] in H. destruct (build E c) as [cr| | |] eqn:Ec; cbn [bind] in H; try discriminate. destruct (add_element E p cr) as [q| | |] eqn:Ea; cbn [bind] in H; try discriminate.
    destruct (Hc c (or_introl eq_refl)) as [N1 N2].
    destruct (child_total c s cr (Hm c (or_introl eq_refl)) N1 (Hcon c (or_introl eq_refl)) Hg Ec) as (c' & s1 & Es & Hbc & Hcc). rewrite Es. cbn [bind].
    destruct (end_total s l c p p' cr q c' s1 N2 Hn Hg Hi Hbp Ec Ea Hbc Hcc) as (q' & s2 & En). rewrite En. cbn [bind].
    destruct (child_step E s l c p p' cr q c' s1 q' s2 (main_all E c) N1 N2 Hn Hg Hi Ec Ea Es En) as (G1 & G2 & G3).
    destruct (add_get E _ _ _ Sp Ea) as (_ & Tq & _). apply (IH Hm' q q' s2 r); auto; [now rewrite Tq|congruence|].
    destruct (split_end_same E p p' cr c' s1 q' s2 Hbp Hbc Hn En) as (q0 & Eq0 & Hbq). congruence.
  Qed.
  Lemma concrete_children ty a cd log : concrete (Node ty a cd log) = true -> forall c, In (LChild c) log -> concrete c = true.
  Proof. cbn [concrete]. intros H. apply andb_prop in H as [_ H]. rewrite forallb_forall in H. intros c Hc. exact (H _ Hc). Qed.
  Lemma total_all n : total n.
  Proof.
    induction n as [ty a cd log IH] using node_all. intros s r Hn Hcon Hu Hg H. cbn [nty] in Hu. pose proof Hg as (Hd & Hup & Hfit).
    rewrite build_eq in H. rewrite split_build_eq, Hd. cbv zeta. rewrite split_new_same; [|congruence|auto].
    destruct (neat_children E _ _ _ _ Hn Hu) as (N1 & N2 & N3). destruct (start_sized E ty a cd) as [S0 T0].
    destruct (loop_total log IH (start E ty a cd) (start E ty a cd) s r) as (r' & s' & Hl); auto; try (now rewrite T0).
    - exact (concrete_children _ _ _ _ Hcon).
    - constructor; auto; [rewrite !start_empty; constructor|]. rewrite T0. intros Hf. destruct (is_a ty Type_Document) eqn:Edoc; [auto|]. left. rewrite !start_empty. repeat split; auto. apply N2. unfold non_document_feature. now rewrite Hf, Edoc.
    - rewrite Hl. cbn [bind]. eauto.
  Qed.
  Lemma home_total l : forall p p' s r, (forall c, In (LChild c) l -> neat E c = true /\ (styling c = true -> calm c = true)) -> (forall c, In (LChild c) l -> concrete c = true) -> good_state s -> hinv s p p' -> bare p = bare p' ->
    DomProofs.steps E l p = Ok r -> exists r' s', sloop E [] true l p' s = Ok (r', s').
  Proof.
    induction l as [|e l IH]; intros p p' s r Hc Hcon Hg Hi Hbp H; [cbn; eauto|].
    assert (Hc' : forall c, In (LChild c) l -> neat E c = true /\ (styling c = true -> calm c = true)) by (intros c Hin; apply Hc; now right).
    assert (Hcon' : forall c, In (LChild c) l -> concrete c = true) by (intros c Hin; apply Hcon; now right).
    (* one step, then the invariant of what was proved for a defined run *)
    assert (One : forall e0 q, e0 = e -> DomProofs.steps E [e0] p = Ok q -> exists q' s', sloop E [] true [e0] p' s = Ok (q', s') /\ bare q = bare q').
    { intros e0 q -> Hq. pose proof Hi as [Tp Tdoc [Sp Sp'] _ _ _ _ _]. cbn [DomProofs.steps sloop] in Hq |- *. destruct e as [c|x|x|x|u sd].
      2,3,4,5: rewrite entry_same in Hq by congruence; destruct (add_entry E _ p) as [q0| | |] eqn:E1; cbn [bind] in Hq; try discriminate; injection Hq as <-;
        destruct (entry_defined E _ _ _ _ (eq_sym Hbp) E1) as [q' E2]; rewrite E2; cbn [bind]; pose proof (entry_same2 E _ _ _ _ _ Hbp E1 E2) as Hbq; eauto.
      cbn [entry_step] in Hq. destruct (build E c) as [cr| | |] eqn:Ec; cbn [bind] in Hq; try discriminate. destruct (add_element E p cr) as [q0| | |] eqn:Ea; cbn [bind] in Hq; try discriminate. injection Hq as <-.
      destruct (Hc c (or_introl eq_refl)) as [N1 N2].
      destruct (child_total c s cr (total_all c) N1 (Hcon c (or_introl eq_refl)) Hg Ec) as (c' & s1 & Es & Hbc & Hcc). rewrite Es. cbn [bind].
      set (p1 := receive p' (skipn (length (added s)) (added s1))).
      assert (T1 : oty p1 = Type_Document) by (unfold p1, receive; rewrite put_type; congruence).
      assert (Hb1 : bare p = bare p1) by (unfold p1, receive; rewrite put_hidden; [exact Hbp|rewrite Tp, Tdoc; reflexivity|now right]).
      destruct (add_defined E p1 p c' cr q0 (eq_sym Hb1) (eq_sym Hbc) Ea) as [q' Eq'].
      rewrite split_end_add by (unfold non_document_feature; rewrite T1; cbn [is_a]; now rewrite andb_false_r). rewrite Eq'. cbn [bind].
      eexists. eexists. split; [reflexivity|]. exact (add_same E p p1 cr c' q0 q' Hb1 Hbc Ea Eq'). }
    change (e :: l) with ([e] ++ l) in H |- *. rewrite steps_app in H. destruct (DomProofs.steps E [e] p) as [q| | |] eqn:Eq; cbn [bind] in H; try discriminate.
    destruct (One e q eq_refl Eq) as (q' & s' & Es & Hbq). rewrite sloop_app, Es. cbn [bind].
    destruct (home_loop E [e] p p' s q q' s' ltac:(intros c [->|[]]; apply Hc; now left) Hg Hi Eq Es) as (G1 & _ & G3).
    now apply (IH q q' s' r).
  Qed.
  Lemma document_total a cd log r : neat E (Node Type_Document a cd log) = true -> concrete (Node Type_Document a cd log) = true -> build E (Node Type_Document a cd log) = Ok r ->
    exists r' s', split_build E [] (Node Type_Document a cd log) splitter0 = Ok (r', s') /\ added s' = [].
  Proof.
    intros Hn Hcon H. rewrite build_eq in H. rewrite split_build_eq. cbv zeta. change (match doc splitter0 with NoHome => is_a Type_Document Type_Document | _ => false end) with true.
    change (split_new Type_Document splitter0) with {| made := []; added := []; counter := 0; doc := OpenHome; updating := false |}.
    destruct (neat_children E _ _ _ _ Hn eq_refl) as (N1 & N2 & N3). destruct (start_sized E Type_Document a cd) as [S0 T0].
    assert (H0 : hinv {| made := []; added := []; counter := 0; doc := OpenHome; updating := false |} (start E Type_Document a cd) (start E Type_Document a cd)).
    { constructor; auto; rewrite ?start_empty; cbn [added flat_map]; [constructor|apply incl_refl..]. }
    destruct (home_total log _ _ _ _ ltac:(intros c Hc; destruct (N3 c Hc); auto) (concrete_children _ _ _ _ Hcon) good0 H0 eq_refl H) as (r' & s' & ->). cbn [bind]. eexists. eexists. split; reflexivity.
  Qed.
End Total.

(** C32. Splitting is defined for every document of split_preserves that can be read at all: no style is lost to an error. *)
Theorem split_defined : forall E n o, one_document E n -> concrete n = true -> build E n = Ok o -> exists o', split_styles E n = Ok o'.
Proof.
  intros E n o [a cd log Hn|a cd pre da dcd dlog post Hpre Hpost Hn] Hcon H; unfold split_styles.
  - destruct (document_total E a cd log o Hn Hcon H) as (r' & s' & -> & L1). cbn [bind]. rewrite L1. eauto.
  - rewrite build_eq in H. rewrite split_build_eq. cbv zeta. change (match doc splitter0 with NoHome => is_a Type_kml Type_Document | _ => false end) with false. change (split_new Type_kml splitter0) with splitter0.
    rewrite steps_app in H. rewrite sloop_app, childless_steps by exact Hpre. destruct (DomProofs.steps E pre (start E Type_kml a cd)) as [o1| | |] eqn:E1; cbn [bind] in H |- *; try discriminate.
    cbn [DomProofs.steps sloop entry_step] in H |- *. destruct (build E (Node Type_Document da dcd dlog)) as [d| | |] eqn:Ed; cbn [bind] in H; try discriminate.
    assert (Hcd : concrete (Node Type_Document da dcd dlog) = true) by (apply (concrete_children _ _ _ _ Hcon); apply in_or_app; right; now left).
    destruct (document_total E da dcd dlog d Hn Hcd Ed) as (d' & s2 & Ed' & L1). rewrite Ed'. cbn [bind].
    destruct (split_bare E [] _ Hcd _ _ _ Ed') as (d0 & Ed0 & Hbd). assert (d0 = d) by congruence. subst d0.
    assert (Td' : oty d' = Type_Document) by (rewrite <- (bare_same_ty _ _ Hbd); destruct (build_ty E _ _ Ed) as [_ T]; exact T).
    destruct (add_element E o1 d) as [o2| | |] eqn:Ea; cbn [bind] in H; try discriminate.
    rewrite split_end_add by (rewrite Td'; reflexivity). destruct (add_defined E o1 o1 d' d o2 eq_refl (eq_sym Hbd) Ea) as [o2' Ea']. rewrite Ea'. cbn [bind].
    rewrite childless_steps by exact Hpost. pose proof (add_same E o1 o1 d d' o2 o2' eq_refl Hbd Ea Ea') as Hb2.
    assert (K : forall l, childless l = true -> forall x x' r, bare x = bare x' -> DomProofs.steps E l x = Ok r -> exists r', DomProofs.steps E l x' = Ok r').
    { clear. induction l as [|e l IH]; intros Hl x x' r Hb Hr; [cbn; eauto|]. cbn [childless forallb] in Hl. apply andb_true_iff in Hl as [He Hl]. cbn [DomProofs.steps] in Hr |- *.
      destruct e as [c|y|y|y|u sd]; [discriminate|..]; rewrite entry_same in Hr |- * by congruence; destruct (add_entry E _ x) as [x1| | |] eqn:E1; cbn [bind] in Hr; try discriminate;
        destruct (entry_defined E _ _ _ _ (eq_sym Hb) E1) as [x1' E1']; rewrite E1'; cbn [bind]; apply (IH Hl x1 x1' r); auto; exact (entry_same2 E _ _ _ _ _ Hb E1 E1'). }
    destruct (K post Hpost o2 o2' o Hb2 H) as [r' ->]. cbn [bind closes]. assert (done s2 d' = s2) as -> by (unfold done; rewrite Td'; reflexivity). rewrite L1. eauto.
Qed.
Print Assumptions split_defined.
(** C32. So the looks of the features of such a document are kept, with nothing asked of the splitting. *)
Theorem split_keeps_looks : forall E split_uri fetch n o, one_document E n -> concrete n = true -> build E n = Ok o ->
  distinct_ids o -> (forall id x, shared_in o id x -> ~ made_up id) -> (forall u, In u (refs o) -> ~ refers_to_made_up split_uri u) ->
  (forall v m id x u, fetch v = Some m -> mget id m = Some x -> In u (refs x) -> ~ refers_to_made_up split_uri u) ->
  (forall k, split_uri (S_ "#" ++ unique_id k) = Some ([], unique_id k)) -> exists o', split_styles E n = Ok o' /\ looks_kept E split_uri fetch o o' /\ bare o' = bare o.
Proof.
  intros E split_uri fetch n o H1 Hc H2 H4 H5 H6 H7 H8. destruct (split_defined E n o H1 Hc H2) as [o' H3]. exists o'. split; [exact H3|]. split; [now apply (split_preserves E split_uri fetch n)|].
  destruct (split_only_styles E n o' Hc H3) as (o1 & Ho1 & Hb). congruence.
Qed.
Print Assumptions split_keeps_looks.
(** The sample of SplitProps.v is such a document. *)
Example split_defined_sample : one_document E0 sample /\ concrete sample = true /\ build E0 sample = Ok (made_from sample) /\ split_styles E0 sample = Ok (split_from sample).
Proof. split; [exact (proj1 split_sample)|]. repeat split; vm_compute; reflexivity. Qed.

(** ** Ending *)
Section Ends.
  Variables (E : env) (late : list obj).
  Lemma norm_fuel f p ty prev prev' x : norm E p f ty prev x = Fuel -> norm E p f ty prev' x = Fuel.
  Proof. destruct f; cbn [norm]; auto; discriminate. Qed.
  Lemma add_fuel p p' c c' : bare p = bare p' -> bare c = bare c' -> add_element E p' c' = Fuel -> add_element E p c = Fuel.
  Proof.
    intros Hp Hc. unfold add_element. rewrite <- (bare_same_ty _ _ Hp), <- (bare_same_ty _ _ Hc).
    assert (Hd : char_data c = char_data c') by (unfold char_data; now rewrite (bare_same_text _ _ Hc)). rewrite <- Hd.
    destruct (snippet_type (oty p)); [discriminate|]. destruct (oty p =? Type_coordinates); [discriminate|]. destruct ((oty p =? Type_SimpleData) && (oty c =? Type_SimpleData)); [discriminate|].
    destruct (find_slot (oty c) (c_slots (cls (oty p))) 0) as [[i s]|]; [|discriminate]. destruct (s_kind s) as [f|f| |]; [| |discriminate..].
    - destruct (norm E (oty p) f (oty c) _ (char_data c)) as [v| | |] eqn:Ev; cbn [bind]; try discriminate. intros _. rewrite (norm_fuel f (oty p) (oty c) _ _ _ Ev). reflexivity.
    - destruct (norm E (oty p) f (oty c) None (char_data c)) as [v| | |]; cbn [bind]; try discriminate. auto.
  Qed.
  Lemma entry_fuel e p p' : bare p = bare p' -> add_entry E e p' = Fuel -> add_entry E e p = Fuel.
  Proof.
    intros Hp. destruct e as [c|s|s|s|url sd]; cbn [add_entry]; try discriminate. unfold add_self. rewrite <- (bare_same_ty _ _ Hp). destruct (oty p =? Type_coordinates).
    - destruct (coordinates_parse s) as [vs| | |]; cbn [bind]; try discriminate. auto.
    - destruct (snippet_type (oty p) || (oty p =? Type_SimpleData)); discriminate.
  Qed.
  Lemma split_end_fuel p p' c c' s : bare p = bare p' -> bare c = bare c' -> split_end E p' c' s = Fuel -> add_element E p c = Fuel.
  Proof.
    intros Hp Hc. unfold split_end.
    assert (A : forall s1 : splitter, (do p1 <- add_element E p' c'; Ok (p1, s1)) = Fuel -> add_element E p c = Fuel).
    { intros s1. destruct (add_element E p' c') as [p1| | |] eqn:E1; cbn [bind]; try discriminate. intros _. now apply (add_fuel p p' c c'). }
    destruct (updating s); [apply A|]. destruct (doc s); [apply A|..];
      (destruct (is_a (oty c') Type_StyleSelector && non_document_feature (oty p') && negb (has_style_url p')); [|apply A]);
      (destruct (mget (unique_id (counter s)) (made s)); [apply A|]); destruct (merge E c' _); discriminate.
  Qed.
  Lemma split_fuel n : concrete n = true -> forall s, split_build E late n s = Fuel -> build E n = Fuel.
  Proof.
    induction n as [ty a cd log IH] using node_all. intros Hcon s. cbn [concrete] in Hcon. apply andb_prop in Hcon as [Hty Hcon]. apply negb_true_iff, N.eqb_neq in Hty.
    rewrite build_eq, split_build_eq. cbv zeta. set (mine := match doc s with NoHome => is_a ty Type_Document | _ => false end).
    assert (Hmine : mine = true -> is_a ty Type_Document = true) by (unfold mine; destruct (doc s); auto; discriminate). clearbody mine.
    destruct (start_sized E ty a cd) as [S0 T0]. generalize (split_new ty s). intros s0. destruct (sloop E late mine log (start E ty a cd) s0) as [[r1 s1]| | |] eqn:Es; cbn [bind]; try discriminate.
    intros _. revert Es. assert (Hb : bare (start E ty a cd) = bare (start E ty a cd)) by reflexivity. revert S0 T0 Hb.
    generalize (start E ty a cd) at 1 2 3 6. generalize (start E ty a cd). intros o' o. revert o o' s0. clear s.
    induction log as [|e l IHl]; intros o o' s0 S0 T0 Hb Hs; [discriminate Hs|].
    cbn [forallb] in Hcon. apply andb_prop in Hcon as [He Hcon].
    assert (IH' : forall c, In (LChild c) l -> concrete c = true -> forall s, split_build E late c s = Fuel -> build E c = Fuel) by (intros c Hc; apply IH; now right).
    cbn [DomProofs.steps sloop] in Hs |- *. destruct e as [c|x|x|x|u sd].
    2,3,4,5: (rewrite entry_same by congruence;
      destruct (add_entry E _ o') as [o1'| | |] eqn:E1' in Hs; cbn [bind] in Hs; try discriminate;
      first [destruct (entry_defined E _ _ _ _ Hb E1') as [o1 E1]; rewrite E1; cbn [bind];
       pose proof (entry_same2 E _ _ _ _ _ Hb E1 E1') as Hb1; apply entry_get in E1 as (S1 & T1 & _); [|congruence|exact S0];
       apply (IHl IH' Hcon o1 o1' s0); auto; congruence
      |rewrite (entry_fuel _ _ _ Hb E1'); reflexivity]).
    cbn [entry_step].
    destruct (split_build E late c s0) as [[c2 s2]| | |] eqn:Ec2; cbn [bind] in Hs; try discriminate; [|rewrite (IH c (or_introl eq_refl) He _ Ec2); reflexivity].
    destruct (split_bare E late c He _ _ _ Ec2) as (c1 & Ec & Hc). rewrite Ec. cbn [bind].
    assert (Hrec : bare o = bare (if mine then receive o' (skipn (length (added s0)) (added s2)) else o')).
    { destruct mine; [|exact Hb]. unfold receive. rewrite put_hidden; [exact Hb| |now right]. rewrite <- (bare_same_ty _ _ Hb), T0. apply document_feature. auto. }
    destruct (split_end E _ c2 s2) as [[o2 s3]| | |] eqn:E2 in Hs; cbn [bind] in Hs; try discriminate; [|rewrite (split_end_fuel _ _ _ _ _ Hrec Hc E2); reflexivity].
    destruct (split_end_same E _ _ _ _ _ _ _ Hrec Hc ltac:(congruence) E2) as (o1 & E1 & Hb1). rewrite E1. cbn [bind].
    apply add_get in E1 as (S1 & T1 & _); [|exact S0]. apply (IHl IH' Hcon o1 o2 s3); auto. congruence.
  Qed.
  Variable split_uri : str -> option (str * str).
  Lemma selector_ends shared u : resolved_selector E split_uri shared u <> Fuel.
  Proof.
    unfold resolved_selector, resolved_pair.
    assert (G : forall h, match resolve E split_uri (fun _ => None) shared h max_urls u None with Fuel => False | _ => True end).
    { intros h. pose proof (resolve_terminates E split_uri (fun _ => None) shared h max_urls u None (le_n _)) as [_ G]. destruct (resolve _ _ _ _ _ _ _ _); auto. }
    pose proof (G false) as G1. pose proof (G true) as G2.
    destruct (resolve E split_uri (fun _ => None) shared false max_urls u None); try contradiction; cbn [bind]; try discriminate.
    destruct (resolve E split_uri (fun _ => None) shared true max_urls u None); try contradiction; cbn [bind]; discriminate.
  Qed.
  Lemma inline_end_fuel p p' c c' s : bare p = bare p' -> bare c = bare c' -> inline_end E split_uri p' c' s = Fuel -> add_element E p c = Fuel.
  Proof.
    intros Hp Hc. unfold inline_end.
    assert (A : forall s1 : inliner, (do p1 <- add_element E p' c'; Ok (p1, s1)) = Fuel -> add_element E p c = Fuel).
    { intros s1. destruct (add_element E p' c') as [p1| | |] eqn:E1; cbn [bind]; try discriminate. intros _. now apply (add_fuel p p' c c'). }
    destruct (in_update s); [apply A|]. match goal with |- (if ?b then _ else _) = _ -> _ => destruct b end; [discriminate|].
    match goal with |- (if ?b then _ else _) = _ -> _ => destruct b end; [|apply A].
    destruct (split_uri (char_data c')) as [[[|x u] id]|]; [|apply A..]. destruct (mget id (captured s)); [|apply A].
    pose proof (selector_ends (captured s) (char_data c')) as G. destruct (resolved_selector E split_uri (captured s) (char_data c')); cbn [bind]; try discriminate. now destruct G.
  Qed.
  Lemma inline_fuel n : concrete n = true -> forall s, inline_build E split_uri n s = Fuel -> build E n = Fuel.
  Proof.
    induction n as [ty a cd log IH] using node_all. intros Hcon s. cbn [concrete] in Hcon. apply andb_prop in Hcon as [Hty Hcon]. apply negb_true_iff, N.eqb_neq in Hty.
    rewrite build_eq, inline_build_eq. destruct (start_sized E ty a cd) as [S0 T0]. generalize (inline_new ty s). intros s0.
    assert (Hb : bare (start E ty a cd) = bare (start E ty a cd)) by reflexivity. revert S0 T0 Hb.
    generalize (start E ty a cd) at 1 2 3 6. generalize (start E ty a cd). intros o' o. revert o o' s0. clear s.
    induction log as [|e l IHl]; intros o o' s0 S0 T0 Hb Hs; [discriminate Hs|].
    cbn [forallb] in Hcon. apply andb_prop in Hcon as [He Hcon].
    assert (IH' : forall c, In (LChild c) l -> concrete c = true -> forall s, inline_build E split_uri c s = Fuel -> build E c = Fuel) by (intros c Hc; apply IH; now right).
    cbn [DomProofs.steps iloop] in Hs |- *. destruct e as [c|x|x|x|u sd].
    2,3,4,5: (rewrite entry_same by congruence;
      destruct (add_entry E _ o') as [o1'| | |] eqn:E1' in Hs; cbn [bind] in Hs; try discriminate;
      first [destruct (entry_defined E _ _ _ _ Hb E1') as [o1 E1]; rewrite E1; cbn [bind];
       pose proof (entry_same2 E _ _ _ _ _ Hb E1 E1') as Hb1; apply entry_get in E1 as (S1 & T1 & _); [|congruence|exact S0];
       apply (IHl IH' Hcon o1 o1' s0); auto; congruence
      |rewrite (entry_fuel _ _ _ Hb E1'); reflexivity]).
    cbn [entry_step].
    destruct (inline_build E split_uri c s0) as [[c2 s2]| | |] eqn:Ec2; cbn [bind] in Hs; try discriminate; [|rewrite (IH c (or_introl eq_refl) He _ Ec2); reflexivity].
    destruct (inline_bare E split_uri c He _ _ _ Ec2) as (c1 & Ec & Hc). rewrite Ec. cbn [bind].
    destruct (inline_end E split_uri _ c2 s2) as [[o2 s3]| | |] eqn:E2 in Hs; cbn [bind] in Hs; try discriminate; [|rewrite (inline_end_fuel _ _ _ _ _ Hb Hc E2); reflexivity].
    destruct (inline_end_same E split_uri _ _ _ _ _ _ _ Hb Hc ltac:(congruence) E2) as (o1 & E1 & Hb1). rewrite E1. cbn [bind].
    apply add_get in E1 as (S1 & T1 & _); [|exact S0]. apply (IHl IH' Hcon o1 o2 s3); auto. congruence.
  Qed.
End Ends.
(** C117. Splitting and inlining styles come to an end for every document which can be read in finite time at all. *)
Theorem styles_end : forall E split_uri n, concrete n = true -> build E n <> Fuel -> split_styles E n <> Fuel /\ inline_styles E split_uri n <> Fuel.
Proof.
  intros E split_uri n Hc Hb. unfold split_styles, inline_styles. split; intros H; apply Hb.
  - destruct (split_build E [] n splitter0) as [[r s]| | |] eqn:Es; cbn [bind] in H; try discriminate; [|exact (split_fuel E [] n Hc _ Es)].
    destruct (added s) as [|x l]; [discriminate|]. destruct (split_build E (x :: l) n splitter0) as [[r' s']| | |] eqn:Es'; cbn [bind] in H; try discriminate. exact (split_fuel E (x :: l) n Hc _ Es').
  - destruct (inline_build E split_uri n inliner0) as [[r s]| | |] eqn:Es; cbn [bind] in H; try discriminate. exact (inline_fuel E split_uri n Hc _ Es).
Qed.
Print Assumptions styles_end.

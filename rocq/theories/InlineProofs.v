(** Proofs about SplitModel.v: the features of a document before and after InlineStyles. *)
From Verif Require Import Common StrMap StringsModel ColorModel AttributesModel AttributesProofs XsdTables XsdModel XmlSpec SerializerModel CoordModel HandlerModel.
From Verif Require Import DomTables DomModel DomSpec DomProofs DomProofs2 DomParsed CloneModel CloneProofs MergeModel MergeProofs IdModel StyleModel StyleProofs SplitModel SplitProofs SplitProofs2 SplitProofs3 SplitProofs4 SplitProofs5.
Local Open Scope N_scope.

(** ** Shape of the input *)
Section Shape.
  Variables (E : env) (split_uri : str -> option (str * str)).
  (** A reference into the same file. *)
  Definition local_url (c : node) : bool :=
    (nty c =? gU) && match build E c with Ok o => match split_uri (char_data o) with Some ([], _) => true | _ => false end | _ => false end.
  Fixpoint stylings (log : list entry) : nat :=
    match log with [] => 0 | LChild c :: r => (if styling c then 1 else 0) + stylings r | _ :: r => stylings r end%nat.
  (** A feature with a reference into the same file has no style and no other reference. *)
  Definition single (log : list entry) : bool := (stylings log <=? 1)%nat || on_children (fun c => negb (local_url c)) log.
  (** No Document and no Update in an element. *)
  Fixpoint tame (n : node) : bool := let 'Node ty _ _ log := n in
    negb (is_a ty Type_Update) && negb (is_a ty Type_Document) && negb (ty =? gF) &&
    (if is_a ty gF then on_children (fun c => negb (styling c) || calm c) log && single log else true) && forallb (fun e => match e with LChild c => tame c | _ => true end) log.
  Definition no_style (log : list entry) : bool := on_children (fun c => negb (is_a (nty c) gS)) log.
  (** The shared styles come before the features. *)
  Fixpoint styles_first (log : list entry) : bool :=
    match log with [] => true | LChild c :: r => if is_a (nty c) gF then no_style r else styles_first r | _ :: r => styles_first r end.
  Definition tidy (log : list entry) : bool := on_children (fun c => tame c && (negb (styling c) || calm c)) log && styles_first log.
End Shape.

(** ** Unfolding *)
Section Loop.
  Variables (E : env) (split_uri : str -> option (str * str)).
  Notation ibuild := (inline_build E split_uri).
  Notation iend := (inline_end E split_uri).
  Fixpoint iloop (l : list entry) (o : obj) (s : inliner) : res (obj * inliner) :=
    match l with
    | [] => Ok (o, s)
    | LChild c :: r =>
        do (c', s1) <- ibuild c s;
        do (o2, s2) <- iend o c' s1;
        iloop r o2 s2
    | e :: r => do o1 <- add_entry E e o; iloop r o1 s
    end.
  Lemma inline_build_eq ty a cd log s : ibuild (Node ty a cd log) s = iloop log (start E ty a cd) (inline_new ty s).
  Proof. reflexivity. Qed.
  Lemma iloop_app l1 l2 : forall o s, iloop (l1 ++ l2) o s = do (o1, s1) <- iloop l1 o s; iloop l2 o1 s1.
  Proof.
    induction l1 as [|e l IH]; intros o s; [reflexivity|]. cbn [app iloop]. destruct e as [c|x|x|x|u sd]; try (destruct (add_entry E _ o); cbn [bind]; [apply IH|reflexivity..]).
    destruct (ibuild c s) as [[c' s1]| | |]; cbn [bind]; try reflexivity. destruct (iend _ c' s1) as [[o2 s2]| | |]; cbn [bind]; try reflexivity. apply IH.
  Qed.
  Lemma inline_new_same ty s : is_a ty Type_Update = false -> inline_new ty s = s.
  Proof. intros H. destruct s as [c u]. unfold inline_new. cbn. now rewrite H, orb_false_r. Qed.
  Lemma inline_end_add p c s : in_update s = false -> is_a (oty c) Type_Update = false -> is_a (oty p) Type_Document && is_a (oty c) gS = false -> non_document_feature (oty p) && (oty c =? gU) = false ->
    iend p c s = do p' <- add_element E p c; Ok (p', s).
  Proof. intros H1 H2 H3 H4. unfold inline_end. rewrite H1, H2, H3. cbn [andb]. now rewrite H4. Qed.
  (** Elements without features. *)
  Lemma inline_calm n : calm n = true -> forall s, in_update s = false -> ibuild n s = do o <- build E n; Ok (o, s).
  Proof.
    induction n as [ty a cd log IH] using node_all. cbn [calm]. rewrite !andb_true_iff, !negb_true_iff. intros ((H1 & H2) & H3) s Hs. rewrite inline_build_eq, build_eq, inline_new_same by exact H2.
    destruct (start_sized E ty a cd) as [S0 T0]. revert S0 T0. generalize (start E ty a cd) as o. revert IH H3. induction log as [|e l IHl]; intros IH H3 o S0 T0; [reflexivity|]. cbn [forallb] in H3. apply andb_true_iff in H3 as [He H3].
    assert (IH' : forall c, In (LChild c) l -> calm c = true -> forall s, in_update s = false -> ibuild c s = do o <- build E c; Ok (o, s)) by (intros c Hc; apply IH; now right).
    cbn [iloop DomProofs.steps]. destruct e as [c|x|x|x|u sd].
    2,3,4,5: rewrite entry_same by congruence; destruct (add_entry E _ o) as [o1| | |] eqn:E1; cbn [bind]; try reflexivity; apply entry_get in E1 as (S1 & T1 & _); [|congruence|exact S0]; apply IHl; auto; congruence.
    cbn [entry_step]. rewrite (IH c (or_introl eq_refl) He s Hs). destruct (build E c) as [c'| | |] eqn:Ec; cbn [bind]; try reflexivity. destruct (build_ty E _ _ Ec) as [_ Tc].
    assert (Hc : is_a (oty c') Type_Update = false) by (rewrite Tc; destruct c; cbn [calm nty] in *; rewrite !andb_true_iff, !negb_true_iff in He; tauto).
    rewrite inline_end_add; auto.
    - destruct (add_element E o c') as [o1| | |] eqn:E1; cbn [bind]; try reflexivity. apply add_get in E1 as (S1 & T1 & _); [|exact S0]. apply IHl; auto. congruence.
    - rewrite T0. destruct (is_a ty Type_Document) eqn:Ed; [|reflexivity]. apply document_only in Ed. rewrite Ed in H1. discriminate.
    - unfold non_document_feature. rewrite T0, H1. reflexivity.
  Qed.
End Loop.

(** ** Features *)
Section Own.
  Variables (E : env) (split_uri : str -> option (str * str)) (C : list (str * obj)).
  (** Not a reference to one of [C]. *)
  Definition away (u : str) : Prop := u = [] \/ forall id, split_uri u = Some ([], id) -> mget id C = None.
  (** A feature before and after; no Document. *)
  Inductive iown (f f' : obj) : Prop :=
  | iown_kept : oty f' = oty f -> is_a (oty f) Type_Document = false -> get f' gU = get f gU -> get f' gS = get f gS -> away (style_url f) -> iown f f'
  | iown_inlined u id x m : oty f' = oty f -> is_a (oty f) Type_Document = false -> get f gU = [field gU u] -> get f gS = [] -> get f' gU = [] -> get f' gS = [m] ->
      split_uri u = Some ([], id) -> mget id C = Some x -> resolved_selector E split_uri C u = Ok m -> iown f f'.
  Lemma url_same p q : get q gU = get p gU -> style_url q = style_url p.
  Proof. intros H. change (style_url q) with (match get q gU with u :: _ => char_data u | [] => [] end). rewrite H. reflexivity. Qed.
  Lemma iown_get p p' q q' : iown p p' -> oty q = oty p -> oty q' = oty p' -> (forall k, k = gU \/ k = gS -> get q k = get p k /\ get q' k = get p' k) -> iown q q'.
  Proof.
    intros H T T' G. destruct (G gU (or_introl eq_refl)) as [U U']. destruct (G gS (or_intror eq_refl)) as [S S'].
    destruct H as [H1 H2 H3 H4 H5|u id x m H1 H2 H3 H4 H5 H6 H7 H8 H9].
    - apply iown_kept; try congruence. now rewrite (url_same p q U).
    - apply iown_inlined with (u := u) (id := id) (x := x) (m := m); congruence.
  Qed.
  Definition quiet_state (s : inliner) : Prop := s = {| captured := C; in_update := false |}.
  Definition iphase (l : list entry) (p p' : obj) : Prop :=
    (get p gU = [] /\ get p' gU = [] /\ get p gS = [] /\ get p' gS = [] /\ (stylings l <= 1)%nat) \/
    (get p' gU = get p gU /\ get p' gS = get p gS /\ away (style_url p) /\ on_children (fun c => negb (local_url E split_uri c)) l = true) \/
    (still l = true /\ iown p p').
  Record iinv (l : list entry) (p p' : obj) : Prop := {
    ii_ty : oty p' = oty p;
    ii_nd : is_a (oty p) Type_Document = false;
    ii_sized : sized p /\ sized p';
    ii_below : Forall2 iown (flat_map features (get p gF)) (flat_map features (get p' gF));
    ii_own : is_a (oty p) gF = true -> iphase l p p' }.
  Definition state : inliner := {| captured := C; in_update := false |}.
  Definition imain (n : node) : Prop := forall r r' s', tame E split_uri n = true -> build E n = Ok r -> inline_build E split_uri n state = Ok (r', s') ->
    s' = state /\ oty r' = oty r /\ sized r' /\ Forall2 iown (features r) (features r').
  Lemma stylings_still l : stylings l = 0%nat -> still l = true.
  Proof.
    unfold still, on_children. induction l as [|e l IH]; [reflexivity|]. cbn [stylings forallb]. destruct e as [c|x|x|x|u sd]; auto. destruct (styling c); [discriminate|]. exact IH.
  Qed.
  Lemma iphase_same e l p p' q q' : iphase (e :: l) p p' -> match e with LChild c => styling c = false | _ => True end -> oty q = oty p -> oty q' = oty p' ->
    (forall k, k = gU \/ k = gS -> get q k = get p k /\ get q' k = get p' k) -> iphase l q q'.
  Proof.
    intros H He T T' G. destruct (G gU (or_introl eq_refl)) as [U U']. destruct (G gS (or_intror eq_refl)) as [S S'].
    destruct H as [(H1 & H2 & H3 & H4 & H5)|[(H1 & H2 & H3 & H4)|[H1 H2]]].
    - left. repeat split; try congruence. cbn [stylings] in H5. destruct e; auto. now rewrite He in H5.
    - right; left. repeat split; try congruence; [now rewrite (url_same p q U)|]. unfold on_children in H4. cbn [forallb] in H4. now apply andb_true_iff in H4.
    - right; right. split; [|now apply (iown_get p p')]. unfold still, on_children in *. cbn [forallb] in H1. apply andb_true_iff in H1. tauto.
  Qed.
  Lemma add_ifeatures p p' c c' q q' : oty p' = oty p -> oty c' = oty c -> sized p -> sized p' -> add_element E p c = Ok q -> add_element E p' c' = Ok q' ->
    Forall2 iown (features c) (features c') -> Forall2 iown (flat_map features (get p gF)) (flat_map features (get p' gF)) ->
    Forall2 iown (flat_map features (get q gF)) (flat_map features (get q' gF)).
  Proof.
    intros Tp Tc Hs Hs' H H' Hc Hp. apply add_get in H as (_ & _ & G); [|exact Hs]. apply add_get in H' as (_ & _ & G'); [|exact Hs']. specialize (G gF). specialize (G' gF). rewrite Tp, Tc in G'.
    destruct (effect (oty p) (oty c)) as [[k kd]|] eqn:Ee; [|rewrite G, G'; exact Hp]. destruct (k =? gF) eqn:Ek; [|rewrite G, G'; exact Hp]. apply N.eqb_eq in Ek. subst k.
    apply effect_feature in Ee as [_ [->| ->]]; cbn [arrives] in G, G'; rewrite G, G'; cbn [flat_map]; rewrite ?app_nil_r; [exact Hc|]. rewrite !flat_map_app. cbn [flat_map]. rewrite !app_nil_r. now apply Forall2_app.
  Qed.
  Lemma put_selector p m : sized p -> is_a (oty p) gF = true -> oty p <> gF -> let q := put p gS [m] in
    sized q /\ oty q = oty p /\ get q gS = [m] /\ get q gU = get p gU /\ get q gF = get p gF.
  Proof.
    intros Hs Hf Hn q. split; [now apply put_sized|]. split; [apply put_type|]. destruct (has_place (oty p) gS Hf Hn (or_intror eq_refl)) as [i Hi]. unfold q. rewrite !put_get by exact Hs. rewrite Hi.
    change (gS =? gS) with true. change (gS =? gU) with false. change (gS =? gF) with false. cbn [andb]. auto.
  Qed.
  Lemma ichild_step l c p p' cr q c' s1 q' s2 : imain c -> tame E split_uri c = true -> (is_a (oty p) gF = true -> styling c = true -> calm c = true) -> oty p <> gF ->
    iinv (LChild c :: l) p p' -> build E c = Ok cr -> add_element E p cr = Ok q -> inline_build E split_uri c state = Ok (c', s1) -> inline_end E split_uri p' c' s1 = Ok (q', s2) ->
    s2 = state /\ iinv l q q'.
  Proof.
    intros Hmain Htame Hcalm Hn Hinv Hb Ha Hsb Hse. pose proof Hinv as [Tp Hnd [Sp Sp'] Hbelow Hown]. destruct (build_ty E _ _ Hb) as [Sc Tc].
    destruct (add_get E _ _ _ Sp Ha) as (Sq & Tq & _).
    assert (Hup : is_a (oty cr) Type_Update = false) by (rewrite Tc; destruct c; cbn [tame nty] in *; rewrite !andb_true_iff, !negb_true_iff in Htame; tauto).
    assert (Hcase : (is_a (oty p) gF = true /\ styling c = true) \/ (is_a (oty p) gF = false \/ styling c = false)) by (destruct (is_a (oty p) gF), (styling c); auto).
    destruct Hcase as [[Hf Hsty]|Hoth].
    - specialize (Hcalm Hf Hsty). rewrite (inline_calm E split_uri c Hcalm state eq_refl), Hb in Hsb. cbn [bind] in Hsb. injection Hsb as <- <-. specialize (Hown Hf).
      assert (Hf' : is_a (oty p') gF = true) by now rewrite Tp. assert (Hn' : oty p' <> gF) by now rewrite Tp.
      pose proof Hsty as Hsty0. unfold styling in Hsty. rewrite <- Tc in Hsty. apply orb_true_iff in Hsty as [HS|HU'].
      + (* a style *)
        pose proof (selector_not_url _ HS) as Hnu. destruct (add_selector E p cr q Sp Hf Hn HS Ha) as (A1 & A2 & A3). rewrite Hnd in A1. cbn [app] in A1.
        rewrite inline_end_add in Hse; auto; [|now rewrite Tp, Hnd|apply N.eqb_neq in Hnu; now rewrite Hnu, andb_false_r].
        destruct (add_element E p' cr) as [q1| | |] eqn:Ea'; cbn [bind] in Hse; try discriminate. injection Hse as <- <-.
        destruct (add_selector E p' cr q1 Sp' Hf' Hn' HS Ea') as (B1 & B2 & B3). rewrite Tp, Hnd in B1. cbn [app] in B1. destruct (add_get E _ _ _ Sp' Ea') as (Sq' & Tq' & _).
        split; [reflexivity|]. constructor; [congruence|now rewrite Tq|auto|rewrite A3, B3; exact Hbelow|]. intros _.
        destruct Hown as [(H1 & H2 & H3 & H4 & H5)|[(H1 & H2 & H3 & H4)|[H1 _]]].
        * right; right. cbn [stylings] in H5. rewrite Hsty0 in H5. split; [apply stylings_still; lia|]. apply iown_kept; try congruence. left. change (style_url q) with (match get q gU with u :: _ => char_data u | [] => [] end). rewrite A2, H1. reflexivity.
        * right; left. repeat split; try congruence; [now rewrite (url_same p q A2)|]. unfold on_children in H4. cbn [forallb] in H4. now apply andb_true_iff in H4.
        * exfalso. unfold still, on_children in H1. cbn [forallb] in H1. rewrite Hsty0 in H1. discriminate.
      + (* a reference *)
        apply N.eqb_eq in HU'. assert (HS : is_a (oty cr) gS = false) by (rewrite HU'; reflexivity).
        destruct (add_url E p cr q Sp Hf Hn HU' Ha) as (A1 & A2 & A3).
        assert (Uq : style_url q = char_data cr) by (change (style_url q) with (match get q gU with u :: _ => char_data u | [] => [] end); rewrite A1; reflexivity).
        assert (Hkeep : forall q1 s3, add_element E p' cr = Ok q1 -> away (char_data cr) -> s3 = state -> s3 = state /\ iinv l q q1).
        { intros q1 s3 Ea' Haw Hs3. split; [exact Hs3|]. destruct (add_url E p' cr q1 Sp' Hf' Hn' HU' Ea') as (B1 & B2 & B3). destruct (add_get E _ _ _ Sp' Ea') as (Sq' & Tq' & _).
          constructor; [congruence|now rewrite Tq|auto|rewrite A3, B3; exact Hbelow|]. intros _. destruct Hown as [(H1 & H2 & H3 & H4 & H5)|[(H1 & H2 & H3 & H4)|[H1 _]]].
          - right; right. cbn [stylings] in H5. rewrite Hsty0 in H5. split; [apply stylings_still; lia|]. apply iown_kept; congruence.
          - right; left. repeat split; try congruence. unfold on_children in H4. cbn [forallb] in H4. now apply andb_true_iff in H4.
          - exfalso. unfold still, on_children in H1. cbn [forallb] in H1. rewrite Hsty0 in H1. discriminate. }
        unfold inline_end in Hse. cbn [in_update captured state] in Hse. rewrite Tp, Hnd in Hse. cbn [andb] in Hse. rewrite (non_document p Hf), Hnd, HU', N.eqb_refl in Hse. cbn [negb andb] in Hse.
        change (is_a gU Type_Update) with false in Hse. cbv iota in Hse.
        assert (Hadd : (do x <- add_element E p' cr; Ok (x, state)) = Ok (q', s2) -> away (char_data cr) -> s2 = state /\ iinv l q q').
        { intros H Haw. destruct (add_element E p' cr) as [q1| | |] eqn:Ea'; cbn [bind] in H; try discriminate. injection H as <- <-. now apply Hkeep. }
        destruct (split_uri (char_data cr)) as [[[|ch path] id]|] eqn:Esp; [|apply Hadd; [exact Hse|right; intros i Hi; congruence]..].
        destruct (mget id C) as [x|] eqn:Eg; [|apply Hadd; [exact Hse|right; intros i Hi; congruence]].
        destruct (resolved_selector E split_uri C (char_data cr)) as [m| | |] eqn:Er; cbn [bind] in Hse; try discriminate. injection Hse as <- <-. split; [reflexivity|].
        destruct (put_selector p' m Sp' Hf' Hn') as (Z1 & Z2 & Z3 & Z4 & Z5).
        constructor; [congruence|now rewrite Tq|auto|rewrite A3, Z5; exact Hbelow|]. intros _. destruct Hown as [(H1 & H2 & H3 & H4 & H5)|[(H1 & H2 & H3 & H4)|[H1 _]]].
        * right; right. cbn [stylings] in H5. rewrite Hsty0 in H5. split; [apply stylings_still; lia|]. apply iown_inlined with (u := char_data cr) (id := id) (x := x) (m := m); solve [assumption | congruence].
        * exfalso. unfold on_children in H4. cbn [forallb] in H4. apply andb_true_iff in H4 as [H4 _]. unfold local_url in H4. rewrite <- Tc, HU', N.eqb_refl, Hb, Esp in H4. discriminate.
        * exfalso. unfold still, on_children in H1. cbn [forallb] in H1. rewrite Hsty0 in H1. discriminate.
    - (* anything else *)
      destruct (Hmain cr c' s1 Htame Hb Hsb) as (-> & T' & S' & Hown'). rewrite inline_end_add in Hse; auto; [|congruence|now rewrite Tp, Hnd|].
      2:{ destruct Hoth as [Hoth|Hoth]; [rewrite (not_feature p') by congruence; reflexivity|]. unfold styling in Hoth. rewrite <- Tc in Hoth. apply orb_false_iff in Hoth as [_ Hoth]. now rewrite T', Hoth, andb_false_r. }
      destruct (add_element E p' c') as [q1| | |] eqn:Ea'; cbn [bind] in Hse; try discriminate. injection Hse as <- <-. destruct (add_get E _ _ _ Sp' Ea') as (Sq' & Tq' & _). split; [reflexivity|].
      constructor; [congruence|now rewrite Tq|auto|now apply (add_ifeatures p p' cr c')|]. rewrite Tq. intros Hf. specialize (Hown Hf). destruct Hoth as [Hoth|Hoth]; [congruence|].
      assert (Hk : is_a (oty cr) gS = false /\ oty cr <> gU) by (unfold styling in Hoth; rewrite <- Tc in Hoth; apply orb_false_iff in Hoth as [K1 K2]; apply N.eqb_neq in K2; auto). destruct Hk as [Hk1 Hk2].
      apply (iphase_same (LChild c) l p p'); auto. intros k Hk. split; [now apply (add_other E p cr)|apply (add_other E p' c'); auto; congruence].
  Qed.
  Lemma iloop_inv l : (forall c, In (LChild c) l -> imain c) -> forall p p' r r' s', (forall c, In (LChild c) l -> tame E split_uri c = true /\ (is_a (oty p) gF = true -> styling c = true -> calm c = true)) -> oty p <> gF -> iinv l p p' ->
    DomProofs.steps E l p = Ok r -> iloop E split_uri l p' state = Ok (r', s') -> s' = state /\ iinv [] r r'.
  Proof.
    induction l as [|e l IH]; intros Hm p p' r r' s' Hc Hn Hi H H'.
    - cbn in H, H'. injection H as <-. injection H' as <- <-. split; [reflexivity|exact Hi].
    - assert (Hm' : forall c, In (LChild c) l -> imain c) by (intros c Hin; apply Hm; now right).
      assert (Hc' : forall c, In (LChild c) l -> tame E split_uri c = true /\ (is_a (oty p) gF = true -> styling c = true -> calm c = true)) by (intros c Hin; apply Hc; now right).
      cbn [DomProofs.steps iloop] in H, H'. pose proof Hi as [Tp Hnd [Sp Sp'] Hb Ho]. destruct e as [c|x|x|x|u sd].
      2,3,4,5: rewrite entry_same in H by congruence; destruct (add_entry E _ p) as [q| | |] eqn:E1; cbn [bind] in H; try discriminate;
        destruct (add_entry E _ p') as [q'| | |] eqn:E2; cbn [bind] in H'; try discriminate;
        apply entry_get in E1 as (S1 & T1 & G1); [|congruence|exact Sp]; apply entry_get in E2 as (S2 & T2 & G2); [|congruence|exact Sp'];
        apply (IH Hm' q q' r r' s'); auto; try (now rewrite T1);
        constructor; [congruence|now rewrite T1|auto|rewrite G1, G2 by discriminate; exact Hb|]; rewrite T1; intros Hf; specialize (Ho Hf);
        eapply iphase_same; [exact Ho|exact I|exact T1|exact T2|]; intros k Hk; split; [apply G1|apply G2]; destruct Hk as [->| ->]; discriminate.
      cbn [entry_step] in H. destruct (build E c) as [cr| | |] eqn:Ec; cbn [bind] in H; try discriminate. destruct (add_element E p cr) as [q| | |] eqn:Ea; cbn [bind] in H; try discriminate.
      destruct (inline_build E split_uri c state) as [[c' s1]| | |] eqn:Es; cbn [bind] in H'; try discriminate. destruct (inline_end E split_uri p' c' s1) as [[q' s2]| | |] eqn:En; cbn [bind] in H'; try discriminate.
      destruct (Hc c (or_introl eq_refl)) as [N1 N2].
      destruct (ichild_step l c p p' cr q c' s1 q' s2 (Hm c (or_introl eq_refl)) N1 N2 Hn Hi Ec Ea Es En) as (-> & G3).
      destruct (add_get E _ _ _ Sp Ea) as (_ & Tq & _). apply (IH Hm' q q' r r' s'); auto; [now rewrite Tq|congruence].
  Qed.
  Lemma tame_children ty a cd log : tame E split_uri (Node ty a cd log) = true ->
    is_a ty Type_Update = false /\ is_a ty Type_Document = false /\ ty <> gF /\ (is_a ty gF = true -> single E split_uri log = true) /\ forall c, In (LChild c) log -> tame E split_uri c = true /\ (is_a ty gF = true -> styling c = true -> calm c = true).
  Proof.
    cbn [tame]. rewrite !andb_true_iff, !negb_true_iff. intros ((((H1 & H2) & H3) & H4) & H5). split; [exact H1|]. split; [exact H2|]. split; [now apply N.eqb_neq|].
    split; [intros Hf; rewrite Hf in H4; now apply andb_true_iff in H4|]. intros c Hin. split; [exact (on_children_in _ _ _ H5 Hin)|]. intros Hf Hsty. rewrite Hf in H4. apply andb_true_iff in H4 as [H4 _]. pose proof (on_children_in _ _ _ H4 Hin) as G. cbv beta in G. now rewrite Hsty in G.
  Qed.
  Lemma imain_all n : imain n.
  Proof.
    induction n as [ty a cd log IH] using node_all. intros r r' s' Ht H H'. destruct (tame_children _ _ _ _ Ht) as (N1 & N2 & N3 & N4 & N5). destruct (start_sized E ty a cd) as [S0 T0].
    rewrite build_eq in H. rewrite inline_build_eq, inline_new_same in H' by exact N1.
    destruct (iloop_inv log IH (start E ty a cd) (start E ty a cd) r r' s') as (G1 & [T Hnd [Sz Sz'] B O]); auto; try (now rewrite T0).
    { constructor; auto; [now rewrite T0|rewrite !start_empty; constructor|]. rewrite T0. intros Hf. specialize (N4 Hf). unfold single in N4. apply orb_true_iff in N4 as [N4|N4].
      - left. rewrite !start_empty. repeat split. now apply Nat.leb_le.
      - right; left. repeat split; auto. left. change (style_url (start E ty a cd)) with (match get (start E ty a cd) gU with u :: _ => char_data u | [] => [] end). now rewrite start_empty. }
    split; [exact G1|]. split; [exact T|]. split; [exact Sz'|]. rewrite !features_eq, T. destruct (is_a (oty r) gF) eqn:Hf; [|exact B]. cbn [app]. constructor; [|exact B].
    specialize (O eq_refl). destruct O as [(H1 & H2 & H3 & H4 & H5)|[(H1 & H2 & H3 & H4)|[H1 H2]]]; [apply iown_kept; try congruence|apply iown_kept; auto|exact H2].
    left. change (style_url r) with (match get r gU with u :: _ => char_data u | [] => [] end). now rewrite H1.
  Qed.
End Own.

(** ** The Document *)
Definition table_step (m : list (str * obj)) (x : obj) : list (str * obj) := match id_of x with Some i => mset i x m | None => m end.
Definition style_map (l : list obj) : list (str * obj) := fold_left table_step l [].
Lemma style_map_snoc l x : style_map (l ++ [x]) = table_step (style_map l) x.
Proof. unfold style_map. now rewrite fold_left_app. Qed.
Definition unnamed (x : obj) : bool := match id_of x with Some _ => false | None => true end.
Section Doc.
  Variables (E : env) (split_uri : str -> option (str * str)).
  Record dinv (l : list entry) (s : inliner) (p p' : obj) : Prop := {
    di_ty : oty p' = oty p;
    di_doc : oty p = Type_Document;
    di_sized : sized p /\ sized p';
    di_state : s = state (style_map (get p gS));
    di_url : get p' gU = get p gU;
    di_left : get p' gS = filter unnamed (get p gS);
    di_below : Forall2 (iown E split_uri (style_map (get p gS))) (flat_map features (get p gF)) (flat_map features (get p' gF));
    di_order : (get p gF = [] /\ get p' gF = [] /\ styles_first l = true) \/ no_style l = true }.
  Lemma doc_features p c q : sized p -> add_element E p c = Ok q -> is_a (oty c) gF = false -> get q gF = get p gF.
  Proof.
    intros Hs H Hc. apply add_get in H as (_ & _ & G); [|exact Hs]. specialize (G gF). destruct (effect (oty p) (oty c)) as [[k kd]|] eqn:Ee; [|exact G]. destruct (k =? gF) eqn:Ek; [|exact G]. apply N.eqb_eq in Ek. subst k.
    apply effect_feature in Ee as [Ee _]. congruence.
  Qed.
  Lemma order_next c l (p p' q q' : obj) : (get p gF = [] /\ get p' gF = [] /\ styles_first (LChild c :: l) = true) \/ no_style (LChild c :: l) = true ->
    (is_a (nty c) gF = false -> get q gF = get p gF /\ get q' gF = get p' gF) -> (get q gF = [] /\ get q' gF = [] /\ styles_first l = true) \/ no_style l = true.
  Proof.
    intros [(H1 & H2 & H3)|H] G.
    - cbn [styles_first] in H3. destruct (is_a (nty c) gF) eqn:Ec; [now right|]. destruct (G eq_refl) as [-> ->]. now left.
    - right. unfold no_style, on_children in *. cbn [forallb] in H. now apply andb_true_iff in H.
  Qed.
  Lemma doc_loop l : forall p p' s r r' s', (forall c, In (LChild c) l -> tame E split_uri c = true /\ (styling c = true -> calm c = true)) -> dinv l s p p' ->
    DomProofs.steps E l p = Ok r -> iloop E split_uri l p' s = Ok (r', s') -> dinv [] s' r r'.
  Proof.
    induction l as [|e l IH]; intros p p' s r r' s' Hc Hi H H'.
    - cbn in H, H'. injection H as <-. injection H' as <- <-. exact Hi.
    - assert (Hc' : forall c, In (LChild c) l -> tame E split_uri c = true /\ (styling c = true -> calm c = true)) by (intros c Hin; apply Hc; now right).
      pose proof Hi as [Tp Tdoc [Sp Sp'] Hst HU Hleft Hb Hord]. cbn [DomProofs.steps iloop] in H, H'. destruct e as [c|x|x|x|u sd].
      2,3,4,5: rewrite entry_same in H by congruence; destruct (add_entry E _ p) as [q| | |] eqn:E1; cbn [bind] in H; try discriminate;
        destruct (add_entry E _ p') as [q'| | |] eqn:E2; cbn [bind] in H'; try discriminate;
        apply entry_get in E1 as (S1 & T1 & G1); [|congruence|exact Sp]; apply entry_get in E2 as (S2 & T2 & G2); [|congruence|exact Sp'];
        apply (IH q q' s r r' s'); auto; constructor; rewrite ?G1, ?G2 by discriminate; auto; congruence.
      cbn [entry_step] in H. destruct (build E c) as [cr| | |] eqn:Ec; cbn [bind] in H; try discriminate. destruct (add_element E p cr) as [q| | |] eqn:Ea; cbn [bind] in H; try discriminate.
      destruct (inline_build E split_uri c s) as [[c' s1]| | |] eqn:Es; cbn [bind] in H'; try discriminate.
      destruct (inline_end E split_uri p' c' s1) as [[q' s2]| | |] eqn:En; cbn [bind] in H'; try discriminate.
      destruct (Hc c (or_introl eq_refl)) as [N1 N2]. destruct (build_ty E _ _ Ec) as [Sc Tc]. destruct (home_add E p cr q Sp Tdoc Ea) as (Sq & Tq & A1 & A2).
      assert (Tdoc' : oty p' = Type_Document) by congruence. assert (Hnd : non_document_feature (oty p') = false) by (rewrite Tdoc'; reflexivity).
      assert (Hup : is_a (oty cr) Type_Update = false) by (rewrite Tc; destruct c; cbn [tame nty] in *; rewrite !andb_true_iff, !negb_true_iff in N1; tauto).
      apply (IH q q' s2 r r' s'); auto. clear IH H H'.
      destruct (is_a (oty cr) gS) eqn:HS.
      + (* a style *)
        assert (Hsty : styling c = true) by (unfold styling; now rewrite <- Tc, HS). assert (Hin : in_update s = false) by (rewrite Hst; reflexivity).
        rewrite (inline_calm E split_uri c (N2 Hsty) s Hin), Ec in Es. cbn [bind] in Es. injection Es as <- <-. destruct (styling_kind _ (or_introl HS)) as [Hnf _].
        assert (Hemp : get p gF = [] /\ get p' gF = []).
        { destruct Hord as [(O1 & O2 & _)|O]; [auto|]. unfold no_style, on_children in O. cbn [forallb] in O. rewrite <- Tc, HS in O. discriminate. }
        destruct Hemp as [F1 F2]. pose proof (doc_features _ _ _ Sp Ea Hnf) as F3. rewrite F1 in F3. pose proof (selector_not_url _ HS) as Hnu. apply N.eqb_neq in Hnu. rewrite Hnu in A2.
        unfold inline_end in En. rewrite Hin, Tdoc', HS, Hup in En. change (is_a Type_Document Type_Document) with true in En. cbn [andb] in En. destruct (id_of cr) as [i|] eqn:Ei; cbv iota in En.
        * injection En as <- <-. constructor; auto; try congruence.
          -- rewrite A1, style_map_snoc. unfold table_step. rewrite Ei, Hst. reflexivity.
          -- rewrite A1, filter_app. cbn [filter]. unfold unnamed at 2. rewrite Ei, app_nil_r. exact Hleft.
          -- rewrite F3, F2. constructor.
          -- apply (order_next c l p p'); auto. intros _. split; congruence.
        * change (non_document_feature Type_Document) with false in En. cbn [andb] in En. destruct (add_element E p' cr) as [q1| | |] eqn:Ea'; cbn [bind] in En; try discriminate. injection En as <- <-.
          destruct (home_add E p' cr q1 Sp' Tdoc' Ea') as (Sq1 & Tq1 & B1 & B2). rewrite HS in B1. rewrite Hnu in B2. pose proof (doc_features _ _ _ Sp' Ea' Hnf) as F4. rewrite F2 in F4.
          constructor; auto; try congruence.
          -- rewrite A1, style_map_snoc. unfold table_step. rewrite Ei. exact Hst.
          -- rewrite A1, B1, filter_app, Hleft. cbn [filter]. unfold unnamed at 3. rewrite Ei. reflexivity.
          -- rewrite F3, F4. constructor.
          -- apply (order_next c l p p'); auto. intros _. split; congruence.
      + (* anything else *)
        rewrite app_nil_r in A1. rewrite Hst in Es. destruct (imain_all E split_uri _ c cr c' s1 N1 Ec Es) as (-> & T' & S' & F').
        rewrite inline_end_add in En; auto; [|congruence|rewrite T', HS; apply andb_false_r|now rewrite Hnd]. destruct (add_element E p' c') as [q1| | |] eqn:Ea'; cbn [bind] in En; try discriminate. injection En as <- <-.
        destruct (home_add E p' c' q1 Sp' Tdoc' Ea') as (Sq1 & Tq1 & B1 & B2). rewrite T', HS, app_nil_r in B1. rewrite T' in B2.
        constructor; auto; try congruence.
        * rewrite A2, B2. destruct (oty cr =? gU) eqn:HU'; [|exact HU].
          assert (Hsty : styling c = true) by (unfold styling; rewrite <- Tc, HU'; apply orb_true_r). rewrite (inline_calm E split_uri c (N2 Hsty) (state (style_map (get p gS))) eq_refl), Ec in Es. cbn [bind] in Es. injection Es as <-. reflexivity.
        * rewrite A1. apply (add_ifeatures E split_uri _ p p' cr c'); auto.
        * apply (order_next c l p p'); auto. intros Hf. rewrite <- Tc in Hf. split; [now apply (doc_features p cr)|apply (doc_features p' c'); auto; congruence].
  Qed.
  (** What is known of the result. *)
  Definition iresult (r r' : obj) : Prop := exists d d', oty d = Type_Document /\ oty d' = Type_Document /\ features r = d :: flat_map features (get d gF) /\ features r' = d' :: flat_map features (get d' gF) /\
    get d' gU = get d gU /\ get d' gS = filter unnamed (get d gS) /\ Forall2 (iown E split_uri (style_map (get d gS))) (flat_map features (get d gF)) (flat_map features (get d' gF)).
  Lemma idocument_result a cd log r r' s' : tidy E split_uri log = true -> build E (Node Type_Document a cd log) = Ok r -> inline_build E split_uri (Node Type_Document a cd log) inliner0 = Ok (r', s') ->
    iresult r r' /\ oty r = Type_Document /\ oty r' = Type_Document /\ in_update s' = false.
  Proof.
    unfold tidy. rewrite andb_true_iff. intros [Ht Ho] H H'. rewrite build_eq in H. rewrite inline_build_eq, inline_new_same in H' by reflexivity. destruct (start_sized E Type_Document a cd) as [S0 T0].
    assert (D : dinv log inliner0 (start E Type_Document a cd) (start E Type_Document a cd)) by (constructor; rewrite ?start_empty; auto; constructor).
    assert (Hc : forall c, In (LChild c) log -> tame E split_uri c = true /\ (styling c = true -> calm c = true)).
    { intros c Hin. pose proof (on_children_in _ _ _ Ht Hin) as G. cbv beta in G. apply andb_true_iff in G as [G1 G2]. split; [exact G1|]. intros Hs. now rewrite Hs in G2. }
    destruct (doc_loop log _ _ _ _ _ _ Hc D H H') as [Tp Tdoc [Sp Sp'] Hst HU Hleft Hb Hord]. assert (Tdoc' : oty r' = Type_Document) by congruence.
    split; [|split; [exact Tdoc|split; [exact Tdoc'|rewrite Hst; reflexivity]]]. exists r, r'. repeat split; auto; rewrite features_eq; [rewrite Tdoc|rewrite Tdoc']; reflexivity.
  Qed.
  Lemma ichildless_steps l : childless l = true -> forall o s, iloop E split_uri l o s = do r <- DomProofs.steps E l o; Ok (r, s).
  Proof.
    induction l as [|e l IH]; intros Hl o s; [reflexivity|]. cbn [childless forallb] in Hl. apply andb_true_iff in Hl as [He Hl]. cbn [iloop DomProofs.steps].
    destruct e as [c|x|x|x|u sd]; [discriminate|..]; rewrite entry_same by congruence; destruct (add_entry E _ o); cbn [bind]; try reflexivity; now apply IH.
  Qed.
  Lemma ikml_result a cd pre da dcd dlog post r r' : childless pre = true -> childless post = true -> tidy E split_uri dlog = true ->
    let n := Node Type_kml a cd (pre ++ LChild (Node Type_Document da dcd dlog) :: post) in
    build E n = Ok r -> inline_styles E split_uri n = Ok r' -> iresult r r'.
  Proof.
    intros Hpre Hpost Hn n H H'. unfold inline_styles in H'. destruct (inline_build E split_uri n inliner0) as [[r1 s1]| | |] eqn:Es; cbn [bind] in H'; try discriminate. injection H' as <-.
    unfold n in H, Es. rewrite build_eq in H. rewrite inline_build_eq, inline_new_same in Es by reflexivity.
    destruct (start_sized E Type_kml a cd) as [S0 T0]. rewrite steps_app in H. rewrite iloop_app, ichildless_steps in Es by exact Hpre.
    destruct (DomProofs.steps E pre (start E Type_kml a cd)) as [o1| | |] eqn:E1; cbn [bind] in H, Es; try discriminate.
    destruct (childless_get E pre Hpre _ _ S0 E1) as (S1 & T1 & G1). cbn [DomProofs.steps iloop entry_step] in H, Es.
    destruct (build E (Node Type_Document da dcd dlog)) as [d| | |] eqn:Ed; cbn [bind] in H; try discriminate.
    destruct (inline_build E split_uri (Node Type_Document da dcd dlog) inliner0) as [[d' s2]| | |] eqn:Ed'; cbn [bind] in Es; try discriminate.
    destruct (idocument_result _ _ _ _ _ _ Hn Ed Ed') as (R & Td & Td' & U1).
    assert (Tk : oty o1 = Type_kml) by congruence.
    rewrite inline_end_add in Es; auto; [|rewrite Td'; reflexivity|rewrite Tk; reflexivity|rewrite Tk; reflexivity].
    destruct (add_element E o1 d) as [o2| | |] eqn:Ea; cbn [bind] in H; try discriminate. destruct (add_element E o1 d') as [o2'| | |] eqn:Ea'; cbn [bind] in Es; try discriminate.
    rewrite ichildless_steps in Es by exact Hpost. destruct (DomProofs.steps E post o2') as [o3'| | |] eqn:E3'; cbn [bind] in Es; try discriminate. injection Es as <- <-.
    destruct (add_get E _ _ _ S1 Ea) as (S2 & T2 & A2). destruct (add_get E _ _ _ S1 Ea') as (S2' & T2' & A2').
    destruct (childless_get E post Hpost _ _ S2 H) as (S3 & T3 & G3). destruct (childless_get E post Hpost _ _ S2' E3') as (S3' & T3' & G3').
    rewrite Tk, Td in A2. rewrite Tk, Td' in A2'. specialize (A2 gF). specialize (A2' gF).
    assert (Ee : effect Type_kml Type_Document = Some (gF, KChild)) by (vm_compute; reflexivity). rewrite Ee in A2, A2'. change (gF =? gF) with true in A2, A2'. cbn [arrives] in A2, A2'.
    assert (F : features r = features d) by (rewrite features_eq; replace (oty r) with Type_kml by congruence; rewrite G3, A2; cbn [flat_map app]; rewrite app_nil_r; reflexivity).
    assert (F' : features o3' = features d') by (rewrite features_eq; replace (oty o3') with Type_kml by congruence; rewrite G3', A2'; cbn [flat_map app]; rewrite app_nil_r; reflexivity).
    destruct R as (x & x' & R1 & R2 & R3 & R4 & R5 & R6 & R7). exists x, x'. rewrite F, F'. repeat split; auto.
  Qed.
  (** A file: a Document, or a kml element with one and nothing else. *)
  Inductive tidy_document : node -> Prop :=
  | tidy_bare a cd log : tidy E split_uri log = true -> tidy_document (Node Type_Document a cd log)
  | tidy_kml a cd pre da dcd dlog post : childless pre = true -> childless post = true -> tidy E split_uri dlog = true ->
      tidy_document (Node Type_kml a cd (pre ++ LChild (Node Type_Document da dcd dlog) :: post)).
  Lemma inline_result n r r' : tidy_document n -> build E n = Ok r -> inline_styles E split_uri n = Ok r' -> iresult r r'.
  Proof.
    intros [a cd log Hn|a cd pre da dcd dlog post Hpre Hpost Hn] H H'; [|now apply (ikml_result a cd pre da dcd dlog post)].
    unfold inline_styles in H'. destruct (inline_build E split_uri _ inliner0) as [[r1 s1]| | |] eqn:Es; cbn [bind] in H'; try discriminate. injection H' as <-. now apply (idocument_result a cd log r r1 s1).
  Qed.
End Doc.

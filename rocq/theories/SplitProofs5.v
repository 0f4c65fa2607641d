(** Proofs about SplitModel.v: whole documents. *)
From Verif Require Import Common StrMap StringsModel ColorModel AttributesModel AttributesProofs XsdTables XsdModel XmlSpec SerializerModel CoordModel HandlerModel.
From Verif Require Import DomTables DomModel DomSpec DomProofs DomProofs2 DomParsed CloneModel CloneProofs MergeModel MergeProofs IdModel StyleModel StyleProofs SplitModel SplitProofs SplitProofs2 SplitProofs3 SplitProofs4.
Local Open Scope N_scope.

Section Doc.
  Variable E : env.
  Lemma loop l : (forall c, In (LChild c) l -> main E c) -> forall p p' s r r' s', (forall c, In (LChild c) l -> neat E c = true /\ (is_a (oty p) gF = true -> styling c = true -> calm c = true)) -> oty p <> gF -> good_state s -> inv E s l p p' ->
    DomProofs.steps E l p = Ok r -> sloop E [] false l p' s = Ok (r', s') -> good_state s' /\ ext s s' /\ inv E s' [] r r'.
  Proof.
    induction l as [|e l IH]; intros Hm p p' s r r' s' Hc Hn Hg Hi H H'.
    - cbn in H, H'. injection H as <-. injection H' as <- <-. split; [exact Hg|]. split; [apply ext_refl|exact Hi].
    - assert (Hm' : forall c, In (LChild c) l -> main E c) by (intros c Hin; apply Hm; now right).
      assert (Hc' : forall c, In (LChild c) l -> neat E c = true /\ (is_a (oty p) gF = true -> styling c = true -> calm c = true)) by (intros c Hin; apply Hc; now right).
      cbn [DomProofs.steps sloop] in H, H'. destruct Hi as [Tp [Sp Sp'] Hb Ho]. destruct e as [c|x|x|x|u sd].
      2,3,4,5: rewrite entry_same in H by congruence; destruct (add_entry E _ p) as [q| | |] eqn:E1; cbn [bind] in H; try discriminate;
        destruct (add_entry E _ p') as [q'| | |] eqn:E2; cbn [bind] in H'; try discriminate;
        apply entry_get in E1 as (S1 & T1 & G1); [|congruence|exact Sp]; apply entry_get in E2 as (S2 & T2 & G2); [|congruence|exact Sp'];
        apply (IH Hm' q q' s r r' s'); auto; try (now rewrite T1);
        constructor; [congruence|auto|rewrite G1, G2 by discriminate; exact Hb|]; rewrite T1; intros Hf; specialize (Ho Hf);
        destruct (is_a (oty p) Type_Document); [rewrite !G1, !G2 by discriminate; exact Ho|];
        eapply phase_same; [exact Ho|exact I|exact T1|exact T2|]; intros k Hk; split; [apply G1|apply G2]; destruct Hk as [->| ->]; discriminate.
      cbn [entry_step] in H. destruct (build E c) as [cr| | |] eqn:Ec; cbn [bind] in H; try discriminate. destruct (add_element E p cr) as [q| | |] eqn:Ea; cbn [bind] in H; try discriminate.
      destruct (split_build E [] c s) as [[c' s1]| | |] eqn:Es; cbn [bind] in H'; try discriminate. destruct (split_end E p' c' s1) as [[q' s2]| | |] eqn:En; cbn [bind] in H'; try discriminate.
      destruct (Hc c (or_introl eq_refl)) as [N1 N2].
      destruct (child_step E s l c p p' cr q c' s1 q' s2 (Hm c (or_introl eq_refl)) N1 N2 Hn Hg ltac:(now constructor) Ec Ea Es En) as (G1 & G2 & G3).
      destruct (add_get E _ _ _ Sp Ea) as (_ & Tq & _).
      destruct (IH Hm' q q' s2 r r' s') as (K1 & K2 & K3); auto; [now rewrite Tq|congruence|]. split; [exact K1|]. split; [now apply (ext_trans s s2)|exact K3].
  Qed.
  Lemma neat_children ty a cd log : neat E (Node ty a cd log) = true -> is_a ty Type_Update = false ->
    ty <> gF /\ (non_document_feature ty = true -> orderly E log = true) /\ forall c, In (LChild c) log -> neat E c = true /\ (is_a ty gF = true -> styling c = true -> calm c = true).
  Proof.
    cbn [neat]. intros H Hu. rewrite Hu in H. rewrite !andb_true_iff, negb_true_iff in H. destruct H as (((H1 & H2) & H3) & H4). split; [now apply N.eqb_neq|]. split; [intros Hd; now rewrite Hd in H3|].
    intros c Hin. split; [exact (on_children_in _ _ _ H4 Hin)|]. intros Hf Hsty. rewrite Hf in H2. pose proof (on_children_in _ _ _ H2 Hin) as G. cbv beta in G. now rewrite Hsty in G.
  Qed.
  Lemma main_all n : main E n.
  Proof.
    induction n as [ty a cd log IH] using node_all. intros s r r' s' Hn Hu Hg H H'. cbn [nty] in Hu. pose proof Hg as (Hd & Hup & Hfit).
    rewrite build_eq in H. rewrite split_build_eq, Hd in H'. cbv zeta in H'. rewrite split_new_same in H'; [|congruence|auto].
    destruct (sloop E [] false log (start E ty a cd) s) as [[r1 s1]| | |] eqn:El; cbn [bind closes] in H'; try discriminate. injection H' as <- <-.
    destruct (neat_children _ _ _ _ Hn Hu) as (N1 & N2 & N3). destruct (start_sized E ty a cd) as [S0 T0].
    destruct (loop log IH (start E ty a cd) (start E ty a cd) s r r1 s1) as (G1 & G2 & [T [Sz Sz'] B O]); auto; try (now rewrite T0).
    { constructor; auto; [rewrite !start_empty; constructor|]. rewrite T0. intros Hf. destruct (is_a ty Type_Document) eqn:Edoc; [auto|]. left. rewrite !start_empty. repeat split; auto. apply N2. unfold non_document_feature. now rewrite Hf, Edoc. }
    split; [exact G1|]. split; [exact G2|]. split; [exact T|]. split; [exact Sz'|]. rewrite !features_eq, T. destruct (is_a (oty r) gF) eqn:Hf; [|exact B]. cbn [app]. constructor; [|exact B].
    specialize (O eq_refl). destruct (is_a (oty r) Type_Document) eqn:Edoc; [apply own_kept; try tauto; now left|]. destruct O as [(H1 & H2 & H3 & H4 & H5)|[(H1 & H2 & H3)|[H1 H2]]]; [apply own_kept; try congruence; right; right; now left|apply own_kept; auto; right; now left|exact H2].
  Qed.

  (** ** The Document *)
  Record hinv (s : splitter) (p p' : obj) : Prop := {
    h_ty : oty p' = oty p;
    h_doc : oty p = Type_Document;
    h_sized : sized p /\ sized p';
    h_below : Forall2 (sown s) (flat_map features (get p gF)) (flat_map features (get p' gF));
    h_url : get p' gU = get p gU;
    h_in : incl (get p gS) (get p' gS);
    h_out : forall x, In x (get p' gS) -> In x (get p gS) \/ In x (added s);
    h_added : incl (added s) (get p' gS) }.
  Lemma receive_get o l k : sized o -> oty o = Type_Document -> get (receive o l) k = if gS =? k then get o gS ++ l else get o k.
  Proof.
    intros Hs Ht. unfold receive. rewrite put_get by exact Hs. destruct (has_place (oty o) gS) as [i Hi]; [rewrite Ht; reflexivity|rewrite Ht; discriminate|auto|]. rewrite Hi. now rewrite andb_true_r.
  Qed.
  Lemma home_add p c q : sized p -> oty p = Type_Document -> add_element E p c = Ok q -> sized q /\ oty q = Type_Document /\
    get q gS = get p gS ++ (if is_a (oty c) gS then [c] else []) /\ get q gU = if oty c =? gU then [field gU (char_data c)] else get p gU.
  Proof.
    intros Hs Ht H. destruct (add_get E _ _ _ Hs H) as (Sq & Tq & _). split; [exact Sq|]. split; [congruence|].
    assert (Hf : is_a (oty p) gF = true) by (rewrite Ht; reflexivity). assert (Hn : oty p <> gF) by (rewrite Ht; discriminate).
    destruct (is_a (oty c) gS) eqn:HS.
    - destruct (add_selector E p c q Hs Hf Hn HS H) as (A1 & A2 & _). rewrite Ht in A1. change (is_a Type_Document Type_Document) with true in A1. pose proof (selector_not_url _ HS) as G. apply N.eqb_neq in G. rewrite G. auto.
    - rewrite app_nil_r. destruct (oty c =? gU) eqn:HU.
      + apply N.eqb_eq in HU. destruct (add_url E p c q Hs Hf Hn HU H) as (A1 & A2 & _). auto.
      + apply N.eqb_neq in HU. split; [apply (add_other E p c q); auto|apply (add_other E p c q); auto].
  Qed.
  Lemma home_loop l : forall p p' s r r' s', (forall c, In (LChild c) l -> neat E c = true /\ (styling c = true -> calm c = true)) -> good_state s -> hinv s p p' ->
    DomProofs.steps E l p = Ok r -> sloop E [] true l p' s = Ok (r', s') -> good_state s' /\ ext s s' /\ hinv s' r r'.
  Proof.
    induction l as [|e l IH]; intros p p' s r r' s' Hc Hg Hi H H'.
    - cbn in H, H'. injection H as <-. injection H' as <- <-. split; [exact Hg|]. split; [apply ext_refl|exact Hi].
    - assert (Hc' : forall c, In (LChild c) l -> neat E c = true /\ (styling c = true -> calm c = true)) by (intros c Hin; apply Hc; now right).
      pose proof Hi as [Tp Tdoc [Sp Sp'] Hb HU Hin Hout Hadd]. cbn [DomProofs.steps sloop] in H, H'. destruct e as [c|x|x|x|u sd].
      2,3,4,5: rewrite entry_same in H by congruence; destruct (add_entry E _ p) as [q| | |] eqn:E1; cbn [bind] in H; try discriminate;
        destruct (add_entry E _ p') as [q'| | |] eqn:E2; cbn [bind] in H'; try discriminate;
        apply entry_get in E1 as (S1 & T1 & G1); [|congruence|exact Sp]; apply entry_get in E2 as (S2 & T2 & G2); [|congruence|exact Sp'];
        apply (IH q q' s r r' s'); auto; constructor; rewrite ?G1, ?G2 by discriminate; auto; congruence.
      cbn [entry_step] in H. destruct (build E c) as [cr| | |] eqn:Ec; cbn [bind] in H; try discriminate. destruct (add_element E p cr) as [q| | |] eqn:Ea; cbn [bind] in H; try discriminate.
      destruct (split_build E [] c s) as [[c' s1]| | |] eqn:Es; cbn [bind] in H'; try discriminate.
      set (p1 := receive p' (skipn (length (added s)) (added s1))) in *.
      destruct (split_end E p1 c' s1) as [[q' s2]| | |] eqn:En; cbn [bind] in H'; try discriminate.
      destruct (Hc c (or_introl eq_refl)) as [N1 N2]. destruct (build_ty E _ _ Ec) as [Sc Tc].
      assert (T1 : oty p1 = Type_Document) by (unfold p1, receive; rewrite put_type; congruence). assert (S1 : sized p1) by (unfold p1, receive; now apply put_sized).
      rewrite split_end_add in En by (unfold non_document_feature; rewrite T1; cbn [is_a]; now rewrite andb_false_r).
      destruct (add_element E p1 c') as [q1| | |] eqn:Ea1; cbn [bind] in En; try discriminate. injection En as <- <-.
      (* the child and the state after it *)
      assert (K : good_state (done s1 c') /\ ext s (done s1 c') /\ added (done s1 c') = added s1 /\ oty c' = oty cr /\ (styling c = true -> c' = cr /\ added s1 = added s) /\ Forall2 (sown (done s1 c')) (features cr) (features c')).
      { pose proof Hg as (Hd & Hu & Hfit). destruct (is_a (nty c) Type_Update) eqn:Eu.
        - rewrite (split_update E [] c s Hd Eu N1), Ec in Es. cbn [bind] in Es. injection Es as <- <-.
          assert (done (busy s) cr = s) as ->. { unfold done. rewrite Tc, Eu. destruct s as [m ad co d u]. cbn in *. now subst. }
          split; [exact Hg|]. split; [apply ext_refl|]. split; [reflexivity|]. split; [reflexivity|]. split; [auto|rewrite update_features by (now rewrite Tc); constructor].
        - destruct (main_all c s cr c' s1 N1 Eu Hg Ec Es) as (G1 & G2 & T' & S' & F'). assert (done s1 c' = s1) as -> by (unfold done; now rewrite T', Tc, Eu).
          split; [exact G1|]. split; [exact G2|]. split; [reflexivity|]. split; [exact T'|]. split; [|exact F'].
          intros Hsty. rewrite (split_calm E [] c s Hd (N2 Hsty)), Ec in Es. cbn [bind] in Es. injection Es as <- <-. auto. }
      destruct K as (K1 & K2 & K3 & K4 & K5 & K6).
      destruct (home_add p cr q Sp Tdoc Ea) as (Sq & Tq & A1 & A2). destruct (home_add p1 c' q1 S1 T1 Ea1) as (Sq1 & Tq1 & B1 & B2).
      assert (Hsk : added s1 = added s ++ skipn (length (added s)) (added s1)).
      { destruct K2 as [_ [m Hm]]. rewrite K3 in Hm. rewrite Hm at 2. rewrite Hm, skipn_app, skipn_all, Nat.sub_diag. reflexivity. }
      assert (R1 : get p1 gS = get p' gS ++ skipn (length (added s)) (added s1)) by (unfold p1; rewrite receive_get by congruence; reflexivity).
      assert (R2 : get p1 gU = get p' gU) by (unfold p1; rewrite receive_get by congruence; reflexivity).
      assert (R3 : get p1 gF = get p' gF) by (unfold p1; rewrite receive_get by congruence; reflexivity).
      assert (Hsel : (if is_a (oty c') gS then [c'] else []) = (if is_a (oty cr) gS then [cr] else [])).
      { rewrite K4. destruct (is_a (oty cr) gS) eqn:HS; [|reflexivity]. f_equal. apply K5. unfold styling. now rewrite <- Tc, HS. }
      assert (Hurl : oty cr = gU -> c' = cr) by (intros HS; apply K5; unfold styling; rewrite <- Tc, HS; reflexivity).
      destruct (IH q q1 (done s1 c') r r' s') as (L1 & L2 & L3); auto.
      { constructor; auto; try congruence.
        - apply (add_features E _ p p1 cr c'); auto; try congruence. rewrite R3. apply (Forall2_more (sown s)); [intros a b; now apply sown_more|exact Hb].
        - rewrite A2, B2, K4, R2, HU. destruct (oty cr =? gU) eqn:HS; [|reflexivity]. apply N.eqb_eq in HS. now rewrite (Hurl HS).
        - rewrite A1, B1, R1, Hsel. intros x Hx. apply in_app_or in Hx as [Hx|Hx]; rewrite !in_app_iff; auto.
        - rewrite A1, B1, R1, Hsel, K3. intros x. rewrite !in_app_iff. intros [[Hx|Hx]|Hx]; auto.
          + destruct (Hout x Hx); auto. right. rewrite Hsk, in_app_iff. auto.
          + right. rewrite Hsk, in_app_iff. auto.
        - rewrite B1, R1, K3. intros x Hx. rewrite Hsk, in_app_iff in Hx. rewrite !in_app_iff. destruct Hx as [Hx|Hx]; auto. }
      split; [exact L1|]. split; [now apply (ext_trans s (done s1 c'))|exact L3].
  Qed.
  Lemma fits0 : fits {| made := []; added := []; counter := 0; doc := OpenHome; updating := false |}.
  Proof. constructor; cbn [made added counter]; [apply msorted_nil|intros [|i] x; discriminate|reflexivity|discriminate|contradiction]. Qed.
  Lemma good0 : good_state {| made := []; added := []; counter := 0; doc := OpenHome; updating := false |}.
  Proof. split; [reflexivity|]. split; [reflexivity|]. apply fits0. Qed.
  (** What is known of the result. *)
  Definition result (r r' : obj) : Prop := exists M A,
    Forall2 (own M A) (features r) (features r') /\ (forall k x, mget k M = Some x -> In x A /\ id_of x = Some k) /\ (forall x, In x A -> exists j, id_of x = Some (unique_id j) /\ mget (unique_id j) M = Some x) /\
    (forall x, In x A -> exists d, In d (features r') /\ oty d = Type_Document /\ In x (get d gS)) /\
    (forall i x, nth_error A i = Some x -> id_of x = Some (unique_id (N.of_nat i))).
  Lemma document_result a cd log r r' s' : neat E (Node Type_Document a cd log) = true -> build E (Node Type_Document a cd log) = Ok r ->
    split_build E [] (Node Type_Document a cd log) splitter0 = Ok (r', s') -> result r r' /\ oty r = Type_Document /\ oty r' = Type_Document /\ doc s' = ClosedHome /\ updating s' = false /\ added s' = [].
  Proof.
    intros Hn H H'. rewrite build_eq in H. rewrite split_build_eq in H'. cbv zeta in H'. change (match doc splitter0 with NoHome => is_a Type_Document Type_Document | _ => false end) with true in H'.
    change (split_new Type_Document splitter0) with {| made := []; added := []; counter := 0; doc := OpenHome; updating := false |} in H'.
    destruct (sloop E [] true log _ _) as [[r1 s1]| | |] eqn:El; cbn [bind] in H'; try discriminate. injection H' as <- <-.
    destruct (neat_children _ _ _ _ Hn eq_refl) as (N1 & N2 & N3). destruct (start_sized E Type_Document a cd) as [S0 T0].
    assert (H0 : hinv {| made := []; added := []; counter := 0; doc := OpenHome; updating := false |} (start E Type_Document a cd) (start E Type_Document a cd)).
    { constructor; auto; rewrite ?start_empty; cbn [added flat_map]; [constructor|apply incl_refl..]. }
    destruct (home_loop log _ _ _ _ _ _ ltac:(intros c Hc; destruct (N3 c Hc); auto) good0 H0 H El) as (G1 & G2 & [Tp Tdoc [Sp Sp'] Hb HU Hin Hout Hadd]).
    destruct G1 as (Gd & Gu & [F1 F4 F5 F2 F3]). split; [|split; [exact Tdoc|split; [congruence|split; [reflexivity|split; [exact Gu|reflexivity]]]]]. exists (made s1), (added s1).
    assert (Hhome : In r1 (features r1)) by (rewrite features_eq, Tp, Tdoc; now left).
    split; [|split; [exact F2|split; [exact F3|split; [|exact F4]]]].
    - rewrite !features_eq, Tp, Tdoc. change (is_a Type_Document gF) with true. cbn [app]. constructor; [|exact Hb]. apply own_home; auto.
    - intros x Hx. exists r1. split; [exact Hhome|]. split; [congruence|]. now apply Hadd.
  Qed.
  (** The Document in a kml element. *)
  Definition childless (log : list entry) : bool := forallb (fun e => match e with LChild _ => false | _ => true end) log.
  Lemma childless_steps l : childless l = true -> forall o s b, sloop E [] b l o s = do r <- DomProofs.steps E l o; Ok (r, s).
  Proof.
    induction l as [|e l IH]; intros Hl o s b; [reflexivity|]. cbn [childless forallb] in Hl. apply andb_true_iff in Hl as [He Hl]. cbn [sloop DomProofs.steps].
    destruct e as [c|x|x|x|u sd]; [discriminate|..]; rewrite entry_same by congruence; destruct (add_entry E _ o); cbn [bind]; try reflexivity; now apply IH.
  Qed.
  Lemma childless_get l : childless l = true -> forall o r, sized o -> DomProofs.steps E l o = Ok r -> sized r /\ oty r = oty o /\ get r gF = get o gF.
  Proof.
    induction l as [|e l IH]; intros Hl o r Hs H; cbn [DomProofs.steps] in H; [injection H as <-; auto|]. cbn [childless forallb] in Hl. apply andb_true_iff in Hl as [He Hl].
    destruct e as [c|x|x|x|u sd]; [discriminate|..]; rewrite entry_same in H by congruence; destruct (add_entry E _ o) as [o1| | |] eqn:E1; cbn [bind] in H; try discriminate;
      apply entry_get in E1 as (S1 & T1 & G1); try congruence; auto; destruct (IH Hl _ _ S1 H) as (S2 & T2 & G2); rewrite G2, T2, G1 by discriminate; auto.
  Qed.
  Lemma sloop_app b l1 l2 : forall o s, sloop E [] b (l1 ++ l2) o s = do (o1, s1) <- sloop E [] b l1 o s; sloop E [] b l2 o1 s1.
  Proof.
    induction l1 as [|e l IH]; intros o s; [reflexivity|]. cbn [app sloop]. destruct e as [c|x|x|x|u sd]; try (destruct (add_entry E _ o); cbn [bind]; [apply IH|reflexivity..]).
    destruct (split_build E [] c s) as [[c' s1]| | |]; cbn [bind]; try reflexivity. destruct (split_end E _ c' s1) as [[o2 s2]| | |]; cbn [bind]; try reflexivity. apply IH.
  Qed.
  Lemma kml_result a cd pre da dcd dlog post r r' : childless pre = true -> childless post = true -> neat E (Node Type_Document da dcd dlog) = true ->
    let n := Node Type_kml a cd (pre ++ LChild (Node Type_Document da dcd dlog) :: post) in
    build E n = Ok r -> split_styles E n = Ok r' -> result r r'.
  Proof.
    intros Hpre Hpost Hn n H H'. unfold split_styles in H'. destruct (split_build E [] n splitter0) as [[r1 s1]| | |] eqn:Es; cbn [bind] in H'; try discriminate.
    unfold n in H, Es. rewrite build_eq in H. rewrite split_build_eq in Es. cbv zeta in Es. change (match doc splitter0 with NoHome => is_a Type_kml Type_Document | _ => false end) with false in Es. change (split_new Type_kml splitter0) with splitter0 in Es.
    destruct (start_sized E Type_kml a cd) as [S0 T0]. rewrite steps_app in H. rewrite sloop_app, childless_steps in Es by exact Hpre.
    destruct (DomProofs.steps E pre (start E Type_kml a cd)) as [o1| | |] eqn:E1; cbn [bind] in H, Es; try discriminate.
    destruct (childless_get pre Hpre _ _ S0 E1) as (S1 & T1 & G1). cbn [DomProofs.steps sloop entry_step] in H, Es.
    destruct (build E (Node Type_Document da dcd dlog)) as [d| | |] eqn:Ed; cbn [bind] in H; try discriminate.
    destruct (split_build E [] (Node Type_Document da dcd dlog) splitter0) as [[d' s2]| | |] eqn:Ed'; cbn [bind] in Es; try discriminate.
    destruct (document_result _ _ _ _ _ _ Hn Ed Ed') as ((M & A & R1 & R2 & R3 & R4 & R5) & Td & Td' & D1 & U1 & L1).
    rewrite split_end_add in Es by (rewrite Td'; reflexivity). assert (done s2 d' = s2) as Hdone by (unfold done; rewrite Td'; reflexivity). rewrite Hdone in Es.
    destruct (add_element E o1 d) as [o2| | |] eqn:Ea; cbn [bind] in H; try discriminate. destruct (add_element E o1 d') as [o2'| | |] eqn:Ea'; cbn [bind] in Es; try discriminate.
    rewrite childless_steps in Es by exact Hpost. destruct (DomProofs.steps E post o2') as [o3'| | |] eqn:E3'; cbn [bind closes] in Es; try discriminate. injection Es as <- <-. rewrite L1 in H'. injection H' as <-.
    destruct (add_get E _ _ _ S1 Ea) as (S2 & T2 & A2). destruct (add_get E _ _ _ S1 Ea') as (S2' & T2' & A2').
    destruct (childless_get post Hpost _ _ S2 H) as (S3 & T3 & G3). destruct (childless_get post Hpost _ _ S2' E3') as (S3' & T3' & G3').
    assert (Tk : oty o1 = Type_kml) by congruence. rewrite Tk, Td in A2. rewrite Tk, Td' in A2'. specialize (A2 gF). specialize (A2' gF).
    assert (Ee : effect Type_kml Type_Document = Some (gF, KChild)) by (vm_compute; reflexivity). rewrite Ee in A2, A2'. change (gF =? gF) with true in A2, A2'. cbn [arrives] in A2, A2'.
    assert (F : features r = features d) by (rewrite features_eq; replace (oty r) with Type_kml by congruence; rewrite G3, A2; cbn [flat_map app]; rewrite app_nil_r; reflexivity).
    assert (F' : features o3' = features d') by (rewrite features_eq; replace (oty o3') with Type_kml by congruence; rewrite G3', A2'; cbn [flat_map app]; rewrite app_nil_r; reflexivity).
    exists M, A. rewrite F, F'. auto.
  Qed.
  (** A file: a Document, or a kml element with one and nothing else. *)
  Inductive one_document : node -> Prop :=
  | bare_document a cd log : neat E (Node Type_Document a cd log) = true -> one_document (Node Type_Document a cd log)
  | kml_document a cd pre da dcd dlog post : childless pre = true -> childless post = true -> neat E (Node Type_Document da dcd dlog) = true ->
      one_document (Node Type_kml a cd (pre ++ LChild (Node Type_Document da dcd dlog) :: post)).
  Lemma split_result n r r' : one_document n -> build E n = Ok r -> split_styles E n = Ok r' -> result r r'.
  Proof.
    intros [a cd log Hn|a cd pre da dcd dlog post Hpre Hpost Hn] H H'; [|now apply (kml_result a cd pre da dcd dlog post)].
    unfold split_styles in H'. destruct (split_build E [] _ splitter0) as [[r1 s1]| | |] eqn:Es; cbn [bind] in H'; try discriminate.
    destruct (document_result a cd log r r1 s1 Hn H Es) as (R & _ & _ & _ & _ & L1). rewrite L1 in H'. injection H' as <-. exact R.
  Qed.
End Doc.

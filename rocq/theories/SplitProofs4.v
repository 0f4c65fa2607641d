(** Proofs about SplitModel.v: the features of a document before and after SplitStyles, one by one. *)
From Coq Require Import DecimalN DecimalString.
From Verif Require Import Common StrMap StringsModel ColorModel AttributesModel AttributesProofs XsdTables XsdModel XmlSpec SerializerModel CoordModel HandlerModel.
From Verif Require Import DomTables DomModel DomSpec DomProofs DomProofs2 DomParsed CloneModel CloneProofs MergeModel MergeProofs IdModel StyleModel StyleProofs SplitModel SplitProofs SplitProofs2 SplitProofs3.
Local Open Scope N_scope.
Notation gF := Type_Feature.
Notation gU := Type_styleUrl.
Notation gS := Type_StyleSelector.

Section Own.
  (** The selectors made by their ids, and in order. *)
  Variables (M : list (str * obj)) (A : list obj).
  (** Nothing is to be split off of a feature, or there is no further id. *)
  Definition settled (f : obj) : Prop := is_a (oty f) Type_Document = true \/ get f gU <> [] \/ get f gS = [] \/ 2 ^ 32 <= N.of_nat (length A).
  (** A feature before and after. *)
  Inductive own (f f' : obj) : Prop :=
  | own_kept : oty f' = oty f -> get f' gU = get f gU -> get f' gS = get f gS -> settled f -> own f f'
  | own_home : oty f' = oty f -> oty f = Type_Document -> get f' gU = get f gU -> incl (get f gS) (get f' gS) -> (forall x, In x (get f' gS) -> In x (get f gS) \/ In x A) -> own f f'
  | own_split j s s2 : oty f' = oty f -> is_a (oty f) Type_Document = false -> get f gU = [] -> get f gS = [s] -> get f' gS = [] -> get f' gU = [field gU (S_ "#" ++ unique_id j)] ->
      mget (unique_id j) M = Some s2 -> content_of s2 = content_of s -> own f f'.
  Lemma own_get p p' q q' : own p p' -> oty q = oty p -> oty q' = oty p' -> (forall k, k = gU \/ k = gS -> get q k = get p k /\ get q' k = get p' k) -> own q q'.
  Proof.
    intros H T T' G. destruct (G gU (or_introl eq_refl)) as [U U']. destruct (G gS (or_intror eq_refl)) as [S S'].
    destruct H as [H1 H2 H3 H3s|H1 H2 H3 H4 H5|j s s2 H1 H2 H3 H4 H5 H6 H7 H8].
    - apply own_kept; try congruence. unfold settled in *. now rewrite T, U, S.
    - apply own_home; try congruence; rewrite S, S'; auto.
    - apply own_split with (j := j) (s := s) (s2 := s2); try congruence.
  Qed.
End Own.
Lemma own_more M A M2 l f f' : (forall k x, mget k M = Some x -> mget k M2 = Some x) -> own M A f f' -> own M2 (A ++ l) f f'.
Proof.
  intros HM H. assert (HA : incl A (A ++ l)) by apply incl_appl, incl_refl. destruct H as [H1 H2 H3 H3s|H1 H2 H3 H4 H5|j s s2 H1 H2 H3 H4 H5 H6 H7 H8].
  - apply own_kept; auto. destruct H3s as [G|[G|[G|G]]]; [now left|right; now left|right; right; now left|right; right; right]. rewrite app_length. lia.
  - apply own_home; auto. intros x Hx. destruct (H5 x Hx); auto.
  - apply own_split with (j := j) (s := s) (s2 := s2); auto.
Qed.
Lemma Forall2_more {A B} (P Q : A -> B -> Prop) l m : (forall a b, P a b -> Q a b) -> Forall2 P l m -> Forall2 Q l m.
Proof. intros H. induction 1; constructor; auto. Qed.

Lemma unique_id_inj a b : unique_id a = unique_id b -> a = b.
Proof.
  intros H. apply DecimalN.Unsigned.to_uint_inj. unfold unique_id in H. injection H as H. pose proof (f_equal (fun x => NilEmpty.uint_of_string (String.string_of_list_ascii x)) H) as G. cbv beta in G.
  rewrite !String.string_of_list_ascii_of_string, !DecimalString.NilEmpty.usu in G. congruence.
Qed.
Lemma some_id_inj a b : Some (unique_id a) = Some (unique_id b) -> a = b.
Proof. intros H. apply unique_id_inj. congruence. Qed.
Record fits (s : splitter) : Prop := {
  fits_sorted : msorted (made s);
  fits_ids : forall i x, nth_error (added s) i = Some x -> id_of x = Some (unique_id (N.of_nat i));
  fits_counter : counter s = N.of_nat (length (added s)) mod 2 ^ 32;
  fits_made : forall k x, mget k (made s) = Some x -> In x (added s) /\ id_of x = Some k;
  fits_added : forall x, In x (added s) -> exists j, id_of x = Some (unique_id j) /\ mget (unique_id j) (made s) = Some x }.
Record ext (s s' : splitter) : Prop := {
  ext_made : forall k x, mget k (made s) = Some x -> mget k (made s') = Some x;
  ext_added : exists l, added s' = added s ++ l }.
Lemma ext_refl s : ext s s.
Proof. split; auto. exists []. now rewrite app_nil_r. Qed.
Lemma ext_trans a b c : ext a b -> ext b c -> ext a c.
Proof. intros [H1 [l H2]] [H3 [m H4]]. split; auto. exists (l ++ m). rewrite H4, H2. now rewrite app_assoc. Qed.
Definition sown (s : splitter) := own (made s) (added s).
Lemma sown_more s s' f f' : ext s s' -> sown s f f' -> sown s' f f'.
Proof. intros [H1 [l H2]] H. unfold sown. rewrite H2. now apply own_more with (1 := H1). Qed.

Section Step.
  Variable E : env.
  Lemma add_features s p p' c c' q q' : oty p' = oty p -> oty c' = oty c -> sized p -> sized p' -> add_element E p c = Ok q -> add_element E p' c' = Ok q' ->
    Forall2 (sown s) (features c) (features c') -> Forall2 (sown s) (flat_map features (get p gF)) (flat_map features (get p' gF)) ->
    Forall2 (sown s) (flat_map features (get q gF)) (flat_map features (get q' gF)).
  Proof.
    intros Tp Tc Hs Hs' H H' Hc Hp. apply add_get in H as (_ & _ & G); [|exact Hs]. apply add_get in H' as (_ & _ & G'); [|exact Hs']. specialize (G gF). specialize (G' gF). rewrite Tp, Tc in G'.
    destruct (effect (oty p) (oty c)) as [[k kd]|] eqn:Ee; [|rewrite G, G'; exact Hp]. destruct (k =? gF) eqn:Ek; [|rewrite G, G'; exact Hp]. apply N.eqb_eq in Ek. subst k.
    apply effect_feature in Ee as [_ [->| ->]]; cbn [arrives] in G, G'; rewrite G, G'; cbn [flat_map]; rewrite ?app_nil_r; [exact Hc|]. rewrite !flat_map_app. cbn [flat_map]. rewrite !app_nil_r. now apply Forall2_app.
  Qed.
  (** A child which is no style and no reference to one. *)
  Lemma add_other p c q k : sized p -> add_element E p c = Ok q -> is_a (oty c) gS = false -> oty c <> gU -> k = gU \/ k = gS -> get q k = get p k.
  Proof.
    intros Hs H H1 H2 Hk. apply add_get in H as (_ & _ & G); [|exact Hs]. specialize (G k). destruct (effect (oty p) (oty c)) as [[k' kd]|] eqn:Ee; [|exact G]. destruct (k' =? k) eqn:Ek; [|exact G]. apply N.eqb_eq in Ek. subst k'. exfalso.
    destruct Hk as [->| ->]; [apply effect_url in Ee; tauto|apply effect_selector in Ee; congruence].
  Qed.
  Lemma add_url p c q : sized p -> is_a (oty p) gF = true -> oty p <> gF -> oty c = gU -> add_element E p c = Ok q ->
    get q gU = [field gU (char_data c)] /\ get q gS = get p gS /\ get q gF = get p gF.
  Proof.
    intros Hs Hf Hn Hc H. apply add_get in H as (_ & _ & G); [|exact Hs]. rewrite Hc, feature_url in G by auto. pose proof (G gU) as G1. pose proof (G gS) as G2. pose proof (G gF) as G3.
    change (gU =? gU) with true in G1. change (gU =? gS) with false in G2. change (gU =? gF) with false in G3. cbn [arrives] in G1. rewrite Hc in G1. auto.
  Qed.
  Lemma add_selector p c q : sized p -> is_a (oty p) gF = true -> oty p <> gF -> is_a (oty c) gS = true -> add_element E p c = Ok q ->
    get q gS = (if is_a (oty p) Type_Document then get p gS else []) ++ [c] /\ get q gU = get p gU /\ get q gF = get p gF.
  Proof.
    intros Hs Hf Hn Hc H. apply add_get in H as (_ & _ & G); [|exact Hs]. rewrite feature_selector in G by auto. pose proof (G gS) as G1. pose proof (G gU) as G2. pose proof (G gF) as G3.
    change (gS =? gS) with true in G1. change (gS =? gU) with false in G2. change (gS =? gF) with false in G3. destruct (is_a (oty p) Type_Document); cbn [arrives] in G1; auto.
  Qed.
  Lemma selector_not_url c : is_a c gS = true -> c <> gU.
  Proof. intros H ->. vm_compute in H. discriminate. Qed.
  Lemma styling_kind c : is_a c gS = true \/ c = gU -> is_a c gF = false /\ is_a c Type_Update = false.
  Proof.
    intros [H| ->]; [|split; reflexivity]. pose proof (is_a_check c gS (fun c => negb (is_a c gF) && negb (is_a c Type_Update)) H) as G. cbv beta in G. rewrite andb_true_iff, !negb_true_iff in G. apply G. vm_compute. reflexivity.
  Qed.

  (** An ended child, outside of updates. *)
  Definition done (s : splitter) (c : obj) : splitter := if is_a (oty c) Type_Update then {| made := made s; added := added s; counter := counter s; doc := doc s; updating := false |} else s.
  Lemma split_end_add p c s : (is_a (oty c) gS && non_document_feature (oty p) && negb (has_style_url p) = false) -> split_end E p c s = do p' <- add_element E p c; Ok (p', done s c).
  Proof. intros H. unfold split_end, done. rewrite H. destruct (updating s), (doc s); reflexivity. Qed.

  Definition phase (s : splitter) (l : list entry) (p p' : obj) : Prop :=
    (get p gU = [] /\ get p' gU = [] /\ get p gS = [] /\ get p' gS = [] /\ orderly E l = true) \/
    (get p gU <> [] /\ get p' gU = get p gU /\ get p' gS = get p gS) \/
    (still l = true /\ sown s p p').
  Record inv (s : splitter) (l : list entry) (p p' : obj) : Prop := {
    inv_ty : oty p' = oty p;
    inv_sized : sized p /\ sized p';
    inv_below : Forall2 (sown s) (flat_map features (get p gF)) (flat_map features (get p' gF));
    inv_own : is_a (oty p) gF = true -> if is_a (oty p) Type_Document then get p' gU = get p gU /\ get p' gS = get p gS else phase s l p p' }.
  Definition good_state (s : splitter) : Prop := doc s = OpenHome /\ updating s = false /\ fits s.
  Definition outcome (s : splitter) (r r' : obj) (s' : splitter) : Prop :=
    good_state s' /\ ext s s' /\ oty r' = oty r /\ sized r' /\ Forall2 (sown s') (features r) (features r').
  Definition main (n : node) : Prop := forall s r r' s', neat E n = true -> is_a (nty n) Type_Update = false -> good_state s ->
    build E n = Ok r -> split_build E [] n s = Ok (r', s') -> outcome s r r' s'.

  Lemma phase_more s s' l p p' : ext s s' -> phase s l p p' -> phase s' l p p'.
  Proof. intros He [H|[H|[H1 H2]]]; [now left|right; now left|right; right]. split; auto. now apply (sown_more s). Qed.
  (** Nothing happened to the styles of an element. *)
  Lemma phase_same s e l p p' q q' : phase s (e :: l) p p' -> match e with LChild c => styling c = false | _ => True end -> oty q = oty p -> oty q' = oty p' ->
    (forall k, k = gU \/ k = gS -> get q k = get p k /\ get q' k = get p' k) -> phase s l q q'.
  Proof.
    intros H He T T' G. destruct (G gU (or_introl eq_refl)) as [U U']. destruct (G gS (or_intror eq_refl)) as [S S'].
    destruct H as [(H1 & H2 & H3 & H4 & H5)|[(H1 & H2 & H3)|[H1 H2]]].
    - left. repeat split; try congruence. cbn [orderly] in H5. destruct e as [c| | | |]; auto. unfold styling in He. apply orb_false_iff in He as [He1 He2]. now rewrite He1, He2 in H5.
    - right; left. repeat split; congruence.
    - right; right. split; [|now apply (own_get _ _ p p')]. unfold still, on_children in *. cbn [forallb] in H1. apply andb_true_iff in H1. tauto.
  Qed.
  Lemma mset_new (m : list (str * obj)) k x : msorted m -> mget k m = None -> forall i y, mget i m = Some y -> mget i (mset k x m) = Some y.
  Proof. intros Hs Hk i y Hi. rewrite mget_mset by exact Hs. destruct (eqs i k) eqn:Ei; [|exact Hi]. apply eqs_spec in Ei. congruence. Qed.
  Lemma update_features c : is_a (oty c) Type_Update = true -> features c = [].
  Proof.
    intros H. rewrite features_eq. pose proof (is_a_check (oty c) Type_Update (fun c => negb (is_a c gF) && match index_of_key gF (c_slots (cls c)) 0 with None => true | _ => false end) H) as G. cbv beta in G. rewrite andb_true_iff, negb_true_iff in G. destruct G as [G1 G2]; [vm_compute; reflexivity|].
    rewrite G1. unfold get. destruct (index_of_key gF _ 0); [discriminate|reflexivity].
  Qed.
  Lemma non_document p : is_a (oty p) gF = true -> non_document_feature (oty p) = negb (is_a (oty p) Type_Document).
  Proof. unfold non_document_feature. now intros ->. Qed.
  Lemma not_feature p : is_a (oty p) gF = false -> non_document_feature (oty p) = false.
  Proof. unfold non_document_feature. now intros ->. Qed.
  Lemma split_made p c s q s2 : good_state s -> sized p -> is_a (oty p) gF = true -> oty p <> gF -> is_a (oty p) Type_Document = false -> is_a (oty c) gS = true -> get p gU = [] ->
    good E c -> selector_type (oty c) = true -> omis c = [] -> id_of c = None -> split_end E p c s = Ok (q, s2) ->
    good_state s2 /\ ext s s2 /\ ((s2 = s /\ add_element E p c = Ok q /\ 2 ^ 32 <= N.of_nat (length (added s))) \/
      exists j x, oty q = oty p /\ sized q /\ get q gU = [field gU (S_ "#" ++ unique_id j)] /\ get q gS = get p gS /\ get q gF = get p gF /\ mget (unique_id j) (made s2) = Some x /\ content_of x = content_of c).
  Proof.
    intros (Hd & Hu & Hf) Hs Hp Hn Hnd Hc HU Hg Ht Hm Hi H. assert (Hup : is_a (oty c) Type_Update = false) by (now destruct (styling_kind (oty c) (or_introl Hc))).
    unfold split_end in H. rewrite Hu, Hd, Hc, (non_document p Hp), Hnd in H. unfold has_style_url in H. rewrite HU in H. cbn [negb andb] in H. rewrite Hup in H.
    destruct (mget (unique_id (counter s)) (made s)) as [y|] eqn:Em.
    - destruct (add_element E p c) as [q'| | |] eqn:Ea; cbn [bind] in H; try discriminate. injection H as -> ->. split; [split; [|split]; assumption|]. split; [apply ext_refl|]. left. split; [reflexivity|]. split; [reflexivity|]. destruct Hf as [F1 F4 F5 F2 F3].
      destruct (F2 _ _ Em) as [Hin Hid]. apply In_nth_error in Hin as [i Hi']. rewrite (F4 _ _ Hi') in Hid. apply some_id_inj in Hid. rewrite F5 in Hid.
      assert (i < length (added s2))%nat by (apply nth_error_Some; congruence). destruct (N.lt_ge_cases (N.of_nat (length (added s2))) (2 ^ 32)) as [G|G]; [|exact G]. rewrite N.mod_small in Hid by exact G. lia.
    - destruct (copy_selector E c (unique_id (counter s)) Hg Ht Hm Hi) as (r & Hr & Hcr & Hir). rewrite Hr, Hir in H. injection H as <- <-.
      pose proof Hf as [F1 F4 F5 F2 F3].
      assert (Hlen : N.of_nat (length (added s)) < 2 ^ 32).
      { destruct (N.lt_ge_cases (N.of_nat (length (added s))) (2 ^ 32)) as [G|G]; [exact G|]. exfalso. pose proof (N.mod_lt (N.of_nat (length (added s))) (2 ^ 32) ltac:(discriminate)) as K. rewrite <- F5 in K.
        assert (Hi' : (N.to_nat (counter s) < length (added s))%nat) by lia. apply nth_error_Some in Hi'. destruct (nth_error (added s) (N.to_nat (counter s))) as [x|] eqn:Ex; [|now apply Hi'].
        destruct (F3 x (nth_error_In _ _ Ex)) as (j & J1 & J2). rewrite (F4 _ _ Ex), N2Nat.id in J1. apply some_id_inj in J1. congruence. }
      assert (Hco : counter s = N.of_nat (length (added s))) by (rewrite F5; now apply N.mod_small).
      split; [split; [reflexivity|split; [reflexivity|split]]|split; [split|]]; cbn [made added].
      + now apply mset_sorted.
      + intros i x Hx. destruct (Nat.lt_ge_cases i (length (added s))) as [G|G]; [rewrite nth_error_app1 in Hx by exact G; now apply F4|]. rewrite nth_error_app2 in Hx by exact G. destruct (i - length (added s))%nat as [|k] eqn:Ek; [|destruct k; discriminate].
        cbn in Hx. injection Hx as <-. rewrite Hir, Hco. do 2 f_equal. lia.
      + cbn [counter]. rewrite Hco, app_length. cbn [length]. f_equal. lia.
      + intros k x. rewrite mget_mset by exact F1. destruct (eqs k (unique_id (counter s))) eqn:Ek.
        * intros Hx. injection Hx as <-. apply eqs_spec in Ek. subst k. split; [apply in_or_app; right; now left|exact Hir].
        * intros Hx. destruct (F2 _ _ Hx). split; auto. apply in_or_app. auto.
      + intros x Hx. apply in_app_or in Hx as [Hx|[<-|[]]].
        * destruct (F3 x Hx) as (j & Hj & Hmj). exists j. split; auto. now apply mset_new.
        * exists (counter s). split; auto. rewrite mget_mset by exact F1. now rewrite eqs_refl.
      + now apply mset_new.
      + eauto.
      + right. exists (counter s), r. split; [apply put_type|]. split; [now apply put_sized|].
        destruct (has_place (oty p) gU Hp Hn (or_introl eq_refl)) as [i Hi']. rewrite !put_get by exact Hs. rewrite Hi'. change (gU =? gU) with true. change (gU =? gS) with false. change (gU =? gF) with false. cbn [andb].
        repeat split; auto. rewrite mget_mset by exact F1. now rewrite eqs_refl.
  Qed.
  Lemma plain_inline_spec c o : plain_inline E c = true -> build E c = Ok o -> good E o /\ selector_type (oty o) = true /\ omis o = [] /\ id_of o = None.
  Proof.
    unfold plain_inline. intros H Hb. rewrite Hb in H. rewrite !andb_true_iff, negb_true_iff in H. destruct H as (((((H1 & H2) & H3) & H4) & H5) & H6).
    split; [repeat split; auto|]. split; auto. destruct (omis o); [|discriminate]. destruct (id_of o); [discriminate|]. auto.
  Qed.
  Lemma child_step s l c p p' cr q c' s1 q' s2 : main c -> neat E c = true -> (is_a (oty p) gF = true -> styling c = true -> calm c = true) -> oty p <> gF -> good_state s ->
    inv s (LChild c :: l) p p' -> build E c = Ok cr -> add_element E p cr = Ok q -> split_build E [] c s = Ok (c', s1) -> split_end E p' c' s1 = Ok (q', s2) ->
    good_state s2 /\ ext s s2 /\ inv s2 l q q'.
  Proof.
    intros Hmain Hneat Hcalm Hn Hst Hinv Hb Ha Hsb Hse. pose proof Hst as (Hd & Hu & Hfit). pose proof Hinv as [Tp [Sp Sp'] Hbelow Hown]. destruct (build_ty E _ _ Hb) as [Sc Tc].
    destruct (add_get E _ _ _ Sp Ha) as (Sq & Tq & _).
    destruct (is_a (nty c) Type_Update) eqn:Eu.
    { (* an Update *)
      rewrite (split_update E [] c s Hd Eu Hneat), Hb in Hsb. cbn [bind] in Hsb. injection Hsb as <- <-.
      assert (Hk : is_a (oty cr) gS = false /\ oty cr <> gU) by (rewrite Tc; split; [destruct (is_a (nty c) gS) eqn:E1; auto; destruct (styling_kind (nty c)); auto; congruence|intros E1; rewrite E1 in Eu; discriminate]).
      destruct Hk as [Hk1 Hk2]. rewrite split_end_add in Hse by now rewrite Hk1. destruct (add_element E p' cr) as [q1| | |] eqn:Ea'; cbn [bind] in Hse; try discriminate. injection Hse as <- <-.
      assert (done (busy s) cr = s) as ->. { unfold done. rewrite Tc, Eu. destruct s as [m ad co d u]. cbn in *. now subst. }
      destruct (add_get E _ _ _ Sp' Ea') as (Sq' & Tq' & _). split; [exact Hst|]. split; [apply ext_refl|].
      constructor; [congruence|auto|apply (add_features s p p' cr cr); auto; rewrite update_features by (now rewrite Tc); constructor|].
      intros Hf. rewrite Tq in *. specialize (Hown Hf). destruct (is_a (oty p) Type_Document).
      - pose proof (add_other p cr q gU Sp Ha Hk1 Hk2 (or_introl eq_refl)). pose proof (add_other p cr q gS Sp Ha Hk1 Hk2 (or_intror eq_refl)).
        pose proof (add_other p' cr q1 gU Sp' Ea' Hk1 Hk2 (or_introl eq_refl)). pose proof (add_other p' cr q1 gS Sp' Ea' Hk1 Hk2 (or_intror eq_refl)). destruct Hown. split; congruence.
      - apply (phase_same s (LChild c) l p p'); auto.
        + unfold styling. rewrite <- Tc, Hk1. cbn. now apply N.eqb_neq.
        + intros k Hk. split; [now apply (add_other p cr)|now apply (add_other p' cr)]. }
    assert (Hcase : (is_a (oty p) gF = true /\ styling c = true) \/ (is_a (oty p) gF = false \/ styling c = false)) by (destruct (is_a (oty p) gF), (styling c); auto).
    destruct Hcase as [[Hf Hsty]|Hoth].
    - (* a style or a reference in a feature *)
      specialize (Hcalm Hf Hsty). rewrite (split_calm E [] c s Hd Hcalm), Hb in Hsb. cbn [bind] in Hsb. injection Hsb as <- <-. specialize (Hown Hf).
      assert (Hf' : is_a (oty p') gF = true) by now rewrite Tp. assert (Hn' : oty p' <> gF) by now rewrite Tp.
      unfold styling in Hsty. rewrite <- Tc in Hsty. apply orb_true_iff in Hsty as [HS|HU'].
      + (* a style *)
        pose proof (selector_not_url _ HS) as Hnu. destruct (styling_kind _ (or_introl HS)) as [_ Hup].
        destruct (add_selector p cr q Sp Hf Hn HS Ha) as (A1 & A2 & A3).
        assert (Hadd : split_end E p' cr s = (do x <- add_element E p' cr; Ok (x, done s cr)) -> good_state s2 /\ ext s s2 /\ s2 = s /\ add_element E p' cr = Ok q').
        { intros G. rewrite G in Hse. destruct (add_element E p' cr) as [q1| | |] eqn:Ea'; cbn [bind] in Hse; try discriminate. injection Hse as <- <-. unfold done in *. rewrite Hup in *. split; [exact Hst|]. split; [apply ext_refl|]. split; reflexivity. }
        destruct (is_a (oty p) Type_Document) eqn:Edoc; cbn [app] in A1.
        * destruct Hadd as (G1 & G2 & -> & Ea'); [apply split_end_add; rewrite non_document, Tp, Edoc by auto; now rewrite andb_false_r|].
          destruct (add_selector p' cr q' Sp' Hf' Hn' HS Ea') as (B1 & B2 & B3). rewrite Tp, Edoc in B1. cbn [app] in B1. destruct (add_get E _ _ _ Sp' Ea') as (Sq' & Tq' & _).
          split; [exact G1|]. split; [exact G2|]. constructor; [congruence|auto|rewrite A3, B3; exact Hbelow|]. intros _. rewrite Tq, Edoc. destruct Hown as [O1 O2]. split; congruence.
        * destruct Hown as [(H1 & H2 & H3 & H4 & H5)|[(H1 & H2 & H3)|[H1 _]]].
          -- cbn [orderly] in H5. rewrite <- Tc in H5. destruct (oty cr =? gU) eqn:E1; [apply N.eqb_eq in E1; contradiction|]. rewrite HS in H5. apply andb_true_iff in H5 as [H5 H6].
             destruct (plain_inline_spec _ _ H5 Hb) as (P1 & P2 & P3 & P4).
             destruct (split_made p' cr s q' s2 Hst Sp' Hf' Hn' ltac:(now rewrite Tp) HS H2 P1 P2 P3 P4 Hse) as (G1 & G2 & [(-> & Ea' & Hlen)|(j & x & T' & S' & U' & SS' & F' & Mx & Cx)]).
             ++ destruct (add_selector p' cr q' Sp' Hf' Hn' HS Ea') as (B1 & B2 & B3). rewrite Tp, Edoc in B1. cbn [app] in B1. destruct (add_get E _ _ _ Sp' Ea') as (Sq' & Tq' & _).
                split; [exact G1|]. split; [exact G2|]. constructor; [congruence|auto|rewrite A3, B3; exact Hbelow|]. intros _. rewrite Tq, Edoc. right; right. split; [exact H6|]. apply own_kept; try congruence. right; right; now right.
             ++ split; [exact G1|]. split; [exact G2|]. constructor; [congruence|auto| |].
                { rewrite A3, F'. apply (Forall2_more (sown s)); [intros a b; now apply sown_more|exact Hbelow]. }
                intros _. rewrite Tq, Edoc. right; right. split; [exact H6|]. apply own_split with (j := j) (s := cr) (s2 := x); congruence.
          -- assert (Hh : has_style_url p' = true) by (unfold has_style_url; rewrite H2; destruct (get p gU); [contradiction|reflexivity]).
             destruct Hadd as (G1 & G2 & -> & Ea'); [apply split_end_add; rewrite Hh; now rewrite andb_false_r|].
             destruct (add_selector p' cr q' Sp' Hf' Hn' HS Ea') as (B1 & B2 & B3). rewrite Tp, Edoc in B1. cbn [app] in B1. destruct (add_get E _ _ _ Sp' Ea') as (Sq' & Tq' & _).
             split; [exact G1|]. split; [exact G2|]. constructor; [congruence|auto|rewrite A3, B3; exact Hbelow|]. intros _. rewrite Tq, Edoc. right; left. repeat split; congruence.
          -- exfalso. unfold still, on_children in H1. cbn [forallb] in H1. unfold styling in H1. rewrite <- Tc, HS in H1. discriminate.
      + (* a reference *)
        apply N.eqb_eq in HU'. assert (HS : is_a (oty cr) gS = false) by (rewrite HU'; reflexivity).
        rewrite split_end_add in Hse by now rewrite HS. destruct (add_element E p' cr) as [q1| | |] eqn:Ea'; cbn [bind] in Hse; try discriminate. injection Hse as <- <-.
        assert (done s cr = s) as -> by (unfold done; rewrite HU'; reflexivity).
        destruct (add_url p cr q Sp Hf Hn HU' Ha) as (A1 & A2 & A3). destruct (add_url p' cr q1 Sp' Hf' Hn' HU' Ea') as (B1 & B2 & B3). destruct (add_get E _ _ _ Sp' Ea') as (Sq' & Tq' & _).
        split; [exact Hst|]. split; [apply ext_refl|]. constructor; [congruence|auto|rewrite A3, B3; exact Hbelow|]. intros _. rewrite Tq. destruct (is_a (oty p) Type_Document); [destruct Hown; split; congruence|].
        right; left. destruct Hown as [(H1 & H2 & H3 & H4 & H5)|[(H1 & H2 & H3)|[H1 _]]].
        * repeat split; congruence.
        * repeat split; congruence.
        * exfalso. unfold still, on_children in H1. cbn [forallb] in H1. unfold styling in H1. rewrite <- Tc, HU', N.eqb_refl in H1. rewrite orb_true_r in H1. discriminate.
    - (* anything else *)
      destruct (Hmain s cr c' s1 Hneat Eu Hst Hb Hsb) as (G1 & G2 & T' & S' & Hown').
      rewrite split_end_add in Hse.
      2:{ destruct Hoth as [Hoth|Hoth]; [rewrite (not_feature p') by congruence; now rewrite andb_false_r|]. unfold styling in Hoth. rewrite <- Tc in Hoth. apply orb_false_iff in Hoth as [Hoth _]. now rewrite T', Hoth. }
      destruct (add_element E p' c') as [q1| | |] eqn:Ea'; cbn [bind] in Hse; try discriminate. injection Hse as <- <-.
      assert (done s1 c' = s1) as -> by (unfold done; now rewrite T', Tc, Eu). destruct (add_get E _ _ _ Sp' Ea') as (Sq' & Tq' & _).
      split; [exact G1|]. split; [exact G2|]. constructor; [congruence|auto| |].
      + apply (add_features s1 p p' cr c'); auto. apply (Forall2_more (sown s)); [intros a b; now apply sown_more|exact Hbelow].
      + rewrite Tq. intros Hf. specialize (Hown Hf). destruct Hoth as [Hoth|Hoth]; [congruence|].
        assert (Hk : is_a (oty cr) gS = false /\ oty cr <> gU) by (unfold styling in Hoth; rewrite <- Tc in Hoth; apply orb_false_iff in Hoth as [K1 K2]; apply N.eqb_neq in K2; auto). destruct Hk as [Hk1 Hk2].
        assert (Hk1' : is_a (oty c') gS = false) by congruence. assert (Hk2' : oty c' <> gU) by congruence.
        destruct (is_a (oty p) Type_Document).
        * pose proof (add_other p cr q gU Sp Ha Hk1 Hk2 (or_introl eq_refl)). pose proof (add_other p cr q gS Sp Ha Hk1 Hk2 (or_intror eq_refl)).
          pose proof (add_other p' c' q1 gU Sp' Ea' Hk1' Hk2' (or_introl eq_refl)). pose proof (add_other p' c' q1 gS Sp' Ea' Hk1' Hk2' (or_intror eq_refl)). destruct Hown. split; congruence.
        * apply (phase_same s1 (LChild c) l p p'); auto.
          -- now apply (phase_more s).
          -- intros k Hk. split; [now apply (add_other p cr)|now apply (add_other p' c')].
  Qed.
End Step.

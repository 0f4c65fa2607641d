(** Splitting and inlining styles changes nothing but the styles of features (C32, C33). *)
From Verif Require Import Common StrMap StringsModel AttributesModel AttributesProofs XsdTables XsdModel XsdProofs XmlSpec XmlSpecProofs SerializerModel CoordModel HandlerModel HandlerSpec HandlerProps.
From Verif Require Import DomTables DomModel DomSpec DomProofs DomProofs2 DomParsed CloneModel MergeModel IdModel StyleModel SplitModel SplitProofs2 SplitProofs3 InlineProofs DomProps StyleProps SplitProps InlineProps BareSpec.
Local Open Scope N_scope.

Definition hs_of (ty : N) : list bool := map (for_styles ty) (c_slots (cls ty)).
Lemma blank_update hs i v l : blank hs (update i v l) = update i (if nth i hs false then [] else v) (blank hs l).
Proof. revert i l. induction hs as [|h hs IH]; intros [|i] [|x l]; cbn [blank update nth]; try reflexivity. now rewrite IH. Qed.
Lemma map_update (f : list obj -> list obj) i v l : map f (update i v l) = update i (f v) (map f l).
Proof. revert i. induction l as [|x l IH]; intros [|i]; cbn [update map]; try reflexivity. now rewrite IH. Qed.
Lemma blank_nth hs i l : nth i hs false = false -> nth i (blank hs l) [] = nth i l [].
Proof. revert i l. induction hs as [|h hs IH]; intros [|i] [|x l] H; cbn [blank nth] in *; auto. now rewrite H. Qed.
Lemma update_blank hs i l : nth i hs false = true -> update i [] (blank hs l) = blank hs l.
Proof. revert i l. induction hs as [|h hs IH]; intros [|i] [|x l] H; cbn [blank update nth] in *; try discriminate; auto; [now rewrite H|]. now rewrite IH. Qed.
Lemma map_nth_bare i sl : nth i (map (map bare) sl) [] = map bare (nth i sl []).
Proof. revert i. induction sl as [|x sl IH]; intros [|i]; cbn [map nth]; auto. Qed.

Lemma bare_ty o : oty (bare o) = oty o. Proof. now destruct o. Qed.
Lemma bare_text o : otext (bare o) = otext o. Proof. now destruct o. Qed.
Lemma bare_same_ty o o' : bare o = bare o' -> oty o = oty o'. Proof. intros H. rewrite <- (bare_ty o), H. apply bare_ty. Qed.
Lemma bare_same_text o o' : bare o = bare o' -> otext o = otext o'. Proof. intros H. rewrite <- (bare_text o), H. apply bare_text. Qed.
(** Storing into a slot. *)
Lemma bare_store o i v : bare (set_slots o (update i v (oslots o))) =
  set_slots (bare o) (update i (if nth i (hs_of (oty o)) false then [] else map bare v) (oslots (bare o))).
Proof. destruct o. cbn [set_slots bare oslots oty]. rewrite map_update, blank_update. reflexivity. Qed.
Lemma bare_cur o i : nth i (hs_of (oty o)) false = false -> map bare (nth i (oslots o) []) = nth i (oslots (bare o)) [].
Proof. intros H. destruct o. cbn [bare oslots oty] in *. rewrite blank_nth by exact H. now rewrite map_nth_bare. Qed.
Lemma bare_store_hidden o i v : nth i (hs_of (oty o)) false = true -> bare (set_slots o (update i v (oslots o))) = bare o.
Proof. intros H. rewrite bare_store, H. destruct o. cbn [bare oslots set_slots oty] in *. now rewrite update_blank. Qed.
Lemma store_same o o' i v v' : bare o = bare o' -> (nth i (hs_of (oty o)) false = false -> map bare v = map bare v') ->
  bare (set_slots o (update i v (oslots o))) = bare (set_slots o' (update i v' (oslots o'))).
Proof. intros Ho Hv. rewrite !bare_store, <- (bare_same_ty _ _ Ho), Ho. destruct (nth i (hs_of (oty o)) false); [reflexivity|]. now rewrite Hv. Qed.
Lemma bare_mis o x : bare (set_mis o x) = set_mis (bare o) (map bare x). Proof. now destruct o. Qed.
Lemma bare_omis o : omis (bare o) = map bare (omis o). Proof. now destruct o. Qed.
Lemma bare_set_text o x : bare (set_text o x) = set_text (bare o) x. Proof. now destruct o. Qed.
Lemma bare_set_unk o x : bare (set_unk o x) = set_unk (bare o) x. Proof. now destruct o. Qed.
Lemma bare_set_ka o x : bare (set_ka o x) = set_ka (bare o) x. Proof. now destruct o. Qed.
Lemma bare_set_vec o x : bare (set_vec o x) = set_vec (bare o) x. Proof. now destruct o. Qed.
Lemma bare_unk o : ounk (bare o) = ounk o. Proof. now destruct o. Qed.
Lemma bare_ka o : oka (bare o) = oka o. Proof. now destruct o. Qed.
Lemma bare_vec o : ovec (bare o) = ovec o. Proof. now destruct o. Qed.
Lemma bare_field ty v : bare (field ty v) = field ty v.
Proof. unfold field. cbn [bare map]. f_equal. destruct (map (for_styles ty) (c_slots (cls ty))); reflexivity. Qed.

Section Same.
  Variable E : env.
  Lemma add_same p p' c c' q q' : bare p = bare p' -> bare c = bare c' -> add_element E p c = Ok q -> add_element E p' c' = Ok q' -> bare q = bare q'.
  Proof.
    intros Hp Hc. unfold add_element. rewrite <- (bare_same_ty _ _ Hp), <- (bare_same_ty _ _ Hc).
    assert (Hd : char_data c = char_data c') by (unfold char_data; now rewrite (bare_same_text _ _ Hc)). rewrite <- Hd.
    destruct (snippet_type (oty p)); [intros H H'; injection H as <-; injection H' as <-; now rewrite !bare_set_text, Hp|].
    destruct (oty p =? Type_coordinates); [intros H H'; injection H as <-; injection H' as <-; exact Hp|].
    destruct ((oty p =? Type_SimpleData) && (oty c =? Type_SimpleData)); [intros H H'; injection H as <-; injection H' as <-; now rewrite !bare_set_text, Hp|].
    destruct (find_slot (oty c) (c_slots (cls (oty p))) 0) as [[i s]|].
    2:{ intros H H'; injection H as <-; injection H' as <-. rewrite !bare_mis, Hp, !map_app. cbn [map]. rewrite Hc.
        now rewrite <- (bare_omis p), <- (bare_omis p'), Hp. }
    assert (Hcur : nth i (hs_of (oty p)) false = false -> map bare (nth i (oslots p) []) = map bare (nth i (oslots p') [])).
    { intros Hh. rewrite bare_cur by exact Hh. rewrite (bare_cur p') by (now rewrite <- (bare_same_ty _ _ Hp)). now rewrite Hp. }
    assert (Hprev : nth i (hs_of (oty p)) false = false -> match nth i (oslots p) [] with v :: _ => otext v | [] => None end = match nth i (oslots p') [] with v :: _ => otext v | [] => None end).
    { intros Hh. specialize (Hcur Hh). destruct (nth i (oslots p) []) as [|x l], (nth i (oslots p') []) as [|x' l']; try discriminate; [reflexivity|]. cbn [map] in Hcur. injection Hcur as Hx _. now apply bare_same_text. }
    destruct (s_kind s) as [f|f| |].
    - destruct (norm E (oty p) f (oty c) _ (char_data c)) as [v| | |] eqn:Ev; cbn [bind]; try discriminate. intros H; injection H as <-.
      match goal with |- context [norm E (oty p) f (oty c) ?X (char_data c)] => destruct (norm E (oty p) f (oty c) X (char_data c)) as [v'| | |] eqn:Ev' end; cbn [bind]; try discriminate.
      intros H; injection H as <-. apply store_same; [exact Hp|]. intros Hh. rewrite (Hprev Hh) in Ev. rewrite Ev in Ev'. now injection Ev' as <-.
    - destruct (norm E (oty p) f (oty c) None (char_data c)) as [v| | |]; cbn [bind]; try discriminate. intros H H'; injection H as <-; injection H' as <-.
      apply store_same; [exact Hp|]. intros Hh. rewrite !map_app. now rewrite Hcur.
    - intros H H'; injection H as <-; injection H' as <-. apply store_same; [exact Hp|]. intros _. cbn [map]. now rewrite Hc.
    - intros H H'; injection H as <-; injection H' as <-. apply store_same; [exact Hp|]. intros Hh. rewrite !map_app. cbn [map]. now rewrite Hcur, Hc.
  Qed.
  Lemma put_same p p' k v : bare p = bare p' -> bare (put p k v) = bare (put p' k v).
  Proof. intros Hp. unfold put. rewrite <- (bare_same_ty _ _ Hp). destruct (index_of_key k (c_slots (cls (oty p))) 0); [|exact Hp]. now apply store_same. Qed.
  Lemma entry_same2 e p p' q q' : bare p = bare p' -> add_entry E e p = Ok q -> add_entry E e p' = Ok q' -> bare q = bare q'.
  Proof.
    intros Hp. destruct e as [c|s|s|s|url sd]; cbn [add_entry].
    - intros H H'; injection H as <-; injection H' as <-; exact Hp.
    - intros H H'; injection H as <-; injection H' as <-. now rewrite !bare_set_unk, <- (bare_unk p), <- (bare_unk p'), Hp.
    - unfold add_self. rewrite <- (bare_same_ty _ _ Hp). destruct (oty p =? Type_coordinates).
      { destruct (coordinates_parse s) as [vs| | |]; cbn [bind]; try discriminate. intros H H'; injection H as <-; injection H' as <-. now rewrite !bare_set_vec, <- (bare_vec p), <- (bare_vec p'), Hp. }
      destruct (snippet_type (oty p) || (oty p =? Type_SimpleData)); intros H H'; injection H as <-; injection H' as <-; [now rewrite !bare_set_text, Hp|exact Hp].
    - intros H H'; injection H as <-; injection H' as <-. now rewrite !bare_set_ka, <- (bare_ka p), <- (bare_ka p'), Hp.
    - intros H H'; injection H as <-; injection H' as <-. now apply put_same.
  Qed.
  (** Whether a child is taken does not depend on styles. *)
  Lemma norm_defined f p ty prev prev' x v : norm E p f ty prev x = Ok v -> exists v', norm E p f ty prev' x = Ok v'.
  Proof. destruct f; cbn [norm]; eauto. Qed.
  Lemma add_defined p p' c c' q' : bare p = bare p' -> bare c = bare c' -> add_element E p' c' = Ok q' -> exists q, add_element E p c = Ok q.
  Proof.
    intros Hp Hc. unfold add_element. rewrite <- (bare_same_ty _ _ Hp), <- (bare_same_ty _ _ Hc).
    assert (Hd : char_data c = char_data c') by (unfold char_data; now rewrite (bare_same_text _ _ Hc)). rewrite <- Hd.
    destruct (snippet_type (oty p)); [eauto|]. destruct (oty p =? Type_coordinates); [eauto|]. destruct ((oty p =? Type_SimpleData) && (oty c =? Type_SimpleData)); [eauto|].
    destruct (find_slot (oty c) (c_slots (cls (oty p))) 0) as [[i s]|]; [|eauto]. destruct (s_kind s) as [f|f| |]; [| |eauto..].
    - destruct (norm E (oty p) f (oty c) _ (char_data c)) as [v| | |] eqn:Ev; cbn [bind]; try discriminate. intros _.
      destruct (norm_defined f (oty p) (oty c) _ (match nth i (oslots p) [] with v :: _ => otext v | [] => None end) _ _ Ev) as [v' ->]. cbn [bind]. eauto.
    - destruct (norm E (oty p) f (oty c) None (char_data c)) as [v| | |]; cbn [bind]; try discriminate. eauto.
  Qed.
  Lemma entry_defined e p p' q' : bare p = bare p' -> add_entry E e p' = Ok q' -> exists q, add_entry E e p = Ok q.
  Proof.
    intros Hp. destruct e as [c|s|s|s|url sd]; cbn [add_entry]; eauto. unfold add_self. rewrite <- (bare_same_ty _ _ Hp). destruct (oty p =? Type_coordinates).
    - destruct (coordinates_parse s) as [vs| | |]; cbn [bind]; try discriminate. eauto.
    - destruct (snippet_type (oty p) || (oty p =? Type_SimpleData)); eauto.
  Qed.
  (** What goes to the places for styles does not show. *)
  Lemma put_hidden p k v : is_a (oty p) Type_Feature = true -> k = Type_styleUrl \/ k = Type_StyleSelector -> bare (put p k v) = bare p.
  Proof.
    intros Hf Hk. unfold put. destruct (index_of_key k (c_slots (cls (oty p))) 0) as [i|] eqn:Ei; [|reflexivity]. apply bare_store_hidden.
    apply index_of_key_spec in Ei as [_ Hi]. rewrite Nat.sub_0_r in Hi. unfold keys in Hi. rewrite nth_error_map in Hi. destruct (nth_error (c_slots (cls (oty p))) i) as [s|] eqn:En; [|discriminate].
    cbn [option_map] in Hi. injection Hi as Hi. unfold hs_of. apply nth_error_nth. rewrite nth_error_map, En. cbn [option_map]. f_equal. unfold for_styles. rewrite Hf, Hi.
    destruct Hk as [->| ->]; reflexivity.
  Qed.
  Definition style_slots (ty : N) : bool :=
    negb (snippet_type ty) && negb (ty =? Type_coordinates) && negb (ty =? Type_SimpleData) &&
    forallb (fun g => match find_slot g (c_slots (cls ty)) 0 with
                      | Some (_, s) => ((s_key s =? Type_styleUrl) || (s_key s =? Type_StyleSelector)) && match s_kind s with KField FString | KChild | KChildren => true | _ => false end
                      | None => false
                      end) (Type_styleUrl :: filter (fun g => is_a g Type_StyleSelector) (Type_StyleSelector :: map fst bases)).
  Lemma feature_slots ty : is_a ty Type_Feature = true -> ty <> Type_Feature -> style_slots ty = true.
  Proof.
    intros H Hne. apply (is_a_check ty Type_Feature (fun t => (t =? Type_Feature) || style_slots t)) in H; [|vm_compute; reflexivity].
    apply orb_true_iff in H as [H|H]; [apply N.eqb_eq in H; contradiction|exact H].
  Qed.
  Lemma add_hidden p c : is_a (oty p) Type_Feature = true -> oty p <> Type_Feature -> is_a (oty c) Type_StyleSelector = true \/ oty c = Type_styleUrl ->
    exists q, add_element E p c = Ok q /\ bare q = bare p.
  Proof.
    intros Hf Hne Hc. pose proof (feature_slots _ Hf Hne) as Hs. unfold style_slots in Hs. apply andb_prop in Hs as [Hs H0]. apply andb_prop in Hs as [Hs Hs1]. apply andb_prop in Hs as [Hs Hs2]. apply negb_true_iff in Hs, Hs1, Hs2.
    unfold add_element. rewrite Hs, Hs1, Hs2. cbn [andb].
    rewrite forallb_forall in H0. specialize (H0 (oty c)).
    assert (Hin : In (oty c) (Type_styleUrl :: filter (fun g => is_a g Type_StyleSelector) (Type_StyleSelector :: map fst bases))).
    { destruct Hc as [Hc|Hc]; [|now left]. right. apply filter_In. split; [|exact Hc]. destruct (is_a_base _ _ Hc) as [->|G]; [now left|now right]. }
    specialize (H0 Hin). destruct (find_slot (oty c) (c_slots (cls (oty p))) 0) as [[i s]|] eqn:Ef; [|discriminate]. apply andb_prop in H0 as [H0 H1].
    apply find_slot_spec in Ef as [_ Hi]. rewrite Nat.sub_0_r in Hi.
    assert (Hh : nth i (hs_of (oty p)) false = true).
    { unfold hs_of. apply nth_error_nth. rewrite nth_error_map, Hi. cbn [option_map]. f_equal. unfold for_styles. now rewrite Hf, H0. }
    destruct (s_kind s) as [[]|f| |]; try discriminate; cbn [norm bind]; eexists; (split; [reflexivity|]); now apply bare_store_hidden.
  Qed.
End Same.

(** ** SplitStyles *)
Section SplitBare.
  Variables (E : env) (late : list obj).
  Lemma document_feature ty : is_a ty Type_Document = true -> is_a ty Type_Feature = true.
  Proof. intros H. now apply (is_a_check ty Type_Document (fun t => is_a t Type_Feature)) in H; [|vm_compute; reflexivity]. Qed.
  Lemma split_end_same p p' c c' s q' s' : bare p = bare p' -> bare c = bare c' -> oty p <> Type_Feature ->
    split_end E p' c' s = Ok (q', s') -> exists q, add_element E p c = Ok q /\ bare q = bare q'.
  Proof.
    intros Hp Hc Hne. unfold split_end.
    assert (A : forall s1, (do p1 <- add_element E p' c'; Ok (p1, s1)) = Ok (q', s') -> exists q, add_element E p c = Ok q /\ bare q = bare q').
    { intros s1. destruct (add_element E p' c') as [p1| | |] eqn:E1; cbn [bind]; try discriminate. intros H; injection H as <- _.
      destruct (add_defined E p p' c c' p1 Hp Hc E1) as [q Hq]. exists q. split; [exact Hq|]. now apply (add_same E p p' c c'). }
    destruct (updating s); [apply A|]. destruct (doc s); [apply A|..];
      (destruct (is_a (oty c') Type_StyleSelector && non_document_feature (oty p') && negb (has_style_url p')) eqn:Eb; [|apply A]);
      (destruct (mget (unique_id (counter s)) (made s)); [apply A|]);
    (destruct (merge E c' (set_id (unique_id (counter s)) (create (oty c')))) as [sh|]; [|discriminate]); (intros H; injection H as <- _);
    apply andb_prop in Eb as [Eb _]; apply andb_prop in Eb as [Eb1 Eb2]; unfold non_document_feature in Eb2; apply andb_prop in Eb2 as [Ef _];
    (rewrite put_hidden by (auto; now left)); rewrite <- Hp; (apply (add_hidden E p c); auto; [now rewrite (bare_same_ty _ _ Hp)|]); left; now rewrite (bare_same_ty _ _ Hc).
  Qed.
  Lemma split_bare n : concrete n = true -> forall s o' s', split_build E late n s = Ok (o', s') -> exists o, build E n = Ok o /\ bare o = bare o'.
  Proof.
    induction n as [ty a cd log IH] using node_all. intros Hcon s r' s'. cbn [concrete] in Hcon. apply andb_prop in Hcon as [Hty Hcon]. apply negb_true_iff, N.eqb_neq in Hty.
    rewrite build_eq, split_build_eq. cbv zeta. set (mine := match doc s with NoHome => is_a ty Type_Document | _ => false end).
    assert (Hmine : mine = true -> is_a ty Type_Document = true) by (unfold mine; destruct (doc s); auto; discriminate). clearbody mine.
    destruct (start_sized E ty a cd) as [S0 T0]. generalize (split_new ty s). intros s0. destruct (sloop E late mine log (start E ty a cd) s0) as [[r1 s1]| | |] eqn:Es; cbn [bind]; try discriminate.
    intros H; injection H as <- _. enough (K : exists o, DomProofs.steps E log (start E ty a cd) = Ok o /\ bare o = bare r1).
    { destruct K as (o & Ho & Hb). exists o. split; [exact Ho|]. rewrite Hb. destruct mine; [|reflexivity]. unfold receive_late. destruct late as [|x l]; [reflexivity|]. unfold receive.
      rewrite put_hidden; [reflexivity| |now right]. rewrite <- (bare_same_ty _ _ Hb), (proj2 (steps_ty E log _ _ S0 Ho)), T0. apply document_feature. auto. }
    revert Es. assert (Hb : bare (start E ty a cd) = bare (start E ty a cd)) by reflexivity. revert S0 T0 Hb.
    generalize (start E ty a cd) at 1 2 3 6. generalize (start E ty a cd). intros o' o. revert o o' s0. clear s s'.
    induction log as [|e l IHl]; intros o o' s0 S0 T0 Hb Hs; [cbn in Hs |- *; injection Hs as <- _; eauto|].
    cbn [forallb] in Hcon. apply andb_prop in Hcon as [He Hcon].
    assert (IH' : forall c, In (LChild c) l -> concrete c = true -> forall s o' s', split_build E late c s = Ok (o', s') -> exists o, build E c = Ok o /\ bare o = bare o') by (intros c Hc; apply IH; now right).
    cbn [DomProofs.steps sloop] in Hs |- *. destruct e as [c|x|x|x|u sd].
    2,3,4,5: (rewrite entry_same by congruence;
      destruct (add_entry E _ o') as [o1'| | |] eqn:E1' in Hs; cbn [bind] in Hs; try discriminate;
      destruct (entry_defined E _ _ _ _ Hb E1') as [o1 E1]; rewrite E1; cbn [bind];
      pose proof (entry_same2 E _ _ _ _ _ Hb E1 E1') as Hb1; apply entry_get in E1 as (S1 & T1 & _); [|congruence|exact S0];
      apply (IHl IH' Hcon o1 o1' s0); auto; congruence).
    cbn [entry_step].
    destruct (split_build E late c s0) as [[c2 s2]| | |] eqn:Ec2; cbn [bind] in Hs; try discriminate.
    destruct (split_end E _ c2 s2) as [[o2 s3]| | |] eqn:E2 in Hs; cbn [bind] in Hs; try discriminate.
    destruct (IH c (or_introl eq_refl) He _ _ _ Ec2) as (c1 & Ec & Hc). rewrite Ec. cbn [bind].
    assert (Hrec : bare o = bare (if mine then receive o' (skipn (length (added s0)) (added s2)) else o')).
    { destruct mine; [|exact Hb]. unfold receive. rewrite put_hidden; [exact Hb| |now right]. rewrite <- (bare_same_ty _ _ Hb), T0. apply document_feature. auto. }
    destruct (split_end_same _ _ _ _ _ _ _ Hrec Hc ltac:(congruence) E2) as (o1 & E1 & Hb1). rewrite E1. cbn [bind].
    apply add_get in E1 as (S1 & T1 & _); [|exact S0]. apply (IHl IH' Hcon o1 o2 s3); auto. congruence.
  Qed.
End SplitBare.

(** ** InlineStyles *)
Section InlineBare.
  Variable E : env.
  Variable split_uri : str -> option (str * str).
  Lemma inline_end_same p p' c c' s q' s' : bare p = bare p' -> bare c = bare c' -> oty p <> Type_Feature ->
    inline_end E split_uri p' c' s = Ok (q', s') -> exists q, add_element E p c = Ok q /\ bare q = bare q'.
  Proof.
    intros Hp Hc Hne. unfold inline_end.
    assert (A : forall s1, (do p1 <- add_element E p' c'; Ok (p1, s1)) = Ok (q', s') -> exists q, add_element E p c = Ok q /\ bare q = bare q').
    { intros s1. destruct (add_element E p' c') as [p1| | |] eqn:E1; cbn [bind]; try discriminate. intros H; injection H as <- _.
      destruct (add_defined E p p' c c' p1 Hp Hc E1) as [q Hq]. exists q. split; [exact Hq|]. now apply (add_same E p p' c c'). }
    destruct (in_update s); [apply A|].
    match goal with |- (if ?b then _ else _) = _ -> _ => destruct b eqn:Eb end.
    { intros H; injection H as <- _. apply andb_prop in Eb as [Eb _]. apply andb_prop in Eb as [Eb1 Eb2]. rewrite <- Hp.
      apply (add_hidden E p c); auto; [rewrite (bare_same_ty _ _ Hp); now apply document_feature|]. left. now rewrite (bare_same_ty _ _ Hc). }
    match goal with |- (if ?b then _ else _) = _ -> _ => destruct b eqn:Eu end; [|apply A].
    destruct (split_uri (char_data c')) as [[[|x u] id]|]; [|apply A..]. destruct (mget id (captured s)); [|apply A].
    destruct (resolved_selector E split_uri (captured s) (char_data c')) as [m| | |]; cbn [bind]; try discriminate. intros H; injection H as <- _.
    apply andb_prop in Eu as [Eu1 Eu2]. apply N.eqb_eq in Eu2. unfold non_document_feature in Eu1. apply andb_prop in Eu1 as [Ef _].
    rewrite put_hidden by (auto; now right). rewrite <- Hp. apply (add_hidden E p c); auto; [now rewrite (bare_same_ty _ _ Hp)|]. right. now rewrite (bare_same_ty _ _ Hc).
  Qed.
  Lemma inline_bare n : concrete n = true -> forall s o' s', inline_build E split_uri n s = Ok (o', s') -> exists o, build E n = Ok o /\ bare o = bare o'.
  Proof.
    induction n as [ty a cd log IH] using node_all. intros Hcon s r' s'. cbn [concrete] in Hcon. apply andb_prop in Hcon as [Hty Hcon]. apply negb_true_iff, N.eqb_neq in Hty.
    rewrite build_eq, inline_build_eq. destruct (start_sized E ty a cd) as [S0 T0]. generalize (inline_new ty s). intros s0.
    assert (Hb : bare (start E ty a cd) = bare (start E ty a cd)) by reflexivity. revert S0 T0 Hb.
    generalize (start E ty a cd) at 1 2 3 6. generalize (start E ty a cd). intros o' o. revert o o' s0. clear s.
    induction log as [|e l IHl]; intros o o' s0 S0 T0 Hb Hs; [cbn in Hs |- *; injection Hs as <- _; eauto|].
    cbn [forallb] in Hcon. apply andb_prop in Hcon as [He Hcon].
    assert (IH' : forall c, In (LChild c) l -> concrete c = true -> forall s o' s', inline_build E split_uri c s = Ok (o', s') -> exists o, build E c = Ok o /\ bare o = bare o') by (intros c Hc; apply IH; now right).
    cbn [DomProofs.steps iloop] in Hs |- *. destruct e as [c|x|x|x|u sd].
    2,3,4,5: (rewrite entry_same by congruence;
      destruct (add_entry E _ o') as [o1'| | |] eqn:E1' in Hs; cbn [bind] in Hs; try discriminate;
      destruct (entry_defined E _ _ _ _ Hb E1') as [o1 E1]; rewrite E1; cbn [bind];
      pose proof (entry_same2 E _ _ _ _ _ Hb E1 E1') as Hb1; apply entry_get in E1 as (S1 & T1 & _); [|congruence|exact S0];
      apply (IHl IH' Hcon o1 o1' s0); auto; congruence).
    cbn [entry_step].
    destruct (inline_build E split_uri c s0) as [[c2 s2]| | |] eqn:Ec2; cbn [bind] in Hs; try discriminate.
    destruct (inline_end E split_uri _ c2 s2) as [[o2 s3]| | |] eqn:E2 in Hs; cbn [bind] in Hs; try discriminate.
    destruct (IH c (or_introl eq_refl) He _ _ _ Ec2) as (c1 & Ec & Hc). rewrite Ec. cbn [bind].
    destruct (inline_end_same _ _ _ _ _ _ _ Hb Hc ltac:(congruence) E2) as (o1 & E1 & Hb1). rewrite E1. cbn [bind].
    apply add_get in E1 as (S1 & T1 & _); [|exact S0]. apply (IHl IH' Hcon o1 o2 s3); auto. congruence.
  Qed.
End InlineBare.

(** ** Documents that are parsed *)
Lemma known_concrete p n ty : known_type p n = Some ty -> (ty =? Type_Feature) = false.
Proof.
  unfold known_type. intros H. destruct (N.eqb_spec ty Type_Feature) as [->|]; [|reflexivity]. exfalso.
  destruct (creatable (element_id n)) eqn:Ec.
  - destruct ((element_id n =? Type_Icon) && (p =? Type_IconStyle)); [discriminate|]. injection H as H. rewrite H in Ec. vm_compute in Ec. discriminate.
  - destruct (is_simple (element_id n)) eqn:Es; [|discriminate]. injection H as H. rewrite H in Es. vm_compute in Es. discriminate.
Qed.
Lemma received_concrete t : forall p, forallb (fun e => match e with LChild c => concrete c | _ => true end) (received keep_all p t) = true.
Proof.
  induction t as [n a ks IH|x] using xml_ind2; intros p; [|reflexivity]. rewrite Forall_forall in IH. cbn [received]. destruct (known_type p n) as [ty|] eqn:Ek; [|reflexivity].
  unfold keep_all at 1. cbn [forallb]. rewrite andb_true_r. destruct (ty =? Type_description); cbn [concrete forallb]; rewrite (known_concrete _ _ _ Ek); [reflexivity|]. cbn [negb andb].
  rewrite forallb_app. apply andb_true_intro. split.
  - rewrite forallb_forall. intros e He. apply in_flat_map in He as (k & Hk & He). specialize (IH k Hk ty). rewrite forallb_forall in IH. now apply IH.
  - unfold self_entry. destruct (self_parsed ty); reflexivity.
Qed.
Lemma tree_concrete t n : tree keep_all t = Some n -> concrete n = true.
Proof.
  intros H. destruct t as [m a ks|x]; [|discriminate]. pose proof (received_concrete (XElem m a ks) Type_Unknown) as G. cbn [received] in G. cbn [tree] in H.
  destruct (known_type Type_Unknown m) as [ty|]; [|discriminate]. unfold keep_all in G at 1. cbn [forallb] in G. rewrite andb_true_r in G. injection H as <-. exact G.
Qed.
(** C117. Splitting the styles of a document changes nothing but the styles and styleUrls of its features: the document can be read without splitting too, and
    without styles and styleUrls it is the same document. *)
Theorem split_only_styles : forall E n o', concrete n = true -> split_styles E n = Ok o' -> exists o, build E n = Ok o /\ bare o' = bare o.
Proof.
  intros E n o' Hc. unfold split_styles. destruct (split_build E [] n splitter0) as [[r s]| | |] eqn:Es; cbn [bind]; try discriminate.
  destruct (added s) as [|x l]; [intros H; injection H as <-; destruct (split_bare E [] n Hc splitter0 r s Es) as (o & Ho & Hb); eauto|].
  destruct (split_build E (x :: l) n splitter0) as [[r' s']| | |] eqn:Es'; cbn [bind]; try discriminate. intros H; injection H as <-.
  destruct (split_bare E (x :: l) n Hc splitter0 r' s' Es') as (o & Ho & Hb). eauto.
Qed.
Print Assumptions split_only_styles.
(** C117. The same for inlining. *)
Theorem inline_only_styles : forall E split_uri n o', concrete n = true -> inline_styles E split_uri n = Ok o' -> exists o, build E n = Ok o /\ bare o' = bare o.
Proof.
  intros E split_uri n o' Hc. unfold inline_styles. destruct (inline_build E split_uri n inliner0) as [[r s]| | |] eqn:Es; cbn [bind]; try discriminate. intros H; injection H as <-.
  destruct (inline_bare E split_uri n Hc inliner0 r s Es) as (o & Ho & Hb). eauto.
Qed.
Print Assumptions inline_only_styles.
(** C117. Every document that is parsed is one of these. *)
Theorem parsed_documents : forall s t n, xml_tree s = Some t -> regular t -> parse_text [] s = Ok (Some n) -> concrete n = true.
Proof. intros s t n Hs Hr H. rewrite (parse_text_builds_tree s t Hs Hr) in H. injection H as H. exact (tree_concrete t n H). Qed.
Print Assumptions parsed_documents.
(** C117. What the comparison sees: type, attributes, text, coordinates, misplaced and unknown contents, and each child that is not for the styles of a feature. *)
Theorem bare_sees : forall o o', bare o = bare o' ->
  oty o = oty o' /\ oka o = oka o' /\ oea o = oea o' /\ otext o = otext o' /\ ovec o = ovec o' /\ ounk o = ounk o' /\ map bare (omis o) = map bare (omis o') /\
  forall k, is_a (oty o) Type_Feature = false \/ (k <> Type_styleUrl /\ k <> Type_StyleSelector) -> map bare (get o k) = map bare (get o' k).
Proof.
  intros o o' H. pose proof (bare_same_ty _ _ H) as Ht. split; [exact Ht|]. split; [rewrite <- (bare_ka o), H; apply bare_ka|].
  split; [destruct o, o'; cbn [bare] in H; injection H; intros; cbn; congruence|]. split; [now apply bare_same_text|]. split; [rewrite <- (bare_vec o), H; apply bare_vec|].
  split; [rewrite <- (bare_unk o), H; apply bare_unk|]. split; [rewrite <- !bare_omis; now rewrite H|].
  intros k Hk. unfold get. rewrite <- Ht. destruct (index_of_key k (c_slots (cls (oty o))) 0) as [i|] eqn:Ei; [|reflexivity].
  assert (Hh : nth i (hs_of (oty o)) false = false).
  { apply index_of_key_spec in Ei as [_ Hi]. rewrite Nat.sub_0_r in Hi. unfold keys in Hi. rewrite nth_error_map in Hi. destruct (nth_error (c_slots (cls (oty o))) i) as [s|] eqn:En; [|discriminate].
    cbn [option_map] in Hi. injection Hi as Hi. unfold hs_of. apply nth_error_nth. rewrite nth_error_map, En. cbn [option_map]. f_equal. unfold for_styles. rewrite Hi.
    destruct Hk as [->|[H1 H2]]; [reflexivity|]. apply N.eqb_neq in H1, H2. rewrite H1, H2. apply andb_false_r. }
  rewrite bare_cur by exact Hh. rewrite bare_cur by (now rewrite <- Ht). now rewrite H.
Qed.
Print Assumptions bare_sees.
(** The samples of SplitProps.v and InlineProps.v are such documents, and do change. *)
Example only_styles_sample : concrete sample = true /\ concrete isample = true /\ split_styles E0 sample = Ok (split_from sample) /\ inline_styles E0 split0 isample = Ok (inline_from isample) /\
  length (get (hd (create 0) (get (split_from sample) Type_Feature)) Type_StyleSelector) = 3%nat /\ length (get (hd (create 0) (get (made_from sample) Type_Feature)) Type_StyleSelector) = 1%nat.
Proof. repeat split; vm_compute; reflexivity. Qed.

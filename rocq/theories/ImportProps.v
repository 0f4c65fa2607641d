(** Properties of files made from elements. *)
From Coq Require Import Permutation.
From Verif Require Import Common StrMap StringsModel ColorModel AttributesModel AttributesProofs XsdTables XsdModel XmlSpec XmlSpecProofs.
From Verif Require Import SerializerModel SerializerProofs CoordModel CoordProofs HandlerModel HandlerSpec HandlerProps.
From Verif Require Import DomTables DomModel DomSpec DomProofs DomProofs2 DomParsed DomProps CloneModel MergeModel MergeProofs MergeProps.
From Verif Require Import FileModel FileProofs FileProps IdModel IdProofs IdProps ImportModel.
Local Open Scope N_scope.

Lemma styles_fold up o l : forall m, msorted m -> (forall id p, In (id, p) l -> id_at o p = Some id) -> NoDup (map fst l) ->
  (forall id p, In (id, p) l -> mget id m = None) ->
  msorted (fold_left (style_step up o) l m) /\
  forall id p, mget id (fold_left (style_step up o) l m) = Some p <-> mget id m = Some p \/ (In (id, p) l /\ document_style up o p = true).
Proof.
  induction l as [|[k q] l IH]; intros m Hm Hi Hn Hf; cbn [fold_left].
  - split; [exact Hm|]. intros id p. split; [auto|]. intros [H|[[] _]]. exact H.
  - cbn [map fst] in Hn. inversion Hn as [|? ? Hk Hl]; subst. unfold style_step at 2 4. cbn [snd]. rewrite (Hi k q (or_introl eq_refl)).
    destruct (document_style up o q) eqn:Ed.
    + destruct (IH (mset k q m)) as [S1 S2].
      * now apply mset_sorted.
      * intros id p Hp. apply Hi. now right.
      * exact Hl.
      * intros id p Hp. rewrite mget_mset by exact Hm. destruct (eqs id k) eqn:Ek; [|apply (Hf id p); now right].
        apply eqs_spec in Ek. subst id. elim Hk. change k with (fst (k, p)). now apply in_map.
      * split; [exact S1|]. intros id p. rewrite S2, mget_mset by exact Hm. destruct (eqs id k) eqn:Ek.
        -- apply eqs_spec in Ek. subst id. split.
           ++ intros [H|[H1 H2]]; [injection H as <-; right; split; [now left|exact Ed]|]. right. split; [now right|exact H2].
           ++ intros [H|[[H|H1] H2]]; [rewrite (Hf k q (or_introl eq_refl)) in H; discriminate|injection H as <-; now left|]. right. auto.
        -- split.
           ++ intros [H|[H1 H2]]; [now left|]. right. split; [now right|exact H2].
           ++ intros [H|[[H|H1] H2]]; [now left| |now right]. injection H as -> ->. rewrite eqs_refl in Ek. discriminate.
    + destruct (IH m) as [S1 S2]; auto.
      * intros id p Hp. apply Hi. now right.
      * intros id p Hp. apply (Hf id p). now right.
      * split; [exact S1|]. intros id p. rewrite S2. split.
        -- intros [H|[H1 H2]]; [now left|]. right. split; [now right|exact H2].
        -- intros [H|[[H|H1] H2]]; [now left| |now right]. injection H as -> ->. congruence.
Qed.

(** C109. Importing fails exactly in the strict way for a tree in which two written elements have the same id. *)
Theorem import_fails_iff : forall strict up o, import strict up o = None <->
  strict = true /\ exists p q id, p <> q /\ reach o p = true /\ reach o q = true /\ id_at o p = Some id /\ id_at o q = Some id.
Proof.
  intros strict up o. unfold import. destruct strict; [|split; [discriminate|intros [H _]; discriminate]]. cbn [andb].
  destruct (dup_ids o) as [|d l] eqn:E.
  - split; [discriminate|]. intros (_ & p & q & id & Hn & H). elim Hn. destruct (import_strict_iff_distinct o) as [K _]. specialize (K E p q id). tauto.
  - split; [|reflexivity]. intros _. split; [reflexivity|].
    assert (D : ~ NoDup (flat_map (fun p => match id_at o p with Some i => [i] | None => [] end) (saved o))).
    { intros H. destruct (dup_fold o (saved o) [] [] msorted_nil) as (_ & K & _). 
      assert (X : dup_ids o = []) by (unfold dup_ids; apply K; split; [exact H|intros; reflexivity]). congruence. }
    assert (G : forall ps, (forall p, In p ps -> reach o p = true) -> NoDup ps -> ~ NoDup (flat_map (fun p => match id_at o p with Some i => [i] | None => [] end) ps) ->
      exists p q id, p <> q /\ reach o p = true /\ reach o q = true /\ id_at o p = Some id /\ id_at o q = Some id).
    { induction ps as [|p ps IH]; intros Hr Hn Hd; [elim Hd; constructor|]. inversion Hn; subst. cbn [flat_map] in Hd.
      destruct (id_at o p) as [id|] eqn:Ei; [|apply IH; auto; intros q Hq; apply Hr; now right]. cbn [app] in Hd.
      destruct (in_dec (list_eq_dec ascii_dec) id (flat_map (fun p => match id_at o p with Some i => [i] | None => [] end) ps)) as [Hin|Hin].
      - apply in_flat_map in Hin as (q & Hq & Hi). destruct (id_at o q) as [i|] eqn:Eq; [|destruct Hi]. destruct Hi as [->|[]].
        exists p, q, id. split; [intros ->; contradiction|]. split; [apply Hr; now left|]. split; [apply Hr; now right|]. auto.
      - apply IH; auto; [intros q Hq; apply Hr; now right|]. intros Hc. apply Hd. now constructor. }
    apply (G (saved o)); [intros p Hp; now apply saved_in|apply saved_nodup|exact D].
Qed.
Print Assumptions import_fails_iff.

(** C109. An imported file gives for an id the last written element which has it; the shared style of an id is
    that same element, if it is a style selector and its parent is a Document. *)
Theorem import_lookup : forall strict up o f, import strict up o = Some f -> forall id p,
  (object_by_id f id = Some p <-> exists l1 l2, saved o = l1 ++ p :: l2 /\ id_at o p = Some id /\ forall q, In q l2 -> id_at o q <> Some id) /\
  (style_by_id f id = Some p <-> object_by_id f id = Some p /\
     (exists x, at_address o p = Some x /\ is_a (oty x) Type_StyleSelector = true) /\
     (exists d, parent_type up o p = Some d /\ is_a d Type_Document = true)).
Proof.
  intros strict up o f H id p. unfold import in H. destruct (strict && _); [discriminate|]. injection H as <-. unfold object_by_id, style_by_id. cbn [i_objects i_styles].
  assert (A : mget id (map_ids o) = Some p <-> In (id, p) (map_ids o)).
  { split; [apply mget_in|apply in_mget, map_ids_sorted]. }
  split.
  - rewrite A, in_map_ids. split.
    + intros [Hid (id' & l1 & l2 & Hid' & Hs & Hl)]. assert (id' = id) by congruence. subst. exists l1, l2. auto.
    + intros (l1 & l2 & Hs & Hid & Hl). split; [exact Hid|]. exists id, l1, l2. auto.
  - destruct (styles_fold up o (map_ids o) [] msorted_nil) as [_ S].
    + intros k q Hk. now apply in_map_ids in Hk.
    + apply msorted_nodup, map_ids_sorted.
    + reflexivity.
    + rewrite S, A. unfold document_style. rewrite andb_true_iff.
      assert (B : match at_address o p with Some x => is_a (oty x) Type_StyleSelector | None => false end = true <-> exists x, at_address o p = Some x /\ is_a (oty x) Type_StyleSelector = true).
      { destruct (at_address o p) as [x|]; split; try discriminate; [eauto|intros (y & E & K); now injection E as ->|intros (y & E & _); discriminate]. }
      assert (C : match parent_type up o p with Some x => is_a x Type_Document | None => false end = true <-> exists x, parent_type up o p = Some x /\ is_a x Type_Document = true).
      { destruct (parent_type up o p) as [x|]; split; try discriminate; [eauto|intros (y & E & K); now injection E as ->|intros (y & E & _); discriminate]. }
      rewrite B, C. split; [intros [K|K]; [discriminate|exact K]|auto].
Qed.
Print Assumptions import_lookup.

(** ** Importing what was parsed *)
Definition sub {A} (a b : list A) : Prop := exists r, Permutation a (b ++ r).
Lemma sub_refl {A} (a : list A) : sub a a.
Proof. exists []. now rewrite app_nil_r. Qed.
Lemma sub_trans {A} (a b c : list A) : sub a b -> sub b c -> sub a c.
Proof. intros [r H] [s K]. exists (s ++ r). rewrite H, K. now rewrite app_assoc. Qed.
Lemma sub_nil {A} (a : list A) : sub a [].
Proof. exists a. reflexivity. Qed.
Lemma sub_app {A} (a b c d : list A) : sub a b -> sub c d -> sub (a ++ c) (b ++ d).
Proof.
  intros [r H] [s K]. exists (r ++ s). rewrite H, K. rewrite <- !app_assoc. apply Permutation_app_head.
  rewrite !app_assoc. apply Permutation_app_tail. apply Permutation_app_comm.
Qed.
Lemma sub_perm {A} (a b c : list A) : Permutation a b -> sub b c -> sub a c.
Proof. intros H [r K]. exists r. now rewrite H. Qed.
Lemma sub_in {A} (a b : list A) x : sub a b -> In x b -> In x a.
Proof. intros [r H] K. apply (Permutation_in x (Permutation_sym H)). apply in_or_app. now left. Qed.
Lemma sub_nodup {A} (a b : list A) : sub a b -> NoDup a -> NoDup b.
Proof. intros [r H] K. apply (Permutation_NoDup H) in K. now apply nodup_prefix in K. Qed.

Lemma update_sub {A} (F : list obj -> list A) i v l (X : list A) : F [] = [] -> sub (F (nth i l []) ++ X) (F v) ->
  sub (flat_map F l ++ X) (flat_map F (update i v l)).
Proof.
  intros H0. revert i. induction l as [|x l IH]; intros i H.
  - destruct i; apply sub_nil.
  - destruct i as [|i]; cbn [update flat_map nth] in *.
    + eapply sub_perm; [|apply sub_app; [exact H|apply sub_refl]]. rewrite <- !app_assoc. apply Permutation_app_head. apply Permutation_app_comm.
    + rewrite <- app_assoc. apply sub_app; [apply sub_refl|]. now apply IH.
Qed.

(** The elements with ids below an element: the type of the parent, the type, the id. *)
Definition own_pair (p : N) (c : obj) : list (N * N * str) := match id_of c with Some i => [(p, oty c, i)] | None => [] end.
Fixpoint opairs (o : obj) : list (N * N * str) :=
  let 'Obj ty _ _ _ _ sl mis _ := o in
  flat_map (flat_map (fun c => own_pair ty c ++ opairs c)) sl ++ flat_map (fun c => own_pair ty c ++ opairs c) mis.
Definition node_pair (p : N) (c : node) : list (N * N * str) := match object_id (nty c) (natts c) with Some i => [(p, nty c, i)] | None => [] end.
Fixpoint npairs (n : node) : list (N * N * str) :=
  let 'Node ty _ _ log := n in flat_map (fun e => match e with LChild c => node_pair ty c ++ npairs c | _ => [] end) log.
Definition K (p : N) (c : obj) : list (N * N * str) := own_pair p c ++ opairs c.
Lemma opairs_eq o : opairs o = flat_map (flat_map (K (oty o))) (oslots o) ++ flat_map (K (oty o)) (omis o).
Proof. destruct o. reflexivity. Qed.
Fixpoint clean (n : node) : bool :=
  let 'Node _ _ _ log := n in forallb (fun e => match e with LChild c => clean c | LUnknown _ | LSelf _ => true | _ => false end) log.

Lemma id_kinds : forallb (fun c => forallb (fun ka => match snd ka with AString => true | _ => negb (eqs (fst ka) (S_ "id")) end) (c_atts (snd c))) classes = true.
Proof. vm_compute. reflexivity. Qed.
Lemma id_kind ty kd : In (S_ "id", kd) (c_atts (cls ty)) -> kd = AString.
Proof.
  unfold cls, class_of. destruct (lookup ty classes) as [c|] eqn:El; [|intros []]. apply lookup_in in El. intros H.
  pose proof id_kinds as T. rewrite forallb_forall in T. specialize (T _ El). cbn [snd] in T. rewrite forallb_forall in T. specialize (T _ H). cbn [fst snd] in T.
  destruct kd; [reflexivity|rewrite eqs_refl in T; discriminate..].
Qed.
Lemma cut_known_id E ty ks : (forall kd, In (S_ "id", kd) ks -> kd = AString) -> forall a ka v,
  mget (S_ "id") (snd (cut_known E ty ks a ka)) = Some v -> mget (S_ "id") ka = Some v \/ mget (S_ "id") a = Some v.
Proof.
  induction ks as [|[k kd] ks IH]; intros Hk a ka v; cbn [cut_known]; [cbn [snd]; auto|].
  unfold cut_value. destruct (mget k a) as [s|] eqn:Eg; intros H.
  - apply IH in H; [|intros kd' Hin; apply Hk; now right]. destruct H as [H|H].
    + destruct (norm_att E ty k kd s) as [w|] eqn:En; [|now left]. rewrite mget_mset_any in H. destruct (eqs (S_ "id") k) eqn:Ek; [|now left].
      apply eqs_spec in Ek. subst k. rewrite (Hk kd (or_introl eq_refl)) in En. cbn [norm_att] in En. right. congruence.
    + right. rewrite mget_mdel in H. destruct (eqs (S_ "id") k); [discriminate|exact H].
  - apply IH in H; [|intros kd' Hin; apply Hk; now right]. exact H.
Qed.
Lemma parse_attributes_parts E o a : oty (parse_attributes E o a) = oty o /\ oslots (parse_attributes E o a) = oslots o /\ omis (parse_attributes E o a) = omis o /\
  oka (parse_attributes E o a) = snd (cut_known E (oty o) (c_atts (cls (oty o))) a (oka o)).
Proof. unfold parse_attributes. destruct (cut_known E (oty o) (c_atts (cls (oty o))) a (oka o)) as [a' ka]. destruct o. repeat split. Qed.
Lemma empty_slots {A B} (F : list A -> list B) (l : list slot) : F [] = [] -> flat_map F (map (fun _ => []) l) = [].
Proof. intros H. induction l as [|s l IH]; cbn [map flat_map]; [reflexivity|]. now rewrite H, IH. Qed.
Lemma start_parts E ty a cd : oty (start E ty a cd) = ty /\ opairs (start E ty a cd) = [] /\
  forall i, id_of (start E ty a cd) = Some i -> object_id ty a = Some i.
Proof.
  unfold start. destruct (is_simple ty); [|destruct a as [a|]].
  - split; [reflexivity|]. split; [reflexivity|]. unfold id_of. cbn [oty oka field]. destruct (is_a ty Type_Object); discriminate.
  - destruct (parse_attributes_parts E (create ty) a) as (H1 & H2 & H3 & H4). split; [exact H1|]. split.
    + rewrite opairs_eq, H1, H2, H3. cbn [create oslots omis flat_map]. rewrite app_nil_r. now apply empty_slots.
    + intros i. unfold id_of, object_id. rewrite H1, H4. cbn [create oty oka]. destruct (is_a ty Type_Object); [|discriminate]. unfold find_value. intros H.
      apply cut_known_id in H; [|intros kd; apply id_kind]. destruct H as [H|H]; [discriminate|exact H].
  - split; [reflexivity|]. split.
    + rewrite opairs_eq. cbn [create oty oslots omis flat_map]. rewrite app_nil_r. now apply empty_slots.
    + unfold id_of. cbn [create oty oka]. destruct (is_a ty Type_Object); discriminate.
Qed.
Lemma K_field p ty v : K p (field ty v) = [].
Proof. unfold K, own_pair, id_of. cbn [field oty oka opairs flat_map app]. destruct (is_a ty Type_Object); reflexivity. Qed.

Definition grows (o o' : obj) (X : list (N * N * str)) : Prop := oty o' = oty o /\ id_of o' = id_of o /\ sub (opairs o ++ X) (opairs o').
Lemma grows_same o o' X : oty o' = oty o -> oka o' = oka o -> oslots o' = oslots o -> omis o' = omis o -> grows o o' X.
Proof.
  intros H1 H2 H3 H4. split; [exact H1|]. split; [unfold id_of; now rewrite H1, H2|]. rewrite (opairs_eq o'), H1, H3, H4, <- opairs_eq.
  exists X. reflexivity.
Qed.
Lemma grows_slots o i v X : sub (flat_map (K (oty o)) (nth i (oslots o) []) ++ X) (flat_map (K (oty o)) v) -> grows o (set_slots o (update i v (oslots o))) X.
Proof.
  intros H. assert (P : oty (set_slots o (update i v (oslots o))) = oty o /\ oka (set_slots o (update i v (oslots o))) = oka o /\
    oslots (set_slots o (update i v (oslots o))) = update i v (oslots o) /\ omis (set_slots o (update i v (oslots o))) = omis o) by (destruct o; repeat split).
  destruct P as (P1 & P2 & P3 & P4). split; [exact P1|]. split; [unfold id_of; now rewrite P1, P2|].
  rewrite (opairs_eq (set_slots _ _)), P1, P3, P4, opairs_eq.
  eapply sub_perm; [|apply sub_app; [apply (update_sub (flat_map (K (oty o))) i v (oslots o) X); [reflexivity|exact H]|apply sub_refl]].
  rewrite <- !app_assoc. apply Permutation_app_head. apply Permutation_app_comm.
Qed.
Lemma add_element_grows E o c o' : add_element E o c = Ok o' -> grows o o' (K (oty o) c).
Proof.
  unfold add_element. destruct (snippet_type (oty o)); [intros H; injection H as <-; apply grows_same; now destruct o|].
  destruct (oty o =? Type_coordinates); [intros H; injection H as <-; now apply grows_same|].
  destruct ((oty o =? Type_SimpleData) && (oty c =? Type_SimpleData)); [intros H; injection H as <-; apply grows_same; now destruct o|].
  destruct (find_slot (oty c) (c_slots (cls (oty o))) 0) as [[i s]|].
  - destruct (s_kind s) as [f|f| |].
    + destruct (norm E (oty o) f (oty c) _ (char_data c)) as [v| | |]; cbn [bind]; try discriminate. intros H; injection H as <-. apply grows_slots.
      destruct v as [v|]; cbn [flat_map]; rewrite ?K_field; apply sub_nil.
    + destruct (norm E (oty o) f (oty c) None (char_data c)) as [v| | |]; cbn [bind]; try discriminate. intros H; injection H as <-. apply grows_slots.
      rewrite flat_map_app. apply sub_app; [apply sub_refl|]. destruct v as [v|]; cbn [flat_map]; rewrite ?K_field; apply sub_nil.
    + intros H; injection H as <-. apply grows_slots. cbn [flat_map]. rewrite app_nil_r. exists (flat_map (K (oty o)) (nth i (oslots o) [])). apply Permutation_app_comm.
    + intros H; injection H as <-. apply grows_slots. rewrite flat_map_app. cbn [flat_map]. rewrite app_nil_r. apply sub_refl.
  - intros H; injection H as <-. assert (P : forall m, oty (set_mis o m) = oty o /\ oka (set_mis o m) = oka o /\ oslots (set_mis o m) = oslots o /\ omis (set_mis o m) = m) by (intros m; destruct o; repeat split).
    destruct (P (omis o ++ [c])) as (P1 & P2 & P3 & P4). split; [exact P1|]. split; [unfold id_of; now rewrite P1, P2|].
    rewrite (opairs_eq (set_mis _ _)), P1, P3, P4, opairs_eq, flat_map_app. cbn [flat_map]. rewrite app_nil_r, app_assoc. apply sub_refl.
Qed.
Lemma add_self_grows E o s o' : add_self E o s = Ok o' -> grows o o' [].
Proof.
  unfold add_self. destruct (oty o =? Type_coordinates).
  - destruct (coordinates_parse s); cbn [bind]; try discriminate. intros H; injection H as <-. apply grows_same; now destruct o.
  - destruct (snippet_type (oty o) || (oty o =? Type_SimpleData)); intros H; injection H as <-; apply grows_same; now destruct o.
Qed.

Definition comes (n : node) (o : obj) : Prop := oty o = nty n /\ (forall i, id_of o = Some i -> object_id (nty n) (natts n) = Some i) /\ sub (npairs n) (opairs o).
Lemma steps_comes E l : Forall (fun e => match e with LChild c => forall o, build E c = Ok o -> comes c o | LUnknown _ | LSelf _ => True | _ => False end) l ->
  forall o o', DomProofs.steps E l o = Ok o' -> grows o o' (flat_map (fun e => match e with LChild c => node_pair (oty o) c ++ npairs c | _ => [] end) l).
Proof.
  induction 1 as [|e l He Hl IH]; intros o o' H; cbn [DomProofs.steps] in H.
  - injection H as <-. now apply grows_same.
  - cbn [flat_map]. assert (G : exists o1, DomProofs.entry_step E o e = Ok o1 /\ grows o o1 (match e with LChild c => node_pair (oty o) c ++ npairs c | _ => [] end)).
    { destruct e as [c|s|s|s|u sd]; cbn [DomProofs.entry_step] in *.
      - destruct (build E c) as [c'| | |] eqn:Eb; cbn [bind] in *; try discriminate. destruct (add_element E o c') as [o1| | |] eqn:Ea; cbn [bind] in *; try discriminate.
        exists o1. split; [reflexivity|]. destruct (He c' eq_refl) as (C1 & C2 & C3). destruct (add_element_grows E o c' o1 Ea) as (G1 & G2 & G3).
        split; [exact G1|]. split; [exact G2|]. eapply sub_trans; [|exact G3]. apply sub_app; [apply sub_refl|]. unfold K. apply sub_app; [|exact C3].
        unfold own_pair, node_pair. rewrite C1. destruct (id_of c') as [i|]; [|apply sub_nil]. rewrite (C2 i eq_refl). apply sub_refl.
      - eexists. split; [reflexivity|]. apply grows_same; now destruct o.
      - destruct (add_self E o s) as [o1| | |] eqn:Ea; cbn [bind] in *; try discriminate. exists o1. split; [reflexivity|]. now apply (add_self_grows E o s).
      - contradiction.
      - contradiction. }
    destruct G as (o1 & Eo & G1 & G2 & G3). rewrite Eo in H. cbn [bind] in H. destruct (IH o1 o' H) as (I1 & I2 & I3). rewrite G1 in I1, I3.
    split; [congruence|]. split; [congruence|]. rewrite app_assoc. eapply sub_trans; [|exact I3]. apply sub_app; [exact G3|apply sub_refl].
Qed.
Lemma node_ind' (P : node -> Prop) (H : forall ty a cd log, Forall (fun e => match e with LChild c => P c | _ => True end) log -> P (Node ty a cd log)) : forall n, P n.
Proof.
  fix IH 1. intros [ty a cd log]. apply H. induction log as [|e r IHr]; constructor; [destruct e; [apply IH|exact Logic.I..]|exact IHr].
Qed.
Lemma build_comes E n : clean n = true -> forall o, build E n = Ok o -> comes n o.
Proof.
  induction n as [ty a cd log IH] using node_ind'. intros Hc o H. rewrite build_eq in H. cbn [clean] in Hc. rewrite forallb_forall in Hc.
  destruct (start_parts E ty a cd) as (S1 & S2 & S3).
  assert (F : Forall (fun e => match e with LChild c => forall o, build E c = Ok o -> comes c o | LUnknown _ | LSelf _ => True | _ => False end) log).
  { rewrite Forall_forall in IH. apply Forall_forall. intros e He. specialize (Hc e He). specialize (IH e He). destruct e; auto; discriminate. }
  destruct (steps_comes E log F _ _ H) as (G1 & G2 & G3). unfold comes. cbn [nty natts]. split; [congruence|]. split; [intros i Hi; apply S3; congruence|].
  rewrite S2, S1 in G3. exact G3.
Qed.

Lemma received_clean p t : forallb (fun e => match e with LChild c => clean c | LUnknown _ | LSelf _ => true | _ => false end) (received keep_all p t) = true.
Proof.
  revert p. induction t as [n a ks IH|c] using xml_ind2; intros p; cbn [received]; [|reflexivity].
  destruct (known_type p n) as [ty|]; [|reflexivity]. cbn [keep_all forallb]. rewrite andb_true_r. destruct (ty =? Type_description); [reflexivity|]. cbn [clean].
  rewrite forallb_app. apply andb_true_iff. split.
  - clear -IH. induction IH as [|k ks Hk _ IH]; [reflexivity|]. cbn [flat_map]. rewrite forallb_app, Hk. exact IH.
  - unfold self_entry. destruct (self_parsed ty); reflexivity.
Qed.
Lemma tree_clean t root : tree keep_all t = Some root -> clean root = true.
Proof.
  destruct t as [n a ks|]; [|discriminate]. cbn [tree]. destruct (known_type Type_Unknown n) as [ty|]; [|discriminate]. intros H. injection H as <-.
  destruct (ty =? Type_description); [reflexivity|]. cbn [clean]. rewrite forallb_app. apply andb_true_iff. split.
  - induction ks as [|k ks IH]; [reflexivity|]. cbn [flat_map]. now rewrite forallb_app, received_clean.
  - unfold self_entry. destruct (self_parsed ty); reflexivity.
Qed.

(** The ids of a tree. *)
Definition own_id (o : obj) : list str := match id_of o with Some i => [i] | None => [] end.
Definition W (o : obj) : list str := own_id o ++ map snd (opairs o).
Lemma map_flat {A B C} (f : B -> C) (g : A -> list B) l : map f (flat_map g l) = flat_map (fun x => map f (g x)) l.
Proof. induction l as [|x l IH]; [reflexivity|]. cbn [flat_map]. now rewrite map_app, IH. Qed.
Lemma W_eq o : W o = own_id o ++ flat_map (flat_map W) (lists o).
Proof.
  unfold W. f_equal. rewrite opairs_eq. unfold lists. rewrite map_app, flat_map_app. cbn [flat_map]. rewrite app_nil_r, !map_flat.
  assert (H : forall c, map snd (K (oty o) c) = W c). { intros c. unfold K, W. rewrite map_app. f_equal. unfold own_pair, own_id. destruct (id_of c); reflexivity. }
  f_equal; [apply flat_map_ext; intros l; rewrite map_flat|]; apply flat_map_ext; exact H.
Qed.
Lemma nth_in_lists {A} (ls : list (list A)) i j c : nth_error (nth i ls []) j = Some c -> exists l, nth_error ls i = Some l /\ nth_error l j = Some c.
Proof.
  revert i. induction ls as [|l ls IH]; intros [|i] H; cbn [nth nth_error] in *; try (destruct j; discriminate); [eauto|]. now apply IH.
Qed.
Lemma in_lists {A B} (F : A -> list B) ls i j c x : nth_error (nth i ls []) j = Some c -> In x (F c) -> In x (flat_map (flat_map F) ls).
Proof.
  intros H K. apply nth_in_lists in H as (l & H1 & H2). apply in_flat_map. exists l. split; [now apply nth_error_In in H1|].
  apply in_flat_map. exists c. split; [now apply nth_error_In in H2|exact K].
Qed.
Lemma id_at_cons o i j p : id_at o ((i, j) :: p) = match nth_error (nth i (lists o) []) j with Some c => id_at c p | None => None end.
Proof. unfold id_at. cbn [at_address]. now destruct (nth_error (nth i (lists o) []) j). Qed.
Lemma W_in p : forall o id, id_at o p = Some id -> In id (W o).
Proof.
  induction p as [|[i j] p IH]; intros o id H; rewrite W_eq; apply in_or_app.
  - left. unfold id_at in H. cbn [at_address] in H. unfold own_id. rewrite H. now left.
  - right. rewrite id_at_cons in H. destruct (nth_error (nth i (lists o) []) j) as [c|] eqn:Ec; [|discriminate]. eapply in_lists; [exact Ec|]. now apply IH.
Qed.
Lemma nodup_flat {A B} (F : A -> list B) l : NoDup (flat_map F l) -> forall i j x y b, nth_error l i = Some x -> nth_error l j = Some y -> In b (F x) -> In b (F y) -> i = j.
Proof.
  induction l as [|z l IH]; intros H i j x y b Hi Hj Hx Hy; [destruct i; discriminate|]. cbn [flat_map] in H.
  assert (D : forall b, In b (F z) -> In b (flat_map F l) -> False).
  { clear -H. intros b. induction (F z) as [|c r IH]; [intros []|]. cbn [app] in H. inversion H; subst. intros [->|Hb] Hl; [apply H2; apply in_or_app; now right|]. now apply IH. }
  assert (R : NoDup (flat_map F l)). { clear -H. induction (F z) as [|c r IH]; [exact H|]. inversion H; subst. auto. }
  destruct i as [|i], j as [|j]; cbn [nth_error] in Hi, Hj; auto.
  - injection Hi as <-. elim (D b Hx). apply in_flat_map. exists y. split; [now apply nth_error_In in Hj|exact Hy].
  - injection Hj as <-. elim (D b Hy). apply in_flat_map. exists x. split; [now apply nth_error_In in Hi|exact Hx].
  - f_equal. exact (IH R i j x y b Hi Hj Hx Hy).
Qed.
Lemma nodup_one {A B} (F : A -> list B) l x i : NoDup (flat_map F l) -> nth_error l i = Some x -> NoDup (F x).
Proof.
  revert i. induction l as [|z l IH]; intros i H Hi; [destruct i; discriminate|]. cbn [flat_map] in H. destruct i as [|i]; cbn [nth_error] in Hi.
  - injection Hi as <-. now apply nodup_prefix in H.
  - apply (IH i); auto. clear -H. induction (F z) as [|c r IH]; [exact H|]. inversion H; subst. auto.
Qed.
Lemma W_distinct p : forall o q id, NoDup (W o) -> id_at o p = Some id -> id_at o q = Some id -> p = q.
Proof.
  assert (X : forall o i j q id, NoDup (W o) -> id_at o [] = Some id -> id_at o ((i, j) :: q) = Some id -> False).
  { intros o i j q id Hn H1 H2. rewrite W_eq in Hn. unfold id_at in H1. cbn [at_address] in H1. unfold own_id in Hn. rewrite H1 in Hn. cbn [app] in Hn. inversion Hn; subst. apply H3.
    rewrite id_at_cons in H2. destruct (nth_error (nth i (lists o) []) j) as [c|] eqn:Ec; [|discriminate]. eapply in_lists; [exact Ec|]. now apply W_in in H2. }
  induction p as [|[i j] p IH]; intros o [|[i' j'] q] id Hn H1 H2; auto; [elim (X _ _ _ _ _ Hn H1 H2)|elim (X _ _ _ _ _ Hn H2 H1)|].
  rewrite id_at_cons in H1, H2. destruct (nth_error (nth i (lists o) []) j) as [c|] eqn:Ec; [|discriminate]. destruct (nth_error (nth i' (lists o) []) j') as [c'|] eqn:Ec'; [|discriminate].
  apply nth_in_lists in Ec as (l & L1 & L2). apply nth_in_lists in Ec' as (l' & L1' & L2').
  assert (N : NoDup (flat_map (flat_map W) (lists o))). { rewrite W_eq in Hn. clear -Hn. induction (own_id o) as [|x r IH]; [exact Hn|]. inversion Hn; subst. auto. }
  assert (M : forall r c k, nth_error r k = Some c -> forall p, id_at c p = Some id -> In id (flat_map W r)).
  { intros r d k Hk s Hs. apply in_flat_map. exists d. split; [now apply nth_error_In in Hk|]. now apply W_in in Hs. }
  assert (Ei : i = i') by (eapply (nodup_flat (flat_map W)); [exact N|exact L1|exact L1'|eapply M; eauto|eapply M; eauto]). subst i'.
  assert (l' = l) by congruence. subst l'. pose proof (nodup_one _ _ _ _ N L1) as N2.
  assert (Ej : j = j') by (eapply (nodup_flat W); [exact N2|exact L2|exact L2'|eapply W_in; eauto|eapply W_in; eauto]). subst j'.
  assert (c' = c) by congruence. subst c'. f_equal. eapply IH; [exact (nodup_one _ _ _ _ N2 L2)|exact H1|exact H2].
Qed.
Lemma pair_in p : forall o x d id, p <> [] -> at_address o p = Some x -> id_of x = Some id -> parent_type None o p = Some d -> In (d, oty x, id) (opairs o).
Proof.
  assert (A : forall o i j c y, nth_error (nth i (lists o) []) j = Some c -> In y (K (oty o) c) -> In y (opairs o)).
  { intros o i j c y Hc Hy. rewrite opairs_eq. assert (H : In y (flat_map (flat_map (K (oty o))) (lists o))) by (eapply in_lists; eauto). unfold lists in H. rewrite flat_map_app in H. cbn [flat_map] in H. now rewrite app_nil_r in H. }
  induction p as [|[i j] p IH]; intros o x d id Hp Hx Hid Hd; [congruence|]. cbn [at_address] in Hx. destruct (nth_error (nth i (lists o) []) j) as [c|] eqn:Ec; [|discriminate].
  eapply A; [exact Ec|]. unfold K. apply in_or_app. destruct p as [|e p].
  - left. cbn [at_address] in Hx. injection Hx as <-. cbn in Hd. injection Hd as <-. unfold own_pair. rewrite Hid. now left.
  - right. apply (IH c x d id); [discriminate|exact Hx|exact Hid|]. unfold parent_type in *. change (removelast ((i, j) :: e :: p)) with ((i, j) :: removelast (e :: p)) in Hd.
    cbn [at_address] in Hd. now rewrite Ec in Hd.
Qed.
Lemma npairs_ids n : ids (elements n) = (match object_id (nty n) (natts n) with Some i => [i] | None => [] end) ++ map snd (npairs n).
Proof.
  induction n as [ty a cd log IH] using node_ind'. cbn [elements npairs nty natts]. change ((ty, a) :: ?l) with ([(ty, a)] ++ l). rewrite ids_app. f_equal.
  - unfold ids. cbn [flat_map fst snd]. now rewrite app_nil_r.
  - induction IH as [|e log He _ IH]; [reflexivity|]. cbn [flat_map]. rewrite ids_app, map_app, IH. f_equal. destruct e as [c| | | |]; try reflexivity.
    rewrite map_app, He. f_equal. unfold node_pair. destruct (object_id (nty c) (natts c)); reflexivity.
Qed.
Lemma npairs_inside n d ty id : In (d, ty, id) (npairs n) -> exists c, inside n d c /\ nty c = ty /\ object_id (nty c) (natts c) = Some id.
Proof.
  induction n as [t a cd log IH] using node_ind'. cbn [npairs]. intros H. apply in_flat_map in H as (e & He & Hin). rewrite Forall_forall in IH. specialize (IH e He).
  destruct e as [c| | | |]; try destruct Hin. apply in_app_or in Hin as [Hin|Hin].
  - unfold node_pair in Hin. destruct (object_id (nty c) (natts c)) as [i|] eqn:Eo; [|destruct Hin]. destruct Hin as [Hin|[]]. injection Hin as <- <- <-. exists c. split; [now apply in_here|auto].
  - destruct (IH Hin) as (c' & I1 & I2). exists c'. split; [eapply in_deeper; eauto|exact I2].
Qed.

(** C109. Importing the root of a parsed document: every id and every shared style the imported file knows is
    known to the parsed file, and if no two parsed elements share an id the strict import succeeds. *)
Theorem import_of_parsed : forall E t root o, regular t -> tree keep_all t = Some root -> build E root = Ok o ->
  exists f, parse_with (file_observers false) t = Ok (Some root, f) /\
  (NoDup (ids (elements root)) -> import true None o <> None) /\
  (forall strict g, import strict None o = Some g -> forall id,
     (object_by_id g id <> None -> mget id (file_objects f) <> None) /\
     (style_by_id g id <> None -> mget id (style_map_of (f 1%nat)) <> None)).
Proof.
  intros E t root o Hr Ht Hb. destruct (build_comes E root (tree_clean t root Ht) o Hb) as (C1 & C2 & C3).
  destruct (object_by_id_correct t Hr) as (f & Hf & Hobj). destruct (shared_style_correct t Hr) as (f' & Hf' & Hst).
  assert (f' = f) by (rewrite Hf in Hf'; now injection Hf'). subst f'. rewrite Ht in Hf. exists f. split; [exact Hf|].
  assert (S : sub (ids (elements root)) (W o)).
  { rewrite npairs_ids. unfold W. apply sub_app.
    - unfold own_id. destruct (id_of o) as [i|]; [|apply sub_nil]. rewrite (C2 i eq_refl). apply sub_refl.
    - destruct C3 as [r H]. exists (map snd r). rewrite <- map_app. now apply Permutation_map. }
  split.
  - intros Hn Hc. apply import_fails_iff in Hc as (_ & p & q & id & Hpq & _ & _ & H1 & H2). apply Hpq. eapply W_distinct; [|exact H1|exact H2]. eapply sub_nodup; [exact S|exact Hn].
  - intros strict g Hg id. assert (A : object_by_id g id <> None -> mget id (file_objects f) <> None).
    { intros H. destruct (object_by_id g id) as [p|] eqn:Ep; [|congruence]. apply (import_lookup strict None o g Hg) in Ep as (l1 & l2 & _ & Hid & _).
      apply W_in in Hid. apply (sub_in _ _ _ S) in Hid. unfold ids in Hid. apply in_flat_map in Hid as (e & He & Hi).
      specialize (Hobj root Ht id). destruct (mget id (file_objects f)); [discriminate|]. exfalso. apply (Hobj e He). apply has_id_spec.
      destruct (object_id (fst e) (snd e)) as [i|]; [|destruct Hi]. destruct Hi as [->|[]]. reflexivity. }
    split; [exact A|]. intros H. destruct (style_by_id g id) as [p|] eqn:Ep; [|congruence].
    apply (import_lookup strict None o g Hg) in Ep as (Ho & (x & Hx & Hs) & (d & Hd & Hdd)). apply (import_lookup strict None o g Hg) in Ho as (_ & _ & _ & Hid & _).
    assert (Hp : p <> []) by (intros ->; discriminate Hd). unfold id_at in Hid. rewrite Hx in Hid.
    pose proof (pair_in p o x d id Hp Hx Hid Hd) as Hin. apply (sub_in _ _ _ C3) in Hin. apply npairs_inside in Hin as (c & I1 & I2 & I3).
    specialize (Hst root Ht id). destruct (mget id (style_map_of (f 1%nat))); [discriminate|]. exfalso. apply (Hst d c I1). split; [exact Hdd|]. split; [now rewrite I2|]. unfold get_id. now rewrite I3.
Qed.
Print Assumptions import_of_parsed.
(** What the parsed file and the imported one say about an id: the type of the object, and whether there is a
    shared style. *)
Definition parsed_says (s id : str) : option N * bool :=
  let t := doc_of s in let f := snd (run (None, fun _ => []) (parse_with (file_observers false) t)) in
  (match tree keep_all t, mget id (file_objects f) with Some r, Some k => option_map fst (nth_error (elements r) k) | _, _ => None end,
   match mget id (style_map_of (f 1%nat)) with Some _ => true | None => false end).
Definition imported_says (strict : bool) (up : option N) (s id : str) : option (option N * bool) :=
  let o := doc_obj s in
  option_map (fun g => (match object_by_id g id with Some p => option_map oty (at_address o p) | None => None end,
                        match style_by_id g id with Some _ => true | None => false end)) (import strict up o).
(** C109. The converse fails: an object which was replaced by a later one is not known to the import; a shared style
    is not known if a later object has its id; and of two objects with one id the import may know the other one. *)
Theorem import_replaced_refuted : exists s id, parsed_says s id = (Some Type_Point, false) /\ imported_says true None s id = Some (None, false).
Proof. exists (S_ "<Placemark><Point id=""a""/><Point id=""b""/></Placemark>"), (S_ "a"). split; vm_compute; reflexivity. Qed.
Print Assumptions import_replaced_refuted.
Theorem import_style_refuted : exists s id, snd (parsed_says s id) = true /\ imported_says false None s id = Some (Some Type_Placemark, false).
Proof. exists (S_ "<Document><Style id=""a""/><Placemark id=""a""/></Document>"), (S_ "a"). split; vm_compute; reflexivity. Qed.
Print Assumptions import_style_refuted.
Theorem import_order_refuted : exists s id, parsed_says s id = (Some Type_Style, true) /\ imported_says false None s id = Some (Some Type_Placemark, false).
Proof. exists (S_ "<Document><Placemark id=""a""/><Style id=""a""/></Document>"), (S_ "a"). split; vm_compute; reflexivity. Qed.
Print Assumptions import_order_refuted.
Example import_file_sample :
  let s := S_ "<kml><Document><Style id=""s""/><Placemark id=""p""><Style id=""t""/></Placemark></Document></kml>" in
  regular (doc_of s) /\ imported_says true None s (S_ "s") = Some (Some Type_Style, true) /\ imported_says true None s (S_ "p") = Some (Some Type_Placemark, false) /\
  imported_says true None s (S_ "t") = Some (Some Type_Style, false) /\ parsed_says s (S_ "s") = (Some Type_Style, true) /\ parsed_says s (S_ "t") = (Some Type_Style, false) /\
  imported_says true None (S_ "<Folder id=""a""><Placemark id=""a""/></Folder>") (S_ "a") = None /\
  imported_says true (Some Type_Document) (S_ "<Style id=""s""/>") (S_ "s") = Some (Some Type_Style, true).
Proof. cbv zeta. split; [apply regularb_spec; vm_compute; reflexivity|]. repeat split; vm_compute; reflexivity. Qed.

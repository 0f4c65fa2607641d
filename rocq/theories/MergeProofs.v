(** Proofs about merging one element into another. *)
From Verif Require Import Common StrMap StringsModel ColorModel AttributesModel AttributesProofs XsdTables XsdModel SerializerModel.
From Verif Require Import CoordModel HandlerModel DomTables DomModel DomSpec DomProofs DomProofs2 DomParsed CloneModel CloneProofs MergeModel.
Local Open Scope N_scope.

(** The first element of a type in a list, and the first child of a type. *)
Definition first (ty : N) (l : list obj) : option obj := hd_error (filter (fun c => oty c =? ty) l).
Definition child (ty : N) (o : obj) : option obj := first ty (concat (oslots o)).
Lemma first_app ty a b : first ty (a ++ b) = match first ty a with Some c => Some c | None => first ty b end.
Proof. unfold first. rewrite filter_app. now destruct (filter (fun c => oty c =? ty) a). Qed.
Lemma first_none ty l : first ty l = None <-> ~ In ty (map oty l).
Proof.
  unfold first. induction l as [|c l IH]; cbn [filter map]; [tauto|]. destruct (oty c =? ty) eqn:E.
  - apply N.eqb_eq in E. subst. cbn. split; [discriminate|]. intros H. destruct H. now left.
  - apply N.eqb_neq in E. rewrite IH. cbn. tauto.
Qed.
Lemma first_some ty l c : first ty l = Some c -> oty c = ty /\ In c l.
Proof.
  unfold first. intros H. assert (Hi : In c (filter (fun c => oty c =? ty) l)) by (destruct (filter _ l); inversion H; subst; now left).
  apply filter_In in Hi as [H1 H2]. apply N.eqb_eq in H2. auto.
Qed.

(** Children are in the slot of their type. *)
Definition routed (o : obj) : Prop := forall i c, In c (nth i (oslots o) []) ->
  exists s, find_slot (oty c) (c_slots (cls (oty o))) 0 = Some (i, s).
Lemma nth_in {A} i (l : list (list A)) c : In c (nth i l []) -> In (nth i l []) l.
Proof. intros H. destruct (nth_in_or_default i l []) as [Hi|Hi]; [exact Hi|]. rewrite Hi in H. destruct H. Qed.
Lemma child_slot o ty i s : routed o -> find_slot ty (c_slots (cls (oty o))) 0 = Some (i, s) -> child ty o = first ty (nth i (oslots o) []).
Proof.
  intros Hr Hf. unfold child. assert (H : forall j, j <> i -> first ty (nth j (oslots o) []) = None).
  { intros j Hj. apply first_none. intros Hin. apply in_map_iff in Hin as (c & Hc & Hin). apply Hr in Hin as (s' & Hs'). congruence. }
  clear Hr Hf. revert i H. induction (oslots o) as [|l sl IH]; intros i H; [now destruct i|]. cbn [concat]. rewrite first_app. destruct i as [|i]; cbn [nth].
  - destruct (first ty l) eqn:E; [reflexivity|]. assert (Hn : forall j, first ty (nth j sl []) = None) by (intros j; exact (H (S j) ltac:(lia))).
    clear -Hn. induction sl as [|x sl IH]; [reflexivity|]. cbn [concat]. rewrite first_app. pose proof (Hn 0%nat) as H0. cbn [nth] in H0. rewrite H0. apply IH. intros j. exact (Hn (S j)).
  - pose proof (H 0%nat ltac:(lia)) as H0. cbn [nth] in H0. rewrite H0. apply IH. intros j Hj. exact (H (S j) ltac:(lia)).
Qed.
Lemma child_none o ty : routed o -> find_slot ty (c_slots (cls (oty o))) 0 = None -> child ty o = None.
Proof.
  intros Hr Hf. apply first_none. intros Hin. apply in_map_iff in Hin as (c & Hc & Hin). apply in_concat in Hin as (l & Hl & Hin).
  apply (In_nth _ _ []) in Hl as (i & Hi & Hl). rewrite <- Hl in Hin. apply Hr in Hin as (s & Hs). congruence.
Qed.
Lemma child_in ty o c : child ty o = Some c -> oty c = ty /\ exists l, In l (oslots o) /\ In c l.
Proof. intros H. apply first_some in H as [H1 H2]. split; auto. apply in_concat in H2. exact H2. Qed.

Section Merge.
  Variable E : env.
  Hypothesis HE : numbers_stable E.
  (** What is asked of a source and a target: the same type; nothing misplaced; no two children of one
      type in the source; arrays of plain values (gx:Track) are not in the source; where an element has
      one child of a group, source and target do not have different ones; the same for children of the
      same type. *)
  Fixpoint mergeable (s : obj) : obj -> bool :=
    let 'Obj ty _ _ _ _ sl mis _ := s in
    fun t =>
      (ty =? oty t) && nilb mis && nilb (omis t) &&
      forallb (fun l => nodupN (map oty l)) sl &&
      forallb (fun x : slot * (list obj * list obj) =>
        match s_kind (fst x) with
        | KField _ => true
        | KFields _ => nilb (fst (snd x))
        | KChild => forallb complex (fst (snd x)) && match snd x with (a :: _, b :: _) => oty a =? oty b | _ => true end
        | KChildren => forallb complex (fst (snd x))
        end) (combine (c_slots (cls ty)) (combine sl (oslots t))) &&
      forallb (forallb (fun c => is_simple (oty c) || match child (oty c) t with Some b => mergeable c b | None => true end)) sl.
  Definition good (o : obj) : Prop := wf E o = true /\ cloneable E o = true /\ is_simple (oty o) = false.
  Lemma good_slots o : good o -> slots_wf E (oty o) 0 (c_slots (cls (oty o))) (oslots o) = true.
  Proof.
    destruct o as [ty ka ea tx vec sl mis unk]. intros (Hw & _ & Hs). cbn [oty oslots] in *. cbn [wf] in Hw. rewrite Hs in Hw.
    rewrite !andb_true_iff in Hw. tauto.
  Qed.
  Lemma good_in o l c : good o -> In l (oslots o) -> In c l -> wf E c = true /\ cloneable E c = true.
  Proof.
    destruct o as [ty ka ea tx vec sl mis unk]. intros (Hw & Hc & Hs) Hl Hin. cbn [oty oslots] in *. cbn [wf cloneable] in Hw, Hc. rewrite Hs in Hw, Hc.
    rewrite !andb_true_iff in Hw. destruct Hw as (((((_ & Hx) & Hsl) & Hm) & Hws) & Hwm).
    destruct (ty =? Type_coordinates) eqn:Ec.
    { apply N.eqb_eq in Ec. subst ty. destruct sl; [destruct Hl|exfalso; revert Hsl; vm_compute; congruence]. }
    rewrite !andb_true_iff in Hc. destruct Hc as ((_ & Hcs) & _). rewrite forallb_forall in Hws, Hcs. specialize (Hws l Hl). specialize (Hcs l Hl).
    rewrite forallb_forall in Hws, Hcs. auto.
  Qed.
  Lemma good_child o l c : good o -> In l (oslots o) -> In c l -> is_simple (oty c) = false -> good c.
  Proof. intros Ho Hl Hc Hs. destruct (good_in o l c Ho Hl Hc). repeat split; auto. Qed.
  Lemma good_length o : good o -> length (oslots o) = length (c_slots (cls (oty o))).
  Proof. intros H. apply good_slots in H. symmetry. eapply slots_wf_length; eauto. Qed.
  Lemma slot_at o i c : good o -> In c (nth i (oslots o) []) -> exists s, nth_error (c_slots (cls (oty o))) i = Some s /\
    slot_wf E (oty o) i s (nth i (oslots o) []) = true.
  Proof.
    intros Ho Hc. assert (Hi : (i < length (oslots o))%nat).
    { destruct (Nat.lt_ge_cases i (length (oslots o))) as [H|H]; auto. rewrite nth_overflow in Hc by exact H. destruct Hc. }
    rewrite (good_length o Ho) in Hi. apply nth_error_Some in Hi. destruct (nth_error (c_slots (cls (oty o))) i) as [s|] eqn:Es; [|congruence].
    exists s. split; auto. exact (slots_wf_nth E (oty o) _ 0 _ i s (good_slots o Ho) Es).
  Qed.
  Lemma good_routed o : good o -> routed o.
  Proof.
    intros Ho i c Hc. destruct (slot_at o i c Ho Hc) as (s & Hs & Hw). unfold slot_wf in Hw. apply andb_true_iff in Hw as [Hw _].
    rewrite forallb_forall in Hw. specialize (Hw c Hc). destruct (find_slot (oty c) (c_slots (cls (oty o))) 0) as [[j s']|]; [|discriminate].
    apply Nat.eqb_eq in Hw. subst. eauto.
  Qed.
  Lemma good_written o i c : good o -> In c (nth i (oslots o) []) ->
    exists k, In k (c_ser (cls (oty o))) /\ index_of_key k (c_slots (cls (oty o))) 0 = Some i.
  Proof.
    intros Ho Hc. destruct (slot_at o i c Ho Hc) as (s & Hs & _). pose proof (good_length o Ho) as Hlen. destruct o as [ty ka ea tx vec sl mis unk].
    destruct Ho as (Hw & Hcl & Hsi). cbn [oty oslots] in *. cbn [cloneable] in Hcl. rewrite Hsi in Hcl.
    destruct (ty =? Type_coordinates) eqn:Ec.
    { apply N.eqb_eq in Ec. subst ty. destruct i; discriminate Hs. }
    rewrite !andb_true_iff in Hcl. destruct Hcl as (((_ & Hall) & _) & _).
    assert (Hk : existsb (N.eqb (s_key s)) (c_ser (cls ty)) = true).
    { assert (Hin : In (s_key s, nth i sl []) (combine (keys (c_slots (cls ty))) sl)).
      { clear -Hs Hc Hlen. revert i sl Hs Hc Hlen. induction (c_slots (cls ty)) as [|s0 ss IH]; intros [|i] [|l sl] Hs Hc Hlen; try discriminate.
        - inversion Hs. subst. now left.
        - right. apply (IH i sl Hs Hc). cbn in Hlen. lia. }
      rewrite forallb_forall in Hall. specialize (Hall _ Hin). cbv beta in Hall. destruct (nth i sl []); [destruct Hc|exact Hall]. }
    apply existsb_exists in Hk as (k & Hk & He). apply N.eqb_eq in He. subst k. exists (s_key s). split; auto.
    pose proof (proj1 (cls_nodup ty)) as Hn. clear -Hs Hn. enough (G : forall i0, index_of_key (s_key s) (c_slots (cls ty)) i0 = Some (i0 + i)%nat) by exact (G 0%nat). revert i Hs Hn.
    induction (c_slots (cls ty)) as [|s0 ss IH]; intros [|i] Hs Hn i0; cbn [nth_error keys map] in *; try discriminate; cbn [index_of_key].
    - inversion Hs. subst. rewrite N.eqb_refl. f_equal. lia.
    - inversion Hn; subst. destruct (s_key s0 =? s_key s) eqn:Ek.
      + apply N.eqb_eq in Ek. exfalso. apply H1. rewrite Ek. apply in_map. now apply nth_error_In with i.
      + rewrite (IH i Hs H2 (S i0)). f_equal. lia.
  Qed.

  (** ** Where a child is *)
  Fixpoint posN (ty : N) (l : list N) (j : nat) : option nat :=
    match l with [] => None | c :: r => if c =? ty then Some j else posN ty r (S j) end.
  Lemma pos_of_types ty l : forall j, pos_of ty l j = posN ty (map oty l) j.
  Proof. induction l as [|c l IH]; intros j; [reflexivity|]. cbn [pos_of posN map]. now rewrite IH. Qed.
  Lemma posN_app ty a b : forall j k, posN ty a j = Some k -> posN ty (a ++ b) j = Some k.
  Proof. induction a as [|x a IH]; intros j k H; cbn [posN app] in *; [discriminate|]. destruct (x =? ty); auto. Qed.
  Lemma pos_of_first ty l : forall j, match pos_of ty l j with
    | Some k => exists c, (j <= k)%nat /\ nth_error l (k - j) = Some c /\ first ty l = Some c
    | None => first ty l = None end.
  Proof.
    induction l as [|c l IH]; intros j; [reflexivity|]. cbn [pos_of]. unfold first. cbn [filter]. destruct (oty c =? ty) eqn:Ec.
    - exists c. rewrite Nat.sub_diag. cbn [hd_error nth_error]. auto.
    - specialize (IH (S j)). destruct (pos_of ty l (S j)) as [k|]; [|exact IH]. destruct IH as (c' & H1 & H2 & H3). exists c'. split; [lia|]. split; [|exact H3].
      destruct (k - j)%nat eqn:Ek; [lia|]. cbn [nth_error]. now replace n with (k - S j)%nat by lia.
  Qed.
  Lemma kid_at_spec t ty : good t ->
    match kid_at ty t with
    | Some (i, j) => (exists s, find_slot ty (c_slots (cls (oty t))) 0 = Some (i, s)) /\ pos_of ty (nth i (oslots t) []) 0 = Some j
    | None => child ty t = None
    end.
  Proof.
    intros Ht. unfold kid_at. assert (Hall : forall k, In k (c_ser (cls (oty t))) -> In k (c_ser (cls (oty t)))) by auto.
    assert (H : forall ks, match scan ty ks t with
      | Some (i, j) => pos_of ty (nth i (oslots t) []) 0 = Some j
      | None => forall k i, In k ks -> index_of_key k (c_slots (cls (oty t))) 0 = Some i -> first ty (nth i (oslots t) []) = None end).
    { induction ks as [|k ks IH]; cbn [scan].
      - intros k i [].
      - destruct (index_of_key k (c_slots (cls (oty t))) 0) as [i|] eqn:Ei.
        + pose proof (pos_of_first ty (nth i (oslots t) []) 0) as Hp. destruct (pos_of ty (nth i (oslots t) []) 0) as [j|] eqn:Ep; [exact Ep|].
          destruct (scan ty ks t) as [[i' j']|]; [exact IH|]. intros k' i' [<-|Hk] Hi'; [|eauto]. rewrite Ei in Hi'. inversion Hi'. now subst.
        + destruct (scan ty ks t) as [[i' j']|]; [exact IH|]. intros k' i' [<-|Hk] Hi'; [congruence|eauto]. }
    specialize (H (c_ser (cls (oty t)))). destruct (scan ty (c_ser (cls (oty t))) t) as [[i j]|].
    - split; [|exact H]. pose proof (pos_of_first ty (nth i (oslots t) []) 0) as Hp. rewrite H in Hp. destruct Hp as (c & _ & Hn & Hf).
      apply first_some in Hf as [Hf1 Hf2]. subst ty. now apply good_routed.
    - destruct (child ty t) as [c|] eqn:Ec; [|reflexivity]. exfalso. pose proof (child_in _ _ _ Ec) as (Hty & l & Hl & Hin).
      apply (In_nth _ _ []) in Hl as (i & Hi & Hl). rewrite <- Hl in Hin. destruct (good_written t i c Ht Hin) as (k & Hk & Hki).
      specialize (H k i Hk Hki). apply first_none in H. apply H. subst ty. now apply in_map.
  Qed.

  (** ** The children of the source *)
  Lemma in_children o c : In c (children (oty o) (oslots o)) <-> exists k i, In k (c_ser (cls (oty o))) /\ index_of_key k (c_slots (cls (oty o))) 0 = Some i /\ In c (nth i (oslots o) []).
  Proof.
    unfold children. rewrite in_flat_map. split.
    - intros (k & Hk & Hc). unfold pick in Hc. destruct (index_of_key k (c_slots (cls (oty o))) 0) as [i|] eqn:Ei; [|destruct Hc]. eauto.
    - intros (k & i & Hk & Hi & Hc). exists k. split; auto. unfold pick. now rewrite Hi.
  Qed.
  Lemma index_of_key_inj ss : NoDup (keys ss) -> forall k k' i0 i, index_of_key k ss i0 = Some i -> index_of_key k' ss i0 = Some i -> k = k'.
  Proof.
    induction ss as [|s ss IH]; intros Hn k k' i0 i H H'; cbn [index_of_key] in *; [discriminate|]. inversion Hn; subst.
    destruct (s_key s =? k) eqn:E1, (s_key s =? k') eqn:E2; rewrite ?N.eqb_eq in *; try congruence.
    - inversion H; subst. apply index_of_key_spec in H' as [H' _]. lia.
    - inversion H'; subst. apply index_of_key_spec in H as [H _]. lia.
    - eauto.
  Qed.
  Lemma nodup_app {A} (a b : list A) : NoDup a -> NoDup b -> (forall x, In x a -> ~ In x b) -> NoDup (a ++ b).
  Proof.
    induction 1 as [|x a Hx Ha IH]; intros Hb Hd; [exact Hb|]. cbn [app]. constructor.
    - rewrite in_app_iff. intros [H|H]; [auto|]. exact (Hd x (or_introl eq_refl) H).
    - apply IH; auto. intros y Hy. apply Hd. now right.
  Qed.
  Lemma children_nodup o : good o -> forallb (fun l => nodupN (map oty l)) (oslots o) = true -> NoDup (map oty (children (oty o) (oslots o))).
  Proof.
    intros Ho Hn. unfold children. pose proof (proj2 (cls_nodup (oty o))) as Hs. revert Hs. generalize (c_ser (cls (oty o))).
    induction l as [|k ks IH]; intros Hs; [constructor|]. inversion Hs; subst. cbn [flat_map]. rewrite map_app. apply nodup_app; auto.
    - unfold pick. destruct (index_of_key k (c_slots (cls (oty o))) 0) as [i|]; [|constructor].
      destruct (nth_in_or_default i (oslots o) []) as [Hi|Hi]; [|rewrite Hi; constructor]. rewrite forallb_forall in Hn. now apply nodupN_spec, Hn.
    - intros ty Hin Hin'. apply in_map_iff in Hin as (c & Hc & Hin). apply in_map_iff in Hin' as (c' & Hc' & Hin').
      apply in_flat_map in Hin' as (k' & Hk' & Hin'). unfold pick in Hin, Hin'.
      destruct (index_of_key k (c_slots (cls (oty o))) 0) as [i|] eqn:Ei; [|destruct Hin].
      destruct (index_of_key k' (c_slots (cls (oty o))) 0) as [i'|] eqn:Ei'; [|destruct Hin'].
      apply (good_routed o Ho) in Hin as (s & Hs'). apply (good_routed o Ho) in Hin' as (s' & Hs''). rewrite Hc in Hs'. rewrite Hc' in Hs''.
      rewrite Hs' in Hs''. inversion Hs''; subst. apply H1. rewrite (index_of_key_inj _ (proj1 (cls_nodup (oty o))) _ _ _ _ Ei Ei'). exact Hk'.
  Qed.
  Lemma first_children o ty : good o -> first ty (children (oty o) (oslots o)) = child ty o.
  Proof.
    intros Ho. destruct (child ty o) as [c|] eqn:Ec.
    - pose proof (child_in _ _ _ Ec) as (Hty & l & Hl & Hin). apply (In_nth _ _ []) in Hl as (i & Hi & Hl). rewrite <- Hl in Hin.
      destruct (good_routed o Ho i c Hin) as (s & Hs). rewrite Hty in Hs. rewrite (child_slot o ty i s (good_routed o Ho) Hs) in Ec.
      destruct (good_written o i c Ho Hin) as (k & Hk & Hki). unfold children. revert Hk.
      assert (Hother : forall k', k' <> k -> first ty (pick (cls (oty o)) (oslots o) k') = None).
      { intros k' Hk'. unfold pick. destruct (index_of_key k' (c_slots (cls (oty o))) 0) as [i'|] eqn:Ei'; [|reflexivity]. apply first_none.
        intros Hin'. apply in_map_iff in Hin' as (c' & Hc' & Hin'). apply (good_routed o Ho) in Hin' as (s' & Hs'). rewrite Hc', Hs in Hs'. inversion Hs'; subst.
        apply Hk'. exact (index_of_key_inj _ (proj1 (cls_nodup (oty o))) _ _ _ _ Ei' Hki). }
      induction (c_ser (cls (oty o))) as [|k' ks IH]; intros Hk; [destruct Hk|]. cbn [flat_map]. rewrite first_app.
      destruct (N.eq_dec k' k) as [->|Hne].
      + unfold pick at 1. now rewrite Hki, Ec.
      + rewrite Hother by exact Hne. apply IH. destruct Hk; [congruence|auto].
    - apply first_none. intros Hin. apply in_map_iff in Hin as (c & Hc & Hin). apply in_children in Hin as (k & i & Hk & Hi & Hin).
      unfold child in Ec. apply first_none in Ec. apply Ec. rewrite <- Hc. apply in_map. apply in_concat. exists (nth i (oslots o) []). split; auto. now apply nth_in with c.
  Qed.
  Lemma children_slot o c : good o -> In c (children (oty o) (oslots o)) -> exists i s, find_slot (oty c) (c_slots (cls (oty o))) 0 = Some (i, s) /\ In c (nth i (oslots o) []) /\ In (nth i (oslots o) []) (oslots o).
  Proof.
    intros Ho Hc. apply in_children in Hc as (k & i & Hk & Hi & Hc). destruct (good_routed o Ho i c Hc) as (s & Hs).
    exists i, s. split; auto. split; auto. now apply nth_in with c.
  Qed.

  (** ** Changing one slot *)
  Lemma routed_set t i v : routed t -> (forall c, In c v -> exists s, find_slot (oty c) (c_slots (cls (oty t))) 0 = Some (i, s)) ->
    routed (set_slots t (update i v (oslots t))).
  Proof.
    intros Hr Hv j c. rewrite set_slots_slots, set_slots_ty. intros Hc. destruct (Nat.eq_dec i j) as [<-|Hne].
    - destruct (Nat.lt_ge_cases i (length (oslots t))) as [H|H].
      + rewrite update_nth in Hc by exact H. auto.
      + rewrite nth_overflow in Hc by now rewrite update_length. destruct Hc.
    - rewrite update_nth_ne in Hc by exact Hne. auto.
  Qed.
  Lemma child_set t i v ty : routed t -> (i < length (oslots t))%nat ->
    (forall c, In c v -> exists s, find_slot (oty c) (c_slots (cls (oty t))) 0 = Some (i, s)) ->
    child ty (set_slots t (update i v (oslots t))) =
      match find_slot ty (c_slots (cls (oty t))) 0 with Some (j, _) => if (j =? i)%nat then first ty v else child ty t | None => None end.
  Proof.
    intros Hr Hi Hv. pose proof (routed_set t i v Hr Hv) as Hr'. destruct (find_slot ty (c_slots (cls (oty t))) 0) as [[j s]|] eqn:Ef.
    - rewrite (child_slot _ ty j s Hr') by now rewrite set_slots_ty. rewrite set_slots_slots. destruct (j =? i)%nat eqn:Ej.
      + apply Nat.eqb_eq in Ej. subst. now rewrite update_nth.
      + apply Nat.eqb_neq in Ej. rewrite update_nth_ne by auto. now rewrite (child_slot t ty j s Hr Ef).
    - apply child_none; auto. now rewrite set_slots_ty.
  Qed.
  Lemma replace_types l : forall j b r, nth_error l j = Some b -> oty r = oty b -> map oty (replace j r l) = map oty l.
  Proof.
    induction l as [|x l IH]; intros [|j] b r H Hr; cbn [nth_error replace map] in *; try discriminate.
    - inversion H. subst. now rewrite Hr.
    - f_equal. eauto.
  Qed.
  Lemma replace_in l : forall j r c, In c (replace j r l) -> c = r \/ In c l.
  Proof. induction l as [|x l IH]; intros [|j] r c H; cbn [replace] in H; auto; destruct H as [H|H]; subst; cbn [In]; auto. apply IH in H. tauto. Qed.
  Lemma replace_first l : forall j b r ty, nth_error l j = Some b -> oty r = oty b -> pos_of (oty b) l 0 = Some j ->
    first ty (replace j r l) = if ty =? oty b then Some r else first ty l.
  Proof.
    assert (G : forall l j j0 b r ty, nth_error l j = Some b -> oty r = oty b -> pos_of (oty b) l j0 = Some (j0 + j)%nat ->
      first ty (replace j r l) = if ty =? oty b then Some r else first ty l).
    { clear. induction l as [|x l IH]; intros [|j] j0 b r ty H Hr Hp; cbn [nth_error replace pos_of] in *; try discriminate.
      - inversion H; subst. unfold first. cbn [filter]. rewrite Hr. rewrite (N.eqb_sym (oty b)). destruct (ty =? oty b); reflexivity.
      - destruct (oty x =? oty b) eqn:Ex; [inversion Hp; lia|].
        specialize (IH j (S j0) b r ty H Hr). rewrite Hp in IH. specialize (IH ltac:(f_equal; lia)).
        unfold first in *. cbn [filter]. destruct (oty x =? ty) eqn:Ext; [|exact IH]. cbn [hd_error]. apply N.eqb_eq in Ext. subst ty. now rewrite Ex. }
    intros j b r ty H1 H2 H3. exact (G l j 0%nat b r ty H1 H2 H3).
  Qed.

  (** ** One element *)
  Lemma merge_eq s t : merge E s t = if is_simple (oty s) || is_simple (oty t) || negb (simple_mis s) || negb (simple_mis t) then None
    else match merge_kids E t (map (fun c => (c, merge E c)) (kids s)) t with Some t1 => merge_fields E s t1 | None => None end.
  Proof.
    destruct s as [ty ka ea tx vec sl mis unk]. cbn [merge oty omis]. unfold simple_mis at 2. cbn [omis].
    destruct (is_simple ty || is_simple (oty t) || negb (forallb (fun c => is_simple (oty c)) mis) || negb (simple_mis t)); [reflexivity|].
    assert (H : filter (fun cm : obj * (obj -> option obj) => complex (fst cm)) (children ty (map (map (fun c => (c, merge E c))) sl))
      = map (fun c => (c, merge E c)) (kids (Obj ty ka ea tx vec sl mis unk))).
    { unfold kids, children. cbn [oty oslots]. rewrite flat_map_pick. induction (flat_map (pick (cls ty) sl) (c_ser (cls ty))) as [|c l IH]; [reflexivity|].
      cbn [map filter fst]. destruct (complex c); cbn [map]; now rewrite IH. }
    now rewrite H.
  Qed.
  Definition expected (a b : option obj) : option obj :=
    match a, b with Some a, Some b => if is_simple (oty a) then Some a else merge E a b | Some a, None => Some a | None, b => b end.
  Record inv (t0 : obj) (D : list obj) (t : obj) : Prop := {
    inv_frame : t = set_slots t0 (oslots t);
    inv_len : length (oslots t) = length (oslots t0);
    inv_routed : routed t;
    inv_types : forall i, exists ext, map oty (nth i (oslots t) []) = map oty (nth i (oslots t0) []) ++ ext;
    inv_from : forall i c, In c (nth i (oslots t) []) -> In (oty c) (map oty (nth i (oslots t0) [])) \/ In (oty c) (map oty D);
    inv_child : forall ty, child ty t = expected (first ty D) (child ty t0);
    inv_nd : (forall i, NoDup (map oty (nth i (oslots t0) []))) -> forall i, NoDup (map oty (nth i (oslots t) [])) }.
  Lemma inv_start t : good t -> inv t [] t.
  Proof.
    intros Ht. constructor; auto.
    - now rewrite set_slots_same.
    - now apply good_routed.
    - intros i. exists []. now rewrite app_nil_r.
    - intros i c Hc. left. now apply in_map.
  Qed.
  Lemma first_snoc ty D c : ~ In (oty c) (map oty D) -> first ty (D ++ [c]) = if ty =? oty c then Some c else first ty D.
  Proof.
    intros Hn. rewrite first_app. unfold first at 2. cbn [filter hd_error]. rewrite (N.eqb_sym (oty c)). destruct (ty =? oty c) eqn:Ec.
    - apply N.eqb_eq in Ec. subst ty. destruct (first (oty c) D) as [x|] eqn:Ex; [|reflexivity]. apply first_some in Ex as [Ex1 Ex2].
      exfalso. apply Hn. rewrite <- Ex1. now apply in_map.
    - now destruct (first ty D).
  Qed.
  Lemma mergeable_slot s t i sl : mergeable s t = true -> nth_error (c_slots (cls (oty s))) i = Some sl ->
    length (oslots s) = length (c_slots (cls (oty s))) -> length (oslots t) = length (c_slots (cls (oty s))) ->
    match s_kind sl with
    | KField _ => True
    | KFields _ => nth i (oslots s) [] = []
    | KChild => forallb complex (nth i (oslots s) []) = true /\ forall a b x y, nth i (oslots s) [] = a :: x -> nth i (oslots t) [] = b :: y -> oty a = oty b
    | KChildren => forallb complex (nth i (oslots s) []) = true
    end.
  Proof.
    destruct s as [ty ka ea tx vec sl' mis unk]. cbn [mergeable oty oslots]. rewrite !andb_true_iff. intros ((_ & H) & _) Hs L1 L2.
    assert (Hin : In (sl, (nth i sl' [], nth i (oslots t) [])) (combine (c_slots (cls ty)) (combine sl' (oslots t)))).
    { clear H. revert i sl' Hs L1 L2. generalize (oslots t). induction (c_slots (cls ty)) as [|s0 ss IH]; intros l [|i] [|a sl'] Hs L1 L2; destruct l as [|b l]; try discriminate.
      - inversion Hs. subst. now left.
      - right. apply (IH l i sl' Hs); cbn in *; lia. }
    rewrite forallb_forall in H. specialize (H _ Hin). cbn [fst snd] in H. destruct (s_kind sl); auto.
    - now apply nilb_eq.
    - apply andb_true_iff in H as [H1 H2]. split; auto. intros a b x y Ha Hb. rewrite Ha, Hb in H2. now apply N.eqb_eq.
  Qed.
  Lemma mergeable_basic s t : mergeable s t = true -> oty s = oty t /\ omis s = [] /\ omis t = [] /\ forallb (fun l => nodupN (map oty l)) (oslots s) = true /\
    forall l c b, In l (oslots s) -> In c l -> is_simple (oty c) = false -> child (oty c) t = Some b -> mergeable c b = true.
  Proof.
    destruct s as [ty ka ea tx vec sl' mis unk]. cbn [mergeable oty oslots omis]. rewrite !andb_true_iff. intros (((((H1 & H2) & H3) & H4) & _) & H5).
    apply N.eqb_eq in H1. apply nilb_eq in H2, H3. repeat split; auto. intros l c b Hl Hc Hs Hb. rewrite forallb_forall in H5. specialize (H5 l Hl).
    rewrite forallb_forall in H5. specialize (H5 c Hc). rewrite Hs, Hb in H5. exact H5.
  Qed.
  Lemma has_slot_ordinary ty i s t : find_slot t (c_slots (cls ty)) 0 = Some (i, s) -> snippet_type ty = false /\ (ty =? Type_coordinates) = false /\ (ty =? Type_SimpleData) = false.
  Proof.
    intros H. repeat split.
    - destruct (snippet_type ty) eqn:Es; [|reflexivity]. rewrite (snippet_no_slots ty Es) in H. discriminate.
    - destruct (ty =? Type_coordinates) eqn:Es; [|reflexivity]. apply N.eqb_eq in Es. subst. discriminate.
    - destruct (ty =? Type_SimpleData) eqn:Es; [|reflexivity]. apply N.eqb_eq in Es. subst. rewrite simple_data_no_slots in H. discriminate.
  Qed.
  Definition kid_step (t0 : obj) (t : option obj) (cm : obj * (obj -> option obj)) : option obj :=
    match t with
    | None => None
    | Some t =>
        match kid_at (oty (fst cm)) t0 with
        | Some ij => modify t ij (snd cm)
        | None => match clone E (fst cm) with Done c => opt_res (add_element E t c) | _ => None end
        end
    end.
  Lemma kid_step_inv s t0 D c R t : good s -> good t0 -> mergeable s t0 = true -> kids s = D ++ c :: R -> inv t0 D t ->
    (forall b, child (oty c) t0 = Some b -> exists r, merge E c b = Some r /\ oty r = oty b) ->
    exists t', kid_step t0 (Some t) (c, merge E c) = Some t' /\ inv t0 (D ++ [c]) t'.
  Proof.
    intros Hs Ht Hm Hk Hinv Hex. destruct (mergeable_basic s t0 Hm) as (Hty & _ & _ & Hnd & _).
    pose proof (children_nodup s Hs Hnd) as Hnd'.
    assert (Hkn : NoDup (map oty (kids s))).
    { unfold kids. clear -Hnd'. induction (children (oty s) (oslots s)) as [|x l IH]; [constructor|]. cbn [map filter] in *. inversion Hnd'; subst.
      destruct (complex x); auto. cbn [map]. constructor; auto. intros Hin. apply H1. apply in_map_iff in Hin as (y & Hy & Hin). apply filter_In in Hin as [Hin _].
      rewrite <- Hy. now apply in_map. }
    rewrite Hk, map_app in Hkn. cbn [map] in Hkn.
    assert (HnD : ~ In (oty c) (map oty D)).
    { apply NoDup_remove_2 in Hkn. intros H. apply Hkn. apply in_or_app. now left. }
    assert (Hck : In c (kids s)) by (rewrite Hk; apply in_or_app; right; now left).
    unfold kids in Hck. apply filter_In in Hck as [Hck Hcx]. unfold complex in Hcx. apply negb_true_iff in Hcx.
    destruct (children_slot s c Hs Hck) as (i & sl & Hfs & Hin & Hinl).
    destruct Hinv as [I1 I2 I3 I4 I5 I6 I7].
    assert (Htt : oty t = oty t0) by (rewrite I1; apply set_slots_ty).
    rewrite Hty, <- Htt in Hfs.
    assert (Hlen : (i < length (oslots t))%nat).
    { rewrite I2, (good_length t0 Ht), <- Htt. pose proof (find_slot_spec _ _ _ _ _ Hfs) as [_ H]. rewrite Nat.sub_0_r in H. apply nth_error_Some. congruence. }
    assert (Hfirst : forall ty, first ty (D ++ [c]) = if ty =? oty c then Some c else first ty D) by (intros ty; now apply first_snoc).
    assert (HcD : first (oty c) D = None) by now apply first_none.
    unfold kid_step. cbn [fst snd]. pose proof (kid_at_spec t0 (oty c) Ht) as Hat. destruct (kid_at (oty c) t0) as [[i' j]|].
    - destruct Hat as ((s' & Hfs') & Hpos). rewrite Htt in Hfs. rewrite Hfs in Hfs'. inversion Hfs'; subst i' s'; clear Hfs'. rewrite <- Htt in Hfs.
      assert (Hpos' : pos_of (oty c) (nth i (oslots t) []) 0 = Some j).
      { rewrite pos_of_types in *. destruct (I4 i) as (ext & ->). now apply posN_app. }
      pose proof (pos_of_first (oty c) (nth i (oslots t) []) 0) as Hpf. rewrite Hpos' in Hpf. destruct Hpf as (b & _ & Hnj & Hfb). rewrite Nat.sub_0_r in Hnj.
      assert (Hb : child (oty c) t0 = Some b).
      { specialize (I6 (oty c)). rewrite HcD in I6. cbn [expected] in I6. rewrite <- I6. rewrite (child_slot t (oty c) i sl I3 Hfs). exact Hfb. }
      destruct (Hex b Hb) as (r & Hr1 & Hr2). unfold modify. rewrite Hnj, Hr1. eexists. split; [reflexivity|].
      assert (Hbt : oty b = oty c) by now apply child_in in Hb as [Hb _].
      set (v := replace j r (nth i (oslots t) [])).
      assert (Hv : forall c', In c' v -> exists s, find_slot (oty c') (c_slots (cls (oty t))) 0 = Some (i, s)).
      { intros c' Hc'. unfold v in Hc'. apply replace_in in Hc' as [->|Hc']; [|now apply I3]. rewrite Hr2, Hbt. eauto. }
      assert (Hvt : map oty v = map oty (nth i (oslots t) [])) by (unfold v; now apply replace_types with b).
      constructor.
      + rewrite set_slots_slots. rewrite I1 at 1. now rewrite set_slots_twice.
      + now rewrite set_slots_slots, update_length.
      + now apply routed_set.
      + intros k. rewrite set_slots_slots. destruct (Nat.eq_dec i k) as [<-|Hne].
        * rewrite update_nth by exact Hlen. rewrite Hvt. apply I4.
        * rewrite update_nth_ne by exact Hne. apply I4.
      + intros k c' Hc'. rewrite set_slots_slots in Hc'. rewrite map_app, in_app_iff. destruct (Nat.eq_dec i k) as [<-|Hne].
        * rewrite update_nth in Hc' by exact Hlen. assert (Hc2 : In (oty c') (map oty v)) by now apply in_map. rewrite Hvt in Hc2.
          apply in_map_iff in Hc2 as (c2 & Hc2 & Hc3). rewrite <- Hc2. destruct (I5 i c2 Hc3); auto.
        * rewrite update_nth_ne in Hc' by exact Hne. destruct (I5 k c' Hc'); auto.
      + intros ty. rewrite (child_set t i v ty I3 Hlen Hv). rewrite Hfirst. destruct (ty =? oty c) eqn:Ety.
        * apply N.eqb_eq in Ety. subst ty. rewrite Hfs, Nat.eqb_refl. unfold v. rewrite (replace_first _ j b r (oty c) Hnj Hr2); [|now rewrite Hbt].
          rewrite Hbt, N.eqb_refl, Hb. cbn [expected]. now rewrite Hcx, Hr1.
        * rewrite <- I6. destruct (find_slot ty (c_slots (cls (oty t))) 0) as [[k s']|] eqn:Ef.
          -- destruct (k =? i)%nat eqn:Ek; [|reflexivity]. apply Nat.eqb_eq in Ek. subst k. unfold v. rewrite (replace_first _ j b r ty Hnj Hr2); [|now rewrite Hbt].
             rewrite Hbt, Ety. now rewrite (child_slot t ty i s' I3 Ef).
          -- symmetry. now apply child_none.
      + intros H0 k. rewrite set_slots_slots. destruct (Nat.eq_dec i k) as [<-|Hne].
        * rewrite update_nth by exact Hlen. rewrite Hvt. now apply I7.
        * rewrite update_nth_ne by exact Hne. now apply I7.
    - destruct (good_child s _ c Hs Hinl Hin Hcx) as (Gc1 & Gc2 & Gc3). rewrite (clone_equal E c Gc1 Gc2 Gc3).
      destruct (has_slot_ordinary _ _ _ _ Hfs) as (O1 & O2 & O3). unfold add_element. cbv zeta. rewrite O1, O2, O3. cbn [andb]. rewrite Hfs.
      pose proof (find_slot_spec _ _ _ _ _ Hfs) as [_ Hnth]. rewrite Nat.sub_0_r, Htt, <- Hty in Hnth.
      pose proof (mergeable_slot s t0 i sl Hm Hnth (good_length s Hs) ltac:(rewrite Hty; now apply good_length)) as Hms.
      assert (Hstore : exists t', match s_kind sl with
          | KField f => do v <- norm E (oty t) f (oty c) match nth i (oslots t) [] with [] => None | v :: _ => otext v end (char_data c);
                        Ok (set_slots t (update i match v with Some v0 => [field (oty c) v0] | None => [] end (oslots t)))
          | KFields f => do v <- norm E (oty t) f (oty c) None (char_data c);
                         Ok (set_slots t (update i (nth i (oslots t) [] ++ match v with Some v0 => [field (oty c) v0] | None => [] end) (oslots t)))
          | KChild => Ok (set_slots t (update i [c] (oslots t)))
          | KChildren => Ok (set_slots t (update i (nth i (oslots t) [] ++ [c]) (oslots t))) end = Ok t' /\
          t' = set_slots t (update i (nth i (oslots t) [] ++ [c]) (oslots t))).
      { destruct (s_kind sl) as [f|f| |] eqn:Ekind.
        - exfalso. destruct (field_slot_simple _ _ _ _ Hfs) as [H _]; [exists f; auto|]. congruence.
        - exfalso. destruct (field_slot_simple _ _ _ _ Hfs) as [H _]; [exists f; auto|]. congruence.
        - destruct Hms as [_ Hms]. assert (Hcur : nth i (oslots t) [] = []).
          { destruct (nth i (oslots t) []) as [|c' cur] eqn:Ecur; [reflexivity|]. exfalso.
            assert (Hc' : In c' (nth i (oslots t) [])) by (rewrite Ecur; now left).
            destruct (slot_at s i c Hs Hin) as (sl2 & Hsl2 & Hwf2). rewrite Hnth in Hsl2. inversion Hsl2; subst sl2.
            unfold slot_wf in Hwf2. apply andb_true_iff in Hwf2 as [_ Hwf2]. rewrite Ekind in Hwf2.
            assert (Hone : nth i (oslots s) [] = [c]).
            { rename Hwf2 into Hw2. apply Nat.leb_le in Hw2. destruct (nth i (oslots s) []) as [|x [|y l]]; cbn in Hw2; try lia; [destruct Hin|]. destruct Hin as [->|[]]. reflexivity. }
            destruct (I5 i c' Hc') as [H|H].
            - destruct (nth i (oslots t0) []) as [|b y] eqn:Et0; [destruct H|]. specialize (Hms c b [] y Hone eq_refl).
              assert (Hbin : In b (nth i (oslots t0) [])) by (rewrite Et0; now left).
              unfold child in Hat. apply first_none in Hat. apply Hat. rewrite Hms. apply in_map. apply in_concat. exists (nth i (oslots t0) []). split; auto. now apply nth_in with b.
            - apply in_map_iff in H as (d & Hd & HdD). assert (Hdk : In d (kids s)) by (rewrite Hk; apply in_or_app; now left).
              unfold kids in Hdk. apply filter_In in Hdk as [Hdk _]. destruct (children_slot s d Hs Hdk) as (i2 & s2 & Hf2 & Hin2 & _).
              destruct (I3 i c' Hc') as (s3 & Hf3). rewrite Htt, <- Hty, <- Hd, Hf2 in Hf3. inversion Hf3; subst i2. rewrite Hone in Hin2. destruct Hin2 as [->|[]].
              apply HnD. now apply in_map. }
          rewrite Hcur. cbn [app]. eauto.
        - eauto. }
      destruct Hstore as (t' & Hstore & Ht'). rewrite Hstore. exists t'. split; [reflexivity|]. subst t'.
      set (v := nth i (oslots t) [] ++ [c]).
      assert (Hv : forall c', In c' v -> exists s, find_slot (oty c') (c_slots (cls (oty t))) 0 = Some (i, s)).
      { intros c' Hc'. unfold v in Hc'. apply in_app_or in Hc' as [Hc'|[<-|[]]]; [now apply I3|eauto]. }
      constructor.
      + rewrite set_slots_slots. rewrite I1 at 1. now rewrite set_slots_twice.
      + now rewrite set_slots_slots, update_length.
      + now apply routed_set.
      + intros k. rewrite set_slots_slots. destruct (I4 k) as (ext & Hext). destruct (Nat.eq_dec i k) as [<-|Hne].
        * rewrite update_nth by exact Hlen. unfold v. rewrite map_app, Hext. exists (ext ++ [oty c]). now rewrite app_assoc.
        * rewrite update_nth_ne by exact Hne. eauto.
      + intros k c' Hc'. rewrite set_slots_slots in Hc'. rewrite map_app, in_app_iff. destruct (Nat.eq_dec i k) as [<-|Hne].
        * rewrite update_nth in Hc' by exact Hlen. unfold v in Hc'. apply in_app_or in Hc' as [Hc'|[<-|[]]]; [|right; right; now left]. destruct (I5 i c' Hc'); auto.
        * rewrite update_nth_ne in Hc' by exact Hne. destruct (I5 k c' Hc'); auto.
      + intros ty. rewrite (child_set t i v ty I3 Hlen Hv). rewrite Hfirst. destruct (ty =? oty c) eqn:Ety.
        * apply N.eqb_eq in Ety. subst ty. rewrite Hfs, Nat.eqb_refl. unfold v. rewrite first_app.
          rewrite <- (child_slot t (oty c) i sl I3 Hfs), I6, HcD, Hat. cbn [expected]. unfold first. cbn [filter]. rewrite N.eqb_refl. reflexivity.
        * rewrite <- I6. destruct (find_slot ty (c_slots (cls (oty t))) 0) as [[k s']|] eqn:Ef.
          -- destruct (k =? i)%nat eqn:Ek; [|reflexivity]. apply Nat.eqb_eq in Ek. subst k. unfold v. rewrite first_app.
             rewrite <- (child_slot t ty i s' I3 Ef). destruct (child ty t); [reflexivity|]. unfold first. cbn [filter]. now rewrite N.eqb_sym, Ety.
          -- symmetry. now apply child_none.
      + intros H0 k. rewrite set_slots_slots. destruct (Nat.eq_dec i k) as [<-|Hne].
        * rewrite update_nth by exact Hlen. unfold v. rewrite map_app. apply nodup_app; [now apply I7|repeat constructor; intros []|].
          intros x Hx [<-|[]]. pose proof (I6 (oty c)) as H6. rewrite HcD, Hat in H6. cbn [expected] in H6. rewrite (child_slot t (oty c) i sl I3 Hfs) in H6. apply first_none in H6. contradiction.
        * rewrite update_nth_ne by exact Hne. now apply I7.
  Qed.

  Lemma kids_inv s t0 : good s -> good t0 -> mergeable s t0 = true ->
    (forall c b, In c (kids s) -> child (oty c) t0 = Some b -> exists r, merge E c b = Some r /\ oty r = oty b) ->
    exists t1, merge_kids E t0 (map (fun c => (c, merge E c)) (kids s)) t0 = Some t1 /\ inv t0 (kids s) t1.
  Proof.
    intros Hs Ht Hm Hex.
    assert (G : forall R D t, kids s = D ++ R -> inv t0 D t ->
      exists t1, fold_left (kid_step t0) (map (fun c => (c, merge E c)) R) (Some t) = Some t1 /\ inv t0 (D ++ R) t1).
    { induction R as [|c R IH]; intros D t Hk Hi.
      - exists t. rewrite app_nil_r. auto.
      - cbn [map fold_left]. destruct (kid_step_inv s t0 D c R t Hs Ht Hm Hk Hi) as (t' & Ht' & Hi').
        { intros b Hb. apply Hex; auto. rewrite Hk. apply in_or_app. right. now left. }
        rewrite Ht'. replace (D ++ c :: R) with ((D ++ [c]) ++ R) in * by now rewrite <- app_assoc. exact (IH (D ++ [c]) t' Hk Hi'). }
    exact (G (kids s) [] t0 eq_refl (inv_start t0 Ht)).
  Qed.

  (** ** Fields *)
  Lemma norm_sticks p f ty prev v : norm E p f ty None v = Ok (Some v) -> norm E p f ty prev v = Ok (Some v).
  Proof.
    destruct f; cbn [norm]; auto.
    - destruct (from_string_double v) as [t|] eqn:Ev; [auto|]. intros H. inversion H as [H1]. exfalso. rewrite H1 in *.
      destruct (ns_dflt E HE p ty) as [t Ht]. rewrite <- H1, Ht in Ev. rewrite (proj1 (dbl_stable E HE t)) in Ev. discriminate.
    - destruct (e_int E v) as [t|] eqn:Ev; [auto|]. intros H. inversion H as [H1]. exfalso. pose proof (ns_idflt E HE p ty) as Hi. rewrite H1 in Hi. congruence.
  Qed.
  Lemma good_fit s i sl : good s -> nth_error (c_slots (cls (oty s))) i = Some sl -> slot_fits E (oty s) i sl (nth i (oslots s) []) = true.
  Proof.
    intros Hs Hn. assert (Hf : slots_fit E (oty s) 0 (c_slots (cls (oty s))) (oslots s) = true).
    { pose proof (good_slots s Hs) as Hg. destruct s as [ty ka ea tx vec sl' mis unk]. destruct Hs as (Hw & Hc & Hsi). cbn [oty oslots] in *. cbn [cloneable] in Hc. rewrite Hsi in Hc.
      destruct (ty =? Type_coordinates) eqn:Ec.
      { apply N.eqb_eq in Ec. subst ty. destruct i; discriminate Hn. }
      rewrite !andb_true_iff in Hc. apply slots_wf_fit; tauto. }
    exact (proj2 (slots_fit_nth E _ _ _ _ Hf) i sl Hn).
  Qed.
  Record fields_done (t0 : obj) (D : list obj) (t : obj) : Prop := {
    fd_frame : t = set_slots t0 (oslots t);
    fd_len : length (oslots t) = length (oslots t0);
    fd_routed : routed t;
    fd_child : forall ty, child ty t = match first ty D with Some c => Some c | None => child ty t0 end;
    fd_nd : (forall i, NoDup (map oty (nth i (oslots t0) []))) -> forall i, NoDup (map oty (nth i (oslots t) [])) }.
  Lemma field_step s t0 t1 D c R t : good s -> oty s = oty t0 -> length (oslots t1) = length (c_slots (cls (oty t0))) -> mergeable s t1 = true -> length (oslots t0) = length (c_slots (cls (oty t0))) ->
    filter (fun c => is_simple (oty c)) (children (oty s) (oslots s)) = D ++ c :: R -> fields_done t0 D t ->
    exists t', add_element E t (field (oty c) (char_data c)) = Ok t' /\ fields_done t0 (D ++ [c]) t'.
  Proof.
    intros Hs Hty Hl1 Hm Hl0 Hk [F1 F2 F3 F4 F5].
    destruct (mergeable_basic s t1 Hm) as (_ & _ & _ & Hnd & _).
    pose proof (children_nodup s Hs Hnd) as Hnd'.
    assert (Hin : In c (filter (fun c => is_simple (oty c)) (children (oty s) (oslots s)))) by (rewrite Hk; apply in_or_app; right; now left).
    apply filter_In in Hin as [Hin Hsi].
    assert (HnD : ~ In (oty c) (map oty D)).
    { assert (Hkn : NoDup (map oty (D ++ c :: R))).
      { rewrite <- Hk. clear -Hnd'. induction (children (oty s) (oslots s)) as [|x l IH]; [constructor|]. cbn [map filter] in *. inversion Hnd'; subst.
        destruct (is_simple (oty x)); auto. cbn [map]. constructor; auto. intros Hin. apply H1. apply in_map_iff in Hin as (y & Hy & Hin). apply filter_In in Hin as [Hin _].
        rewrite <- Hy. now apply in_map. }
      rewrite map_app in Hkn. cbn [map] in Hkn. apply NoDup_remove_2 in Hkn. intros H. apply Hkn. apply in_or_app. now left. }
    destruct (children_slot s c Hs Hin) as (i & sl & Hfs & Hin' & Hinl).
    assert (Hc : c = field (oty c) (char_data c)).
    { destruct (good_in s _ c Hs Hinl Hin') as [W1 W2]. exact (wf_field E c W1 W2 Hsi). }
    assert (Htt : oty t = oty t0) by (rewrite F1; apply set_slots_ty).
    pose proof (find_slot_spec _ _ _ _ _ Hfs) as [_ Hnth]. rewrite Nat.sub_0_r in Hnth.
    pose proof (mergeable_slot s t1 i sl Hm Hnth (good_length s Hs) ltac:(now rewrite Hty)) as Hms.
    pose proof (good_fit s i sl Hs Hnth) as Hfit.
    assert (Hlen : (i < length (oslots t))%nat) by (rewrite F2, Hl0, <- Hty; apply nth_error_Some; congruence).
    destruct (s_kind sl) as [f|f| |] eqn:Ekind.
    2: { rewrite Hms in Hin'. destruct Hin'. }
    2: { destruct Hms as [Hms _]. rewrite forallb_forall in Hms. specialize (Hms c Hin'). unfold complex in Hms. rewrite Hsi in Hms. discriminate. }
    2: { rewrite forallb_forall in Hms. specialize (Hms c Hin'). unfold complex in Hms. rewrite Hsi in Hms. discriminate. }
    unfold slot_fits in Hfit. rewrite Ekind in Hfit. rewrite !andb_true_iff in Hfit. destruct Hfit as (_ & _ & Hfit). rewrite forallb_forall in Hfit.
    specialize (Hfit c Hin'). apply andb_true_iff in Hfit as [_ Hfit]. apply reads_same_eq in Hfit.
    destruct (has_slot_ordinary _ _ _ _ Hfs) as (O1 & O2 & O3).
    assert (Hadd : add_element E t (field (oty c) (char_data c)) = Ok (set_slots t (update i [c] (oslots t)))).
    { unfold add_element. cbv zeta. change (oty (field (oty c) (char_data c))) with (oty c). change (char_data (field (oty c) (char_data c))) with (char_data c).
      rewrite Htt, <- Hty, O1, O2, O3. cbn [andb]. rewrite Hfs, Ekind, (norm_sticks _ _ _ _ _ Hfit). cbn [bind]. now rewrite <- Hc. }
    rewrite Hadd. eexists. split; [reflexivity|].
    assert (Hv : forall c', In c' [c] -> exists s', find_slot (oty c') (c_slots (cls (oty t))) 0 = Some (i, s')).
    { intros c' [<-|[]]. rewrite Htt, <- Hty. eauto. }
    constructor.
    - rewrite set_slots_slots. rewrite F1 at 1. now rewrite set_slots_twice.
    - now rewrite set_slots_slots, update_length.
    - now apply routed_set.
    - intros ty. rewrite (child_set t i [c] ty F3 Hlen Hv), (first_snoc ty D c HnD). rewrite Htt, <- Hty. destruct (ty =? oty c) eqn:Ety.
      + apply N.eqb_eq in Ety. subst ty. rewrite Hfs, Nat.eqb_refl. unfold first. cbn [filter]. now rewrite N.eqb_refl.
      + rewrite <- F4. destruct (find_slot ty (c_slots (cls (oty s))) 0) as [[k s']|] eqn:Ef.
        * destruct (k =? i)%nat eqn:Ek; [|reflexivity]. exfalso. apply Nat.eqb_eq in Ek. subst k.
          pose proof (find_slot_spec _ _ _ _ _ Ef) as [_ Hnth']. rewrite Nat.sub_0_r, Hnth in Hnth'. inversion Hnth'; subst s'.
          destruct (field_slot_simple _ _ _ _ Hfs) as [_ Htests]; [exists f; auto|].
          rewrite (find_slot_other _ _ _ _ _ Hfs Htests ty Ef) in Ety. rewrite N.eqb_refl in Ety. discriminate.
        * symmetry. apply child_none; auto. rewrite Htt, <- Hty. exact Ef.
    - intros H0 k. rewrite set_slots_slots. destruct (Nat.eq_dec i k) as [<-|Hne].
      + rewrite update_nth by exact Hlen. repeat constructor. intros [].
      + rewrite update_nth_ne by exact Hne. now apply F5.
  Qed.
  Lemma fields_inv s t0 t1 : good s -> oty s = oty t0 -> length (oslots t1) = length (c_slots (cls (oty t0))) -> mergeable s t1 = true -> length (oslots t0) = length (c_slots (cls (oty t0))) -> routed t0 ->
    exists t', add_fields E (filter (fun c => is_simple (oty c)) (children (oty s) (oslots s))) t0 = Some t' /\
      fields_done t0 (filter (fun c => is_simple (oty c)) (children (oty s) (oslots s))) t'.
  Proof.
    intros Hs Hty Hl1 Hm Hl0 Hr. set (F := filter (fun c => is_simple (oty c)) (children (oty s) (oslots s))).
    assert (G : forall R D t, F = D ++ R -> fields_done t0 D t -> exists t', add_fields E R t = Some t' /\ fields_done t0 (D ++ R) t').
    { induction R as [|c R IH]; intros D t Hk Hi.
      - exists t. rewrite app_nil_r. auto.
      - unfold add_fields. cbn [fold_left]. destruct (field_step s t0 t1 D c R t Hs Hty Hl1 Hm Hl0 Hk Hi) as (t' & Ht' & Hi').
        rewrite Ht'. cbn [opt_res]. replace (D ++ c :: R) with ((D ++ [c]) ++ R) in * by now rewrite <- app_assoc. exact (IH (D ++ [c]) t' Hk Hi'). }
    apply (G F [] t0 eq_refl). constructor; auto. now rewrite set_slots_same.
  Qed.

  (** ** Attributes *)
  Lemma good_atts o : good o -> msorted (oka o) /\ forall k, view (oka o) k = kept E (oty o) (c_atts (cls (oty o))) (out_attributes o) k.
  Proof.
    intros (Hw & _ & Hs). assert (Ha : attrs_same E (oty o) o = true).
    { destruct o as [ty ka ea tx vec sl mis unk]. cbn [wf oty] in *. rewrite Hs in Hw. rewrite !andb_true_iff in Hw. tauto. }
    unfold attrs_same in Ha. apply andb_true_iff in Ha as [Ha _]. apply attrs_eqb_eq in Ha. rewrite parse_attributes_create in Ha.
    destruct (cut_known_spec E (oty o) (c_atts (cls (oty o))) (out_attributes o) [] (out_attributes_sorted o) msorted_nil) as (_ & C2 & _ & C4).
    cbn [set_ea set_ka create oka] in Ha. rewrite Ha in C2, C4. split; auto. intros k. rewrite C4. now destruct (kept _ _ _ _ _).
  Qed.
  Lemma atts_merged s t ty : oty s = ty -> oty t = ty -> good s -> good t -> forall k,
    view (oka (parse_attributes E t (merge_attributes (out_attributes t) (out_attributes s)))) k =
    match view (oka s) k with Some v => Some v | None => view (oka t) k end.
  Proof.
    intros H1 H2 Hs Ht k. destruct (good_atts s Hs) as [_ Vs]. destruct (good_atts t Ht) as [St Vt]. rewrite H1 in Vs. rewrite H2 in Vt.
    set (a := merge_attributes (out_attributes t) (out_attributes s)).
    assert (Va : forall x, view a x = match view (out_attributes s) x with Some v => Some v | None => view (out_attributes t) x end)
      by (intros x; apply merge_view; apply out_attributes_sorted).
    destruct (cut_known_spec E ty (c_atts (cls ty)) a (oka t) (merge_sorted _ _ (out_attributes_sorted t)) St) as (_ & _ & _ & C4).
    unfold parse_attributes. rewrite H2. destruct (cut_known E ty (c_atts (cls ty)) a (oka t)) as [r ka]. cbn [snd] in C4.
    replace (oka (set_ea (set_ka t ka) (add_unknown_attributes (oea t) r))) with ka by now destruct t.
    rewrite C4, Vs. unfold kept. specialize (Vt k). unfold kept in Vt. destruct (att_kind (c_atts (cls ty)) k); [|reflexivity].
    rewrite Va. destruct (view (out_attributes s) k); [reflexivity|]. rewrite <- Vt. now destruct (view (oka t) k).
  Qed.
  Record merged (s t r : obj) : Prop := {
    md_type : oty r = oty t;
    md_child : forall ty, child ty r = expected (child ty s) (child ty t);
    md_atts : forall k, view (oka r) k = match view (oka s) k with Some v => Some v | None => view (oka t) k end;
    md_vec : ovec r = if oty t =? Type_coordinates then ovec s else ovec t;
    md_text : otext r = otext t;
    md_mis : omis r = [];
    md_unk : ounk r = ounk t;
    md_len : length (oslots r) = length (oslots t);
    md_routed : routed r;
    md_nd : (forall i, NoDup (map oty (nth i (oslots t) []))) -> forall i, NoDup (map oty (nth i (oslots r) []));
    md_raw : oty t <> Type_coordinates -> let p := parse_attributes E t (merge_attributes (out_attributes t) (out_attributes s)) in oka r = oka p /\ oea r = oea p }.
  Lemma first_filter (P : N -> bool) ty l : first ty (filter (fun c => P (oty c)) l) = if P ty then first ty l else None.
  Proof.
    unfold first. induction l as [|c l IH]; [now destruct (P ty)|]. cbn [filter]. destruct (oty c =? ty) eqn:Ec.
    - apply N.eqb_eq in Ec. subst ty. destruct (P (oty c)); [|exact IH]. cbn [filter]. rewrite N.eqb_refl. reflexivity.
    - destruct (P (oty c)); [|exact IH]. cbn [filter]. rewrite Ec. exact IH.
  Qed.
  Theorem merge_one : forall s t, good s -> good t -> mergeable s t = true -> exists r, merge E s t = Some r /\ merged s t r.
  Proof.
    induction s as [ty0 ka0 ea0 tx0 vec0 sl0 mis0 unk0 IHsl _] using obj_ind2. set (s := Obj ty0 ka0 ea0 tx0 vec0 sl0 mis0 unk0) in *. intros t Hs Ht Hm.
    destruct (mergeable_basic s t Hm) as (Hty & Hms & Hmt & Hnd & Hrec).
    rewrite merge_eq. destruct Hs as (Hs1 & Hs2 & Hs3). destruct Ht as (Ht1 & Ht2 & Ht3). rewrite Hs3, Ht3. unfold simple_mis. rewrite Hms, Hmt. cbn [forallb negb orb].
    pose proof (conj Hs1 (conj Hs2 Hs3) : good s) as Hs. pose proof (conj Ht1 (conj Ht2 Ht3) : good t) as Ht.
    destruct (kids_inv s t Hs Ht Hm) as (t1 & Hk & [I1 I2 I3 I4 I5 I6 I7]).
    { intros c b Hc Hb. unfold kids in Hc. apply filter_In in Hc as [Hc Hcx]. unfold complex in Hcx. apply negb_true_iff in Hcx.
      destruct (children_slot s c Hs Hc) as (i & sl & _ & Hin & Hinl).
      assert (Hgc : good c) by now apply (good_child s _ c Hs Hinl Hin).
      assert (Hgb : good b).
      { destruct (child_in _ _ _ Hb) as (Hbt & l & Hl & Hbl). apply (good_child t l b Ht Hl Hbl). now rewrite Hbt. }
      rewrite Forall_forall in IHsl. specialize (IHsl _ Hinl). rewrite Forall_forall in IHsl.
      destruct (IHsl c Hin b Hgc Hgb (Hrec _ c b Hinl Hin Hcx Hb)) as (r & Hr & Hmd). exists r. split; auto. exact (md_type _ _ _ Hmd). }
    rewrite Hk. unfold merge_fields. rewrite Hms. cbn [filter]. rewrite app_nil_r.
    set (a := if oty s =? Type_coordinates then [] else out_attributes s).
    set (t2 := parse_attributes E t1 (merge_attributes (out_attributes t1) a)).
    assert (T1 : oty t1 = oty t) by (rewrite I1; apply set_slots_ty).
    assert (T2 : oty t2 = oty t) by (unfold t2, parse_attributes; destruct (cut_known E (oty t1) _ _ _); now destruct t1).
    rewrite T2.
    set (t3 := if oty t =? Type_coordinates then set_vec t2 (if oty s =? Type_coordinates then ovec s else []) else t2).
    assert (T3 : oty t3 = oty t) by (unfold t3; destruct (oty t =? Type_coordinates); auto; now destruct t2).
    assert (S2 : oslots t2 = oslots t1) by (unfold t2, parse_attributes; destruct (cut_known E (oty t1) _ _ _); now destruct t1).
    assert (S3 : oslots t3 = oslots t1) by (unfold t3; destruct (oty t =? Type_coordinates); auto; now destruct t2).
    assert (R3 : routed t3) by (intros i c; rewrite S3, T3, <- T1; apply I3).
    destruct (fields_inv s t3 t Hs ltac:(congruence) ltac:(rewrite T3; now apply good_length) Hm ltac:(rewrite S3, T3, I2; now apply good_length) R3) as (r & Hr & [F1 F2 F3 F4 F5]).
    rewrite Hr. exists r. split; [reflexivity|].
    assert (Hframe : oka r = oka t2 /\ otext r = otext t /\ omis r = omis t /\ ounk r = ounk t /\ ovec r = if oty t =? Type_coordinates then ovec s else ovec t).
    { rewrite F1. replace (oka (set_slots t3 (oslots r))) with (oka t3) by now destruct t3. replace (otext (set_slots t3 (oslots r))) with (otext t3) by now destruct t3.
      replace (omis (set_slots t3 (oslots r))) with (omis t3) by now destruct t3. replace (ounk (set_slots t3 (oslots r))) with (ounk t3) by now destruct t3.
      replace (ovec (set_slots t3 (oslots r))) with (ovec t3) by now destruct t3.
      assert (P : otext t2 = otext t1 /\ omis t2 = omis t1 /\ ounk t2 = ounk t1 /\ ovec t2 = ovec t1).
      { unfold t2, parse_attributes. destruct (cut_known E (oty t1) _ _ _). destruct t1. auto. }
      destruct P as (P1 & P2 & P3 & P4).
      assert (Q : otext t1 = otext t /\ omis t1 = omis t /\ ounk t1 = ounk t /\ ovec t1 = ovec t) by (rewrite I1; destruct t; auto).
      destruct Q as (Q1 & Q2 & Q3 & Q4). unfold t3. rewrite Hty. destruct (oty t =? Type_coordinates).
      - destruct t2; cbn [set_vec oka otext omis ounk ovec] in *. repeat split; congruence.
      - repeat split; congruence. }
    destruct Hframe as (G1 & G2 & G3 & G4 & G5).
    constructor; auto.
    - rewrite F1, set_slots_ty. exact T3.
    - intros ty. rewrite F4. unfold child at 1. rewrite S3. change (first ty (concat (oslots t1))) with (child ty t1). rewrite I6. unfold kids, complex.
      rewrite (first_filter is_simple), (first_filter (fun x => negb (is_simple x))), (first_children s ty Hs).
      destruct (child ty s) as [c|] eqn:Ec.
      + apply child_in in Ec as (Ec & _). destruct (is_simple ty) eqn:Esi; cbn [negb]; [|reflexivity]. cbn [expected]. rewrite Ec, Esi. now destruct (child ty t).
      + now destruct (is_simple ty).
    - intros k. rewrite G1. unfold t2, a. destruct (oty s =? Type_coordinates) eqn:Ec.
      { apply N.eqb_eq in Ec. destruct (good_atts s Hs) as [_ Vs]. rewrite Vs, Ec. unfold kept. change (c_atts (cls Type_coordinates)) with (@nil (str * akind)). cbn [att_kind].
        unfold parse_attributes. rewrite T1, <- Hty, Ec. change (c_atts (cls Type_coordinates)) with (@nil (str * akind)). cbn [cut_known].
        assert (O' : oka t1 = oka t) by (rewrite I1; now destruct t). destruct t1. cbn [set_ka set_ea oka] in *. now rewrite O'. }
      assert (Hat : forall a', oka (parse_attributes E t1 (merge_attributes (out_attributes t1) a')) = oka (parse_attributes E t (merge_attributes (out_attributes t) a'))).
      { intros a'. assert (O : out_attributes t1 = out_attributes t) by (rewrite I1; now destruct t). rewrite O. unfold parse_attributes. rewrite T1.
        assert (O' : oka t1 = oka t) by (rewrite I1; now destruct t). rewrite O'. destruct (cut_known E (oty t) _ _ _). now destruct t1, t. }
      rewrite Hat. apply (atts_merged s t (oty t)); auto.
    - congruence.
    - rewrite F2, S3. exact I2.
    - intros H0. apply F5. rewrite S3. now apply I7.
    - intros Hn. assert (Ec : (oty s =? Type_coordinates) = false) by (rewrite Hty; now apply N.eqb_neq). assert (Ec' : (oty t =? Type_coordinates) = false) by now apply N.eqb_neq.
      assert (O : out_attributes t1 = out_attributes t) by (rewrite I1; now destruct t). assert (O' : oka t1 = oka t) by (rewrite I1; now destruct t). assert (O2 : oea t1 = oea t) by (rewrite I1; now destruct t).
      cbv zeta. split.
      + rewrite G1. unfold t2, a. rewrite Ec, O. unfold parse_attributes. rewrite T1, O'. destruct (cut_known E (oty t) _ _ _). now destruct t1, t.
      + rewrite F1. replace (oea (set_slots t3 (oslots r))) with (oea t3) by now destruct t3. unfold t3. rewrite Ec'. unfold t2, a. rewrite Ec, O. unfold parse_attributes. rewrite T1, O'.
        destruct (cut_known E (oty t) _ _ _). destruct t1, t. cbn [set_ea set_ka oea] in *. now rewrite O2.
  Qed.

  (** ** At every depth *)
  Fixpoint at_path (p : list N) (o : obj) : option obj :=
    match p with [] => Some o | ty :: r => match child ty o with Some c => at_path r c | None => None end end.
  Theorem merge_path : forall p s t r, good s -> good t -> mergeable s t = true -> merge E s t = Some r ->
    match at_path p s, at_path p t with
    | None, x => at_path p r = x
    | Some x, None => at_path p r = Some x
    | Some x, Some y => exists z, at_path p r = Some z /\ (if is_simple (oty x) then z = x else good x /\ good y /\ merge E x y = Some z /\ merged x y z)
    end.
  Proof.
    induction p as [|ty p IH]; intros s t r Hs Ht Hm Hr.
    - cbn [at_path]. exists r. split; [reflexivity|]. rewrite (proj2 (proj2 Hs)). destruct (merge_one s t Hs Ht Hm) as (r' & Hr' & Hmd).
      assert (r' = r) by congruence. subst. auto.
    - destruct (merge_one s t Hs Ht Hm) as (r' & Hr' & Hmd). assert (r' = r) by congruence. subst r'. cbn [at_path]. rewrite (md_child _ _ _ Hmd ty).
      destruct (mergeable_basic s t Hm) as (Hty & _ & _ & _ & Hrec).
      destruct (child ty s) as [a|] eqn:Ea; [|reflexivity]. pose proof (child_in _ _ _ Ea) as (Hat & l & Hl & Hal).
      destruct (child ty t) as [b|] eqn:Eb; cbn [expected].
      + pose proof (child_in _ _ _ Eb) as (Hbt & l' & Hl' & Hbl). destruct (is_simple (oty a)) eqn:Esi.
        * assert (Hfa : oslots a = []).
          { destruct (good_in s l a Hs Hl Hal) as [W1 W2]. rewrite (wf_field E a W1 W2 Esi). reflexivity. }
          assert (Hfb : oslots b = []).
          { destruct (good_in t l' b Ht Hl' Hbl) as [W1 W2]. rewrite (wf_field E b W1 W2); [reflexivity|]. now rewrite Hbt, <- Hat. }
          destruct p as [|ty' p].
          -- cbn [at_path]. exists a. rewrite Esi. auto.
          -- cbn [at_path]. unfold child. rewrite Hfa, Hfb. reflexivity.
        * assert (Hga : good a) by now apply (good_child s l a).
          assert (Hgb : good b) by (apply (good_child t l' b); auto; now rewrite Hbt, <- Hat).
          assert (Hmab : mergeable a b = true) by (apply (Hrec l a b); auto; now rewrite Hat).
          destruct (merge_one a b Hga Hgb Hmab) as (m & Hmm & _). rewrite Hmm. exact (IH a b m Hga Hgb Hmab Hmm).
      + now destruct (at_path p a).
  Qed.

  (** ** An element and a copy of it *)
  Fixpoint distinct (s : obj) : bool :=
    let 'Obj ty _ _ _ _ sl mis _ := s in
    nilb mis && forallb (fun l => nodupN (map oty l)) sl &&
    forallb (fun x : slot * list obj =>
      match s_kind (fst x) with KField _ => true | KFields _ => nilb (snd x) | _ => forallb complex (snd x) end) (combine (c_slots (cls ty)) sl) &&
    forallb (forallb (fun c => is_simple (oty c) || distinct c)) sl.
  Lemma nodup_first l c : NoDup (map oty l) -> In c l -> first (oty c) l = Some c.
  Proof.
    induction l as [|x l IH]; intros Hn Hc; [destruct Hc|]. cbn [map] in Hn. inversion Hn; subst. unfold first. cbn [filter]. destruct Hc as [->|Hc].
    - now rewrite N.eqb_refl.
    - destruct (oty x =? oty c) eqn:Ex; [|now apply IH]. apply N.eqb_eq in Ex. exfalso. apply H1. rewrite Ex. now apply in_map.
  Qed.
  Lemma distinct_self s : good s -> distinct s = true -> mergeable s s = true.
  Proof.
    induction s as [ty ka ea tx vec sl mis unk IHsl _] using obj_ind2. intros Hg Hd. cbn [distinct] in Hd. rewrite !andb_true_iff in Hd. destruct Hd as (((D1 & D2) & D3) & D4).
    cbn [mergeable oty omis oslots]. rewrite N.eqb_refl, D1, D2. cbn [andb]. rewrite !andb_true_iff. split.
    - clear -D3. revert sl D3. induction (c_slots (cls ty)) as [|s0 ss IH]; intros [|l sl] H; cbn [combine forallb] in *; auto.
      apply andb_true_iff in H as [H1 H2]. rewrite (IH sl H2), andb_true_r. cbn [fst snd] in *. destruct (s_kind s0); auto. rewrite H1. destruct l; auto. now rewrite N.eqb_refl.
    - apply forallb_forall. intros l Hl. apply forallb_forall. intros c Hc. destruct (is_simple (oty c)) eqn:Es; [reflexivity|]. cbn [orb].
      set (s := Obj ty ka ea tx vec sl mis unk) in *. change sl with (oslots s) in Hl.
      assert (Hcc : child (oty c) s = Some c).
      { pose proof Hl as Hl'. apply (In_nth _ _ []) in Hl' as (i & Hi & Hl'). rewrite <- Hl' in Hc. destruct (good_routed s Hg i c Hc) as (s' & Hs').
        rewrite (child_slot s _ i s' (good_routed s Hg) Hs'). apply nodup_first; auto. rewrite forallb_forall in D2. rewrite Hl'. now apply nodupN_spec, D2. }
      rewrite Hcc. rewrite Forall_forall in IHsl. specialize (IHsl l Hl). rewrite Forall_forall in IHsl. apply (IHsl c Hc).
      + now apply (good_child s l c).
      + rewrite forallb_forall in D4. specialize (D4 l Hl). rewrite forallb_forall in D4. specialize (D4 c Hc). now rewrite Es in D4.
  Qed.
End Merge.

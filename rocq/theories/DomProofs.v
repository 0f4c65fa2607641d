(** Proofs about reading and writing elements: an element that satisfies [keeps] is read back as it is. *)
From Verif Require Import Common StrMap StringsModel ColorModel AttributesModel AttributesProofs XsdTables XsdModel XsdProofs XmlSpec XmlSpecProofs.
From Verif Require Import SerializerModel SerializerProofs CoordModel HandlerModel HandlerSpec HandlerProofs HandlerProofs2 HandlerProps DomTables DomModel DomSpec.
Local Open Scope N_scope.

Section ObjInd.
  Variable P : obj -> Prop.
  Hypothesis H : forall ty ka ea tx vec sl mis unk, Forall (Forall P) sl -> Forall P mis -> P (Obj ty ka ea tx vec sl mis unk).
  Fixpoint obj_ind2 (o : obj) : P o :=
    let fix lst (l : list obj) : Forall P l :=
      match l with [] => Forall_nil P | x :: r => Forall_cons x (obj_ind2 x) (lst r) end in
    let fix lsts (l : list (list obj)) : Forall (Forall P) l :=
      match l with [] => Forall_nil _ | x :: r => Forall_cons x (lst x) (lsts r) end in
    let 'Obj ty ka ea tx vec sl mis unk := o in H ty ka ea tx vec sl mis unk (lsts sl) (lst mis).
End ObjInd.

(** * Equality tests *)
Lemma attrs_eqb_eq a : forall b, attrs_eqb a b = true -> a = b.
Proof.
  induction a as [|[k v] a IH]; intros [|[k' v'] b]; cbn [attrs_eqb]; try discriminate; auto.
  rewrite !andb_true_iff. intros [[H1 H2] H3]. apply eqs_spec in H1, H2. subst. f_equal. auto.
Qed.
Lemma attrs_eqb_refl a : attrs_eqb a a = true.
Proof. induction a as [|[k v] a IH]; cbn [attrs_eqb]; auto. now rewrite !eqs_refl, IH. Qed.
Lemma opt_attrs_eqb_eq a b : opt_attrs_eqb a b = true -> a = b.
Proof. destruct a, b; cbn; try discriminate; auto. intros H. f_equal. now apply attrs_eqb_eq. Qed.
Lemma ea_eqb_eq a b : ea_eqb a b = true -> a = b.
Proof.
  destruct a as [u x], b as [u' x']. unfold ea_eqb. cbn [unknown xmlns]. rewrite andb_true_iff.
  intros [H1 H2]. apply opt_attrs_eqb_eq in H1, H2. now subst.
Qed.
Lemma opt_str_eqb_eq a b : opt_str_eqb a b = true -> a = b.
Proof. destruct a, b; cbn; try discriminate; auto. intros H. f_equal. now apply eqs_spec. Qed.
Lemma nilb_eq {A} (l : list A) : nilb l = true -> l = [].
Proof. destruct l; [auto|discriminate]. Qed.
Lemma tuples_eqb_eq a b : tuples_eqb a b = true -> a = b.
Proof.
  unfold tuples_eqb. rewrite andb_true_iff. intros [Hl H]. apply Nat.eqb_eq in Hl. revert b Hl H.
  induction a as [|[[a1 a2] a3] a IH]; intros [|[[b1 b2] b3] b]; cbn [length combine forallb]; try discriminate; auto.
  intros Hl. rewrite !andb_true_iff. intros [[[H1 H2] H3] H]. apply eqs_spec in H1, H2, H3. subst. f_equal. apply IH; auto.
Qed.

(** * Building from a log *)
Section Fold.
  Variable E : env.
  Definition entry_step (o : obj) (e : entry) : res obj :=
    match e with
    | LChild c => do c' <- build E c; add_element E o c'
    | LUnknown s => Ok (set_unk o (ounk o ++ [s]))
    | LSelf s => add_self E o s
    | LSchemaId s => Ok (set_ka o (mset (S_ "id") s (oka o)))
    | LExtendedData url sd => Ok (put o Type_ExtendedData [old_data url sd])
    end.
  Fixpoint steps (l : list entry) (o : obj) : res obj :=
    match l with [] => Ok o | e :: r => do o' <- entry_step o e; steps r o' end.
  Lemma build_eq ty a cd log : build E (Node ty a cd log) = steps log (start E ty a cd).
  Proof.
    cbn [build]. generalize (start E ty a cd). induction log as [|e r IH]; intros o; [reflexivity|].
    cbn [steps]. unfold entry_step at 1. destruct e; cbn [bind]; try apply IH.
    - destruct (build E n) as [c| | |]; cbn [bind]; [|reflexivity..]. destruct (add_element E o c); cbn [bind]; [apply IH|reflexivity..].
    - destruct (add_self E o cd0); cbn [bind]; [apply IH|reflexivity..].
  Qed.
  Lemma steps_app a b o : steps (a ++ b) o = do o' <- steps a o; steps b o'.
  Proof. revert o. induction a as [|e a IH]; intros o; [reflexivity|]. cbn [app steps]. destruct (entry_step o e); cbn [bind]; auto. Qed.
  Fixpoint adds (l : list obj) (o : obj) : res obj :=
    match l with [] => Ok o | c :: r => do o' <- add_element E o c; adds r o' end.
  Lemma adds_app a b o : adds (a ++ b) o = do o' <- adds a o; adds b o'.
  Proof. revert o. induction a as [|c a IH]; intros o; [reflexivity|]. cbn [app adds]. destruct (add_element E o c); cbn [bind]; auto. Qed.
  Lemma steps_children ns cs o : Forall2 (fun n c => build E n = Ok c) ns cs -> steps (map LChild ns) o = adds cs o.
  Proof.
    intros H. revert o. induction H as [|n c ns cs Hn H IH]; intros o; [reflexivity|]. cbn [map steps entry_step adds]. rewrite Hn.
    cbn [bind]. destruct (add_element E o c); cbn [bind]; auto.
  Qed.
  Lemma steps_unknown us o : steps (map LUnknown us) o = Ok (set_unk o (ounk o ++ us)).
  Proof.
    revert o. induction us as [|u us IH]; intros o.
    - destruct o. cbn. now rewrite app_nil_r.
    - cbn [map steps entry_step bind]. rewrite IH. destruct o. cbn [ounk set_unk]. now rewrite <- app_assoc.
  Qed.
End Fold.

(** * Tables *)
Definition nodupN (l : list N) : bool :=
  (fix go l := match l with [] => true | x :: r => negb (existsb (N.eqb x) r) && go r end) l.
Lemma nodupN_spec l : nodupN l = true -> NoDup l.
Proof.
  induction l as [|x l IH]; cbn; [constructor|]. rewrite andb_true_iff, negb_true_iff. intros [H1 H2]. constructor; auto.
  intros Hi. assert (existsb (N.eqb x) l = true); [|congruence]. apply existsb_exists. exists x. split; auto. apply N.eqb_refl.
Qed.
Lemma classes_nodup : forallb (fun p => let c := snd p in nodupN (keys (c_slots c)) && nodupN (c_ser c)) classes = true.
Proof. vm_compute. reflexivity. Qed.
Lemma lookup_in {A} k (l : list (N * A)) v : lookup k l = Some v -> In (k, v) l.
Proof.
  induction l as [|[k' v'] l IH]; cbn [lookup]; [discriminate|]. destruct (k =? k') eqn:Ek; intros H.
  - apply N.eqb_eq in Ek. inversion H; subst. now left.
  - right. auto.
Qed.
Lemma class_forall (f : class -> bool) ty : f no_class = true -> forallb (fun p => f (snd p)) classes = true -> f (cls ty) = true.
Proof.
  intros H0 H. unfold cls, class_of. destruct (lookup ty classes) as [c|] eqn:El; auto. apply lookup_in in El.
  rewrite forallb_forall in H. exact (H _ El).
Qed.
Lemma cls_nodup ty : NoDup (keys (c_slots (cls ty))) /\ NoDup (c_ser (cls ty)).
Proof.
  pose proof (class_forall (fun c => nodupN (keys (c_slots c)) && nodupN (c_ser c)) ty eq_refl classes_nodup) as H.
  cbv beta in H. apply andb_true_iff in H as [H1 H2]. split; now apply nodupN_spec.
Qed.
Lemma index_of_key_spec k ss i j : index_of_key k ss i = Some j ->
  (i <= j)%nat /\ nth_error (keys ss) (j - i) = Some k.
Proof.
  revert i. induction ss as [|s ss IH]; intros i; cbn [index_of_key]; [discriminate|]. destruct (s_key s =? k) eqn:Ek; intros H.
  - inversion H; subst. apply N.eqb_eq in Ek. split; [lia|]. rewrite Nat.sub_diag. cbn. now f_equal.
  - apply IH in H as [H1 H2]. split; [lia|]. replace (j - i)%nat with (S (j - S i)) by lia. exact H2.
Qed.
Lemma index_of_key_none k ss i : index_of_key k ss i = None -> ~ In k (keys ss).
Proof.
  revert i. induction ss as [|s ss IH]; intros i; cbn [index_of_key keys map]; [auto|]. destruct (s_key s =? k) eqn:Ek; [discriminate|].
  intros H [Hk|Hk]; [apply N.eqb_neq in Ek; congruence|]. eapply IH; eauto.
Qed.
Lemma find_slot_spec ty ss i j s : find_slot ty ss i = Some (j, s) -> (i <= j)%nat /\ nth_error ss (j - i) = Some s.
Proof.
  revert i. induction ss as [|x ss IH]; intros i; cbn [find_slot]; [discriminate|]. destruct (takes ty x); intros H.
  - inversion H; subst. split; [lia|]. now rewrite Nat.sub_diag.
  - apply IH in H as [H1 H2]. split; [lia|]. replace (j - i)%nat with (S (j - S i)) by lia. exact H2.
Qed.

(** * Adding children *)
Lemma update_length i v l : length (update i v l) = length l.
Proof. revert i. induction l as [|x l IH]; intros [|i]; cbn [update length]; auto. Qed.
Lemma update_nth i v l : (i < length l)%nat -> nth i (update i v l) [] = v.
Proof. revert i. induction l as [|x l IH]; intros [|i] Hi; cbn [update length nth] in *; try lia; auto. apply IH. lia. Qed.
Lemma update_nth_ne i j v l : i <> j -> nth j (update i v l) [] = nth j l [].
Proof.
  revert i j. induction l as [|x l IH]; intros [|i] [|j] Hij; cbn [update nth]; auto; try lia.
Qed.
Lemma update_same i l : update i (nth i l []) l = l.
Proof. revert i. induction l as [|x l IH]; intros [|i]; cbn [update nth]; auto. now rewrite IH. Qed.
Lemma update_twice i v w l : update i v (update i w l) = update i v l.
Proof. revert i. induction l as [|x l IH]; intros [|i]; cbn [update]; auto. now rewrite IH. Qed.

(** A class whose AddElement has no special case for children. *)
Definition ordinary (ty : N) : bool := negb (snippet_type ty) && negb (ty =? Type_coordinates).
Lemma set_slots_slots o v : oslots (set_slots o v) = v. Proof. now destruct o. Qed.
Lemma set_slots_ty o v : oty (set_slots o v) = oty o. Proof. now destruct o. Qed.
Lemma set_slots_twice o v w : set_slots (set_slots o v) w = set_slots o w. Proof. now destruct o. Qed.
Lemma set_slots_same o : set_slots o (oslots o) = o. Proof. now destruct o. Qed.
Lemma set_mis_ty o v : oty (set_mis o v) = oty o. Proof. now destruct o. Qed.

Lemma simple_data_no_slots : c_slots (cls Type_SimpleData) = []. Proof. vm_compute. reflexivity. Qed.
Lemma snippet_no_slots ty : snippet_type ty = true -> c_slots (cls ty) = [].
Proof. unfold snippet_type. rewrite orb_true_iff, !N.eqb_eq. intros [->| ->]; vm_compute; reflexivity. Qed.

Section Adding.
  Variable E : env.
  Definition plain_child (c : obj) : bool := is_simple (oty c).
  Lemma add_slot o c i s : ordinary (oty o) = true -> find_slot (oty c) (c_slots (cls (oty o))) 0 = Some (i, s) ->
    add_element E o c =
      let cur := nth i (oslots o) [] in
      let prev := match cur with v :: _ => otext v | [] => None end in
      let store v := set_slots o (update i v (oslots o)) in
      match s_kind s with
      | KField f => do v <- norm E (oty o) f (oty c) prev (char_data c);
                    Ok (store (match v with Some v => [field (oty c) v] | None => [] end))
      | KFields f => do v <- norm E (oty o) f (oty c) None (char_data c);
                     Ok (store (cur ++ match v with Some v => [field (oty c) v] | None => [] end))
      | KChild => Ok (store [c])
      | KChildren => Ok (store (cur ++ [c]))
      end.
  Proof.
    unfold ordinary. rewrite andb_true_iff, !negb_true_iff. intros [H1 H2] Hf. unfold add_element. rewrite H1, H2.
    destruct (oty o =? Type_SimpleData) eqn:Es.
    - apply N.eqb_eq in Es. rewrite Es, simple_data_no_slots in Hf. discriminate.
    - cbn [andb]. rewrite Hf. reflexivity.
  Qed.
  Lemma add_mis o c : ordinary (oty o) = true -> find_slot (oty c) (c_slots (cls (oty o))) 0 = None ->
    (oty o =? Type_SimpleData) && (oty c =? Type_SimpleData) = false ->
    add_element E o c = Ok (set_mis o (omis o ++ [c])).
  Proof.
    unfold ordinary. rewrite andb_true_iff, !negb_true_iff. intros [H1 H2] Hf Hs. unfold add_element. now rewrite H1, H2, Hs, Hf.
  Qed.
  Lemma adds_mis l : forall o, ordinary (oty o) = true ->
    Forall (fun c => find_slot (oty c) (c_slots (cls (oty o))) 0 = None /\ (oty o =? Type_SimpleData) && (oty c =? Type_SimpleData) = false) l ->
    adds E l o = Ok (set_mis o (omis o ++ l)).
  Proof.
    induction l as [|c l IH]; intros o Ho Hl; cbn [adds].
    - rewrite app_nil_r. now destruct o.
    - inversion Hl as [|? ? [H1 H2] Hl']; subst. rewrite add_mis by auto. cbn [bind]. rewrite IH.
      + destruct o. cbn [set_mis omis]. now rewrite <- app_assoc.
      + now rewrite set_mis_ty.
      + now rewrite set_mis_ty.
  Qed.
  (** Field values that are stored as they are. *)
  Definition is_field (c : obj) : Prop := c = field (oty c) (char_data c).
  Lemma adds_slot p i s l : forall o, oty o = p -> ordinary p = true -> nth_error (c_slots (cls p)) i = Some s ->
    (i < length (oslots o))%nat -> slot_fits E p i s l = true -> nth i (oslots o) [] = [] ->
    Forall (fun c => is_simple (oty c) = true -> is_field c) l ->
    adds E l o = Ok (set_slots o (update i l (oslots o))).
  Proof.
    intros o Ho Hp Hs Hi Hfit Hnth Hl. unfold slot_fits in Hfit. apply andb_true_iff in Hfit as [Hfind Hk].
    assert (Hfind' : forall c, In c l -> find_slot (oty c) (c_slots (cls p)) 0 = Some (i, s)).
    { intros c Hc. rewrite forallb_forall in Hfind. specialize (Hfind c Hc).
      destruct (find_slot (oty c) (c_slots (cls p)) 0) as [[j s']|] eqn:Ef; [|discriminate]. apply Nat.eqb_eq in Hfind. subst j.
      apply find_slot_spec in Ef as [_ Ef]. rewrite Nat.sub_0_r in Ef. congruence. }
    destruct (s_kind s) as [f|f| |] eqn:Ek.
    - apply andb_true_iff in Hk as [Hlen Hk]. destruct l as [|c [|c' l]]; [|clear Hlen|apply Nat.leb_le in Hlen; cbn in Hlen; lia].
      { cbn [adds]. rewrite <- Hnth, update_same, set_slots_same. reflexivity. }
      cbn [adds forallb] in *. rewrite andb_true_r in Hk. apply andb_true_iff in Hk as [Hsim Hk]. unfold reads_same in Hk.
      assert (Hf : find_slot (oty c) (c_slots (cls (oty o))) 0 = Some (i, s)) by (rewrite Ho; apply Hfind'; now left).
      rewrite (add_slot o c i s); [|now rewrite Ho|exact Hf]. cbv zeta. rewrite Ek, Hnth, Ho.
      destruct (norm E p f (oty c) None (char_data c)) as [[w|]| | |]; try discriminate. apply eqs_spec in Hk. subst w. cbn [bind].
      inversion Hl as [|? ? Hc _]; subst. rewrite <- (Hc Hsim). reflexivity.
    - assert (Hgen : forall l1 l0, (forall c, In c l1 -> In c l) ->
        adds E l1 (set_slots o (update i l0 (oslots o))) = Ok (set_slots o (update i (l0 ++ l1) (oslots o)))).
      { intros l1. induction l1 as [|c l1 IH]; intros l0 Hin; cbn [adds]; [now rewrite app_nil_r|].
        assert (Hc : In c l) by (apply Hin; now left).
        rewrite (add_slot _ c i s) by (rewrite set_slots_ty, Ho; auto). cbv zeta. rewrite Ek, set_slots_ty, set_slots_slots, Ho.
        rewrite update_nth by auto. rewrite forallb_forall in Hk. specialize (Hk c Hc). apply andb_true_iff in Hk as [Hsim Hk].
        unfold reads_same in Hk. destruct (norm E p f (oty c) None (char_data c)) as [[w|]| | |]; try discriminate.
        apply eqs_spec in Hk. subst w. cbn [bind]. rewrite Forall_forall in Hl. rewrite <- (Hl c Hc Hsim).
        rewrite set_slots_twice, update_twice. rewrite IH; [now rewrite <- app_assoc|].
        intros x Hx. apply Hin. now right. }
      specialize (Hgen l [] (fun c H => H)). cbn [app] in Hgen. rewrite <- Hgen. f_equal.
      rewrite <- Hnth, update_same, set_slots_same. reflexivity.
    - apply Nat.leb_le in Hk. destruct l as [|c [|c' l]]; [| |cbn in Hk; lia].
      { cbn [adds]. rewrite <- Hnth, update_same, set_slots_same. reflexivity. }
      cbn [adds]. rewrite (add_slot o c i s); [|now rewrite Ho|rewrite Ho; apply Hfind'; now left]. cbv zeta. rewrite Ek. reflexivity.
    - assert (Hgen : forall l1 l0, (forall c, In c l1 -> In c l) ->
        adds E l1 (set_slots o (update i l0 (oslots o))) = Ok (set_slots o (update i (l0 ++ l1) (oslots o)))).
      { intros l1. induction l1 as [|c l1 IH]; intros l0 Hin; cbn [adds]; [now rewrite app_nil_r|].
        rewrite (add_slot _ c i s) by (rewrite set_slots_ty, Ho; auto; apply Hfind', Hin; now left). cbv zeta.
        rewrite Ek, set_slots_slots, update_nth by auto. cbn [bind].
        rewrite set_slots_twice, update_twice. rewrite IH; [now rewrite <- app_assoc|].
        intros x Hx. apply Hin. now right. }
      specialize (Hgen l [] (fun c H => H)). cbn [app] in Hgen. rewrite <- Hgen. f_equal.
      rewrite <- Hnth, update_same, set_slots_same. reflexivity.
  Qed.
End Adding.

(** * Filling the slots in the order of Serialize *)
Definition masked (done ks : list N) (sl : list (list obj)) : list (list obj) :=
  map (fun kl => if existsb (N.eqb (fst kl)) done then snd kl else []) (combine ks sl).
Lemma masked_length done ks sl : length ks = length sl -> length (masked done ks sl) = length sl.
Proof. intros H. unfold masked. rewrite map_length, combine_length. lia. Qed.
Lemma masked_nth done ks sl i k : nth_error ks i = Some k -> length ks = length sl ->
  nth i (masked done ks sl) [] = if existsb (N.eqb k) done then nth i sl [] else [].
Proof.
  revert sl i. unfold masked. induction ks as [|k' ks IH]; intros [|l sl] [|i] Hk Hl; cbn [nth_error] in Hk; try discriminate.
  - inversion Hk; subst. reflexivity.
  - cbn [combine map nth]. apply IH; auto.
Qed.
Lemma masked_nil ks sl : length ks = length sl -> masked [] ks sl = map (fun _ => []) ks.
Proof.
  revert sl. unfold masked. induction ks as [|k ks IH]; intros [|l sl] H; cbn [combine map existsb]; auto; try discriminate.
  f_equal. apply IH. auto.
Qed.
Lemma masked_step done ks sl i k : NoDup ks -> length ks = length sl -> nth_error ks i = Some k ->
  update i (nth i sl []) (masked done ks sl) = masked (k :: done) ks sl.
Proof.
  intros Hn Hl Hi. apply (nth_ext _ _ [] []).
  { rewrite update_length, !masked_length; auto. }
  intros j Hj. rewrite update_length, masked_length in Hj by auto.
  destruct (nth_error ks j) as [k'|] eqn:Ej; [|apply nth_error_None in Ej; lia].
  rewrite (masked_nth _ _ _ _ _ Ej Hl). cbn [existsb]. destruct (Nat.eq_dec i j) as [->|Hij].
  - rewrite update_nth by (rewrite masked_length; auto). assert (k' = k) by congruence. subst. now rewrite N.eqb_refl.
  - rewrite update_nth_ne by auto. rewrite (masked_nth _ _ _ _ _ Ej Hl).
    destruct (k' =? k) eqn:Ek; [|reflexivity]. apply N.eqb_eq in Ek. subst. elim Hij.
    apply (NoDup_nth_error ks); [auto|apply nth_error_Some; congruence|congruence].
Qed.
Lemma masked_skip done ks sl k : ~ In k ks -> masked (k :: done) ks sl = masked done ks sl.
Proof.
  intros H. unfold masked. apply map_ext_in. intros [k' l] Hi. cbn [existsb fst snd]. apply in_combine_l in Hi.
  destruct (k' =? k) eqn:Ek; [|reflexivity]. apply N.eqb_eq in Ek. now subst.
Qed.
Lemma masked_all done ks sl : length ks = length sl ->
  forallb (fun kl : N * list obj => match kl with (k, []) => true | (k, _) => existsb (N.eqb k) done end) (combine ks sl) = true ->
  masked done ks sl = sl.
Proof.
  revert sl. unfold masked. induction ks as [|k ks IH]; intros [|l sl] Hl H; cbn [combine map] in *; auto; try discriminate.
  cbn [forallb] in H. apply andb_true_iff in H as [H1 H2]. f_equal; [|apply IH; auto]. cbn [fst snd]. destruct l; [|now rewrite H1].
  now destruct (existsb (N.eqb k) done).
Qed.
Lemma masked_ext d1 d2 ks sl : (forall k, existsb (N.eqb k) d1 = existsb (N.eqb k) d2) -> masked d1 ks sl = masked d2 ks sl.
Proof. intros H. unfold masked. apply map_ext. intros [k l]. cbn [fst snd]. now rewrite H. Qed.
Lemma slots_fit_nth E p ss : forall i0 sl, slots_fit E p i0 ss sl = true -> length ss = length sl /\
  forall i s, nth_error ss i = Some s -> slot_fits E p (i0 + i) s (nth i sl []) = true.
Proof.
  induction ss as [|s ss IH]; intros i0 [|l sl] H; cbn [slots_fit] in H; try discriminate.
  - split; [reflexivity|]. intros [|i] s H'; discriminate.
  - apply andb_true_iff in H as [H1 H2]. apply IH in H2 as [H2 H3]. split; [cbn; congruence|].
    intros [|i] s' Hs; cbn [nth_error nth] in *.
    + inversion Hs; subst. now rewrite Nat.add_0_r.
    + specialize (H3 i s' Hs). now rewrite <- Nat.add_succ_comm.
Qed.

Section Fill.
  Variable E : env.
  Variable p : N.
  Variable sl : list (list obj).
  Hypothesis Hp : ordinary p = true.
  Hypothesis Hfit : slots_fit E p 0 (c_slots (cls p)) sl = true.
  Hypothesis Hfields : forall l c, In l sl -> In c l -> is_simple (oty c) = true -> is_field c.
  Let ks := keys (c_slots (cls p)).
  Lemma fill_len : length ks = length sl.
  Proof. unfold ks, keys. rewrite map_length. exact (proj1 (slots_fit_nth _ _ _ _ _ Hfit)). Qed.
  Lemma fill todo : forall done o, oty o = p -> oslots o = masked done ks sl -> NoDup todo -> (forall k, In k todo -> ~ In k done) ->
    adds E (flat_map (pick (cls p) sl) todo) o = Ok (set_slots o (masked (rev todo ++ done) ks sl)).
  Proof.
    pose proof fill_len as Hlen. destruct (cls_nodup p) as [Hnd _]. fold ks in Hnd.
    induction todo as [|k todo IH]; intros done o Ho Hs Hn Hd; cbn [flat_map rev app adds].
    - rewrite <- Hs, set_slots_same. reflexivity.
    - inversion Hn as [|? ? Hk Hn']; subst.
      assert (Hstep : adds E (pick (cls (oty o)) sl k) o = Ok (set_slots o (masked (k :: done) ks sl))).
      { unfold pick. destruct (index_of_key k (c_slots (cls (oty o))) 0) as [i|] eqn:Ei.
        - apply index_of_key_spec in Ei as [_ Ei]. rewrite Nat.sub_0_r in Ei. fold ks in Ei.
          assert (exists s, nth_error (c_slots (cls (oty o))) i = Some s) as [s Es].
          { destruct (nth_error (c_slots (cls (oty o))) i) eqn:En; [eauto|]. apply nth_error_None in En.
            assert (Hc : nth_error ks i <> None) by congruence. apply nth_error_Some in Hc. unfold ks, keys in Hc. rewrite map_length in Hc. lia. }
          assert (Hi : (i < length sl)%nat) by (rewrite <- Hlen; apply nth_error_Some; congruence).
          rewrite (adds_slot E (oty o) i s (nth i sl []) o eq_refl Hp Es).
          + rewrite Hs, (masked_step done ks sl i k) by auto. reflexivity.
          + rewrite Hs, masked_length by auto. exact Hi.
          + exact (proj2 (slots_fit_nth _ _ _ _ _ Hfit) i s Es).
          + rewrite Hs, (masked_nth _ _ _ _ _ Ei Hlen). destruct (existsb (N.eqb k) done) eqn:Ed; [|reflexivity].
            apply existsb_exists in Ed as (x & Hx & Ex). apply N.eqb_eq in Ex. subst x. elim (Hd k); [now left|auto].
          + apply Forall_forall. intros c Hc. apply (Hfields (nth i sl [])); auto. now apply nth_In.
        - cbn [adds]. apply index_of_key_none in Ei. fold ks in Ei. rewrite masked_skip by auto. now rewrite <- Hs, set_slots_same. }
      rewrite adds_app, Hstep. cbn [bind]. rewrite (IH (k :: done)).
      + rewrite set_slots_twice. f_equal. f_equal. apply masked_ext. intros x. rewrite <- app_assoc, !existsb_app. cbn [existsb app].
        now rewrite orb_false_r.
      + now rewrite set_slots_ty.
      + now rewrite set_slots_slots.
      + auto.
      + intros x Hx [Hxk|Hxd]; [subst; contradiction|]. apply (Hd x); auto. now right.
  Qed.
  Lemma fill_all o : oty o = p -> oslots o = map (fun _ => []) (c_slots (cls p)) ->
    forallb (fun kl : N * list obj => match kl with (k, []) => true | (k, _) => existsb (N.eqb k) (c_ser (cls p)) end) (combine ks sl) = true ->
    adds E (flat_map (pick (cls p) sl) (c_ser (cls p))) o = Ok (set_slots o sl).
  Proof.
    intros Ho Hs Hall. rewrite (fill (c_ser (cls p)) [] o Ho).
    - rewrite app_nil_r. f_equal. f_equal. rewrite (masked_ext _ (c_ser (cls p))); [apply masked_all; [exact fill_len|exact Hall]|].
      intros k. apply eq_true_iff_eq. rewrite !existsb_exists. split; intros (x & Hx & Ex); exists x; split; auto; [apply in_rev in Hx|apply -> in_rev]; auto.
    - rewrite masked_nil by exact fill_len. rewrite Hs. unfold ks, keys. now rewrite map_map.
    - apply cls_nodup.
    - auto.
  Qed.
End Fill.

(** * Attributes *)
Lemma attrs_of_sorted a : msorted a -> attrs_of a = a.
Proof.
  intros H. change (attrs_of a) with (of_pairs a). destruct (of_pairs_spec a) as [Hs Hv].
  apply msorted_ext; auto. intros k. change (mget k (of_pairs a)) with (view (of_pairs a) k). rewrite Hv. clear Hs Hv.
  induction a as [|[k' v] a IH]; [reflexivity|]. pose proof (msorted_nodup _ H) as Hn. cbn [map fst] in Hn. inversion Hn; subst.
  cbn [last_value mget]. inversion H; subst. rewrite IH by auto. destruct (eqs k k') eqn:Ek.
  - apply eqs_spec in Ek. subst k'. destruct (mget k a) eqn:Eg; auto. apply mget_in in Eg. elim H2. now apply (in_map fst) in Eg.
  - now destruct (mget k a).
Qed.
Lemma merge_fold_sorted (l m : attrs) : msorted m -> msorted (merge_attributes m l).
Proof.
  unfold merge_attributes. revert m. induction l as [|[k v] l IH]; intros m H; cbn [fold_left]; auto. apply IH. now apply mset_sorted.
Qed.
Lemma serialize_attributes_sorted e m : msorted m -> msorted (serialize_attributes e m).
Proof.
  intros H. assert (Hf : forall x m1 : attrs, msorted m1 ->
    msorted (fold_left (fun acc kv => mset (xmlns_key (fst kv)) (snd kv) acc) x m1)).
  { intros x. induction x as [|[k v] x IH]; intros m1 H1; cbn [fold_left]; [exact H1|]. apply IH. now apply mset_sorted. }
  unfold serialize_attributes. destruct (xmlns e), (unknown e); auto using merge_fold_sorted.
Qed.
Lemma out_attributes_sorted o : msorted (out_attributes o).
Proof. apply merge_fold_sorted, serialize_attributes_sorted, msorted_nil. Qed.
Lemma cut_known_nil E ty ks ka : cut_known E ty ks [] ka = ([], ka).
Proof. induction ks as [|[k kd] ks IH]; cbn [cut_known]; auto. Qed.
Lemma parse_no_attributes E o : oea o = no_attrs -> parse_attributes E o [] = o.
Proof. intros H. unfold parse_attributes. rewrite cut_known_nil, H. destruct o. cbn in *. now subst. Qed.
Lemma parse_attributes_split E o a : parse_attributes E o a =
  set_ea (set_ka o (oka (parse_attributes E o a))) (oea (parse_attributes E o a)).
Proof. unfold parse_attributes. destruct (cut_known E (oty o) (c_atts (cls (oty o))) a (oka o)). now destruct o. Qed.

(** * Reading the written document *)
Section Reads.
  Variable E : env.
  Variables nl ind : str.
  Let rec := received keep_all.
  Lemma rec_chars p s : flat_map (rec p) (chars s) = [].
  Proof. unfold chars. induction s; cbn [map flat_map]; auto. Qed.
  Lemma rec_pre p d k : flat_map (rec p) (fst (doc nl ind d k)) = [].
  Proof. destruct k; cbn [doc fst]; auto. apply rec_chars. Qed.
  Lemma rec_content p d ks : flat_map (rec p) (content nl ind d ks) = flat_map (fun k => flat_map (rec p) (snd (doc nl ind (S d) k))) ks.
  Proof.
    unfold content. destruct ks as [|k ks]; [reflexivity|]. cbn [map flat_map]. rewrite !flat_map_app, !rec_chars, app_nil_r. cbn [app].
    f_equal. induction ks as [|k' ks IH]; [reflexivity|]. cbn [map flat_map]. rewrite !flat_map_app, rec_pre, IH. reflexivity.
  Qed.
  (** The node the parser makes of an element with known type. *)
  Definition reader_node (ty : N) (n : str) (a : list (str * str)) (ks : list xml) : node :=
    if ty =? Type_description then Node ty (node_atts n a) (flat_map raw ks) []
    else Node ty (node_atts n a) (direct_text ks) (flat_map (rec ty) ks ++ self_entry ty (direct_text ks)).
  Lemma rec_elem p n a ks ty : known_type p n = Some ty -> rec p (XElem n a ks) = [LChild (reader_node ty n a ks)].
  Proof. intros H. unfold rec. cbn [received]. rewrite H. reflexivity. Qed.
  Lemma tree_elem n a ks ty : known_type Type_Unknown n = Some ty -> tree keep_all (XElem n a ks) = Some (reader_node ty n a ks).
  Proof. intros H. cbn [tree]. rewrite H. reflexivity. Qed.
  Lemma direct_chars s : direct_text (chars s) = s.
  Proof. unfold direct_text, chars. induction s as [|c s IH]; [reflexivity|]. cbn [map flat_map app]. now f_equal. Qed.
  Lemma raw_chars s : flat_map raw (chars s) = s.
  Proof. unfold chars. induction s as [|c s IH]; [reflexivity|]. cbn [map flat_map raw app]. now f_equal. Qed.
  Lemma known_simple p n ty : known_type p n = Some ty -> is_simple (element_id n) = is_simple ty.
  Proof.
    unfold known_type. intros H. destruct (creatable (element_id n)) eqn:Ec.
    - assert (is_simple (element_id n) = false) as ->.
      { unfold creatable in Ec. unfold is_simple. destruct (element_type (Z.of_N (element_id n))); auto; discriminate. }
      destruct ((element_id n =? Type_Icon) && (p =? Type_IconStyle)); inversion H; subst; [reflexivity|].
      unfold creatable in Ec. unfold is_simple. destruct (element_type (Z.of_N (element_id n))); auto; discriminate.
    - destruct (is_simple (element_id n)) eqn:Es; inversion H; subst; congruence.
  Qed.
  Lemma simple_not_self ty : is_simple ty = true -> self_parsed ty = false.
  Proof.
    intros H. destruct (self_parsed ty) eqn:Ep; auto. exfalso. revert H. unfold self_parsed in Ep.
    rewrite !orb_true_iff, !N.eqb_eq in Ep. intuition; subst; vm_compute in H; discriminate.
  Qed.
  (** What the writer makes of an element: an element in the document, with what the parser makes of it. *)
  Definition elem_of (d : nat) (i : item) : str * list (str * str) * list xml :=
    match i with
    | IElem ty a ks => (tag_name ty, a, content nl ind d ks)
    | IField ty v | IColor ty v => (tag_name ty, [], chars v)
    | _ => ([], [], [])
    end.
  Definition is_elem (i : item) : bool := match i with IElem _ _ _ | IField _ _ | IColor _ _ => true | _ => false end.
  Lemma rec_doc p d i n a ks : is_elem i = true -> elem_of d i = (n, a, ks) ->
    flat_map (rec p) (snd (doc nl ind d i)) = rec p (XElem n a ks).
  Proof.
    intros Hi He. destruct i as [ty a' ks'|ty v|ty v|s|x y z|s]; try discriminate; cbn [elem_of] in He; inversion He; subst; cbn [doc snd].
    - rewrite flat_map_app, rec_chars. cbn [app]. unfold content. destruct ks' as [|k ks']; cbn [map].
      + cbn [flat_map]. rewrite rec_chars, app_nil_r. reflexivity.
      + rewrite flat_map_app, rec_pre. cbn [app flat_map]. rewrite rec_chars, app_nil_r. reflexivity.
    - rewrite flat_map_app, rec_chars. cbn [app flat_map]. rewrite rec_chars, app_nil_r. reflexivity.
    - rewrite flat_map_app, rec_chars. cbn [app flat_map]. rewrite rec_chars, app_nil_r. reflexivity.
  Qed.
  Lemma ser_is_elem o : is_elem (ser o) = true.
  Proof. destruct o as [ty ka ea tx vec sl mis unk]. cbn [ser]. destruct (is_simple ty); [reflexivity|]. now destruct (ty =? Type_coordinates). Qed.
  Lemma vec_chars d vs : forall p, flat_map (rec p) (content nl ind d (map vec_item vs)) = [].
  Proof.
    intros p. rewrite rec_content. induction vs as [|[[a b] c] vs IH]; [reflexivity|]. cbn [map flat_map vec_item doc snd].
    rewrite rec_chars. exact IH.
  Qed.
  Lemma keeps_field d p o : keeps E nl ind d p o = true -> is_simple (oty o) = true -> is_field o.
  Proof.
    destruct o as [ty ka ea tx vec sl mis unk]. cbn [keeps oty]. intros H Hs. rewrite Hs in H. rewrite !andb_true_iff in H.
    destruct H as (_ & ((((((H1 & H2) & H3) & H4) & H5) & H6) & H7)). apply nilb_eq in H2, H4, H5, H6, H7. apply ea_eqb_eq in H3. subst.
    destruct tx; [reflexivity|discriminate].
  Qed.
  Definition reads (d : nat) (p : N) (o : obj) : Prop :=
    exists n a ks, elem_of d (ser o) = (n, a, ks) /\ known_type p n = Some (oty o) /\ build E (reader_node (oty o) n a ks) = Ok o.
  Lemma reads_children d p l : Forall (fun o => reads d p o) l ->
    exists ns, Forall2 (fun n c => build E n = Ok c) ns l /\
      flat_map (fun k => flat_map (rec p) (snd (doc nl ind d k))) (map ser l) = map LChild ns.
  Proof.
    induction 1 as [|o l (n & a & ks & He & Hk & Hb) Hl (ns & H1 & H2)]; [exists []; split; [constructor|reflexivity]|].
    exists (reader_node (oty o) n a ks :: ns). split; [constructor; auto|]. cbn [map flat_map]. rewrite H2.
    rewrite (rec_doc p d (ser o) n a ks (ser_is_elem o) He). rewrite (rec_elem p n a ks (oty o) Hk). reflexivity.
  Qed.
  Lemma unknown_rec p d us : forallb (unknown_same p) us = true ->
    flat_map (fun k => flat_map (rec p) (snd (doc nl ind d k))) (map IUnknown us) = map LUnknown us.
  Proof.
    induction us as [|u us IH]; [reflexivity|]. cbn [forallb]. rewrite andb_true_iff. intros [H1 H2]. cbn [map flat_map doc snd].
    rewrite IH by auto. unfold unknown_same in H1. unfold markup_of. destruct (markup u) as [F|]; [|discriminate].
    destruct F as [|[n a ks|] [|[|c] [|]]]; try discriminate. destruct (known_type p n) eqn:Ek; [discriminate|].
    apply andb_true_iff in H1 as [H1 _]. apply eqs_spec in H1. cbn [flat_map app]. unfold rec. cbn [received]. rewrite Ek.
    cbn [app]. f_equal. f_equal. exact H1.
  Qed.
  Lemma own_rec p d ty tx : flat_map (fun k => flat_map (rec p) (snd (doc nl ind d k))) (own_content ty tx) = [].
  Proof.
    unfold own_content. destruct (snippet_type ty); [|destruct (ty =? Type_SimpleData); [destruct tx|]]; cbn [flat_map doc snd];
      rewrite ?rec_chars; reflexivity.
  Qed.
  Lemma pick_map {A B} (f : A -> B) c l k : pick c (map (map f) l) k = map f (pick c l k).
  Proof.
    unfold pick. destruct (index_of_key k (c_slots c) 0) as [i|]; [|reflexivity]. exact (map_nth (map f) l [] i).
  Qed.
  Lemma pick_in {A} c (l : list (list A)) k x : In x (pick c l k) -> exists y, In y l /\ In x y.
  Proof.
    unfold pick. destruct (index_of_key k (c_slots c) 0) as [i|]; [|intros []]. intros H.
    destruct (nth_in_or_default i l []) as [Hi|Hi]; [eauto|]. rewrite Hi in H. destruct H.
  Qed.
End Reads.

(** Proofs about SplitModel.v: the features of a document before and after SplitStyles. *)
From Verif Require Import Common StrMap StringsModel ColorModel AttributesModel AttributesProofs XsdTables XsdModel XmlSpec SerializerModel CoordModel HandlerModel.
From Verif Require Import DomTables DomModel DomSpec DomProofs DomProofs2 DomParsed CloneModel CloneProofs MergeModel MergeProofs IdModel StyleModel StyleProofs SplitModel SplitProofs.
Local Open Scope N_scope.

(** ** Nodes *)
Lemma node_all (P : node -> Prop) : (forall ty a cd log, (forall c, In (LChild c) log -> P c) -> P (Node ty a cd log)) -> forall n, P n.
Proof.
  intros H. fix IH 1. intros [ty a cd log]. apply H. induction log as [|e l IHl]; intros c Hin; [destruct Hin|]. destruct Hin as [He|Hin]; [|now apply IHl].
  destruct e; try discriminate. specialize (IH n). injection He as <-. exact IH.
Qed.
Definition on_children (f : node -> bool) (log : list entry) : bool := forallb (fun e => match e with LChild c => f c | _ => true end) log.
Lemma on_children_in f log c : on_children f log = true -> In (LChild c) log -> f c = true.
Proof. unfold on_children. rewrite forallb_forall. intros H Hin. exact (H _ Hin). Qed.

(** ** What AddElement does to a place *)
Definition effect (p c : N) : option (N * kind) :=
  if snippet_type p || (p =? Type_coordinates) || ((p =? Type_SimpleData) && (c =? Type_SimpleData)) then None
  else match find_slot c (c_slots (cls p)) 0 with Some (_, s) => Some (s_key s, s_kind s) | None => None end.
Definition sized (o : obj) : Prop := length (oslots o) = length (c_slots (cls (oty o))).
Definition arrives (kd : kind) (cur : list obj) (c : obj) (l : list obj) : Prop :=
  match kd with
  | KField FString => l = [field (oty c) (char_data c)]
  | KChild => l = [c]
  | KChildren => l = cur ++ [c]
  | _ => True
  end.
Lemma index_of_key_at ss : NoDup (keys ss) -> forall i j s, nth_error ss i = Some s -> index_of_key (s_key s) ss j = Some (j + i)%nat.
Proof.
  induction ss as [|x ss IH]; intros Hn i j s Hi; [destruct i; discriminate|]. cbn [keys map] in Hn. inversion Hn as [|? ? Hx Hn']; subst. destruct i as [|i]; cbn [nth_error] in Hi.
  - injection Hi as ->. cbn [index_of_key]. rewrite N.eqb_refl. f_equal. lia.
  - cbn [index_of_key]. destruct (s_key x =? s_key s) eqn:Ek.
    + exfalso. apply N.eqb_eq in Ek. apply Hx. rewrite Ek. apply nth_error_In in Hi. unfold keys. now apply in_map.
    + rewrite (IH Hn' i (S j) s Hi). f_equal. lia.
Qed.
Lemma get_update o i s v k : sized o -> nth_error (c_slots (cls (oty o))) i = Some s ->
  get (set_slots o (update i v (oslots o))) k = if s_key s =? k then v else get o k.
Proof.
  intros Hs Hi. destruct o as [ty ka ea tx vec sl mis unk]. unfold get, sized in *. cbn [set_slots oty oslots] in *. destruct (s_key s =? k) eqn:Ek.
  - apply N.eqb_eq in Ek. subst k. rewrite (index_of_key_at _ (proj1 (cls_nodup ty)) i 0 s Hi). cbn [Nat.add]. apply update_nth. rewrite Hs. apply nth_error_Some. congruence.
  - destruct (index_of_key k (c_slots (cls ty)) 0) as [j|] eqn:Ej; [|reflexivity]. apply update_nth_ne. intros ->. apply index_of_key_spec in Ej as [_ Ej]. rewrite Nat.sub_0_r in Ej. unfold keys in Ej. rewrite nth_error_map, Hi in Ej. cbn in Ej. apply N.eqb_neq in Ek. congruence.
Qed.
Lemma put_get o k v j : sized o -> get (put o k v) j = if (k =? j) && match index_of_key k (c_slots (cls (oty o))) 0 with Some _ => true | None => false end then v else get o j.
Proof.
  intros Hs. unfold put. destruct (index_of_key k (c_slots (cls (oty o))) 0) as [i|] eqn:Ei; [|now rewrite andb_false_r]. rewrite andb_true_r.
  pose proof (index_of_key_spec _ _ _ _ Ei) as [_ Hi]. rewrite Nat.sub_0_r in Hi. unfold keys in Hi. rewrite nth_error_map in Hi. destruct (nth_error (c_slots (cls (oty o))) i) as [s|] eqn:En; [|discriminate]. cbn in Hi. injection Hi as Hk.
  rewrite (get_update o i s v j Hs En). now rewrite Hk.
Qed.
Lemma put_sized o k v : sized o -> sized (put o k v).
Proof. intros Hs. unfold put. destruct (index_of_key k _ 0); [|exact Hs]. destruct o. unfold sized in *. cbn [set_slots oty oslots] in *. now rewrite update_length. Qed.
Lemma put_type o k v : oty (put o k v) = oty o.
Proof. unfold put. destruct (index_of_key k _ 0); [|reflexivity]. now destruct o. Qed.
Lemma same_slots o o2 k : oty o = oty o2 -> oslots o = oslots o2 -> get o k = get o2 k.
Proof. unfold get. intros -> ->. reflexivity. Qed.
Section Steps.
  Variable E : env.
  Lemma add_get p c r : sized p -> add_element E p c = Ok r -> sized r /\ oty r = oty p /\
    forall k, match effect (oty p) (oty c) with
              | Some (k', kd) => if k' =? k then arrives kd (get p k) c (get r k) else get r k = get p k
              | None => get r k = get p k
              end.
  Proof.
    intros Hs. unfold add_element, effect.
    destruct (snippet_type (oty p)); cbn [orb]; [intros H; injection H as <-; destruct p; auto|].
    destruct (oty p =? Type_coordinates); cbn [orb]; [intros H; injection H as <-; destruct p; auto|].
    destruct ((oty p =? Type_SimpleData) && (oty c =? Type_SimpleData)); [intros H; injection H as <-; destruct p; auto|].
    destruct (find_slot (oty c) (c_slots (cls (oty p))) 0) as [[i s]|] eqn:Ef; [|intros H; injection H as <-; destruct p; auto].
    apply find_slot_spec in Ef as [_ Hi]. rewrite Nat.sub_0_r in Hi.
    assert (G : forall v, sized (set_slots p (update i v (oslots p))) /\ oty (set_slots p (update i v (oslots p))) = oty p) by (intros v; destruct p; unfold sized in *; cbn [set_slots oty oslots] in *; now rewrite update_length).
    assert (Hcur : nth i (oslots p) [] = get p (s_key s)) by (unfold get; now rewrite (index_of_key_at _ (proj1 (cls_nodup (oty p))) i 0 s Hi)).
    assert (K : forall v (A : list obj -> list obj -> Prop), A (get p (s_key s)) v -> forall k, if s_key s =? k then A (get p k) (get (set_slots p (update i v (oslots p))) k) else get (set_slots p (update i v (oslots p))) k = get p k).
    { intros v A Ha k. rewrite (get_update p i s v k Hs Hi). destruct (s_key s =? k) eqn:Ek; [|reflexivity]. apply N.eqb_eq in Ek. now subst k. }
    destruct (s_kind s) as [f|f| |] eqn:Ek.
    - destruct (norm E (oty p) f (oty c) _ (char_data c)) as [v| | |] eqn:Ev; cbn [bind]; try discriminate. intros H; injection H as <-. split; [apply G|]. split; [apply G|].
      intros k. apply (K _ (fun cur l => arrives (KField f) cur c l)). destruct f; cbn [arrives]; auto. cbn [norm] in Ev. now injection Ev as <-.
    - destruct (norm E (oty p) f (oty c) None (char_data c)) as [v| | |]; cbn [bind]; try discriminate. intros H; injection H as <-. split; [apply G|]. split; [apply G|].
      intros k. now apply (K _ (fun cur l => arrives (KFields f) cur c l)).
    - intros H; injection H as <-. split; [apply G|]. split; [apply G|]. intros k. now apply (K _ (fun cur l => arrives KChild cur c l)).
    - intros H; injection H as <-. split; [apply G|]. split; [apply G|]. intros k. apply (K _ (fun cur l => arrives KChildren cur c l)). cbn [arrives]. now rewrite Hcur.
  Qed.
  (** Entries other than children. *)
  Lemma entry_get e p r : (forall c, e <> LChild c) -> sized p -> add_entry E e p = Ok r -> sized r /\ oty r = oty p /\ forall k, k <> Type_ExtendedData -> get r k = get p k.
  Proof.
    intros He Hs. destruct e as [c|s|s|s|url sd]; cbn [add_entry]; [now destruct (He c)|..].
    - intros H; injection H as <-. destruct p; auto.
    - unfold add_self. destruct (oty p =? Type_coordinates).
      { destruct (coordinates_parse s) as [vs| | |]; cbn [bind]; try discriminate. intros H; injection H as <-. destruct p; auto. }
      destruct (snippet_type (oty p) || (oty p =? Type_SimpleData)); intros H; injection H as <-; destruct p; auto.
    - intros H; injection H as <-. destruct p; auto.
    - intros H; injection H as <-. split; [now apply put_sized|]. split; [apply put_type|]. intros k Hk. rewrite put_get by exact Hs. destruct (Type_ExtendedData =? k) eqn:E1; [apply N.eqb_eq in E1; congruence|]. reflexivity.
  Qed.
  Lemma entry_same e p : (forall c, e <> LChild c) -> entry_step E p e = add_entry E e p.
  Proof. intros He. destruct e as [c|s|s|s|url sd]; try reflexivity. now destruct (He c). Qed.
  (** Tables *)
  Lemma simple_no_slots ty : is_simple ty = true -> c_slots (cls ty) = [].
  Proof.
    intros H. unfold cls, class_of. destruct (lookup ty classes) as [c|] eqn:El; [|reflexivity]. apply lookup_in in El.
    assert (G : forallb (fun p => negb (is_simple (fst p)) || match c_slots (snd p) with [] => true | _ => false end) classes = true) by (vm_compute; reflexivity).
    rewrite forallb_forall in G. specialize (G _ El). cbn [fst snd] in G. rewrite H in G. cbn in G. now destruct (c_slots c).
  Qed.
  Lemma start_sized ty a cd : sized (start E ty a cd) /\ oty (start E ty a cd) = ty.
  Proof.
    unfold start. destruct (is_simple ty) eqn:Hs.
    - split; [|reflexivity]. unfold sized. cbn [field oslots oty]. now rewrite simple_no_slots.
    - assert (G : sized (create ty)) by (unfold sized, create; cbn [oslots oty]; now rewrite map_length).
      destruct a as [a|]; [|auto]. pose proof (parse_attributes_body E (create ty) a) as Hb. split; [|exact (body_ty _ _ Hb)]. unfold sized in *. now rewrite (body_ty _ _ Hb), (body_slots _ _ Hb).
  Qed.
  Lemma start_empty ty a cd k : get (start E ty a cd) k = [].
  Proof.
    unfold get, start. destruct (index_of_key k _ 0) as [i|]; [|reflexivity]. destruct (is_simple ty); [now destruct i|].
    destruct a as [a|]; [|apply new_empty]. rewrite (body_slots _ _ (parse_attributes_body E (create ty) a)). apply new_empty.
  Qed.
  Lemma is_a_base ty g : is_a ty g = true -> ty = g \/ In ty (map fst bases).
  Proof. unfold is_a. rewrite orb_true_iff, N.eqb_eq. intros [H|H]; [auto|]. right. destruct (lookup ty bases) as [l|] eqn:El; [|discriminate]. apply lookup_in in El. now apply (in_map fst) in El. Qed.
  Lemma is_a_check ty g (f : N -> bool) : is_a ty g = true -> forallb (fun t => negb (is_a t g) || f t) (g :: map fst bases) = true -> f ty = true.
  Proof.
    intros H Hf. rewrite forallb_forall in Hf. assert (Hin : In ty (g :: map fst bases)) by (destruct (is_a_base _ _ H) as [->|]; [now left|now right]).
    specialize (Hf _ Hin). now rewrite H in Hf.
  Qed.
  Lemma effect_slot p c k kd : effect p c = Some (k, kd) -> exists s, In s (c_slots (cls p)) /\ takes c s = true /\ s_key s = k /\ s_kind s = kd.
  Proof.
    unfold effect. destruct (_ || _); [discriminate|]. destruct (find_slot c (c_slots (cls p)) 0) as [[i s]|] eqn:Ef; [|discriminate]. intros H; injection H as H1 H2. exists s.
    assert (G : takes c s = true) by (revert Ef; generalize 0%nat; induction (c_slots (cls p)) as [|x l IH]; intros j; cbn [find_slot]; [discriminate|]; destruct (takes c x) eqn:Et; [intros H; injection H as _ <-; exact Et|apply IH]).
    apply find_slot_spec in Ef as [_ Hi]. apply nth_error_In in Hi. auto.
  Qed.
  Definition key_tests (c : class) : bool := forallb (fun s =>
    (if s_key s =? Type_styleUrl then match s_tests s, s_kind s with [TType t], KField FString => t =? Type_styleUrl | _, _ => false end else true) &&
    (if s_key s =? Type_Feature then match s_tests s, s_kind s with [TIsA t], KChild => t =? Type_Feature | [TIsA t], KChildren => t =? Type_Feature | _, _ => false end else true) &&
    (if s_key s =? Type_StyleSelector then match s_tests s with [TIsA t] => t =? Type_StyleSelector | _ => false end else true)) (c_slots c).
  Lemma key_tests_all ty : key_tests (cls ty) = true.
  Proof. apply (class_forall key_tests); vm_compute; reflexivity. Qed.
  Lemma effect_url p c kd : effect p c = Some (Type_styleUrl, kd) -> c = Type_styleUrl /\ kd = KField FString.
  Proof.
    intros H. apply effect_slot in H as (s & Hin & Ht & Hk & Hd). pose proof (key_tests_all p) as G. unfold key_tests in G. rewrite forallb_forall in G. specialize (G s Hin). rewrite Hk in G. change (Type_styleUrl =? Type_styleUrl) with true in G. cbv iota in G.
    apply andb_true_iff in G as [G _]. apply andb_true_iff in G as [G _]. unfold takes in Ht. destruct (s_tests s) as [|[t|t] [|]]; try discriminate. destruct (s_kind s) as [[]| | |]; try discriminate. cbn [existsb accepts] in Ht. rewrite orb_false_r in Ht. apply N.eqb_eq in Ht, G. split; congruence.
  Qed.
  Lemma effect_feature p c kd : effect p c = Some (Type_Feature, kd) -> is_a c Type_Feature = true /\ (kd = KChild \/ kd = KChildren).
  Proof.
    intros H. apply effect_slot in H as (s & Hin & Ht & Hk & Hd). pose proof (key_tests_all p) as G. unfold key_tests in G. rewrite forallb_forall in G. specialize (G s Hin). rewrite Hk in G. change (Type_Feature =? Type_Feature) with true in G. cbv iota in G.
    apply andb_true_iff in G as [G _]. apply andb_true_iff in G as [_ G]. unfold takes in Ht. destruct (s_tests s) as [|[t|t] [|]]; try discriminate. cbn [existsb accepts] in Ht. rewrite orb_false_r in Ht.
    destruct (s_kind s) as [| | |]; try discriminate; apply N.eqb_eq in G; subst t; split; auto.
  Qed.
  Lemma effect_selector p c kd : effect p c = Some (Type_StyleSelector, kd) -> is_a c Type_StyleSelector = true.
  Proof.
    intros H. apply effect_slot in H as (s & Hin & Ht & Hk & Hd). pose proof (key_tests_all p) as G. unfold key_tests in G. rewrite forallb_forall in G. specialize (G s Hin). rewrite Hk in G. change (Type_StyleSelector =? Type_StyleSelector) with true in G. cbv iota in G.
    apply andb_true_iff in G as [_ G]. unfold takes in Ht. destruct (s_tests s) as [|[t|t] [|]]; try discriminate. cbn [existsb accepts] in Ht. rewrite orb_false_r in Ht. apply N.eqb_eq in G. now subst t.
  Qed.
  Lemma feature_url p : is_a p Type_Feature = true -> p <> Type_Feature -> effect p Type_styleUrl = Some (Type_styleUrl, KField FString).
  Proof.
    intros H H1. pose proof (is_a_check p Type_Feature (fun p => (p =? Type_Feature) || match effect p Type_styleUrl with Some (k, KField FString) => k =? Type_styleUrl | _ => false end) H) as G.
    cbv beta in G. rewrite !orb_true_iff, !N.eqb_eq in G. destruct G as [G|G]; [vm_compute; reflexivity|contradiction..|]. destruct (effect p Type_styleUrl) as [[k [[]| | |]]|]; try discriminate. apply N.eqb_eq in G. now subst.
  Qed.
  Lemma feature_selector p c : is_a p Type_Feature = true -> p <> Type_Feature -> is_a c Type_StyleSelector = true ->
    effect p c = Some (Type_StyleSelector, if is_a p Type_Document then KChildren else KChild).
  Proof.
    intros H H1 H2.
    pose proof (is_a_check p Type_Feature (fun p => (p =? Type_Feature) || forallb (fun c => negb (is_a c Type_StyleSelector) || match effect p c with Some (k, kd) => (k =? Type_StyleSelector) && match kd with KChildren => is_a p Type_Document | KChild => negb (is_a p Type_Document) | _ => false end | _ => false end) (Type_StyleSelector :: map fst bases)) H) as G.
    cbv beta in G. rewrite orb_true_iff, N.eqb_eq in G. destruct G as [G|G]; [vm_compute; reflexivity|contradiction|].
    pose proof (is_a_check c Type_StyleSelector _ H2 G) as K. cbv beta in K. destruct (effect p c) as [[k kd]|]; [|discriminate]. apply andb_true_iff in K as [K1 K2]. apply N.eqb_eq in K1. subst k. destruct kd; try discriminate; [apply negb_true_iff in K2|]; now rewrite K2.
  Qed.
  Lemma document_only ty : is_a ty Type_Document = true -> ty = Type_Document.
  Proof. intros H. pose proof (is_a_check ty Type_Document (fun t => t =? Type_Document) H) as G. apply N.eqb_eq, G. vm_compute. reflexivity. Qed.
  Lemma has_place ty k : is_a ty Type_Feature = true -> ty <> Type_Feature -> k = Type_styleUrl \/ k = Type_StyleSelector -> exists i, index_of_key k (c_slots (cls ty)) 0 = Some i.
  Proof.
    intros H H1 H2.
    pose proof (is_a_check ty Type_Feature (fun p => (p =? Type_Feature) || forallb (fun k => match index_of_key k (c_slots (cls p)) 0 with Some _ => true | None => false end) [Type_styleUrl; Type_StyleSelector]) H) as G.
    cbv beta in G. rewrite orb_true_iff, N.eqb_eq in G. destruct G as [G|G]; [vm_compute; reflexivity|contradiction|]. rewrite forallb_forall in G. specialize (G k). destruct (index_of_key k _ 0) as [i|]; [eauto|]. exfalso. assert (false = true); [|discriminate]. apply G. destruct H2 as [->| ->]; cbn; auto.
  Qed.
End Steps.

(** Type tests, casts and visit functions against the classes of the elements. *)
From Coq Require Import List NArith ZArith Lia Bool.
From Verif Require Import Common XsdTables XsdModel HandlerModel DomTables DomModel CastModel.
Import ListNotations.
Local Open Scope N_scope.

(** Specification: class [a] is class [c] or derives from it. *)
Inductive derives : N -> N -> Prop :=
| d_self : forall a, derives a a
| d_base : forall a b c, In (a, b) base_class -> derives b c -> derives a c.

Lemma creatable_small t : creatable t = true -> In t (map N.of_nat (seq 0 (N.to_nat Type_Invalid))).
Proof.
  unfold creatable, element_type. destruct (is_valid (Z.of_N t)) eqn:V; [|discriminate]. intros _. unfold is_valid in V. apply andb_true_iff in V as [_ V]. apply Z.ltb_lt in V.
  apply in_map_iff. exists (N.to_nat t). split; [apply N2Nat.id|]. apply in_seq. assert (t < Type_Invalid) by lia. lia.
Qed.
Definition made : list N := filter creatable (map N.of_nat (seq 0 (N.to_nat Type_Invalid))).
Lemma made_in t : creatable t = true <-> In t made.
Proof. unfold made. rewrite filter_In. split; [intros H; split; [now apply creatable_small|exact H]|tauto]. Qed.
Lemma lookup_some {A} k (l : list (N * A)) v : lookup k l = Some v -> In (k, v) l.
Proof. induction l as [|[k' w] l IH]; [discriminate|]. cbn. destruct (N.eqb_spec k k') as [->|]; [intros H; inversion H; subst; now left|right; auto]. Qed.
Fixpoint leq (a b : list N) : bool := match a, b with [], [] => true | x :: a', y :: b' => (x =? y) && leq a' b' | _, _ => false end.
Lemma leq_eq a : forall b, leq a b = true -> a = b.
Proof. induction a as [|x a IH]; intros [|y b] H; try discriminate; [reflexivity|]. cbn in H. apply andb_true_iff in H as [H1 H2]. apply N.eqb_eq in H1. subst. f_equal. auto. Qed.
Lemma up_table : forallb (fun p => leq (ancestors (fst p)) (fst p :: ancestors (snd p))) base_class = true.
Proof. vm_compute. reflexivity. Qed.
Lemma derives_ancestor a c : derives a c -> In c (ancestors a).
Proof.
  induction 1 as [a|a b c H _ IH]; [now left|]. pose proof up_table as T. rewrite forallb_forall in T. specialize (T _ H). apply leq_eq in T. cbn [fst snd] in T. rewrite T. now right.
Qed.
Lemma up_derives n : forall a c, In c (up n base_class a) -> derives a c.
Proof.
  induction n as [|n IH]; intros a c [->|H]; try apply d_self; [destruct H|]. destruct (lookup a base_class) as [b|] eqn:E; [|destruct H]. apply lookup_some in E. eapply d_base; eauto.
Qed.
Lemma ancestor_derives a c : In c (ancestors a) <-> derives a c.
Proof. split; [apply up_derives|apply derives_ancestor]. Qed.
Lemma member g l : existsb (N.eqb g) l = true <-> In g l.
Proof. rewrite existsb_exists. split; [intros (x & Hx & E); apply N.eqb_eq in E; now subst|intros H; exists g; split; [exact H|apply N.eqb_refl]]. Qed.
Definition typed (g : N) : bool := g <? 1000.
Definition same_set (a b : list N) : bool := forallb (fun x => existsb (N.eqb x) b) a && forallb (fun x => existsb (N.eqb x) a) b.
Lemma same_set_spec a b x : same_set a b = true -> (In x a <-> In x b).
Proof.
  destruct a as [|y a]; intros H.
  - cbn in H. destruct b as [|z b]; [tauto|discriminate H].
  - unfold same_set in H. apply andb_true_iff in H as [H1 H2]. rewrite forallb_forall in H1, H2. split; intros K; [apply H1 in K|apply H2 in K]; now apply member in K.
Qed.
Definition isa_list (ty : N) : list N := ty :: match lookup ty bases with Some l => l | None => [] end.
Lemma isa_list_spec ty g : is_a ty g = true <-> In g (isa_list ty).
Proof.
  unfold is_a, isa_list. rewrite orb_true_iff, member. cbn [In]. split; (intros [H|H]; [left|right; exact H]); [now apply N.eqb_eq in H|subst; apply N.eqb_refl].
Qed.
Lemma isa_table : forallb (fun ty => same_set (isa_list ty) (filter typed (ancestors ty))) made = true.
Proof. vm_compute. reflexivity. Qed.

(** C107. The test of types (IsA) answers true exactly for the class of the element and the classes it derives from. *)
Theorem is_a_derives : forall ty g, creatable ty = true -> g < 1000 -> (is_a ty g = true <-> derives ty g).
Proof.
  intros ty g H Hg. apply made_in in H. pose proof isa_table as T. rewrite forallb_forall in T. specialize (T _ H).
  rewrite isa_list_spec, (same_set_spec _ _ g T), filter_In, ancestor_derives. unfold typed. apply N.ltb_lt in Hg. tauto.
Qed.
Print Assumptions is_a_derives.
(** C107. Each cast gives the element exactly if the element is of the class the cast leads to, apart from that to GxSimpleArrayField. *)
Lemma cast_table : forallb (fun p => (fst p =? Type_GxSimpleArrayField) || forallb (fun ty => Bool.eqb (cast_test (snd p) ty) (existsb (N.eqb (fst p)) (ancestors ty))) made) casts = true.
Proof. vm_compute. reflexivity. Qed.
Theorem cast_correct : forall c t ty, In (c, t) casts -> c <> Type_GxSimpleArrayField -> creatable ty = true -> (cast_test t ty = true <-> derives ty c).
Proof.
  intros c t ty Hc Hn H. apply made_in in H. pose proof cast_table as T. rewrite forallb_forall in T. specialize (T _ Hc). cbn [fst snd] in T.
  apply orb_true_iff in T as [T|T]; [apply N.eqb_eq in T; contradiction|]. rewrite forallb_forall in T. specialize (T _ H). apply eqb_prop in T. rewrite T, member. apply ancestor_derives.
Qed.
Print Assumptions cast_correct.
(** C107. The cast to GxSimpleArrayField gives a pointer to a SimpleField, which is no such element. *)
Theorem cast_array_field_refuted : exists t, In (Type_GxSimpleArrayField, t) casts /\ creatable Type_SimpleField = true /\ cast_test t Type_SimpleField = true /\
  ~ derives Type_SimpleField Type_GxSimpleArrayField.
Proof.
  exists (TIsA Type_SimpleField). split; [|split; [reflexivity|split; [reflexivity|]]].
  - assert (E : existsb (fun p => (fst p =? Type_GxSimpleArrayField) && match snd p with TIsA g => g =? Type_SimpleField | _ => false end) casts = true) by (vm_compute; reflexivity).
    apply existsb_exists in E as ([c [g|g]] & H & K); cbn [fst snd] in K; apply andb_true_iff in K as [K1 K2]; try discriminate. apply N.eqb_eq in K1. apply N.eqb_eq in K2. now subst.
  - rewrite <- ancestor_derives. intros H. apply member in H. vm_compute in H. discriminate.
Qed.
Print Assumptions cast_array_field_refuted.

(** The visit functions: those of the classes of the specification that have one. *)
Definition visitable : list N := C_Element :: map fst visit_next.
Definition visited (g : N) : bool := existsb (N.eqb g) visitable.
Lemma chain_table : forallb (fun ty => same_set (visit_chain ty) (filter (fun g => visited g && negb ((ty =? Type_hotSpot) && (g =? Type_hotSpot))) (ancestors ty))) made = true.
Proof. vm_compute. reflexivity. Qed.
Lemma chain_spec ty g : creatable ty = true -> In g visitable -> (ty <> Type_hotSpot \/ g <> Type_hotSpot) -> (In g (visit_chain ty) <-> derives ty g).
Proof.
  intros H Hg Hh. apply made_in in H. pose proof chain_table as T. rewrite forallb_forall in T. specialize (T _ H).
  rewrite (same_set_spec _ _ g T), filter_In, ancestor_derives, andb_true_iff. unfold visited. rewrite member, negb_true_iff, andb_false_iff, !N.eqb_neq. tauto.
Qed.
(** C107. A visitor with one visit function, say VisitFeature, gets exactly the elements of that class (and classes derived from it) that the driver
    comes to, in its order. *)
Theorem visit_one : forall g o l, l = preorder o \/ l = postorder o -> In g visitable -> g <> Type_hotSpot -> (forall c, In c l -> creatable (oty c) = true) ->
  exists p, (forall ty, p ty = true <-> derives ty g) /\ received (N.eqb g) g l = filter (fun c => p (oty c)) l.
Proof.
  intros g o l _ Hg Hn Hc. exists (fun ty => existsb (N.eqb g) (ancestors ty)). split; [intros; rewrite member; apply ancestor_derives|].
  unfold received. apply filter_ext_in. intros c Ic. specialize (Hc _ Ic). unfold dispatch.
  destruct (List.find (N.eqb g) (visit_chain (oty c))) as [v|] eqn:F.
  - apply List.find_some in F as [F1 F2]. apply N.eqb_eq in F2. subst v. rewrite N.eqb_refl. symmetry. apply member, ancestor_derives. apply (proj1 (chain_spec _ g Hc Hg (or_intror Hn))). exact F1.
  - symmetry. apply not_true_is_false. intros K. apply member, ancestor_derives in K. apply (proj2 (chain_spec _ g Hc Hg (or_intror Hn))) in K.
    pose proof (List.find_none _ _ F _ K) as L. cbn beta in L. rewrite N.eqb_refl in L. discriminate.
Qed.
Print Assumptions visit_one.
(** C107. Of several overridden visit functions that of the nearest class is called, and only that. *)
Lemma chain_order : forallb (fun ty => forallb (fun i => forallb (fun b => existsb (N.eqb b) (ancestors (nth i (visit_chain ty) 0))) (skipn i (visit_chain ty))) (seq 0 (length (visit_chain ty)))) made = true.
Proof. vm_compute. reflexivity. Qed.
Lemma find_first {A} (f : A -> bool) l x d : List.find f l = Some x -> exists i, (i < length l)%nat /\ nth i l d = x /\ (forall y, In y l -> f y = true -> In y (skipn i l)).
Proof.
  induction l as [|z l IH]; [discriminate|]. cbn [List.find]. destruct (f z) eqn:E.
  - intros H. inversion H; subst. exists 0%nat. cbn. repeat split; [lia|]. auto.
  - intros H. destruct (IH H) as (i & L & N0 & S0). exists (S i). cbn. repeat split; [lia|exact N0|]. intros y [->|Hy] Fy; [congruence|auto].
Qed.
Theorem visit_nearest : forall f ty, creatable ty = true -> ty <> Type_hotSpot -> (forall g, f g = true -> In g visitable) ->
  match dispatch f ty with
  | Some v => f v = true /\ derives ty v /\ (forall g, f g = true -> derives ty g -> derives v g)
  | None => forall g, f g = true -> ~ derives ty g
  end.
Proof.
  intros f ty Hc Hn Hf. unfold dispatch. destruct (List.find f (visit_chain ty)) as [v|] eqn:F.
  - pose proof (List.find_some _ _ F) as [F1 F2]. split; [exact F2|]. split; [apply (proj1 (chain_spec ty v Hc (Hf _ F2) (or_introl Hn))); exact F1|].
    intros g Fg Dg. destruct (find_first _ _ _ 0 F) as (i & L & N0 & S0). specialize (S0 g (proj2 (chain_spec ty g Hc (Hf _ Fg) (or_introl Hn)) Dg) Fg).
    pose proof chain_order as T. rewrite forallb_forall in T. specialize (T ty (proj1 (made_in ty) Hc)). rewrite forallb_forall in T. specialize (T i (proj2 (in_seq _ _ _) (conj (Nat.le_0_l _) L))).
    rewrite forallb_forall in T. specialize (T g S0). rewrite N0 in T. apply member in T. now apply ancestor_derives.
  - intros g Fg Dg. apply (proj2 (chain_spec ty g Hc (Hf _ Fg) (or_introl Hn))) in Dg. pose proof (List.find_none _ _ F _ Dg). congruence.
Qed.
Print Assumptions visit_nearest.
(** C107. VisitHotSpot is never called: a hotSpot is visited as a Vec2. *)
Theorem visit_hotspot_refuted : In Type_hotSpot visitable /\ creatable Type_hotSpot = true /\ derives Type_hotSpot Type_hotSpot /\
  (forall f ty, creatable ty = true -> dispatch f ty <> Some Type_hotSpot).
Proof.
  split; [apply member; vm_compute; reflexivity|]. split; [reflexivity|]. split; [apply d_self|]. intros f ty H K. apply List.find_some in K as [K _]. apply made_in in H.
  assert (T : forallb (fun t => negb (existsb (N.eqb Type_hotSpot) (visit_chain t))) made = true) by (vm_compute; reflexivity).
  rewrite forallb_forall in T. specialize (T _ H). apply negb_true_iff in T. apply member in K. congruence.
Qed.
Print Assumptions visit_hotspot_refuted.
(** A case: a visitor for features and containers. *)
Example visit_sample : In Type_Feature visitable /\ derives Type_Folder Type_Feature /\
  dispatch (fun g => existsb (N.eqb g) [Type_Feature; Type_Container]) Type_Folder = Some Type_Container /\
  dispatch (fun g => existsb (N.eqb g) [Type_Feature; Type_Container]) Type_Placemark = Some Type_Feature /\
  dispatch (fun g => existsb (N.eqb g) [Type_Feature; Type_Container]) Type_Point = None /\
  (forall c, In c (preorder (create Type_Folder)) -> creatable (oty c) = true).
Proof.
  split; [apply member; vm_compute; reflexivity|]. split; [apply ancestor_derives, member; vm_compute; reflexivity|]. repeat (split; [vm_compute; reflexivity|]).
  intros c H. vm_compute in H. destruct H as [<-|[]]. reflexivity.
Qed.

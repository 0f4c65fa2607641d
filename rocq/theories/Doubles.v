(** IEEE-754 binary64 numbers as in the standard library's executable specification (SpecFloat): the
    comparisons and operations C++ code applies to double, round to nearest even. *)
From Verif Require Import Common.
From Coq Require Import ZArith Lia.
From Coq Require Export Floats.SpecFloat.

Definition double := spec_float.
(** Comparisons are false if an operand is NaN. *)
Definition dle (x y : double) : bool := SFleb x y.
Definition dlt (x y : double) : bool := SFltb x y.
Definition dge (x y : double) : bool := SFleb y x.
Definition dgt (x y : double) : bool := SFltb y x.
Definition deq (x y : double) : bool := SFeqb x y.
Definition dadd (x y : double) : double := SFadd 53 1024 x y.
Definition dsub (x y : double) : double := SFsub 53 1024 x y.
Definition dmul (x y : double) : double := SFmul 53 1024 x y.
Definition ddiv (x y : double) : double := SFdiv 53 1024 x y.
Definition d_of_Z (z : Z) : double := binary_normalize 53 1024 z 0 false.
Definition is_nan (x : double) : bool := match x with S754_nan => true | _ => false end.
Definition finite (x : double) : bool := match x with S754_finite _ _ _ | S754_zero _ => true | _ => false end.

(** The order of numbers as the lexicographic order of three integers. *)
Definition key (x : double) : Z * Z * Z :=
  match x with
  | S754_infinity true => (-2, 0, 0)
  | S754_finite true m e => (-1, - e, Zneg m)
  | S754_zero _ => (0, 0, 0)
  | S754_finite false m e => (1, e, Zpos m)
  | S754_infinity false => (2, 0, 0)
  | S754_nan => (3, 0, 0)
  end%Z.
Definition klt (a b : Z * Z * Z) : Prop :=
  let '(a1, a2, a3) := a in let '(b1, b2, b3) := b in
  (a1 < b1 \/ a1 = b1 /\ (a2 < b2 \/ a2 = b2 /\ a3 < b3))%Z.
Lemma compare_key x y : is_nan x = false -> is_nan y = false ->
  match SFcompare x y with Some Lt => klt (key x) (key y) | Some Eq => key x = key y | Some Gt => klt (key y) (key x) | None => False end.
Proof.
  intros Hx Hy. destruct x as [[]|[]| |[] m e]; destruct y as [[]|[]| |[] m' e']; try discriminate;
    cbn [SFcompare key]; try reflexivity; try (unfold klt; lia).
  - destruct (Z.compare_spec e e') as [->|H|H]; [|unfold klt; lia|unfold klt; lia].
    destruct (Pos.compare_cont Eq m m') eqn:E; cbn [CompOpp].
    + apply Pos.compare_eq in E. now subst.
    + change (m < m')%positive in E. unfold klt. rewrite <- !Pos2Z.opp_pos. lia.
    + change (m > m')%positive in E. unfold klt. rewrite <- !Pos2Z.opp_pos. lia.
  - destruct (Z.compare_spec e e') as [->|H|H]; [|unfold klt; lia|unfold klt; lia].
    destruct (Pos.compare_cont Eq m m') eqn:E.
    + apply Pos.compare_eq in E. now subst.
    + change (m < m')%positive in E. unfold klt. lia.
    + change (m > m')%positive in E. unfold klt. lia.
Qed.
Lemma dle_nan x y : dle x y = true -> is_nan x = false /\ is_nan y = false.
Proof. destruct x, y; cbn; auto; discriminate. Qed.
Lemma dlt_nan x y : dlt x y = true -> is_nan x = false /\ is_nan y = false.
Proof. destruct x, y; cbn; auto; discriminate. Qed.
Lemma klt_lia a b : klt a b <-> (fst (fst a) < fst (fst b) \/ fst (fst a) = fst (fst b) /\ (snd (fst a) < snd (fst b) \/ snd (fst a) = snd (fst b) /\ snd a < snd b))%Z.
Proof. destruct a as [[a1 a2] a3], b as [[b1 b2] b3]. reflexivity. Qed.
Lemma klt_irrefl a : ~ klt a a.
Proof. rewrite klt_lia. lia. Qed.
Lemma klt_trans a b c : klt a b -> klt b c -> klt a c.
Proof. rewrite !klt_lia. lia. Qed.
Lemma klt_total a b : klt a b \/ a = b \/ klt b a.
Proof.
  destruct a as [[a1 a2] a3], b as [[b1 b2] b3]. unfold klt.
  destruct (Z.lt_trichotomy a1 b1) as [H1|[->|H1]]; [left; lia| |right; right; lia].
  destruct (Z.lt_trichotomy a2 b2) as [H2|[->|H2]]; [left; lia| |right; right; lia].
  destruct (Z.lt_trichotomy a3 b3) as [H3|[->|H3]]; [left; lia|auto|right; right; lia].
Qed.
Lemma dle_key x y : is_nan x = false -> is_nan y = false -> dle x y = true <-> ~ klt (key y) (key x).
Proof.
  intros Hx Hy. pose proof (compare_key x y Hx Hy) as H. unfold dle, SFleb. destruct (SFcompare x y) as [[]|]; [| | |destruct H].
  - rewrite H. split; auto. intros _. apply klt_irrefl.
  - split; auto. intros _ K. exact (klt_irrefl _ (klt_trans _ _ _ H K)).
  - split; [discriminate|tauto].
Qed.
Lemma dlt_key x y : is_nan x = false -> is_nan y = false -> dlt x y = true <-> klt (key x) (key y).
Proof.
  intros Hx Hy. pose proof (compare_key x y Hx Hy) as H. unfold dlt, SFltb. destruct (SFcompare x y) as [[]|]; [| | |destruct H].
  - rewrite H. split; [discriminate|]. intros K. destruct (klt_irrefl _ K).
  - tauto.
  - split; [discriminate|]. intros K. destruct (klt_irrefl _ (klt_trans _ _ _ H K)).
Qed.
Lemma dle_refl x : is_nan x = false -> dle x x = true.
Proof. intros H. apply dle_key; auto. apply klt_irrefl. Qed.
Lemma dlt_dle_neg x y : is_nan x = false -> is_nan y = false -> dlt x y = negb (dle y x).
Proof.
  intros Hx Hy. destruct (dlt x y) eqn:E1, (dle y x) eqn:E2; auto; exfalso.
  - apply dlt_key in E1; auto. apply dle_key in E2; auto.
  - assert (~ dlt x y = true) by congruence. assert (~ dle y x = true) by congruence. rewrite dlt_key in H by auto. rewrite dle_key in H0 by auto. tauto.
Qed.
Lemma dle_trans x y z : dle x y = true -> dle y z = true -> dle x z = true.
Proof.
  intros H1 H2. pose proof (dle_nan _ _ H1) as [Hx Hy]. pose proof (dle_nan _ _ H2) as [_ Hz].
  apply dle_key in H1; auto. apply dle_key in H2; auto. apply dle_key; auto. intros K.
  destruct (klt_total (key x) (key y)) as [C|[C|C]]; [|rewrite C in *; tauto|tauto]. exact (H2 (klt_trans _ _ _ K C)).
Qed.
Lemma dlt_dle x y : dlt x y = true -> dle x y = true.
Proof. unfold dlt, dle, SFltb, SFleb. destruct (SFcompare x y) as [[]|]; congruence. Qed.
Lemma dle_total x y : is_nan x = false -> is_nan y = false -> dle x y = true \/ dle y x = true.
Proof.
  intros Hx Hy. destruct (dle x y) eqn:E; auto. right. apply dlt_dle. rewrite dlt_dle_neg by auto. now rewrite E.
Qed.
Lemma dlt_irrefl x : dlt x x = false.
Proof. destruct (dlt x x) eqn:E; auto. pose proof (dlt_nan _ _ E) as [H _]. apply dlt_key in E; auto. destruct (klt_irrefl _ E). Qed.
Lemma dlt_trans x y z : dlt x y = true -> dlt y z = true -> dlt x z = true.
Proof.
  intros H1 H2. pose proof (dlt_nan _ _ H1) as [Hx Hy]. pose proof (dlt_nan _ _ H2) as [_ Hz].
  apply dlt_key in H1; auto. apply dlt_key in H2; auto. apply dlt_key; auto. eapply klt_trans; eauto.
Qed.
Lemma deq_dle x y : deq x y = dle x y && dle y x.
Proof.
  unfold deq, dle, SFeqb, SFleb. destruct (is_nan x) eqn:Hx; [destruct x; try discriminate; reflexivity|].
  destruct (is_nan y) eqn:Hy; [destruct x, y; try discriminate; reflexivity|].
  pose proof (compare_key x y Hx Hy) as H1. pose proof (compare_key y x Hy Hx) as H2.
  destruct (SFcompare x y) as [[]|], (SFcompare y x) as [[]|]; try tauto; auto; exfalso; try rewrite H1 in *; try rewrite H2 in *;
    try (now apply klt_irrefl in H1); try (now apply klt_irrefl in H2); eapply klt_irrefl, klt_trans; eauto.
Qed.
Example dbl_180 : d_of_Z 180 = S754_finite false 6333186975989760 (-45).
Proof. vm_compute. reflexivity. Qed.

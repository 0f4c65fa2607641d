(** Properties of path simplification and of generated circles. *)
From Verif Require Import Common SimplifyModel.

(** C46. Which vertices are kept: the first one, and every other one which is not near the vertex just
    before it.  Stated by positions: [kept] lists the positions that survive. *)
Definition kept {P} (near : P -> P -> bool) (l : list P) (i : nat) : bool :=
  match i with
  | O => true
  | S j => match nth_error l j, nth_error l i with Some a, Some b => negb (near a b) | _, _ => false end
  end.
Definition pick {P} (l : list P) (is_ : list nat) : list P :=
  flat_map (fun i => match nth_error l i with Some v => [v] | None => [] end) is_.

Lemma loop_pick {P} (near : P -> P -> bool) l : forall pre v, 
  simplify_loop near v l = pick (pre ++ v :: l) (filter (kept near (pre ++ v :: l)) (seq (S (length pre)) (length l))).
Proof.
  induction l as [|w l IH]; intros pre v; [reflexivity|].
  cbn [simplify_loop length seq filter].
  assert (E : pre ++ v :: w :: l = (pre ++ [v]) ++ w :: l) by (rewrite <- app_assoc; reflexivity).
  assert (K : kept near (pre ++ v :: w :: l) (S (length pre)) = negb (near v w)).
  { cbv beta iota delta [kept]. rewrite (nth_error_app2 pre _ (Nat.le_refl _)), Nat.sub_diag.
    rewrite (nth_error_app2 pre (v :: w :: l) (Nat.le_succ_diag_r _)). replace (S (length pre) - length pre)%nat with 1%nat by lia. reflexivity. }
  rewrite K. specialize (IH (pre ++ [v]) w). rewrite app_length in IH. cbn [length] in IH.
  replace (length pre + 1)%nat with (S (length pre)) in IH by lia. rewrite <- E in IH.
  destruct (near v w); cbn [negb]; [exact IH|]. rewrite IH. unfold pick. cbn [flat_map].
  rewrite nth_error_app2 by lia. replace (S (length pre) - length pre)%nat with 1%nat by lia. reflexivity.
Qed.
Theorem simplify_keeps : forall {P} (near : P -> P -> bool) src dest,
  simplify_coordinates near src dest = dest ++ pick src (filter (kept near src) (seq 0 (length src))).
Proof.
  intros P near [|v l] dest; cbn [simplify_coordinates length seq filter kept].
  - now rewrite app_nil_r.
  - f_equal. unfold pick at 1. cbn [flat_map nth_error app]. f_equal. apply (loop_pick near l [] v).
Qed.
Print Assumptions simplify_keeps.

(** What does hold of a dropped vertex: some kept vertex precedes it and every step from there to the
    dropped vertex is within the tolerance. *)
Theorem simplify_dropped : forall {P} (near : P -> P -> bool) (src : list P) i, (i < length src)%nat -> kept near src i = false ->
  exists j, (j < i)%nat /\ kept near src j = true /\
    forall k a b, (j <= k < i)%nat -> nth_error src k = Some a -> nth_error src (S k) = Some b -> near a b = true.
Proof.
  intros P near src i. induction i as [|i IH]; intros L K; [discriminate|].
  assert (N : forall a b, nth_error src i = Some a -> nth_error src (S i) = Some b -> near a b = true).
  { intros a b Ha Hb. unfold kept in K. rewrite Ha, Hb in K. now apply negb_false_iff in K. }
  destruct (kept near src i) eqn:Ki.
  - exists i. split; [lia|]. split; auto. intros k a b Hk. replace k with i by lia. auto.
  - destruct IH as (j & H1 & H2 & H3); [lia|auto|]. exists j. split; [lia|]. split; auto.
    intros k a b Hk. destruct (Nat.eq_dec k i) as [->|]; [auto|]. apply H3. lia.
Qed.
Print Assumptions simplify_dropped.

(** Without a positive tolerance the path is copied. *)
Theorem simplify_no_tolerance : forall {P} (src dest : list P), simplify_coordinates (fun _ _ => false) src dest = dest ++ src.
Proof.
  intros P [|v l] dest; cbn; [now rewrite app_nil_r|]. f_equal. f_equal. revert v. induction l as [|w l IH]; intros v; cbn; auto.
  now rewrite IH.
Qed.
Print Assumptions simplify_no_tolerance.

(** Points above one place on the ground, given by their altitude: for them DistanceBetweenPoints3d is the
    absolute difference of the altitudes (the surface distance is zero). *)
Definition above (tol a b : Z) : bool := (0 <? tol)%Z && (Z.abs (b - a) <=? tol)%Z.
Lemma climb_loop tol n : (1 <= tol)%Z -> forall a, simplify_loop (above tol) a (map (fun i => a + Z.of_nat i)%Z (seq 1 n)) = [].
Proof.
  intros T. induction n as [|n IH]; intros a; cbn [seq map simplify_loop]; auto.
  assert (E : above tol a (a + Z.of_nat 1) = true).
  { unfold above. apply andb_true_intro. split; [apply Z.ltb_lt; lia|apply Z.leb_le; lia]. }
  rewrite E. rewrite <- seq_shift, map_map. specialize (IH (a + Z.of_nat 1)%Z).
  erewrite map_ext; [exact IH|]. intros i. cbn beta. lia.
Qed.
(** A climb of any height in steps of one tolerance collapses to its starting point: the end is as far
    away as one likes from everything that is kept. *)
Theorem simplify_close_refuted : forall n, exists src : list Z,
  simplify_coordinates (above 1) src [] = [0%Z] /\ In (Z.of_nat n) src.
Proof.
  intros n. exists (map (fun i => 0 + Z.of_nat i)%Z (seq 0 (S n))). split.
  - cbn [seq map simplify_coordinates app]. rewrite (climb_loop 1 n) by lia. reflexivity.
  - apply in_map_iff. exists n. split; [lia|]. apply in_seq. lia.
Qed.
Print Assumptions simplify_close_refuted.
(** A closed ring can come out open, and simplifying again can change the result. *)
Theorem simplify_ring_refuted : exists (src : list Z) a b, 
  hd_error src = Some a /\ last src b = a /\ last (simplify_coordinates (above 1) src []) b <> a.
Proof. exists [0; 5; 1; 0]%Z, 0%Z, 9%Z. vm_compute. repeat split. discriminate. Qed.
Print Assumptions simplify_ring_refuted.
Theorem simplify_again_refuted : exists src : list Z,
  let once := simplify_coordinates (above 2) src [] in simplify_coordinates (above 2) once [] <> once.
Proof. exists [0; 2; 4; 1]%Z. vm_compute. discriminate. Qed.
Print Assumptions simplify_again_refuted.

(** C74. The vertices of a circle are computed for the radials 0, 1, 2, ... degrees. *)
Theorem circle_vertices : forall {P} (f : N -> P) n,
  length (create_coordinates_circle f n) = n /\
  forall i, (i < n)%nat -> nth_error (create_coordinates_circle f n) i = Some (f (N.of_nat i)).
Proof.
  intros P f n. unfold create_coordinates_circle, circle_radials. split; [now rewrite !map_length, seq_length|].
  intros i L. rewrite !nth_error_map, nth_error_nth' with (d := O) by (now rewrite seq_length). cbn.
  rewrite seq_nth by auto. reflexivity.
Qed.
Print Assumptions circle_vertices.
(** They are spread evenly over the circle (vertex i at 360 i / n degrees) only for n = 360 (or at most
    one vertex). *)
Theorem circle_even_refuted : forall n, (1 < n)%nat ->
  ((forall i r, nth_error (circle_radials n) i = Some r -> (N.of_nat n * r = 360 * N.of_nat i)%N) <-> n = 360%nat).
Proof.
  intros n L. assert (R : forall i, (i < n)%nat -> nth_error (circle_radials n) i = Some (N.of_nat i)).
  { intros i Hi. destruct (circle_vertices (fun x => x) n) as [_ H]. specialize (H i Hi).
    unfold create_coordinates_circle in H. now rewrite map_id in H. }
  split.
  - intros H. specialize (H 1%nat _ (R 1%nat L)). lia.
  - intros En i r Hr. assert (Hi : (i < n)%nat).
    { assert (X : nth_error (circle_radials n) i <> None) by congruence. apply nth_error_Some in X.
      unfold circle_radials in X. now rewrite map_length, seq_length in X. }
    rewrite (R i Hi) in Hr. injection Hr as <-. rewrite En. reflexivity.
Qed.
Print Assumptions circle_even_refuted.
(** In particular a circle of few segments stays within a few degrees of due north. *)
Theorem circle_covers_refuted : forall n r, In r (circle_radials n) -> (r < N.of_nat n)%N.
Proof. intros n r H. apply in_map_iff in H as (i & <- & H). apply in_seq in H. lia. Qed.
Print Assumptions circle_covers_refuted.
Example simplify_example : simplify_coordinates (above 1) [0; 5; 6; 10]%Z [] = [0; 5; 10]%Z.
Proof. reflexivity. Qed.

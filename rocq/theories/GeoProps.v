(** Distances, directions and places on the sphere, with real numbers. *)
From Coq Require Import Reals ZArith Lra Lia Psatz.
From Verif Require Import GeoModel.
Local Open Scope R_scope.

(** Angles. *)
Lemma PI_pos : 0 < PI. Proof. exact PI_RGT_0. Qed.
Lemma deg_rad x : rad_to_deg (deg_to_rad x) = x.
Proof. unfold rad_to_deg, deg_to_rad. field. exact PI_neq0. Qed.
Lemma rad_deg x : deg_to_rad (rad_to_deg x) = x.
Proof. unfold rad_to_deg, deg_to_rad. field. exact PI_neq0. Qed.
Lemma meters_rad x : meters_to_radians (radians_to_meters x) = x.
Proof. unfold meters_to_radians, radians_to_meters, earth_radius. field. Qed.
Lemma atan2_polar y x : (x <> 0 \/ y <> 0) -> cos (atan2 y x) * sqrt (x * x + y * y) = x /\ sin (atan2 y x) * sqrt (x * x + y * y) = y.
Proof.
  intros H.
  assert (Hr : 0 < x * x + y * y) by nra.
  assert (Hx : x <> 0 -> sqrt (1 + (y / x)²) = sqrt (x * x + y * y) / Rabs x).
  { intros Hx. replace (1 + (y / x)²) with ((x * x + y * y) / (x * x)) by (unfold Rsqr; field; exact Hx). rewrite sqrt_div_alt by nra. f_equal. change (x * x) with (Rsqr x). apply sqrt_Rsqr_abs. }
  assert (Hs : sqrt (x * x + y * y) <> 0) by (apply Rgt_not_eq, sqrt_lt_R0, Hr).
  unfold atan2. destruct (Rlt_dec 0 x) as [H0|H0].
  - rewrite cos_atan, sin_atan, Hx by lra. rewrite Rabs_right by lra. split; field; split; lra.
  - destruct (Rlt_dec x 0) as [H1|H1].
    + assert (Ha : cos (atan (y / x)) * sqrt (x * x + y * y) = - x /\ sin (atan (y / x)) * sqrt (x * x + y * y) = - y).
      { rewrite cos_atan, sin_atan, Hx by lra. rewrite Rabs_left by lra. split; field; split; lra. }
      destruct Ha as [A B]. destruct (Rle_dec 0 y).
      * rewrite neg_cos, neg_sin. split; lra.
      * replace (atan (y / x) - PI) with (- (- atan (y / x) + PI)) by ring. rewrite cos_neg, sin_neg, neg_cos, neg_sin, cos_neg, sin_neg. split; lra.
    + assert (x = 0) by lra. subst x. replace (0 * 0 + y * y) with (y²) by (unfold Rsqr; ring). rewrite sqrt_Rsqr_abs.
      destruct (Rlt_dec 0 y); [rewrite cos_PI2, sin_PI2, Rabs_right by lra; split; ring|].
      destruct (Rlt_dec y 0); [rewrite cos_neg, sin_neg, cos_PI2, sin_PI2, Rabs_left by lra; split; ring|]. exfalso. destruct H; lra.
Qed.
Lemma atan2_range y x : - PI < atan2 y x <= PI.
Proof.
  pose proof PI_pos. pose proof (atan_bound (y / x)) as [B1 B2]. unfold atan2.
  assert (Hs : x < 0 -> (0 <= y -> atan (y / x) <= 0) /\ (y < 0 -> 0 < atan (y / x))).
  { intros Hx. split; intros Hy.
    - destruct (Req_dec y 0) as [->|Hn]; [unfold Rdiv; rewrite Rmult_0_l, atan_0; lra|]. left. rewrite <- atan_0. apply atan_increasing.
      assert (0 < y) by lra. unfold Rdiv. assert (/ x < 0) by (apply Rinv_lt_0_compat; lra). nra.
    - rewrite <- atan_0. apply atan_increasing. unfold Rdiv. assert (/ x < 0) by (apply Rinv_lt_0_compat; lra). nra. }
  destruct (Rlt_dec 0 x); [lra|]. destruct (Rlt_dec x 0) as [Hx|].
  - destruct (Hs Hx) as [S1 S2]. destruct (Rle_dec 0 y) as [Hy|Hy]; [specialize (S1 Hy); lra|]. assert (y < 0) as Hy' by lra. specialize (S2 Hy'). lra.
  - destruct (Rlt_dec 0 y); [lra|]. destruct (Rlt_dec y 0); lra.
Qed.
Lemma int_part_0 a : 0 <= a < 1 -> Int_part a = 0%Z.
Proof.
  intros H. destruct (base_Int_part a) as [H1 H2]. assert (Int_part a < 1)%Z by (apply lt_IZR; lra). assert (-1 < Int_part a)%Z by (apply lt_IZR; lra). lia.
Qed.
Lemma trunc_small a : -1 < a < 1 -> trunc a = 0%Z.
Proof. intros H. unfold trunc. destruct (Rle_dec 0 a) as [H0|H0]; rewrite int_part_0; auto; lra. Qed.
Lemma fmod_small a b : 0 < b -> - b < a < b -> fmod a b = a.
Proof.
  intros Hb H. unfold fmod. rewrite trunc_small; [simpl; ring|].
  assert (0 < / b) by now apply Rinv_0_lt_compat. split; unfold Rdiv.
  - apply (Rmult_lt_reg_r b); [exact Hb|]. rewrite Rmult_assoc, Rinv_l by lra. lra.
  - apply (Rmult_lt_reg_r b); [exact Hb|]. rewrite Rmult_assoc, Rinv_l by lra. lra.
Qed.
(** Equal angles up to full turns. *)
Definition same_angle (a b : R) : Prop := exists k : Z, a = b + 2 * IZR k * PI.
Lemma fmod_same a : same_angle (fmod a (2 * PI)) a.
Proof. exists (- trunc (a / (2 * PI)))%Z. unfold fmod. rewrite opp_IZR. ring. Qed.
Lemma cos_turns x k : cos (x + 2 * IZR k * PI) = cos x.
Proof.
  destruct (Z_le_gt_dec 0 k) as [H|H].
  - rewrite <- (Z2Nat.id k) by lia. rewrite <- INR_IZR_INZ. apply cos_period.
  - rewrite <- (cos_period (x + 2 * IZR k * PI) (Z.to_nat (- k))). f_equal. rewrite INR_IZR_INZ, Z2Nat.id by lia. rewrite opp_IZR. ring.
Qed.
Lemma sin_turns x k : sin (x + 2 * IZR k * PI) = sin x.
Proof.
  destruct (Z_le_gt_dec 0 k) as [H|H].
  - rewrite <- (Z2Nat.id k) by lia. rewrite <- INR_IZR_INZ. apply sin_period.
  - rewrite <- (sin_period (x + 2 * IZR k * PI) (Z.to_nat (- k))). f_equal. rewrite INR_IZR_INZ, Z2Nat.id by lia. rewrite opp_IZR. ring.
Qed.
Lemma same_angle_trig a b : same_angle a b -> cos a = cos b /\ sin a = sin b.
Proof. intros [k ->]. split; [apply cos_turns|apply sin_turns]. Qed.
Lemma hav x : sin (x / 2) ^ 2 = (1 - cos x) / 2.
Proof. replace (cos x) with (cos (2 * (x / 2))) by (f_equal; field). rewrite cos_2a_sin. field. Qed.
Lemma sc x : sin x * sin x + cos x * cos x = 1. Proof. exact (sin2_cos2 x). Qed.

(** The place with a latitude and a longitude as a point of the sphere of radius 1, and the cosine of the angle between two places. *)
Definition X (lat lng : R) : R := cos (lat * PI / 180) * cos (lng * PI / 180).
Definition Y (lat lng : R) : R := cos (lat * PI / 180) * sin (lng * PI / 180).
Definition W (lat : R) : R := sin (lat * PI / 180).
Lemma XE a b : X a b = cos (deg_to_rad a) * cos (deg_to_rad b). Proof. reflexivity. Qed.
Lemma YE a b : Y a b = cos (deg_to_rad a) * sin (deg_to_rad b). Proof. reflexivity. Qed.
Lemma WE a : W a = sin (deg_to_rad a). Proof. reflexivity. Qed.
Definition dot (a b c d : R) : R := X a b * X c d + Y a b * Y c d + W a * W c.
Lemma unit a b : X a b * X a b + Y a b * Y a b + W a * W a = 1.
Proof. rewrite ?XE, ?YE, ?WE. pose proof (sc (deg_to_rad a)). pose proof (sc (deg_to_rad b)). nra. Qed.
Lemma dot_bound a b c d : -1 <= dot a b c d <= 1.
Proof.
  pose proof (unit a b) as H1. pose proof (unit c d) as H2. unfold dot. revert H1 H2. generalize (X a b) (Y a b) (W a) (X c d) (Y c d) (W c). intros x y z u v w H1 H2.
  pose proof (Rle_0_sqr (x - u)). pose proof (Rle_0_sqr (y - v)). pose proof (Rle_0_sqr (z - w)). pose proof (Rle_0_sqr (x + u)). pose proof (Rle_0_sqr (y + v)). pose proof (Rle_0_sqr (z + w)).
  unfold Rsqr in *. split; lra.
Qed.
Lemma dot_hav a b c d :
  sin ((deg_to_rad a - deg_to_rad c) / 2) ^ 2 + cos (deg_to_rad a) * cos (deg_to_rad c) * sin ((deg_to_rad b - deg_to_rad d) / 2) ^ 2 = (1 - dot a b c d) / 2.
Proof. rewrite !hav, !cos_minus. unfold dot; rewrite ?XE, ?YE, ?WE. field. Qed.
(** The angle is between 0 and half a turn, its cosine is the product of the two points. *)
Lemma distance_angle a b c d : let t := meters_to_radians (distance a b c d) in 0 <= t <= PI /\ cos t = dot a b c d.
Proof.
  intros t. unfold t, distance. rewrite meters_rad, dot_hav. pose proof (dot_bound a b c d) as [B1 B2].
  set (h := (1 - dot a b c d) / 2). assert (Hh : 0 <= h <= 1) by (unfold h; lra).
  assert (Hs : 0 <= sqrt h <= 1). { split; [apply sqrt_pos|]. rewrite <- sqrt_1. apply sqrt_le_1; lra. }
  pose proof (asin_bound (sqrt h)) as [A1 A2]. assert (A3 : 0 <= asin (sqrt h)).
  { destruct (Req_dec (sqrt h) 0) as [->|Hn]; [rewrite asin_0; lra|]. destruct (Rle_lt_dec 0 (asin (sqrt h))) as [L|L]; [exact L|]. exfalso.
    assert (sin (asin (sqrt h)) < 0) by (apply sin_lt_0_var; pose proof PI_pos; lra). rewrite sin_asin in H by lra. lra. }
  split; [lra|]. rewrite cos_2a_sin, sin_asin by lra. pose proof (sqrt_sqrt h). unfold h in *. nra.
Qed.
Lemma cos_inj x y : 0 <= x <= PI -> 0 <= y <= PI -> cos x = cos y -> x = y.
Proof.
  intros Hx Hy H. destruct (Rtotal_order x y) as [L|[E|L]]; [|exact E|].
  - pose proof (cos_decreasing_1 x y ltac:(lra) ltac:(lra) ltac:(lra) ltac:(lra) L). lra.
  - pose proof (cos_decreasing_1 y x ltac:(lra) ltac:(lra) ltac:(lra) ltac:(lra) L). lra.
Qed.
Lemma rad_meters x : radians_to_meters (meters_to_radians x) = x.
Proof. unfold meters_to_radians, radians_to_meters, earth_radius. field. Qed.
Lemma meters_le x y : meters_to_radians x <= meters_to_radians y <-> x <= y.
Proof. unfold meters_to_radians, earth_radius. split; lra. Qed.
Lemma meters_inj x y : meters_to_radians x = meters_to_radians y -> x = y.
Proof. unfold meters_to_radians, earth_radius. lra. Qed.

(** C106. The distance is the length of the great circle arc: between 0 and half the way around, and its angle is the one between the two places seen from the
    centre.  It is a distance: symmetric, 0 exactly for the same place of the sphere, and no detour is shorter. *)
Theorem distance_great_circle : forall a b c d, 0 <= distance a b c d <= PI * 6366710 /\
  cos (distance a b c d / 6366710) = X a b * X c d + Y a b * Y c d + W a * W c.
Proof.
  intros a b c d. destruct (distance_angle a b c d) as [[H1 H2] H3]. unfold meters_to_radians, earth_radius in *. split; [lra|exact H3].
Qed.
Print Assumptions distance_great_circle.
Theorem distance_symmetric : forall a b c d, distance a b c d = distance c d a b.
Proof.
  intros. apply meters_inj. destruct (distance_angle a b c d) as [H1 H2]. destruct (distance_angle c d a b) as [H3 H4]. apply cos_inj; auto. rewrite H2, H4. unfold dot. ring.
Qed.
Print Assumptions distance_symmetric.
Theorem distance_zero : forall a b c d, distance a b c d = 0 <-> X a b = X c d /\ Y a b = Y c d /\ W a = W c.
Proof.
  intros a b c d. destruct (distance_angle a b c d) as [H1 H2]. pose proof (unit a b) as U. pose proof (unit c d) as V. split.
  - intros H. rewrite H in H2. replace (meters_to_radians 0) with 0 in H2 by (unfold meters_to_radians, earth_radius; field). rewrite cos_0 in H2. unfold dot in H2.
    revert H2 U V. generalize (X a b) (Y a b) (W a) (X c d) (Y c d) (W c). intros x y z u v w H2 U V.
    assert (S : (x - u) * (x - u) + (y - v) * (y - v) + (z - w) * (z - w) = 0) by lra.
    pose proof (Rle_0_sqr (x - u)). pose proof (Rle_0_sqr (y - v)). pose proof (Rle_0_sqr (z - w)). unfold Rsqr in *.
    assert (K : forall r, r * r = 0 -> r = 0) by (intros r Hr; apply Rmult_integral in Hr; tauto).
    repeat split; apply Rminus_diag_uniq, K; lra.
  - intros (E1 & E2 & E3). apply meters_inj. replace (meters_to_radians 0) with 0 by (unfold meters_to_radians, earth_radius; field).
    apply cos_inj; [exact H1|pose proof PI_pos; lra|]. rewrite H2, cos_0. unfold dot. rewrite E1, E2, E3. exact V.
Qed.
Print Assumptions distance_zero.
Lemma gram x y z u v w p q r : x * x + y * y + z * z = 1 -> u * u + v * v + w * w = 1 -> p * p + q * q + r * r = 1 ->
  let a := x * u + y * v + z * w in let b := u * p + v * q + w * r in let c := x * p + y * q + z * r in
  (a * b - c) * (a * b - c) <= (1 - a * a) * (1 - b * b).
Proof.
  intros H1 H2 H3 a b c.
  assert (G : (x * x + y * y + z * z) * (u * u + v * v + w * w) * (p * p + q * q + r * r) + 2 * a * b * c
              - a * a * (p * p + q * q + r * r) - b * b * (x * x + y * y + z * z) - c * c * (u * u + v * v + w * w)
              = (x * (v * r - w * q) - y * (u * r - w * p) + z * (u * q - v * p)) * (x * (v * r - w * q) - y * (u * r - w * p) + z * (u * q - v * p))) by (unfold a, b, c; ring).
  rewrite H1, H2, H3 in G. pose proof (Rle_0_sqr (x * (v * r - w * q) - y * (u * r - w * p) + z * (u * q - v * p))) as S. unfold Rsqr in S. lra.
Qed.
Theorem distance_triangle : forall a b c d e f, distance a b e f <= distance a b c d + distance c d e f.
Proof.
  intros a b c d e f. apply meters_le. replace (meters_to_radians (distance a b c d + distance c d e f)) with (meters_to_radians (distance a b c d) + meters_to_radians (distance c d e f))
    by (unfold meters_to_radians, earth_radius; field).
  destruct (distance_angle a b c d) as [[A1 A2] A3]. destruct (distance_angle c d e f) as [[B1 B2] B3]. destruct (distance_angle a b e f) as [[C1 C2] C3].
  set (s := meters_to_radians (distance a b c d)) in *. set (t := meters_to_radians (distance c d e f)) in *. set (z := meters_to_radians (distance a b e f)) in *.
  destruct (Rle_lt_dec PI (s + t)) as [L|L]; [lra|]. apply Rnot_lt_le. intros Hlt.
  pose proof (cos_decreasing_1 (s + t) z ltac:(lra) ltac:(lra) ltac:(lra) ltac:(lra) Hlt) as Hc.
  rewrite cos_plus, A3, B3, C3 in Hc. 
  assert (Ss : 0 <= sin s) by (apply sin_ge_0; lra). assert (St : 0 <= sin t) by (apply sin_ge_0; lra).
  pose proof (sc s) as E1. pose proof (sc t) as E2. rewrite A3 in E1. rewrite B3 in E2.
  pose proof (gram _ _ _ _ _ _ _ _ _ (unit a b) (unit c d) (unit e f)) as G. cbv zeta in G. fold (dot a b c d) (dot c d e f) (dot a b e f) in G.
  revert Hc Ss St E1 E2 G. generalize (dot a b c d) (dot c d e f) (dot a b e f) (sin s) (sin t). intros u v w p q Hc Hp Hq E1 E2 G.
  assert (E3 : 1 - u * u = p * p) by lra. assert (E4 : 1 - v * v = q * q) by lra. rewrite E3, E4 in G.
  assert (Hpq : 0 <= p * q) by nra. assert (K : p * q < u * v - w) by lra. nra.
Qed.
Print Assumptions distance_triangle.

(** The place on a radial. *)
Lemma sin_cos_same a b : cos a = cos b -> sin a = sin b -> same_angle a b.
Proof.
  intros H1 H2. assert (H : sin ((a - b) / 2) = 0).
  { pose proof (hav (a - b)) as H. rewrite cos_minus, H1, H2 in H. pose proof (sc b). assert (K : sin ((a - b) / 2) * sin ((a - b) / 2) = 0) by (simpl in H; lra). apply Rmult_integral in K. tauto. }
  apply sin_eq_0_0 in H as [k Hk]. exists k. lra.
Qed.
Lemma asin_range s : -1 <= s <= 1 -> - (PI / 2) <= asin s <= PI / 2.
Proof. intros _. exact (asin_bound s). Qed.
Section Radial.
  Variables phi delta theta : R.
  Let S := sin phi * cos delta + cos phi * sin delta * cos theta.
  Let dl := atan2 (sin theta * sin delta * cos phi) (cos delta - sin phi * sin (asin S)).
  Lemma S_bound : -1 <= S <= 1.
  Proof.
    unfold S. pose proof (sc phi) as H1. pose proof (sc delta) as H2. pose proof (sc theta) as H3. revert H1 H2 H3.
    generalize (sin phi) (cos phi) (sin delta) (cos delta) (sin theta) (cos theta). intros a b d c f e H1 H2 H3.
    assert (E : (a * c + b * d * e) * (a * c + b * d * e) + ((b * c - a * d * e) * (b * c - a * d * e) + (f * d) * (f * d)) = 1).
    { replace (_ + _) with ((a * a + b * b) * (c * c + d * d * (e * e)) + f * f * (d * d)) by ring. rewrite H1. 
      replace (1 * (c * c + d * d * (e * e)) + f * f * (d * d)) with (c * c + d * d * (f * f + e * e)) by ring. rewrite H3. lra. }
    pose proof (Rle_0_sqr (b * c - a * d * e)). pose proof (Rle_0_sqr (f * d)). unfold Rsqr in *. split; nra.
  Qed.
  Lemma S_square : (cos phi * cos delta - sin phi * sin delta * cos theta) * (cos phi * cos delta - sin phi * sin delta * cos theta) + (sin theta * sin delta) * (sin theta * sin delta) = 1 - S * S.
  Proof.
    unfold S. pose proof (sc phi) as H1. pose proof (sc delta) as H2. pose proof (sc theta) as H3. revert H1 H2 H3.
    generalize (sin phi) (cos phi) (sin delta) (cos delta) (sin theta) (cos theta). intros a b d c f e H1 H2 H3.
    assert (E : (a * c + b * d * e) * (a * c + b * d * e) + ((b * c - a * d * e) * (b * c - a * d * e) + (f * d) * (f * d)) = 1).
    { replace (_ + _) with ((a * a + b * b) * (c * c + d * d * (e * e)) + f * f * (d * d)) by ring. rewrite H1. 
      replace (1 * (c * c + d * d * (e * e)) + f * f * (d * d)) with (c * c + d * d * (f * f + e * e)) by ring. rewrite H3. lra. }
    lra.
  Qed.
  Hypothesis Hphi : 0 <= cos phi.
  Lemma radial_delta : cos dl * (cos phi * cos (asin S)) = cos delta - sin phi * S /\ sin dl * (cos phi * cos (asin S)) = sin theta * sin delta * cos phi.
  Proof.
    pose proof S_bound as B. unfold dl. rewrite sin_asin by exact B. rewrite cos_asin by exact B.
    set (x := cos delta - sin phi * S). set (y := sin theta * sin delta * cos phi).
    assert (Ex : x = cos phi * (cos phi * cos delta - sin phi * sin delta * cos theta)).
    { unfold x, S. pose proof (sc phi) as H1. replace (cos delta) with ((sin phi * sin phi + cos phi * cos phi) * cos delta) at 1 by (rewrite H1; ring). ring. }
    assert (Er : sqrt (x * x + y * y) = cos phi * sqrt (1 - S * S)).
    { rewrite <- S_square, Ex. unfold y. set (u := cos phi * cos delta - sin phi * sin delta * cos theta).
      replace (cos phi * u * (cos phi * u) + sin theta * sin delta * cos phi * (sin theta * sin delta * cos phi)) with ((cos phi * cos phi) * (u * u + sin theta * sin delta * (sin theta * sin delta))) by ring.
      rewrite sqrt_mult_alt by nra. rewrite sqrt_square by exact Hphi. reflexivity. }
    change (S²) with (S * S). rewrite <- Er. destruct (Req_dec x 0) as [E1|N1]; [destruct (Req_dec y 0) as [E2|N2]|]; [|apply atan2_polar; auto|apply atan2_polar; auto].
    rewrite E1, E2. replace (0 * 0 + 0 * 0) with 0 by ring. rewrite sqrt_0. split; ring.
  Qed.
End Radial.

(** C106. The place on a radial has the distance asked for from the point, for distances up to half the way around; its latitude is one. *)
Theorem radial_distance : forall lat lng dist radial, -90 <= lat <= 90 -> - (PI * 6366710) <= dist <= PI * 6366710 ->
  let r := on_radial lat lng dist radial in -90 <= fst r <= 90 /\ distance lat lng (fst r) (snd r) = Rabs dist.
Proof.
  intros lat lng dist radial Hl Hd r. pose proof PI_pos as HP.
  assert (Hphi : 0 <= cos (deg_to_rad lat)) by (apply cos_ge_0; unfold deg_to_rad; nra).
  unfold r, on_radial. cbv zeta. cbn [fst snd].
  set (phi := deg_to_rad lat) in *. set (lam := deg_to_rad lng). set (delta := meters_to_radians dist). set (theta := deg_to_rad radial).
  pose proof (S_bound phi delta theta) as HS. pose proof (radial_delta phi delta theta Hphi) as [R1 R2].
  set (S := sin phi * cos delta + cos phi * sin delta * cos theta) in *.
  set (dl := atan2 (sin theta * sin delta * cos phi) (cos delta - sin phi * sin (asin S))) in *.
  pose proof (asin_bound S) as [A1 A2]. split.
  { unfold rad_to_deg. pose proof HP. split; apply (Rmult_le_reg_r PI); try lra; unfold Rdiv; rewrite (Rmult_assoc _ (/ PI)), Rinv_l by lra; lra. }
  apply meters_inj. match goal with |- meters_to_radians (distance lat lng ?a ?b) = _ => destruct (distance_angle lat lng a b) as [D1 D2] end.
  assert (Ha : meters_to_radians (Rabs dist) = Rabs delta).
  { unfold delta, meters_to_radians, Rdiv. rewrite Rabs_mult. f_equal. symmetry. apply Rabs_right. unfold earth_radius. lra. }
  rewrite Ha. assert (Hdl : -PI <= delta <= PI) by (unfold delta, meters_to_radians, earth_radius in *; lra).
  apply cos_inj; [exact D1|unfold Rabs; destruct (Rcase_abs delta); lra|]. rewrite D2.
  replace (cos (Rabs delta)) with (cos delta) by (unfold Rabs; destruct (Rcase_abs delta); [now rewrite cos_neg|reflexivity]).
  unfold dot; rewrite ?XE, ?YE, ?WE. rewrite !rad_deg. fold phi lam. 
  destruct (fmod_same (lam + dl + PI)) as [k Hk].
  assert (Hlam : same_angle (fmod (lam + dl + PI) (2 * PI) - PI) (lam + dl)) by (exists k; lra). apply same_angle_trig in Hlam as [L1 L2]. rewrite L1, L2.
  rewrite cos_plus, sin_plus. rewrite sin_asin by exact HS. pose proof (sc lam) as Hs. revert R1. generalize (cos (asin S)) (cos dl) (sin dl). intros ca cd sd R1.
  replace (cos phi * cos lam * (ca * (cos lam * cd - sin lam * sd)) + cos phi * sin lam * (ca * (sin lam * cd + cos lam * sd)) + sin phi * S)
    with ((sin lam * sin lam + cos lam * cos lam) * (cd * (cos phi * ca)) + sin phi * S) by ring. rewrite Hs, R1. ring.
Qed.
Print Assumptions radial_distance.

(** C106. The azimuth is above -180 and at most 180 degrees; going the distance between two places in the direction of the azimuth leads from one to the other (up to
    full turns of the longitude). *)
Theorem azimuth_range : forall a b c d, -180 < azimuth a b c d <= 180.
Proof.
  intros a b c d. pose proof PI_pos as HP. unfold azimuth. cbv zeta. 
  match goal with |- _ < rad_to_deg (fmod (atan2 ?y ?x) _) <= _ => pose proof (atan2_range y x) as [H1 H2]; rewrite (fmod_small (atan2 y x)) by lra; generalize dependent (atan2 y x) end.
  intros t H1 H2. unfold rad_to_deg. split; [apply (Rmult_lt_reg_r PI)|apply (Rmult_le_reg_r PI)]; try lra; unfold Rdiv; rewrite (Rmult_assoc _ (/ PI)), Rinv_l by lra; lra.
Qed.
Print Assumptions azimuth_range.
Lemma strict_cos x : -90 < x < 90 -> 0 < cos (deg_to_rad x).
Proof. intros H. pose proof PI_pos. apply cos_gt_0; unfold deg_to_rad; nra. Qed.
Lemma pole_cos : cos (deg_to_rad 90) = 0 /\ cos (deg_to_rad (-90)) = 0.
Proof. split; [replace (deg_to_rad 90) with (PI / 2) by (unfold deg_to_rad; field); exact cos_PI2|replace (deg_to_rad (-90)) with (- (PI / 2)) by (unfold deg_to_rad; field); rewrite cos_neg; exact cos_PI2]. Qed.
(** C106. In degrees: the distance is 0 exactly when the latitudes are the same and the longitudes differ by full turns, or both are the same pole. *)
Theorem distance_zero_degrees : forall a b c d, -90 <= a <= 90 -> -90 <= c <= 90 ->
  (distance a b c d = 0 <-> a = c /\ (a = 90 \/ a = -90 \/ exists k : Z, b = d + 360 * IZR k)).
Proof.
  intros a b c d Ha Hc. pose proof PI_pos as HP. rewrite distance_zero. rewrite ?XE, ?YE, ?WE. split.
  - intros (E1 & E2 & E3). assert (E : deg_to_rad a = deg_to_rad c).
    { rewrite <- (asin_sin (deg_to_rad a)), <- (asin_sin (deg_to_rad c)) by (unfold deg_to_rad; nra). now rewrite E3. }
    assert (Eac : a = c) by (rewrite <- (deg_rad a), <- (deg_rad c); now rewrite E). split; [exact Eac|].
    destruct (Req_dec a 90) as [|N1]; [auto|]. destruct (Req_dec a (-90)) as [|N2]; [auto|]. right. right.
    assert (Ca : 0 < cos (deg_to_rad a)) by (apply strict_cos; lra). rewrite <- E in E1, E2.
    apply Rmult_eq_reg_l in E1; [|lra]. apply Rmult_eq_reg_l in E2; [|lra]. destruct (sin_cos_same _ _ E1 E2) as [k Hk]. exists k.
    rewrite <- (deg_rad b), Hk. unfold rad_to_deg, deg_to_rad. field. lra.
  - intros [<- H]. destruct pole_cos as [P1 P2]. destruct H as [->|[->|[k ->]]].
    + rewrite P1. repeat split; ring.
    + rewrite P2. repeat split; ring.
    + assert (S : same_angle (deg_to_rad (d + 360 * IZR k)) (deg_to_rad d)) by (exists k; unfold deg_to_rad; field).
      apply same_angle_trig in S as [-> ->]. repeat split; reflexivity.
Qed.
Print Assumptions distance_zero_degrees.
Theorem radial_round_trip : forall a b c d, -90 < a < 90 -> -90 < c < 90 ->
  let r := on_radial a b (distance a b c d) (azimuth a b c d) in fst r = c /\ exists k : Z, snd r = d + 360 * IZR k.
Proof.
  intros a b c d Ha Hc r. pose proof PI_pos as HP. pose proof (strict_cos a Ha) as Ca. pose proof (strict_cos c Hc) as Cc.
  destruct (distance_angle a b c d) as [D1 D2]. unfold r, on_radial. cbv zeta. cbn [fst snd].
  set (delta := meters_to_radians (distance a b c d)) in *. unfold azimuth. cbv zeta. rewrite rad_deg.
  set (p := deg_to_rad a) in *. set (q := deg_to_rad c) in *. set (l := deg_to_rad b). set (m := deg_to_rad d).
  set (A := sin (m - l) * cos q). set (B := cos p * sin q - sin p * cos q * cos (m - l)).
  pose proof (atan2_range A B) as HR. rewrite (fmod_small (atan2 A B)) by lra. set (th := atan2 A B) in *.
  assert (Hd : cos delta = sin p * sin q + cos p * cos q * cos (m - l)).
  { rewrite D2. unfold dot; rewrite ?XE, ?YE, ?WE. fold p q l m. rewrite cos_minus. ring. }
  assert (Hs : 0 <= sin delta) by (apply sin_ge_0; lra).
  assert (Hr : sqrt (B * B + A * A) = sin delta).
  { rewrite <- (sqrt_square (sin delta)) by exact Hs. f_equal. pose proof (sc delta) as E. rewrite Hd in E. unfold A, B.
    pose proof (sc p) as E1. pose proof (sc q) as E2. pose proof (sc (m - l)) as E3. revert E E1 E2 E3.
    generalize (sin p) (cos p) (sin q) (cos q) (sin (m - l)) (cos (m - l)) (sin delta). intros sp cp sq cq sd cd s E E1 E2 E3.
    assert (K : (cp * sq - sp * cq * cd) * (cp * sq - sp * cq * cd) + sd * cq * (sd * cq) + (sp * sq + cp * cq * cd) * (sp * sq + cp * cq * cd) = 1).
    { replace (_ + _) with ((sp * sp + cp * cp) * (sq * sq + cq * cq * (cd * cd)) + cq * cq * (sd * sd)) by ring. rewrite E1.
      replace (1 * (sq * sq + cq * cq * (cd * cd)) + cq * cq * (sd * sd)) with (sq * sq + cq * cq * (sd * sd + cd * cd)) by ring. rewrite E3. lra. }
    lra. }
  assert (Hp : cos th * sin delta = B /\ sin th * sin delta = A).
  { rewrite <- Hr. unfold th. destruct (Req_dec B 0) as [E1|N1]; [destruct (Req_dec A 0) as [E2|N2]|]; [|apply atan2_polar; auto|apply atan2_polar; auto].
    rewrite E1, E2. replace (0 * 0 + 0 * 0) with 0 by ring. rewrite sqrt_0. split; ring. }
  destruct Hp as [P1 P2].
  assert (HS : sin p * cos delta + cos p * sin delta * cos th = sin q).
  { replace (cos p * sin delta * cos th) with (cos p * (cos th * sin delta)) by ring. rewrite P1, Hd. unfold B.
    pose proof (sc p) as E1. replace (sin q) with ((sin p * sin p + cos p * cos p) * sin q) at 3 by (rewrite E1; ring). ring. }
  rewrite HS.
  assert (Hq : asin (sin q) = q) by (apply asin_sin; unfold q, deg_to_rad; nra). rewrite Hq. split; [apply deg_rad|].
  assert (Ey : sin th * sin delta * cos p = cos p * cos q * sin (m - l)) by (rewrite P2; unfold A; ring).
  assert (Ex : cos delta - sin p * sin q = cos p * cos q * cos (m - l)) by (rewrite Hd; ring).
  rewrite Ey, Ex. assert (Hcc : 0 < cos p * cos q) by nra.
  set (y := cos p * cos q * sin (m - l)). set (x := cos p * cos q * cos (m - l)).
  assert (Hxy : sqrt (x * x + y * y) = cos p * cos q).
  { rewrite <- (sqrt_square (cos p * cos q)) by lra. f_equal. unfold x, y. pose proof (sc (m - l)) as E3.
    replace (_ + _) with (cos p * cos q * (cos p * cos q) * (sin (m - l) * sin (m - l) + cos (m - l) * cos (m - l))) by ring. rewrite E3. ring. }
  assert (Hn : x <> 0 \/ y <> 0).
  { destruct (Req_dec x 0) as [E1|]; [|auto]. destruct (Req_dec y 0) as [E2|]; [|auto]. exfalso. rewrite E1, E2 in Hxy. replace (0 * 0 + 0 * 0) with 0 in Hxy by ring. rewrite sqrt_0 in Hxy. lra. }
  pose proof (atan2_polar y x Hn) as [Q1 Q2]. rewrite Hxy in Q1, Q2. unfold x at 2 in Q1. unfold y at 2 in Q2.
  assert (Hang : same_angle (atan2 y x) (m - l)).
  { apply sin_cos_same; apply (Rmult_eq_reg_r (cos p * cos q)); try lra. }
  destruct Hang as [k1 K1]. destruct (fmod_same (l + atan2 y x + PI)) as [k2 K2]. exists (k1 + k2)%Z. rewrite plus_IZR.
  rewrite K2, K1. unfold rad_to_deg, m, deg_to_rad. field. lra.
Qed.
Print Assumptions radial_round_trip.

(** C106. Points with altitudes: the distance is not less than either part and does not depend on the order; range and elevation give back the distance along the ground and the
    difference of the altitudes. *)
Theorem distance3d_correct : forall a b h c d k, distance a b c d <= distance3d a b h c d k /\ Rabs (k - h) <= distance3d a b h c d k /\
  distance3d a b h c d k = distance3d c d k a b h /\ distance3d a b h c d k <= distance a b c d + Rabs (k - h) /\ distance3d a b h c d h = distance a b c d.
Proof.
  intros a b h c d k. destruct (distance_great_circle a b c d) as [[H0 _] _]. unfold distance3d. rewrite (distance_symmetric c d a b). set (s := distance a b c d) in *. clearbody s.
  assert (Q : 0 <= s ^ 2 + (k - h) ^ 2) by (pose proof (pow2_ge_0 s); pose proof (pow2_ge_0 (k - h)); lra). pose proof (sqrt_pos (s ^ 2 + (k - h) ^ 2)) as P. pose proof (sqrt_sqrt _ Q) as SS. pose proof (Rabs_pos (k - h)) as A.
  assert (AA : Rabs (k - h) * Rabs (k - h) = (k - h) * (k - h)) by (unfold Rabs; destruct (Rcase_abs (k - h)); ring).
  assert (R1 : forall z g, 0 <= z -> 0 <= g -> g * g <= z * z -> g <= z) by (intros z g Z G L; apply Rnot_lt_le; intros N; nra).
  split; [apply R1; [exact P|exact H0|rewrite SS; nra]|]. split; [apply R1; [exact P|exact A|rewrite SS; nra]|]. split; [f_equal; ring|]. split.
  - apply R1; [lra|exact P|rewrite SS; nra].
  - replace (s ^ 2 + (h - h) ^ 2) with (s * s) by ring. apply sqrt_square. exact H0.
Qed.
Print Assumptions distance3d_correct.
Theorem range_elevation : forall r e, ground_distance r e ^ 2 + height r e ^ 2 = r ^ 2.
Proof.
  intros r e. unfold ground_distance, height. rewrite !pow2_abs. pose proof (sc (deg_to_rad e)) as E.
  replace ((cos (deg_to_rad e) * r) ^ 2 + (sin (deg_to_rad e) * r) ^ 2) with ((sin (deg_to_rad e) * sin (deg_to_rad e) + cos (deg_to_rad e) * cos (deg_to_rad e)) * r ^ 2) by ring. rewrite E. ring.
Qed.
Theorem elevation_correct : forall a b h c d k, 0 < distance a b c d ->
  let e := elevation a b h c d k in let r := distance3d a b h c d k in
  -90 < e < 90 /\ (0 < e <-> h < k) /\ ground_distance r e = distance a b c d /\ height r e = Rabs (k - h).
Proof.
  intros a b h c d k Hs e r. pose proof PI_pos as HP. unfold e, r, elevation, ground_distance, height. rewrite rad_deg. set (s := distance a b c d) in *.
  pose proof (atan_bound ((k - h) / s)) as [B1 B2]. 
  assert (Hdeg : forall t, - PI / 2 < t -> t < PI / 2 -> -90 < rad_to_deg t < 90).
  { intros t T1 T2. unfold rad_to_deg. split; apply (Rmult_lt_reg_r PI); try lra; unfold Rdiv; rewrite (Rmult_assoc _ (/ PI)), Rinv_l by lra; lra. }
    assert (Hr : distance3d a b h c d k = s * sqrt (1 + ((k - h) / s) ^ 2)).
  { unfold distance3d. fold s. rewrite <- (sqrt_square s) at 2 by lra. rewrite <- sqrt_mult_alt by nra. f_equal. field. lra. }
  assert (P1 : 0 < sqrt (1 + ((k - h) / s) ^ 2)) by (apply sqrt_lt_R0; pose proof (pow2_ge_0 ((k - h) / s)); lra).
  split; [apply Hdeg; assumption|]. split; [|split].
  - assert (E : 0 < rad_to_deg (atan ((k - h) / s)) <-> 0 < atan ((k - h) / s)).
    { unfold rad_to_deg. assert (0 < 180 / PI) by (apply Rdiv_lt_0_compat; lra). replace (atan ((k - h) / s) * 180 / PI) with (atan ((k - h) / s) * (180 / PI)) by (field; lra). 
      generalize dependent (180 / PI). intros z Hz. split; intros; nra. }
    rewrite E. rewrite <- atan_0 at 1. assert (Hq : (k - h) / s * s = k - h) by (field; lra). split; intros H.
    + apply Rnot_le_lt. intros L. assert (HL : (k - h) / s <= 0) by nra. destruct HL as [HL|HL]; [apply atan_increasing in HL; lra|rewrite HL in H; lra].
    + apply atan_increasing. nra.
  - rewrite Hr, cos_atan. change (((k - h) / s)²) with ((k - h) / s * ((k - h) / s)). replace (1 + ((k - h) / s) ^ 2) with (1 + (k - h) / s * ((k - h) / s)) in * by ring.
    replace (1 / sqrt (1 + (k - h) / s * ((k - h) / s)) * (s * sqrt (1 + (k - h) / s * ((k - h) / s)))) with s by (field; lra). apply Rabs_right. lra.
  - rewrite Hr, sin_atan. change (((k - h) / s)²) with ((k - h) / s * ((k - h) / s)). replace (1 + ((k - h) / s) ^ 2) with (1 + (k - h) / s * ((k - h) / s)) in * by ring.
    f_equal. field. lra.
Qed.
Print Assumptions elevation_correct.

(** The points of CreateCoordinatesCircle (convenience.cc:117-125): point i is on radial i. *)
Definition circle_point (lat lng radius : R) (i : nat) : R * R := on_radial lat lng radius (INR i).
(** C106. All points of a circle have the radius as their distance from the centre; two of them are never further apart than twice the radius. *)
Theorem circle_points_correct : forall lat lng radius i j, -90 <= lat <= 90 -> 0 <= radius <= PI * 6366710 ->
  let p := circle_point lat lng radius i in let q := circle_point lat lng radius j in
  distance lat lng (fst p) (snd p) = radius /\ distance (fst p) (snd p) (fst q) (snd q) <= 2 * radius.
Proof.
  intros lat lng radius i j Hl Hr p q. assert (Hd : - (PI * 6366710) <= radius <= PI * 6366710) by lra.
  destruct (radial_distance lat lng radius (INR i) Hl Hd) as [_ H1]. destruct (radial_distance lat lng radius (INR j) Hl Hd) as [_ H2].
  rewrite Rabs_right in H1, H2 by lra. split; [exact H1|]. pose proof (distance_triangle (fst p) (snd p) lat lng (fst q) (snd q)) as T.
  rewrite (distance_symmetric (fst p) (snd p) lat lng) in T. unfold p, q, circle_point in *. cbv zeta in H1, H2. lra.
Qed.
Print Assumptions circle_points_correct.

(** C106. The longitude of a place on a radial is not always one between -180 and 180: going a quarter of the way around to the west from -180 ends at -270. *)
Lemma atan2_neg : atan2 (-1) 0 = - (PI / 2).
Proof. unfold atan2. repeat (destruct Rlt_dec; try lra). Qed.
Theorem radial_longitude_refuted : on_radial 0 (-180) (PI / 2 * earth_radius) 270 = (0, -270).
Proof.
  pose proof PI_pos as HP. unfold on_radial. cbv zeta. replace (meters_to_radians (PI / 2 * earth_radius)) with (PI / 2) by (unfold meters_to_radians, earth_radius; field).
  replace (deg_to_rad 0) with 0 by (unfold deg_to_rad; field). replace (deg_to_rad 270) with (3 * (PI / 2)) by (unfold deg_to_rad; field). replace (deg_to_rad (-180)) with (- PI) by (unfold deg_to_rad; field).
  rewrite sin_0, cos_0, cos_PI2, sin_PI2, cos_3PI2, sin_3PI2. replace (0 * 0 + 1 * 1 * 0) with 0 by ring. rewrite asin_0. rewrite sin_0.
  replace (-1 * 1 * 1) with (-1) by ring. replace (0 - 0 * 0) with 0 by ring. rewrite atan2_neg.
  rewrite fmod_small by lra. unfold rad_to_deg. f_equal; field; lra.
Qed.
Print Assumptions radial_longitude_refuted.

(** The hypotheses hold somewhere: a quarter of the way around along the equator. *)
Example geo_sample : distance 0 0 0 90 = PI / 2 * earth_radius /\ azimuth 0 0 0 90 = 90 /\ 0 < distance 0 0 0 90.
Proof.
  pose proof PI_pos as HP. assert (D : distance 0 0 0 90 = PI / 2 * earth_radius).
  { apply meters_inj. destruct (distance_angle 0 0 0 90) as [H1 H2]. replace (meters_to_radians (PI / 2 * earth_radius)) with (PI / 2) by (unfold meters_to_radians, earth_radius; field).
    apply cos_inj; [exact H1|lra|]. rewrite H2, cos_PI2. unfold dot; rewrite ?XE, ?YE, ?WE. replace (deg_to_rad 0) with 0 by (unfold deg_to_rad; field). replace (deg_to_rad 90) with (PI / 2) by (unfold deg_to_rad; field).
    rewrite sin_0, cos_0, cos_PI2, sin_PI2. ring. }
  rewrite D. split; [reflexivity|]. split; [|unfold earth_radius; lra].
  unfold azimuth. cbv zeta. replace (deg_to_rad 0) with 0 by (unfold deg_to_rad; field). replace (deg_to_rad 90) with (PI / 2) by (unfold deg_to_rad; field).
  replace (PI / 2 - 0) with (PI / 2) by ring. rewrite sin_0, cos_0, cos_PI2, sin_PI2. replace (1 * 1) with 1 by ring. replace (1 * 0 - 0 * 1 * 0) with 0 by ring.
  replace (atan2 1 0) with (PI / 2) by (unfold atan2; repeat (destruct Rlt_dec; try lra)). rewrite fmod_small by lra. unfold rad_to_deg. field. lra.
Qed.
(** C106. The direction from a place to itself is given as north. *)
Theorem azimuth_self : forall lat lng, azimuth lat lng lat lng = 0.
Proof.
  intros lat lng. unfold azimuth. cbv zeta. rewrite Rminus_diag_eq by reflexivity. rewrite sin_0, cos_0. rewrite Rmult_0_l, Rmult_1_r.
  replace (cos (deg_to_rad lat) * sin (deg_to_rad lat) - sin (deg_to_rad lat) * cos (deg_to_rad lat)) with 0 by ring.
  assert (atan2 0 0 = 0) as ->. { unfold atan2. destruct (Rlt_dec 0 0); [lra|]. reflexivity. }
  assert (fmod 0 (2 * PI) = 0) as ->. { unfold fmod. replace (0 / (2 * PI)) with 0 by (unfold Rdiv; ring). assert (trunc 0 = 0%Z) as ->; [|cbn; ring]. unfold trunc. destruct (Rle_dec 0 0); [|lra]. unfold Int_part. rewrite <- (tech_up 0 1); [reflexivity|cbn; lra|cbn; lra]. }
  unfold rad_to_deg. unfold Rdiv. ring.
Qed.
Print Assumptions azimuth_self.

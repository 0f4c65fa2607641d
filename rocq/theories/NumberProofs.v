(** Proofs about rounding fractions in base two and ten. *)
From Coq Require Import ZArith QArith Qpower Qabs Lqa Lia.
From Verif Require Import Common StringsModel CoordModel Doubles NumberModel.
Local Open Scope Z_scope.

(** * Fractions and powers *)
Lemma two_ok : 2 <= 2. Proof. lia. Qed.
Lemma ten_ok : 2 <= 10. Proof. lia. Qed.
Definition ratio (a b : Z) : Q := (inject_Z a / inject_Z b)%Q.
Definition pw (base e : Z) : Q := Qpower (inject_Z base) e.
Definition vq (base m e : Z) : Q := (inject_Z m * pw base e)%Q.

Lemma iz_pos z : 0 < z -> (0 < inject_Z z)%Q.
Proof. intros H. change 0%Q with (inject_Z 0). now rewrite <- Zlt_Qlt. Qed.
Lemma iz_nz z : 0 < z -> ~ (inject_Z z == 0)%Q.
Proof. intros H E. apply iz_pos in H. rewrite E in H. now apply Qlt_irrefl in H. Qed.
Section Base.
  Variable base : Z.
  Hypothesis Hb : 2 <= base.
  Lemma base_nz : ~ (inject_Z base == 0)%Q. Proof. apply iz_nz. lia. Qed.
  Lemma pw_plus e f : (pw base (e + f) == pw base e * pw base f)%Q.
  Proof. apply Qpower_plus. apply base_nz. Qed.
  Lemma pw_int e : 0 <= e -> (pw base e == inject_Z (base ^ e))%Q.
  Proof. intros H. unfold pw. symmetry. now apply Zpower_Qpower. Qed.
  Lemma pw_0 : (pw base 0 == 1)%Q. Proof. reflexivity. Qed.
  Lemma pw_pos e : (0 < pw base e)%Q.
  Proof. apply Qpower_0_lt. apply iz_pos. lia. Qed.
  Lemma pw_opp e : (pw base e * pw base (- e) == 1)%Q.
  Proof. rewrite <- pw_plus. replace (e + - e) with 0 by lia. reflexivity. Qed.
  Lemma pw_mono e f : e <= f -> (pw base e <= pw base f)%Q.
  Proof.
    intros H. replace f with (e + (f - e)) by lia. rewrite pw_plus, (pw_int (f - e)) by lia. pose proof (pw_pos e) as P.
    assert (1 <= inject_Z (base ^ (f - e)))%Q. { change 1%Q with (inject_Z 1). rewrite <- Zle_Qle. assert (0 < base ^ (f - e)) by (apply Z.pow_pos_nonneg; lia). lia. }
    nra.
  Qed.
  Lemma pw_lt_inv e f : (pw base e < pw base f)%Q -> e < f.
  Proof. intros H. destruct (Z_lt_le_dec e f) as [G|G]; [exact G|]. apply pw_mono in G. lra. Qed.

  Lemma pw_split j e f : 0 <= j -> f = j + e -> (pw base f == inject_Z (base ^ j) * pw base e)%Q.
  Proof. intros H ->. now rewrite pw_plus, pw_int. Qed.

  (** * The logarithm *)
  Lemma log_up_spec n : forall a b k, 0 < b -> b <= a -> a < base ^ (Z.of_nat n) * b ->
    exists j, 0 <= j /\ log_up n base a b k = k + j /\ base ^ j * b <= a < base ^ (j + 1) * b.
  Proof.
    induction n as [|n IH]; intros a b k Hp Hba Hn; cbn [log_up].
    - change (Z.of_nat 0) with 0 in Hn. rewrite Z.pow_0_r in Hn. lia.
    - destruct (Z.ltb_spec a (base * b)) as [G|G].
      + exists 0. split; [lia|]. split; [lia|]. rewrite Z.pow_0_r, Z.add_0_l, Z.pow_1_r. lia.
      + rewrite Nat2Z.inj_succ, Z.pow_succ_r in Hn by lia.
        destruct (IH a (base * b) (k + 1)) as (j & J1 & J2 & J3); [nia|lia|nia|].
        exists (j + 1). split; [lia|]. split; [lia|]. rewrite !(Z.pow_add_r base _ 1) by lia. rewrite Z.pow_1_r. rewrite Z.pow_add_r, Z.pow_1_r in J3 by lia. nia.
  Qed.
  Lemma log_down_spec n : forall a b k, 0 < a -> 0 < b -> a < base * b -> b <= base ^ (Z.of_nat n - 1) * a -> (0 < n)%nat ->
    exists j, 0 <= j /\ log_down n base a b k = k - j /\ b <= base ^ j * a < base * b.
  Proof.
    induction n as [|n IH]; intros a b k Ha Hp Hab Hn Hpos; [lia|]. cbn [log_down].
    destruct (Z.leb_spec b a) as [G|G].
    - exists 0. rewrite Z.pow_0_r. lia.
    - destruct n as [|n]. { change (Z.of_nat 1 - 1) with 0 in Hn. rewrite Z.pow_0_r in Hn. lia. }
      destruct (IH (base * a) b (k - 1)) as (j & J1 & J2 & J3); [nia|lia|nia| |lia|].
      { replace (Z.of_nat (S (S n)) - 1) with (Z.succ (Z.of_nat (S n) - 1)) in Hn by lia. rewrite Z.pow_succ_r in Hn by lia. nia. }
      exists (j + 1). split; [lia|]. split; [lia|]. rewrite Z.pow_add_r, Z.pow_1_r by lia. nia.
  Qed.
  Lemma log2_pow n x : 0 < x -> Z.log2 x < Z.of_nat n -> x < base ^ Z.of_nat n.
  Proof.
    intros Hx Hn. destruct (Z.log2_spec x Hx) as [_ L]. apply Z.lt_le_trans with (2 ^ Z.succ (Z.log2 x)); [exact L|].
    apply Z.le_trans with (2 ^ Z.of_nat n); [apply Z.pow_le_mono_r; lia|apply Z.pow_le_mono_l; lia].
  Qed.
  Lemma ratio_le a b c d : 0 < b -> 0 < d -> (ratio a b <= ratio c d)%Q <-> a * d <= c * b.
  Proof.
    intros Hbb Hd. unfold ratio. pose proof (iz_pos b Hbb). pose proof (iz_pos d Hd).
    rewrite <- (Qmult_le_r _ _ (inject_Z b * inject_Z d)%Q) by nra.
    setoid_replace (inject_Z a / inject_Z b * (inject_Z b * inject_Z d))%Q with (inject_Z (a * d)) by (rewrite inject_Z_mult; field; now apply iz_nz).
    setoid_replace (inject_Z c / inject_Z d * (inject_Z b * inject_Z d))%Q with (inject_Z (c * b)) by (rewrite inject_Z_mult; field; now apply iz_nz).
    now rewrite <- Zle_Qle.
  Qed.
  Lemma ratio_int a : (ratio a 1 == inject_Z a)%Q.
  Proof. unfold ratio. change (inject_Z 1) with 1%Q. field. Qed.
  Lemma ratio_pos a b : 0 < a -> 0 < b -> (0 < ratio a b)%Q.
  Proof. intros. unfold ratio. apply Qlt_shift_div_l; [now apply iz_pos|]. rewrite Qmult_0_l. now apply iz_pos. Qed.
  Lemma ratio_mul a b c : 0 < b -> (ratio (c * a) b == inject_Z c * ratio a b)%Q.
  Proof. intros H. unfold ratio. rewrite inject_Z_mult. field. now apply iz_nz. Qed.
  Lemma ratio_den a b c : 0 < b -> 0 < c -> (inject_Z c * ratio a (b * c) == ratio a b)%Q.
  Proof. intros H1 H2. unfold ratio. rewrite inject_Z_mult. field. split; now apply iz_nz. Qed.
  Lemma ilog_spec a b : 0 < a -> 0 < b -> (pw base (ilog base a b) <= ratio a b < pw base (ilog base a b + 1))%Q.
  Proof.
    intros Ha Hbb. unfold ilog. destruct (Z.leb_spec b a) as [G|G].
    - destruct (log_up_spec (S (Z.to_nat (Z.log2 a))) a b 0 Hbb G) as (j & J1 & J2 & J3 & J4).
      { pose proof (log2_pow (S (Z.to_nat (Z.log2 a))) a Ha) as L. pose proof (Z.log2_nonneg a).
        assert (a < base ^ Z.of_nat (S (Z.to_nat (Z.log2 a)))) by (apply L; lia). nia. }
      rewrite J2, Z.add_0_l, !pw_int by lia. rewrite <- !ratio_int. split.
      + apply ratio_le; lia.
      + apply Qnot_le_lt. rewrite ratio_le by lia. lia.
    - destruct (log_down_spec (S (S (Z.to_nat (Z.log2 b)))) a b 0 Ha Hbb) as (j & J1 & J2 & J3 & J4); [nia| |lia|].
      { pose proof (log2_pow (S (Z.to_nat (Z.log2 b))) b Hbb) as L. pose proof (Z.log2_nonneg b). replace (Z.of_nat (S (S (Z.to_nat (Z.log2 b)))) - 1) with (Z.of_nat (S (Z.to_nat (Z.log2 b)))) by lia.
        assert (b < base ^ Z.of_nat (S (Z.to_nat (Z.log2 b)))) by (apply L; lia). nia. }
      rewrite J2. replace (0 - j) with (- j) by lia. rewrite pw_plus. change (pw base 1) with (inject_Z base).
      assert (R : (ratio a b * pw base j == ratio (base ^ j * a) b)%Q) by (rewrite ratio_mul, pw_int by lia; ring).
      assert (R1 : (1 <= ratio a b * pw base j)%Q) by (rewrite R; change 1%Q with (ratio 1 1); apply ratio_le; lia).
      assert (R2 : (ratio a b * pw base j < inject_Z base)%Q) by (rewrite R, <- ratio_int; apply Qnot_le_lt; rewrite ratio_le by lia; lia).
      pose proof (pw_opp j) as O. pose proof (pw_pos (- j)) as P1. pose proof (pw_pos j) as P2. split.
      + setoid_replace (ratio a b) with (ratio a b * pw base j * pw base (- j))%Q by (rewrite <- Qmult_assoc, O; ring). nra.
      + setoid_replace (ratio a b) with (ratio a b * pw base j * pw base (- j))%Q by (rewrite <- Qmult_assoc, O; ring). nra.
  Qed.
  Lemma log_unique k1 k2 x : (pw base k1 <= x < pw base (k1 + 1))%Q -> (pw base k2 <= x < pw base (k2 + 1))%Q -> k1 = k2.
  Proof.
    intros [A1 A2] [B1 B2]. assert (k1 < k2 + 1) by (apply pw_lt_inv; lra). assert (k2 < k1 + 1) by (apply pw_lt_inv; lra). lia.
  Qed.

  (** * Scaling and rounding *)
  Lemma scaled_spec e a b a' b' : 0 < a -> 0 < b -> scaled base e a b = (a', b') -> 0 < a' /\ 0 < b' /\ (ratio a' b' * pw base e == ratio a b)%Q.
  Proof.
    intros Ha Hbb. unfold scaled. destruct (Z.leb_spec 0 e) as [G|G]; intros [= <- <-].
    - assert (0 < base ^ e) by (apply Z.pow_pos_nonneg; lia). split; [lia|]. split; [nia|]. rewrite pw_int by lia. rewrite Qmult_comm. now apply ratio_den.
    - assert (0 < base ^ - e) by (apply Z.pow_pos_nonneg; lia). split; [nia|]. split; [lia|].
      rewrite Z.mul_comm, ratio_mul by lia. rewrite <- pw_int by lia. pose proof (pw_opp e) as O. setoid_replace (pw base (- e) * ratio a b * pw base e)%Q with (ratio a b * (pw base e * pw base (- e)))%Q by ring. rewrite O. ring.
  Qed.
End Base.
Lemma nearest_spec a b : 0 < b -> (inject_Z (nearest_int a b) - (1 # 2) <= ratio a b <= inject_Z (nearest_int a b) + (1 # 2))%Q.
Proof.
  intros Hb. pose proof (Z.div_mod a b ltac:(lia)) as D. pose proof (Z.mod_pos_bound a b Hb) as B.
  assert (K : 2 * b * nearest_int a b - b <= 2 * a <= 2 * b * nearest_int a b + b).
  { unfold nearest_int. cbv zeta. destruct (Z.compare_spec (2 * (a mod b)) b); [destruct (Z.even (a / b))|..]; nia. }
  set (n := nearest_int a b) in *. pose proof (iz_pos b Hb) as P. destruct K as [K1 K2].
  rewrite Zle_Qle in K1, K2. unfold Z.sub in K1. rewrite ?inject_Z_plus, ?inject_Z_opp, ?inject_Z_mult in K1, K2. rewrite inject_Z_opp in K1. change (inject_Z 2) with 2%Q in *.
  assert (R : (ratio a b * inject_Z b == inject_Z a)%Q) by (unfold ratio; field; now apply iz_nz).
  split; apply (Qmult_le_r _ _ (inject_Z b)); auto; rewrite R; lra.
Qed.
Lemma nearest_unique a b n : 0 < b -> (inject_Z n - (1 # 2) < ratio a b < inject_Z n + (1 # 2))%Q -> nearest_int a b = n.
Proof.
  intros Hb [H1 H2]. destruct (nearest_spec a b Hb) as [G1 G2]. set (m := nearest_int a b) in *.
  assert (inject_Z m < inject_Z n + 1)%Q by lra. assert (inject_Z n < inject_Z m + 1)%Q by lra.
  change 1%Q with (inject_Z 1) in *. rewrite <- inject_Z_plus, <- Zlt_Qlt in *. lia.
Qed.
Lemma nearest_unique_le a b n : 0 < b -> (inject_Z n - (1 # 2) < ratio a b)%Q -> (ratio a b < inject_Z n + (1 # 2))%Q -> nearest_int a b = n.
Proof. intros. now apply nearest_unique. Qed.
(** Normal form: a carry out of p digits. *)
Definition carried (base p n e : Z) : Z * Z := if n =? base ^ p then (base ^ (p - 1), e + 1) else (n, e).
Lemma carried_value base p n e m x : 2 <= base -> 1 <= p -> carried base p n e = (m, x) -> (vq base m x == vq base n e)%Q.
Proof.
  intros Hb Hp. unfold carried. destruct (Z.eqb_spec n (base ^ p)) as [->|G]; intros [= <- <-]; [|reflexivity].
  unfold vq. rewrite pw_plus by lia. change (pw base 1) with (inject_Z base). replace p with (p - 1 + 1) at 2 by lia. rewrite Z.pow_add_r, Z.pow_1_r, inject_Z_mult by lia. ring.
Qed.
Lemma round_spec base p e a b : 2 <= base -> 0 < a -> 0 < b ->
  exists n, round_at base p e a b = carried base p n e /\ (vq base n e - (1 # 2) * pw base e <= ratio a b <= vq base n e + (1 # 2) * pw base e)%Q.
Proof.
  intros Hb Ha Hbb. unfold round_at. destruct (scaled base e a b) as [a' b'] eqn:E. destruct (scaled_spec base Hb e a b a' b' Ha Hbb E) as (Ha' & Hb' & R).
  exists (nearest_int a' b'). split; [reflexivity|]. destruct (nearest_spec a' b' Hb') as [N1 N2]. pose proof (pw_pos base Hb e) as P. unfold vq. rewrite <- R. split; nra.
Qed.
Lemma round_unique base p e a b n : 2 <= base -> 0 < a -> 0 < b ->
  (vq base n e - (1 # 2) * pw base e < ratio a b)%Q -> (ratio a b < vq base n e + (1 # 2) * pw base e)%Q -> round_at base p e a b = carried base p n e.
Proof.
  intros Hb Ha Hbb H1 H2. unfold round_at. destruct (scaled base e a b) as [a' b'] eqn:E. destruct (scaled_spec base Hb e a b a' b' Ha Hbb E) as (Ha' & Hb' & R).
  pose proof (pw_pos base Hb e) as P. unfold vq in *. rewrite <- R in *. rewrite (nearest_unique a' b' n Hb'); [reflexivity|]. split; apply (Qmult_lt_r _ _ (pw base e)); auto; lra.
Qed.

(** * Decimals *)
Lemma to_decimal_unique a b K n : 0 < a -> 0 < b -> (pw 10 K <= ratio a b)%Q -> (ratio a b < pw 10 (K + 1))%Q ->
  (vq 10 n (K - 14) - (1 # 2) * pw 10 (K - 14) < ratio a b)%Q -> (ratio a b < vq 10 n (K - 14) + (1 # 2) * pw 10 (K - 14))%Q ->
  to_decimal a b = carried 10 15 n (K - 14).
Proof.
  intros Ha Hb H1 H2 H3 H4. unfold to_decimal. assert (L : ilog 10 a b = K). { eapply (log_unique 10 ltac:(lia)); [apply ilog_spec; lia|]. now split. }
  rewrite L. apply round_unique; auto; lia.
Qed.
Lemma to_decimal_spec a b n k : 0 < a -> 0 < b -> to_decimal a b = (n, k) ->
  10 ^ 14 <= n < 10 ^ 15 /\ (vq 10 n k - (1 # 2) * pw 10 k <= ratio a b)%Q /\ (ratio a b <= vq 10 n k + (1 # 2) * pw 10 k)%Q.
Proof.
  intros Ha Hb H. unfold to_decimal in H. pose proof (ilog_spec 10 ltac:(lia) a b Ha Hb) as [L1 L2]. set (K := ilog 10 a b) in *.
  destruct (round_spec 10 15 (K - 14) a b ltac:(lia) Ha Hb) as (m & E & N1 & N2). rewrite H in E. pose proof (pw_pos 10 ltac:(lia) (K - 14)) as P.
  assert (A : (pw 10 K == inject_Z (10 ^ 14) * pw 10 (K - 14))%Q) by (apply pw_split; lia).
  assert (B : (pw 10 (K + 1) == inject_Z (10 ^ 15) * pw 10 (K - 14))%Q) by (apply pw_split; lia).
  rewrite A in L1. rewrite B in L2. unfold vq in *.
  assert (M1 : 10 ^ 14 <= m).
  { apply Z.lt_succ_r. rewrite Zlt_Qlt. unfold Z.succ. rewrite inject_Z_plus. apply (Qmult_lt_r _ _ (pw 10 (K - 14))); auto. change (inject_Z 1) with 1%Q. lra. }
  assert (M2 : m <= 10 ^ 15).
  { apply Z.lt_succ_r. rewrite Zlt_Qlt. unfold Z.succ. rewrite inject_Z_plus. apply (Qmult_lt_r _ _ (pw 10 (K - 14))); auto. change (inject_Z 1) with 1%Q. lra. }
  unfold carried in E. destruct (Z.eqb_spec m (10 ^ 15)) as [Em|G]; injection E as E1 E2; rewrite E1, E2.
  - split; [clear; vm_compute; split; congruence|].
    assert (C : (inject_Z (10 ^ (15 - 1)) * pw 10 (K - 14 + 1) == inject_Z m * pw 10 (K - 14))%Q).
    { rewrite Em. rewrite pw_plus by lia. change (pw 10 1) with (inject_Z 10). setoid_replace (inject_Z (10 ^ 15)) with (inject_Z (10 ^ (15 - 1)) * inject_Z 10)%Q by reflexivity. ring. }
    assert (C' : (pw 10 (K - 14 + 1) == 10 * pw 10 (K - 14))%Q) by (rewrite pw_plus by lia; change (pw 10 1) with 10%Q; ring).
    rewrite C, C'. split; lra.
  - split; [lia|]. split; assumption.
Qed.
Lemma iz_le a b : a <= b -> (inject_Z a <= inject_Z b)%Q. Proof. now rewrite <- Zle_Qle. Qed.
Lemma iz_lt a b : a < b -> (inject_Z a < inject_Z b)%Q. Proof. now rewrite <- Zlt_Qlt. Qed.
Lemma to_decimal_close a b n k : 0 < a -> 0 < b -> 10 ^ 14 <= n < 10 ^ 15 ->
  (vq 10 n k - (1 # 4) * pw 10 k < ratio a b)%Q -> (ratio a b < vq 10 n k + (1 # 4) * pw 10 k)%Q ->
  (n = 10 ^ 14 -> (vq 10 n k - (1 # 40) * pw 10 k < ratio a b)%Q) -> to_decimal a b = (n, k).
Proof.
  intros Ha Hb [N1 N2] H1 H2 H3. pose proof (pw_pos 10 ltac:(lia) k) as P. unfold vq in *.
  assert (Q1 : (inject_Z (10 ^ 14) <= inject_Z n)%Q) by now apply iz_le.
  assert (Q2 : (inject_Z n + 1 <= inject_Z (10 ^ 15))%Q). { change 1%Q with (inject_Z 1). rewrite <- inject_Z_plus. apply iz_le. lia. }
  assert (A : (pw 10 (k + 14) == inject_Z (10 ^ 14) * pw 10 k)%Q) by (apply pw_split; lia).
  assert (B : (pw 10 (k + 14 + 1) == inject_Z (10 ^ 15) * pw 10 k)%Q) by (apply pw_split; lia).
  assert (R1 : (inject_Z (10 ^ 14) * pw 10 k <= inject_Z n * pw 10 k)%Q) by (apply Qmult_le_compat_r; lra).
  assert (R2 : ((inject_Z n + 1) * pw 10 k <= inject_Z (10 ^ 15) * pw 10 k)%Q) by (apply Qmult_le_compat_r; lra).
  destruct (Qlt_le_dec (ratio a b) (pw 10 (k + 14))) as [G|G].
  - assert (n = 10 ^ 14).
    { apply Z.le_antisymm; [|exact N1]. apply Z.lt_succ_r. rewrite Zlt_Qlt. unfold Z.succ. rewrite inject_Z_plus. apply (Qmult_lt_r _ _ (pw 10 k)); auto. change (inject_Z 1) with 1%Q. rewrite A in G. lra. }
    subst n. specialize (H3 eq_refl).
    assert (C : (pw 10 k == 10 * pw 10 (k - 1))%Q) by (rewrite (pw_split 10 ltac:(lia) 1 (k - 1) k) by lia; reflexivity).
    assert (D : (inject_Z (10 ^ 15) * pw 10 (k - 1) == inject_Z (10 ^ 14) * pw 10 k)%Q) by (rewrite C; setoid_replace (inject_Z (10 ^ 15)) with (inject_Z (10 ^ 14) * 10)%Q by reflexivity; ring).
    assert (F : (pw 10 (k + 13) == inject_Z (10 ^ 13) * pw 10 k)%Q) by (apply pw_split; lia).
    assert (F' : (inject_Z (10 ^ 14) == 10 * inject_Z (10 ^ 13))%Q) by reflexivity.
    assert (F'' : (1 <= inject_Z (10 ^ 13))%Q) by (change 1%Q with (inject_Z 1); apply iz_le; lia).
    assert (U : to_decimal a b = carried 10 15 (10 ^ 15) (k + 13 - 14)).
    { apply to_decimal_unique; auto.
      - rewrite F. rewrite F' in H3. nra.
      - replace (k + 13 + 1) with (k + 14) by lia. exact G.
      - unfold vq. replace (k + 13 - 14) with (k - 1) by lia. rewrite D. rewrite C in H3 at 2. pose proof (pw_pos 10 ltac:(lia) (k - 1)). lra.
      - unfold vq. replace (k + 13 - 14) with (k - 1) by lia. rewrite D. rewrite A in G. pose proof (pw_pos 10 ltac:(lia) (k - 1)). lra. }
    rewrite U. unfold carried. rewrite Z.eqb_refl. f_equal. lia.
  - assert (U : to_decimal a b = carried 10 15 n (k + 14 - 14)).
    { apply to_decimal_unique; auto; try (replace (k + 14 - 14) with k by lia); unfold vq; try lra. }
    rewrite U. unfold carried. replace (k + 14 - 14) with k by lia. destruct (Z.eqb_spec n (10 ^ 15)); [lia|reflexivity].
Qed.

(** * Doubles *)
Lemma to_binary_spec a b m x : 0 < a -> 0 < b -> to_binary a b = (m, x) -> exists e,
  -1074 <= e <= x /\ (vq 2 m x - (1 # 2) * pw 2 e <= ratio a b)%Q /\ (ratio a b <= vq 2 m x + (1 # 2) * pw 2 e)%Q /\
  (e = -1074 \/ (vq 2 (2 ^ 52) e <= ratio a b)%Q) /\ (ratio a b < vq 2 (2 ^ 53) e)%Q /\ 0 <= m < 2 ^ 53 /\ (x = -1074 \/ 2 ^ 52 <= m).
Proof.
  intros Ha Hb H. unfold to_binary in H. pose proof (ilog_spec 2 ltac:(lia) a b Ha Hb) as [L1 L2]. set (K := ilog 2 a b) in *. set (e := Z.max (K - 52) (-1074)) in *.
  destruct (round_spec 2 53 e a b ltac:(lia) Ha Hb) as (n & E & N1 & N2). rewrite H in E. pose proof (carried_value 2 53 n e m x ltac:(lia) ltac:(lia) (eq_sym E)) as V.
  pose proof (pw_pos 2 ltac:(lia) e) as P.
  assert (U : (ratio a b < vq 2 (2 ^ 53) e)%Q).
  { unfold vq. rewrite <- (pw_split 2 ltac:(lia) 53 e (e + 53)) by lia. apply Qlt_le_trans with (pw 2 (K + 1)); [exact L2|]. apply pw_mono; lia. }
  assert (W : e = -1074 \/ (vq 2 (2 ^ 52) e <= ratio a b)%Q).
  { destruct (Z.eq_dec e (-1074)) as [G|G]; [now left|right]. unfold vq. rewrite <- (pw_split 2 ltac:(lia) 52 e (e + 52)) by lia. apply Qle_trans with (pw 2 K); [|exact L1]. apply pw_mono; lia. }
  assert (R0 : (0 < ratio a b)%Q) by now apply ratio_pos.
  assert (M0 : 0 <= n).
  { apply Z.lt_succ_r. rewrite Zlt_Qlt. unfold Z.succ. rewrite inject_Z_plus. apply (Qmult_lt_r _ _ (pw 2 e)); auto. change (inject_Z 1) with 1%Q. change (inject_Z 0) with 0%Q. unfold vq in N2. lra. }
  assert (M1 : n <= 2 ^ 53).
  { apply Z.lt_succ_r. rewrite Zlt_Qlt. unfold Z.succ. rewrite inject_Z_plus. apply (Qmult_lt_r _ _ (pw 2 e)); auto. change (inject_Z 1) with 1%Q. unfold vq in N1, U. lra. }
  assert (M2 : e = -1074 \/ 2 ^ 52 <= n).
  { destruct W as [W|W]; [now left|right]. apply Z.lt_succ_r. rewrite Zlt_Qlt. unfold Z.succ. rewrite inject_Z_plus. apply (Qmult_lt_r _ _ (pw 2 e)); auto. change (inject_Z 1) with 1%Q. unfold vq in N2, W. lra. }
  assert (He : -1074 <= e) by lia. clearbody e.
  exists e. rewrite V. split.
  { unfold carried in E. destruct (n =? 2 ^ 53); injection E as E1 E2; lia. }
  split; [exact N1|]. split; [exact N2|]. split; [exact W|]. split; [exact U|].
  unfold carried in E. destruct (Z.eqb_spec n (2 ^ 53)) as [G|G]; injection E as E1 E2; rewrite E1, E2.
  - clear. split; [split; vm_compute; congruence|right; vm_compute; congruence].
  - split; [lia|exact M2].
Qed.
Lemma to_binary_sub a b n : 0 < a -> 0 < b -> 0 <= n < 2 ^ 53 -> (ratio a b < pw 2 (-1021))%Q ->
  (vq 2 n (-1074) - (1 # 2) * pw 2 (-1074) < ratio a b)%Q -> (ratio a b < vq 2 n (-1074) + (1 # 2) * pw 2 (-1074))%Q -> to_binary a b = (n, -1074).
Proof.
  intros Ha Hb Hn Hr H1 H2. unfold to_binary. pose proof (ilog_spec 2 ltac:(lia) a b Ha Hb) as [L1 L2].
  assert (L : ilog 2 a b < -1021) by (apply (pw_lt_inv 2); [lia|lra]).
  replace (Z.max (ilog 2 a b - 52) (-1074)) with (-1074) by lia.
  rewrite (round_unique 2 53 (-1074) a b n) by (auto; lia). unfold carried. destruct (Z.eqb_spec n (2 ^ 53)); [lia|reflexivity].
Qed.

(** * Printing what was read from a printed number *)
Definition good (m e : Z) : Prop := 0 < m < 2 ^ 53 /\ -1074 <= e <= 971 /\ (e = -1074 \/ 2 ^ 52 <= m).
Definition saturated (r : Z * Z) : Z * Z := if 971 <? snd r then (2 ^ 53 - 1, 971) else r.
Lemma fraction_spec m e a b : 0 < m -> fraction m e = (a, b) -> 0 < a /\ 0 < b /\ (ratio a b == vq 2 m e)%Q.
Proof.
  intros Hm. unfold fraction. destruct (Z.leb_spec 0 e) as [G|G]; intros [= <- <-].
  - assert (0 < 2 ^ e) by (apply Z.pow_pos_nonneg; lia). split; [nia|]. split; [lia|]. unfold vq. rewrite ratio_int, inject_Z_mult, pw_int by lia. reflexivity.
  - assert (0 < 2 ^ - e) by (apply Z.pow_pos_nonneg; lia). split; [lia|]. split; [lia|]. unfold vq, ratio. assert (Hp : 0 <= - e) by lia. rewrite <- (pw_int 2 (- e) Hp).
    pose proof (pw_opp 2 two_ok e) as O. pose proof (pw_pos 2 two_ok (- e)) as P. apply (Qmult_inj_r _ _ (pw 2 (- e))); [lra|]. rewrite <- Qmult_assoc, O. field. lra.
Qed.
Definition fraction10 (d e : Z) : Z * Z := if 0 <=? e then (d * 10 ^ e, 1) else (d, 10 ^ (- e)).
Lemma fraction10_spec m e a b : 0 < m -> fraction10 m e = (a, b) -> 0 < a /\ 0 < b /\ (ratio a b == vq 10 m e)%Q.
Proof.
  intros Hm. unfold fraction10. destruct (Z.leb_spec 0 e) as [G|G]; intros [= <- <-].
  - assert (0 < 10 ^ e) by (apply Z.pow_pos_nonneg; lia). split; [nia|]. split; [lia|]. unfold vq. rewrite ratio_int, inject_Z_mult, pw_int by lia. reflexivity.
  - assert (0 < 10 ^ - e) by (apply Z.pow_pos_nonneg; lia). split; [lia|]. split; [lia|]. unfold vq, ratio. assert (Hp : 0 <= - e) by lia. rewrite <- (pw_int 10 (- e) Hp).
    pose proof (pw_opp 10 ten_ok e) as O. pose proof (pw_pos 10 ten_ok (- e)) as P. apply (Qmult_inj_r _ _ (pw 10 (- e))); [lra|]. rewrite <- Qmult_assoc, O. field. lra.
Qed.
Lemma vq_pos base m e : 2 <= base -> (0 < vq base m e)%Q -> 0 < m.
Proof.
  intros Hb H. unfold vq in H. pose proof (pw_pos base Hb e). rewrite Zlt_Qlt. change (inject_Z 0) with 0%Q. apply (Qmult_lt_r _ _ (pw base e)); auto. lra.
Qed.
Lemma saturated_good a b m x : 0 < a -> 0 < b -> saturated (to_binary a b) = (m, x) -> m = 0 /\ x = -1074 \/ good m x.
Proof.
  intros Ha Hb. destruct (to_binary a b) as [m' x'] eqn:E. destruct (to_binary_spec a b m' x' Ha Hb E) as (e & He & _ & _ & _ & _ & Hm & Hx).
  unfold saturated. cbn [snd]. destruct (Z.ltb_spec 971 x') as [G|G]; intros [= <- <-].
  - right. unfold good. clear. split; [split; vm_compute; congruence|]. split; [lia|right; vm_compute; congruence].
  - destruct (Z.eq_dec m' 0) as [->|N]; [left; split; [reflexivity|]; destruct Hx as [->|Hx]; [reflexivity|exfalso; vm_compute in Hx; congruence]|]. right. unfold good. split; [lia|]. split; [lia|assumption].
Qed.

(** Reading is accurate in the normal range. *)
Lemma to_binary_near a b m x : 0 < a -> 0 < b -> to_binary a b = (m, x) -> (pw 2 (-1022) <= ratio a b)%Q ->
  (ratio a b - ratio a b * pw 2 (-53) <= vq 2 m x)%Q /\ (vq 2 m x <= ratio a b + ratio a b * pw 2 (-53))%Q.
Proof.
  intros Ha Hb H Hn. destruct (to_binary_spec a b m x Ha Hb H) as (e & He & B1 & B2 & W & _).
  assert (G : (inject_Z (2 ^ 52) * pw 2 e <= ratio a b)%Q).
  { destruct W as [->|W]; [|exact W]. rewrite <- (pw_split 2 two_ok 52 (-1074) (-1022)) by lia. exact Hn. }
  assert (C : ((1 # 2) * pw 2 e <= ratio a b * pw 2 (-53))%Q).
  { setoid_replace ((1 # 2) * pw 2 e)%Q with (inject_Z (2 ^ 52) * pw 2 e * pw 2 (-53))%Q; [apply Qmult_le_compat_r; [exact G|apply Qlt_le_weak, pw_pos; lia]|].
    setoid_replace (inject_Z (2 ^ 52) * pw 2 e * pw 2 (-53))%Q with (inject_Z (2 ^ 52) * pw 2 (-53) * pw 2 e)%Q by ring. setoid_replace (inject_Z (2 ^ 52) * pw 2 (-53))%Q with (1 # 2)%Q by (vm_compute; reflexivity). reflexivity. }
  split; lra.
Qed.
Lemma decimal_kept a b n k m x a' b' : 0 < a -> 0 < b -> 10 ^ 14 <= n < 10 ^ 15 -> (ratio a b == vq 10 n k)%Q -> (pw 2 (-1022) <= ratio a b)%Q ->
  to_binary a b = (m, x) -> fraction m x = (a', b') -> 0 < m /\ to_decimal a' b' = (n, k).
Proof.
  intros Ha Hb Hn Hr Hnorm H Hf. destruct (to_binary_near a b m x Ha Hb H Hnorm) as [N1 N2]. rewrite Hr in N1, N2. unfold vq at 1 2 in N1. unfold vq at 2 3 in N2.
  pose proof (pw_pos 10 ten_ok k) as P. destruct Hn as [Hn1 Hn2].
  assert (Q1 : (inject_Z (10 ^ 14) <= inject_Z n)%Q) by now apply iz_le. assert (Q2 : (inject_Z n < inject_Z (10 ^ 15))%Q) by now apply iz_lt.
  assert (D : (inject_Z n * pw 2 (-53) < 1 # 5)%Q).
  { apply Qlt_trans with (inject_Z (10 ^ 15) * pw 2 (-53))%Q; [apply Qmult_lt_compat_r; [apply pw_pos; lia|exact Q2]|vm_compute; reflexivity]. }
  assert (D' : (inject_Z (10 ^ 14) * pw 2 (-53) < 1 # 50)%Q) by (vm_compute; reflexivity).
  assert (S1 : (inject_Z n * pw 10 k * pw 2 (-53) < (1 # 5) * pw 10 k)%Q). { setoid_replace (inject_Z n * pw 10 k * pw 2 (-53))%Q with (inject_Z n * pw 2 (-53) * pw 10 k)%Q by ring. apply Qmult_lt_compat_r; auto. }
  assert (S2 : (inject_Z 1 * pw 10 k <= inject_Z n * pw 10 k)%Q) by (apply Qmult_le_compat_r; [apply iz_le; lia|lra]). change (inject_Z 1) with 1%Q in S2.
  assert (Mp : 0 < m) by (apply (vq_pos 2 m x); [lia|lra]). split; [exact Mp|]. destruct (fraction_spec m x a' b' Mp Hf) as (Fa & Fb & Fr).
  apply to_decimal_close; auto; unfold vq; rewrite Fr.
  - lra.
  - lra.
  - intros ->. assert (S3 : (inject_Z (10 ^ 14) * pw 10 k * pw 2 (-53) < (1 # 50) * pw 10 k)%Q). { setoid_replace (inject_Z (10 ^ 14) * pw 10 k * pw 2 (-53))%Q with (inject_Z (10 ^ 14) * pw 2 (-53) * pw 10 k)%Q by ring. apply Qmult_lt_compat_r; auto. }
    lra.
Qed.

Lemma vq_mono base m m' e : 2 <= base -> m <= m' -> (vq base m e <= vq base m' e)%Q.
Proof. intros Hb H. unfold vq. apply Qmult_le_compat_r; [now apply iz_le|apply Qlt_le_weak, pw_pos; lia]. Qed.
Lemma printed_again m e a b n k a2 b2 m2 x2 a3 b3 : good m e -> fraction m e = (a, b) -> to_decimal a b = (n, k) ->
  0 < a2 -> 0 < b2 -> (ratio a2 b2 == vq 10 n k)%Q -> saturated (to_binary a2 b2) = (m2, x2) -> fraction m2 x2 = (a3, b3) ->
  0 < m2 /\ to_decimal a3 b3 = (n, k).
Proof.
  intros [Hm [He Hx]] Hf Hd Ha2 Hb2 Hr Hs Hf3. destruct (fraction_spec m e a b ltac:(lia) Hf) as (Ha & Hb & Fr).
  destruct (to_decimal_spec a b n k Ha Hb Hd) as (Hn & D1 & D2). rewrite Fr in D1, D2. destruct Hn as [Hn1 Hn2].
  destruct (to_binary a2 b2) as [m' x'] eqn:Eb. unfold saturated in Hs. cbn [snd] in Hs.
  pose proof (pw_pos 10 ten_ok k) as P.
  assert (V1 : (inject_Z (10 ^ 14) * pw 10 k <= vq 10 n k)%Q) by (apply vq_mono; lia).
  assert (V2 : (vq 10 n k < inject_Z (10 ^ 15) * pw 10 k)%Q) by (unfold vq; apply Qmult_lt_compat_r; [exact P|now apply iz_lt]).
  destruct (Z.ltb_spec 971 x') as [G|G].
  - (* too large for a double *)
    injection Hs as <- <-. split; [reflexivity|].
    destruct (to_binary_spec a2 b2 m' x' Ha2 Hb2 Eb) as (e' & E1 & B1 & B2 & W & U & M & X). rewrite Hr in B1, B2, W, U.
    assert (Z1 : (inject_Z (2 ^ 1024) <= vq 2 m' x')%Q).
    { destruct X as [X|X]; [lia|]. unfold vq. apply Qle_trans with (inject_Z (2 ^ 52) * pw 2 x')%Q; [|apply Qmult_le_compat_r; [now apply iz_le|apply Qlt_le_weak, pw_pos; lia]].
      rewrite <- (pw_split 2 two_ok 52 x' (x' + 52)) by lia. rewrite <- (pw_int 2 1024) by lia. apply pw_mono; lia. }
    assert (Z2 : 971 <= e').
    { destruct (Z_lt_le_dec e' 971) as [L|L]; [exfalso|exact L]. assert (L' : e' <= 970) by lia. apply (pw_mono 2 two_ok) in L'. unfold vq at 2 in U.
      assert (A : (inject_Z (2 ^ 53) * pw 2 e' <= inject_Z (2 ^ 53) * pw 2 970)%Q) by (apply Qmult_le_l; [reflexivity|exact L']).
      assert (C : (inject_Z (2 ^ 53) * pw 2 970 + (1 # 2) * pw 2 970 < inject_Z (2 ^ 1024))%Q) by (vm_compute; reflexivity). lra. }
    assert (Z3 : (inject_Z (2 ^ 1024 - 2 ^ 970) <= vq 10 n k)%Q).
    { destruct (Z.eq_dec e' 971) as [->|L].
      - setoid_replace (inject_Z (2 ^ 1024 - 2 ^ 970)) with (inject_Z (2 ^ 1024) - (1 # 2) * pw 2 971)%Q by (vm_compute; reflexivity). lra.
      - destruct W as [W|W]; [lia|]. apply Qle_trans with (inject_Z (2 ^ 1024)); [apply iz_le; vm_compute; congruence|].
        apply Qle_trans with (vq 2 (2 ^ 52) e'); [|exact W]. unfold vq. rewrite <- (pw_split 2 two_ok 52 e' (e' + 52)) by lia. rewrite <- (pw_int 2 1024) by lia. apply pw_mono; lia. }
    assert (Z4 : (vq 2 m e <= inject_Z ((2 ^ 53 - 1) * 2 ^ 971))%Q).
    { rewrite inject_Z_mult, <- (pw_int 2 971) by lia. apply Qle_trans with (vq 2 m 971).
      - unfold vq. apply Qmult_le_l; [apply iz_pos; lia|]. apply pw_mono; lia.
      - apply vq_mono; lia. }
    assert (K1 : 294 <= k).
    { destruct (Z_lt_le_dec k 294) as [L|L]; [exfalso|exact L]. assert (L' : k <= 293) by lia. apply (pw_mono 10 ten_ok) in L'.
      assert (A : (inject_Z (10 ^ 15) * pw 10 k <= inject_Z (10 ^ 15) * pw 10 293)%Q) by (apply Qmult_le_l; [reflexivity|exact L']).
      assert (C : (inject_Z (10 ^ 15) * pw 10 293 < inject_Z (2 ^ 1024 - 2 ^ 970))%Q) by (vm_compute; reflexivity). lra. }
    assert (K2 : k <= 294).
    { destruct (Z_lt_le_dec 294 k) as [L|L]; [exfalso|exact L]. assert (L' : 295 <= k) by lia. apply (pw_mono 10 ten_ok) in L'.
      assert (A : (inject_Z (10 ^ 13) * pw 10 k <= vq 10 n k - (1 # 2) * pw 10 k)%Q).
      { assert (T : (inject_Z (10 ^ 13) + 1 <= inject_Z (10 ^ 14))%Q) by (vm_compute; congruence). assert ((inject_Z (10 ^ 13) + 1) * pw 10 k <= inject_Z (10 ^ 14) * pw 10 k)%Q by (apply Qmult_le_compat_r; lra). lra. }
      assert (B : (inject_Z (10 ^ 13) * pw 10 295 <= inject_Z (10 ^ 13) * pw 10 k)%Q) by (apply Qmult_le_l; [reflexivity|exact L']).
      assert (C : (inject_Z ((2 ^ 53 - 1) * 2 ^ 971) < inject_Z (10 ^ 13) * pw 10 295 * 10)%Q) by (vm_compute; reflexivity).
      assert (A' : (inject_Z (10 ^ 13) * pw 10 k * 9 <= vq 10 n k - (1 # 2) * pw 10 k)%Q).
      { assert (T : (inject_Z (10 ^ 13) * 9 + 1 <= inject_Z (10 ^ 14))%Q) by (vm_compute; congruence). assert ((inject_Z (10 ^ 13) * 9 + 1) * pw 10 k <= inject_Z (10 ^ 14) * pw 10 k)%Q by (apply Qmult_le_compat_r; lra). lra. }
      assert (C' : (inject_Z ((2 ^ 53 - 1) * 2 ^ 971) < inject_Z (10 ^ 13) * pw 10 295 * 9)%Q) by (vm_compute; reflexivity). lra. }
    assert (k = 294) by lia. subst k. unfold vq at 1 in D1. unfold vq in Z3. rewrite (pw_int 10 294) in D1, Z3 by lia.
    assert (N1 : 179769313486232 <= n).
    { rewrite <- inject_Z_mult, <- Zle_Qle in Z3. assert (C : 179769313486231 * 10 ^ 294 < 2 ^ 1024 - 2 ^ 970) by (vm_compute; reflexivity).
      destruct (Z_le_gt_dec 179769313486232 n) as [L|L]; [exact L|exfalso]. assert (n * 10 ^ 294 <= 179769313486231 * 10 ^ 294) by (apply Z.mul_le_mono_nonneg_r; [apply Z.pow_nonneg; lia|lia]). lia. }
    assert (N2 : n <= 179769313486232).
    { assert (C : (inject_Z ((2 ^ 53 - 1) * 2 ^ 971) + (1 # 2) * inject_Z (10 ^ 294) < inject_Z (179769313486233 * 10 ^ 294))%Q) by (vm_compute; reflexivity).
      assert (D : (inject_Z n * inject_Z (10 ^ 294) < inject_Z (179769313486233 * 10 ^ 294))%Q) by lra. rewrite <- inject_Z_mult, <- Zlt_Qlt in D.
      apply Z.lt_succ_r. apply (Z.mul_lt_mono_pos_r (10 ^ 294)); [apply Z.pow_pos_nonneg; lia|exact D]. }
    assert (n = 179769313486232) by lia. subst n. clear - Hf3. vm_compute in Hf3. injection Hf3 as <- <-. vm_compute. reflexivity.
  - injection Hs as -> ->. destruct (Qlt_le_dec (ratio a2 b2) (pw 2 (-1022))) as [Hsub|Hnorm].
    2: { exact (decimal_kept a2 b2 n k m2 x2 a3 b3 Ha2 Hb2 (conj Hn1 Hn2) Hr Hnorm Eb Hf3). }
    rewrite Hr in Hsub. destruct (Z_le_gt_dec k (-324)) as [Hk|Hk].
    + (* the number itself is read *)
      assert (T : ((1 # 2) * pw 10 k < (1 # 2) * pw 2 (-1074))%Q).
      { apply (pw_mono 10 ten_ok) in Hk. assert (C : (pw 10 (-324) < pw 2 (-1074))%Q) by (vm_compute; reflexivity). lra. }
      assert (He' : e = -1074).
      { destruct Hx as [Hx|Hx]; [exact Hx|]. destruct (Z.eq_dec e (-1074)) as [E|E]; [exact E|exfalso]. assert (L : -1073 <= e) by lia. apply (pw_mono 2 two_ok) in L.
        assert (A : (inject_Z (2 ^ 52) * pw 2 (-1073) <= vq 2 m e)%Q). { apply Qle_trans with (inject_Z (2 ^ 52) * pw 2 e)%Q; [apply Qmult_le_l; [reflexivity|exact L]|apply vq_mono; lia]. }
        assert (C : (pw 2 (-1022) + (1 # 2) * pw 2 (-1074) < inject_Z (2 ^ 52) * pw 2 (-1073))%Q) by (vm_compute; reflexivity). lra. }
      subst e. assert (Hm2 : to_binary a2 b2 = (m, -1074)).
      { apply to_binary_sub; auto; try lia; rewrite Hr; try lra. assert (C : (pw 2 (-1022) < pw 2 (-1021))%Q) by (vm_compute; reflexivity). lra. }
      rewrite Hm2 in Eb. injection Eb as <- <-. rewrite Hf in Hf3. injection Hf3 as <- <-. split; [lia|exact Hd].
    + assert (Hk2 : k <= -322).
      { destruct (Z_le_gt_dec k (-322)) as [L|L]; [exact L|exfalso]. assert (L' : -321 <= k) by lia. apply (pw_mono 10 ten_ok) in L'.
        assert (A : (inject_Z (10 ^ 14) * pw 10 (-321) <= inject_Z (10 ^ 14) * pw 10 k)%Q) by (apply Qmult_le_l; [reflexivity|exact L']).
        assert (C : (pw 2 (-1022) < inject_Z (10 ^ 14) * pw 10 (-321))%Q) by (vm_compute; reflexivity). lra. }
      destruct (to_binary_spec a2 b2 m2 x2 Ha2 Hb2 Eb) as (e' & E1 & B1 & B2 & W & U & M & X). rewrite Hr in B1, B2, W, U.
      assert (E' : e' = -1074).
      { destruct W as [W|W]; [exact W|]. destruct (Z.eq_dec e' (-1074)) as [E|E]; [exact E|exfalso]. assert (L : -1073 <= e') by lia. apply (pw_mono 2 two_ok) in L. unfold vq at 1 in W.
        assert (A : (inject_Z (2 ^ 52) * pw 2 (-1073) <= inject_Z (2 ^ 52) * pw 2 e')%Q) by (apply Qmult_le_l; [reflexivity|exact L]).
        assert (C : (pw 2 (-1022) < inject_Z (2 ^ 52) * pw 2 (-1073))%Q) by (vm_compute; reflexivity). lra. }
      subst e'.
      assert (T : ((1 # 2) * pw 2 (-1074) < (1 # 4) * pw 10 k)%Q).
      { assert (L : -323 <= k) by lia. apply (pw_mono 10 ten_ok) in L. assert (C : ((1 # 2) * pw 2 (-1074) < (1 # 4) * pw 10 (-323))%Q) by (vm_compute; reflexivity). lra. }
      assert (S2 : (inject_Z 1 * pw 10 k <= inject_Z (10 ^ 14) * pw 10 k)%Q) by (apply Qmult_le_compat_r; [apply iz_le; lia|lra]). change (inject_Z 1) with 1%Q in S2.
      assert (Mp : 0 < m2) by (apply (vq_pos 2 m2 x2); [lia|lra]). split; [exact Mp|].
      destruct (Z.eq_dec k (-323)) as [K|K]; [destruct (Z.eq_dec n (10 ^ 14)) as [N|N]|].
      * (* 1e-309 *)
        subst n k. assert (Hm2 : to_binary a2 b2 = (202402253307311, -1074)).
        { assert (Hc : 0 <= 202402253307311 < 2 ^ 53) by (clear; vm_compute; split; congruence). apply (to_binary_sub a2 b2 _ Ha2 Hb2 Hc); rewrite Hr; clear; vm_compute; reflexivity. }
        rewrite Hm2 in Eb. injection Eb as <- <-. clear - Hf3. vm_compute in Hf3. injection Hf3 as <- <-. vm_compute. reflexivity.
      * destruct (fraction_spec m2 x2 a3 b3 Mp Hf3) as (Fa & Fb & Fr3). apply to_decimal_close; auto; rewrite Fr3; [lra|lra|congruence].
      * destruct (fraction_spec m2 x2 a3 b3 Mp Hf3) as (Fa & Fb & Fr3). apply to_decimal_close; auto; rewrite Fr3; [lra|lra|]. intros _.
        assert (k = -322) by lia. subst k. assert (C : ((1 # 2) * pw 2 (-1074) < (1 # 40) * pw 10 (-322))%Q) by (vm_compute; reflexivity). lra.
Qed.

(** Properties of numbers as text (C121): what of a number survives reading and writing. *)
From Coq Require Import ZArith QArith Qabs Qpower Lqa Lia.
From Verif Require Import Common StringsModel StringsProofs CoordModel CoordProofs Doubles Rounding NumberModel NumberProofs NumberText.
Local Open Scope Z_scope.

(** The value of a numeral and of a double. *)
Definition value (N : numeral) : Q := if negative N then (- magnitude N)%Q else magnitude N.
Definition double_value (x : double) : Q :=
  match x with S754_finite s m e => let v := (inject_Z (Zpos m) * Qpower (inject_Z 2) e)%Q in if s then (- v)%Q else v | _ => 0%Q end.
(** The doubles that are not denormalised: from 2^-1022 to (2^53 - 1) * 2^971. *)
Definition normal (v : Q) : Prop := (Qpower (inject_Z 2) (-1022) <= v)%Q /\ (v <= inject_Z ((2 ^ 53 - 1) * 2 ^ 971))%Q.

Lemma valid_good x : finite x = true -> valid x = true -> good_double x.
Proof.
  destruct x as [s|s| |s m e]; try discriminate; intros _ H; [exact I|]. apply valid_finite in H as (H1 & H2 & H3). unfold good_double, good. split; [lia|]. split; [lia|exact H3].
Qed.
Lemma good_finite x : good_double x -> finite x = true.
Proof. destruct x; cbn; tauto. Qed.
Lemma not_saturated a b m x : 0 < a -> 0 < b -> to_binary a b = (m, x) -> (ratio a b <= inject_Z ((2 ^ 53 - 1) * 2 ^ 971))%Q -> x <= 971.
Proof.
  intros Ha Hb H Hr. destruct (Z_le_gt_dec x 971) as [G|G]; [exact G|exfalso]. destruct (to_binary_spec a b m x Ha Hb H) as (e' & E1 & B1 & B2 & W & U & M & X).
  assert (Z1 : (inject_Z (2 ^ 1024) <= vq 2 m x)%Q).
  { destruct X as [X|X]; [lia|]. unfold vq. apply Qle_trans with (inject_Z (2 ^ 52) * pw 2 x)%Q; [|apply Qmult_le_compat_r; [now apply iz_le|apply Qlt_le_weak, pw_pos; lia]].
    rewrite <- (pw_split 2 two_ok 52 x (x + 52)) by lia. rewrite <- (pw_int 2 1024) by lia. apply pw_mono; lia. }
  destruct (Z_le_gt_dec e' 971) as [L|L].
  - apply (pw_mono 2 two_ok) in L. assert (C : (inject_Z ((2 ^ 53 - 1) * 2 ^ 971) + (1 # 2) * pw 2 971 < inject_Z (2 ^ 1024))%Q) by (vm_compute; reflexivity). lra.
  - destruct W as [W|W]; [lia|]. assert (C : (inject_Z ((2 ^ 53 - 1) * 2 ^ 971) < inject_Z (2 ^ 1024))%Q) by (vm_compute; reflexivity).
    assert (D : (inject_Z (2 ^ 1024) <= vq 2 (2 ^ 52) e')%Q); [|lra]. unfold vq. rewrite <- (pw_split 2 two_ok 52 e' (e' + 52)) by lia. rewrite <- (pw_int 2 1024) by lia. apply pw_mono; lia.
Qed.
Lemma fifteen n : 0 < n < 10 ^ 15 -> exists j, 0 <= j /\ 10 ^ 14 <= n * 10 ^ j < 10 ^ 15.
Proof.
  intros Hn. pose proof (ilog_spec 10 ltac:(lia) n 1 ltac:(lia) ltac:(lia)) as [L1 L2]. rewrite ratio_int in L1, L2. set (K := ilog 10 n 1) in *.
  assert (K0 : 0 <= K). { assert (0 < K + 1); [|lia]. apply (pw_lt_inv 10); [lia|]. apply Qle_lt_trans with (inject_Z n); [|exact L2]. change (pw 10 0) with (inject_Z 1). apply iz_le. lia. }
  assert (K1 : K <= 14). { assert (K < 15); [|lia]. apply (pw_lt_inv 10); [lia|]. apply Qle_lt_trans with (inject_Z n); [exact L1|]. rewrite (pw_int 10 15) by lia. apply iz_lt. lia. }
  rewrite pw_int, <- Zle_Qle in L1 by lia. rewrite pw_int, <- Zlt_Qlt in L2 by lia.
  exists (14 - K). split; [lia|]. assert (P : 0 < 10 ^ (14 - K)) by (apply Z.pow_pos_nonneg; lia).
  assert (E1 : 10 ^ 14 = 10 ^ K * 10 ^ (14 - K)) by (rewrite <- Z.pow_add_r by lia; f_equal; lia). assert (E2 : 10 ^ 15 = 10 ^ (K + 1) * 10 ^ (14 - K)) by (rewrite <- Z.pow_add_r by lia; f_equal; lia).
  rewrite E1, E2. split; [apply Z.mul_le_mono_nonneg_r|apply Z.mul_lt_mono_pos_r]; lia.
Qed.

(** C121. Whatever double is written: reading the text and writing again gives the same text. *)
Theorem number_written_again : forall x, finite x = true -> valid x = true -> print_double (read_double (print_double x)) = print_double x.
Proof. intros x Hf Hv. now apply print_read_print, valid_good. Qed.
Print Assumptions number_written_again.
(** C121. Whatever text is read as a number: what is written for it stays the same from then on. *)
Theorem number_text_stable : forall tok, print_double (read_double (print_double (read_double tok))) = print_double (read_double tok).
Proof. intros tok. apply print_read_print, read_good. Qed.
Print Assumptions number_text_stable.
(** C121. What is written for a number is a numeral, never inf or nan. *)
Theorem written_is_numeral : forall tok, exists N, numeral_ok N /\ print_double (read_double tok) = numeral_text N /\ n_int N <> [] /\ (length (numeral_text N) <= 31)%nat.
Proof. intros tok. destruct (print_spec _ (read_good tok)) as (N & N1 & N2 & _ & N4 & _ & N6). exists N. auto. Qed.
Print Assumptions written_is_numeral.

Lemma zero_read N : numeral_ok N -> number_of (n_int N ++ frac_digits N) <= 0 -> read_double (numeral_text N) = S754_zero (negative N).
Proof. intros Hok H. unfold read_double. rewrite (read_numeral N Hok). unfold decimal_to_double. destruct (Z.leb_spec (number_of (n_int N ++ frac_digits N)) 0); [reflexivity|lia]. Qed.
Lemma normal_read N : numeral_ok N -> normal (magnitude N) -> exists a b m x, 0 < a /\ 0 < b /\ 0 < m /\ (ratio a b == magnitude N)%Q /\ to_binary a b = (m, x) /\ good m x /\
  match m with Zpos p => read_double (numeral_text N) = S754_finite (negative N) p x | _ => False end.
Proof.
  intros Hok [Hlo Hhi]. set (D := number_of (n_int N ++ frac_digits N)) in *. set (E := exponent N - Z.of_nat (length (frac_digits N))) in *.
  assert (Mq : (magnitude N == vq 10 D E)%Q) by reflexivity.
  assert (HD : 0 < D). { apply (vq_pos 10 D E); [lia|]. rewrite <- Mq. eapply Qlt_le_trans; [|exact Hlo]. exact (pw_pos 2 two_ok (-1022)). }
  destruct (fraction10 D E) as [a b] eqn:Ef. destruct (fraction10_spec D E a b HD Ef) as (Ha & Hb & Hr). destruct (to_binary a b) as [m x] eqn:Eb.
  assert (R : (ratio a b == magnitude N)%Q) by (rewrite Hr, Mq; reflexivity).
  assert (Hx : x <= 971) by (apply (not_saturated a b m x Ha Hb Eb); rewrite R; exact Hhi).
  assert (Hn : (pw 2 (-1022) <= ratio a b)%Q) by (rewrite R; exact Hlo).
  destruct (to_binary_near a b m x Ha Hb Eb Hn) as [N1 N2].
  assert (Hm : 0 < m). { apply (vq_pos 2 m x); [lia|]. eapply Qlt_le_trans; [|exact N1]. assert (C : (pw 2 (-53) < 1)%Q) by (vm_compute; reflexivity). pose proof (ratio_pos a b Ha Hb). nra. }
  assert (Es : saturated (to_binary a b) = (m, x)) by (rewrite Eb; unfold saturated; cbn [snd]; destruct (Z.ltb_spec 971 x); [lia|reflexivity]).
  exists a, b, m, x. repeat split; auto; try (destruct (saturated_good a b m x Ha Hb Es) as [[-> _]|[G1 [G2 G3]]]; [lia|]; (lia || assumption)).
  unfold read_double. rewrite (read_numeral N Hok). fold D E. rewrite (decimal_double (negative N) D E a b m x HD Ef Es). destruct m; [lia|reflexivity|lia].
Qed.
Lemma multiple_nearer (r P : Q) n j : (0 < P)%Q -> (inject_Z n * P - (1 # 2) * P <= r)%Q -> (r <= inject_Z n * P + (1 # 2) * P)%Q -> (Qabs (inject_Z n * P - r) <= Qabs (inject_Z j * P - r))%Q.
Proof.
  intros HP H1 H2. destruct (Z.lt_trichotomy j n) as [G|[->|G]]; [|apply Qle_refl|].
  - assert (K : (inject_Z j + 1 <= inject_Z n)%Q) by (change 1%Q with (inject_Z 1); rewrite <- inject_Z_plus; apply iz_le; lia).
    assert (K2 : (inject_Z j * P + P <= inject_Z n * P)%Q) by nra. rewrite (Qabs_neg (inject_Z j * P - r)) by lra. apply Qabs_Qle_condition. split; lra.
  - assert (K : (inject_Z n + 1 <= inject_Z j)%Q) by (change 1%Q with (inject_Z 1); rewrite <- inject_Z_plus; apply iz_le; lia).
    assert (K2 : (inject_Z n * P + P <= inject_Z j * P)%Q) by nra. rewrite (Qabs_pos (inject_Z j * P - r)) by lra. apply Qabs_Qle_condition. split; lra.
Qed.
Lemma vq_shift m x e : e <= x -> (vq 2 m x == inject_Z (m * 2 ^ (x - e)) * pw 2 e)%Q.
Proof. intros H. unfold vq. rewrite (pw_split 2 two_ok (x - e) e x) by lia. rewrite inject_Z_mult. ring. Qed.
Lemma binary_nearest a b m x m' x' : 0 < a -> 0 < b -> to_binary a b = (m, x) -> 0 <= m' < 2 ^ 53 -> -1074 <= x' ->
  (Qabs (vq 2 m x - ratio a b) <= Qabs (vq 2 m' x' - ratio a b))%Q.
Proof.
  intros Ha Hb Eb Hm Hx. destruct (to_binary_spec a b m x Ha Hb Eb) as (e & [E1 E2] & B1 & B2 & W & U & M & _). pose proof (pw_pos 2 two_ok e) as P.
  rewrite (vq_shift m x e E2) in *. destruct (Z_le_gt_dec e x') as [G|G].
  - rewrite (vq_shift m' x' e G). now apply multiple_nearer.
  - destruct W as [W|W]; [lia|]. apply Qle_trans with (Qabs (inject_Z (2 ^ 52) * pw 2 e - ratio a b)); [now apply multiple_nearer|].
    assert (V : (vq 2 m' x' <= vq 2 (2 ^ 52) e)%Q).
    { apply Qle_trans with (vq 2 (2 ^ 53) x'); [apply vq_mono; lia|]. unfold vq. rewrite <- (pw_split 2 two_ok 53 x' (x' + 53)), <- (pw_split 2 two_ok 52 e (e + 52)) by lia. apply pw_mono; lia. }
    unfold vq in V, W |- *. rewrite !Qabs_neg by lra. lra.
Qed.
(** C121. A numeral is read as a double that is as near to it as any (in the range of the normal doubles). *)
Theorem read_nearest : forall N y, numeral_ok N -> normal (magnitude N) -> finite y = true -> valid y = true ->
  (Qabs (double_value (read_double (numeral_text N)) - value N) <= Qabs (double_value y - value N))%Q.
Proof.
  intros N y Hok Hr Hf Hv. destruct (normal_read N Hok Hr) as (a & b & m & x & Ha & Hb & Hmp & R & Eb & Hg & Hd). destruct m as [|p|p]; try lia. rewrite Hd. cbn [double_value].
  change (inject_Z (Zpos p) * Qpower (inject_Z 2) x)%Q with (vq 2 (Zpos p) x).
  assert (K : forall m' x', 0 <= m' < 2 ^ 53 -> -1074 <= x' -> (Qabs (vq 2 (Zpos p) x - magnitude N) <= Qabs (vq 2 m' x' - magnitude N))%Q).
  { intros m' x' H1 H2. rewrite <- R. now apply binary_nearest. }
  assert (R0 : (0 < magnitude N)%Q) by (rewrite <- R; now apply ratio_pos).
  assert (K0 : (Qabs (vq 2 (Zpos p) x - magnitude N) <= magnitude N)%Q).
  { specialize (K 0 0 ltac:(lia) ltac:(lia)). setoid_replace (vq 2 0 0) with 0%Q in K by reflexivity. rewrite (Qabs_neg (0 - magnitude N)) in K by lra. lra. }
  assert (V : exists s m' x', 0 <= m' < 2 ^ 53 /\ -1074 <= x' /\ (double_value y == if s : bool then - vq 2 m' x' else vq 2 m' x')%Q /\ (0 <= vq 2 m' x')%Q).
  { destruct y as [s|s| |s p' x']; try discriminate.
    - exists false, 0, 0. repeat split; try lia. discriminate.
    - apply valid_finite in Hv as (H1 & H2 & H3). exists s, (Zpos p'), x'. split; [lia|]. split; [lia|]. split; [destruct s; reflexivity|]. apply Qlt_le_weak. unfold vq. apply Qmult_lt_0_compat; [now apply iz_pos|exact (pw_pos 2 two_ok x')]. }
  destruct V as (s & m' & x' & V1 & V2 & V3 & V4). specialize (K m' x' V1 V2). rewrite V3. set (A := vq 2 (Zpos p) x) in *. set (B := vq 2 m' x') in *. unfold value.
  destruct (negative N), s.
  - setoid_replace (- A - - magnitude N)%Q with (- (A - magnitude N))%Q by ring. setoid_replace (- B - - magnitude N)%Q with (- (B - magnitude N))%Q by ring. rewrite !Qabs_opp. exact K.
  - setoid_replace (- A - - magnitude N)%Q with (- (A - magnitude N))%Q by ring. rewrite Qabs_opp. rewrite (Qabs_pos (B - - magnitude N)) by lra. lra.
  - rewrite (Qabs_neg (- B - magnitude N)) by lra. lra.
  - exact K.
Qed.
Print Assumptions read_nearest.
(** C121. A number of up to 15 significant digits (in the range of the normal doubles, or zero) is written with the value it was read with. *)
Theorem digits_kept : forall N n k, numeral_ok N -> 0 < n < 10 ^ 15 -> (magnitude N == inject_Z n * Qpower (inject_Z 10) k)%Q -> normal (magnitude N) ->
  exists N', numeral_ok N' /\ print_double (read_double (numeral_text N)) = numeral_text N' /\ (value N' == value N)%Q.
Proof.
  intros N n k Hok Hn Hm Hr. destruct (fifteen n Hn) as (j & Hj & Hn'). destruct (normal_read N Hok Hr) as (a & b & m & x & Ha & Hb & Hmp & R & Eb & Hg & Hd). destruct m as [|p|p]; try lia.
  destruct (print_spec (S754_finite (negative N) p x) Hg) as (N' & N1 & _ & _ & N4 & N5 & _). exists N'. split; [exact N1|]. rewrite Hd. split; [now symmetry|].
  destruct N5 as (Hs & a' & b' & n' & k' & Ef & Ed & Em & _).
  assert (Hr' : (ratio a b == vq 10 (n * 10 ^ j) (k - j))%Q).
  { rewrite R, Hm. unfold vq. rewrite inject_Z_mult, <- (pw_int 10 j) by lia. rewrite <- Qmult_assoc, <- (pw_plus 10 ten_ok). replace (j + (k - j)) with k by lia. reflexivity. }
  destruct (decimal_kept a b (n * 10 ^ j) (k - j) (Zpos p) x a' b' Ha Hb Hn' Hr') as [_ K]; auto.
  { destruct Hr as [Hr _]. rewrite R. exact Hr. }
  rewrite Ed in K. injection K as -> ->. assert (magnitude N' == magnitude N)%Q by (rewrite Em, <- Hr', R; reflexivity). unfold value. rewrite Hs. destruct (negative N); lra.
Qed.
Print Assumptions digits_kept.
Theorem zero_kept : forall N, numeral_ok N -> (magnitude N == 0)%Q -> print_double (read_double (numeral_text N)) = (if negative N then S_ "-0" else S_ "0").
Proof.
  intros N Hok H. assert (number_of (n_int N ++ frac_digits N) <= 0).
  { apply Znot_gt_le. intros G. apply Z.gt_lt in G. apply iz_pos in G. unfold magnitude in H. assert (P : (0 < Qpower (inject_Z 10) (exponent N - Z.of_nat (length (frac_digits N))))%Q) by exact (pw_pos 10 ten_ok (exponent N - Z.of_nat (length (frac_digits N)))).
    apply Qmult_integral in H as [H|H]; [rewrite H in G|rewrite H in P]; now apply Qlt_irrefl in G || now apply Qlt_irrefl in P. }
  rewrite zero_read by auto. destruct (negative N); reflexivity.
Qed.
Print Assumptions zero_kept.
(** C121. Any number in the range of the normal doubles is written with a relative error below 6 * 10^-15: a longitude is off by less than 1.1 * 10^-12 degrees. *)
Theorem number_error : forall N, numeral_ok N -> normal (magnitude N) ->
  exists N', numeral_ok N' /\ print_double (read_double (numeral_text N)) = numeral_text N' /\ (Qabs (value N' - value N) <= magnitude N * (6 # 1000000000000000))%Q.
Proof.
  intros N Hok Hr. destruct (normal_read N Hok Hr) as (a & b & m & x & Ha & Hb & Hmp & R & Eb & Hg & Hd). destruct m as [|p|p]; try lia.
  destruct (print_spec (S754_finite (negative N) p x) Hg) as (N' & N1 & _ & _ & N4 & N5 & _). exists N'. split; [exact N1|]. rewrite Hd. split; [now symmetry|].
  destruct N5 as (Hs & a' & b' & n' & k' & Ef & Ed & Em & _). destruct (fraction_spec (Zpos p) x a' b' ltac:(lia) Ef) as (Fa & Fb & Fr).
  destruct (to_decimal_spec a' b' n' k' Fa Fb Ed) as (Hn' & D1 & D2). rewrite Fr in D1, D2.
  assert (Hlo : (pw 2 (-1022) <= ratio a b)%Q) by (rewrite R; exact (proj1 Hr)). destruct (to_binary_near a b (Zpos p) x Ha Hb Eb Hlo) as [B1 B2].
  assert (V1 : (inject_Z (10 ^ 14) * pw 10 k' <= vq 10 n' k')%Q) by (apply vq_mono; lia). pose proof (pw_pos 10 ten_ok k') as P. pose proof (ratio_pos a b Ha Hb) as Rp.
  change (inject_Z (10 ^ 14)) with 100000000000000%Q in V1. setoid_replace (pw 2 (-53)) with (1 # 9007199254740992)%Q in B1 by (vm_compute; reflexivity). setoid_replace (pw 2 (-53)) with (1 # 9007199254740992)%Q in B2 by (vm_compute; reflexivity).
  rewrite <- R. assert (K : (Qabs (magnitude N' - magnitude N) <= ratio a b * (6 # 1000000000000000))%Q).
  { rewrite Em, <- R. apply Qabs_Qle_condition. split; lra. }
  unfold value. rewrite Hs. destruct (negative N); [|exact K]. setoid_replace (- magnitude N' - - magnitude N)%Q with (- (magnitude N' - magnitude N))%Q by ring. now rewrite Qabs_opp.
Qed.
Print Assumptions number_error.
(** The hypotheses hold of a longitude. *)
Definition longitude : numeral := {| n_sign := Minus; n_int := S_ "122"; n_frac := Some (S_ "082203667147"); n_exp := None |}.
Example longitude_sample : numeral_text longitude = S_ "-122.082203667147" /\ numeral_ok longitude /\ normal (magnitude longitude) /\
  (magnitude longitude == inject_Z 122082203667147 * Qpower (inject_Z 10) (-12))%Q /\ print_double (read_double (S_ "-122.082203667147")) = S_ "-122.082203667147".
Proof.
  split; [reflexivity|]. split; [repeat split; discriminate|]. split; [split; vm_compute; congruence|]. split; vm_compute; reflexivity.
Qed.
Lemma decimal_nearest a b n k n' k' : 0 < a -> 0 < b -> to_decimal a b = (n, k) -> 0 <= n' < 10 ^ 15 -> (Qabs (vq 10 n k - ratio a b) <= Qabs (vq 10 n' k' - ratio a b))%Q.
Proof.
  intros Ha Hb H Hn. unfold to_decimal in H. pose proof (ilog_spec 10 ltac:(lia) a b Ha Hb) as [L1 L2]. set (K := ilog 10 a b) in *.
  destruct (round_spec 10 15 (K - 14) a b ltac:(lia) Ha Hb) as (m & E & N1 & N2). rewrite H in E. pose proof (pw_pos 10 ten_ok (K - 14)) as P.
  rewrite (carried_value 10 15 m (K - 14) n k ltac:(lia) ltac:(lia) (eq_sym E)).
  assert (A : (pw 10 K == inject_Z (10 ^ 14) * pw 10 (K - 14))%Q) by (apply pw_split; lia). rewrite A in L1. unfold vq in *.
  destruct (Z_le_gt_dec (K - 14) k') as [G|G].
  - assert (V : (inject_Z n' * pw 10 k' == inject_Z (n' * 10 ^ (k' - (K - 14))) * pw 10 (K - 14))%Q) by (rewrite (pw_split 10 ten_ok (k' - (K - 14)) (K - 14) k') by lia; rewrite inject_Z_mult; ring).
    rewrite V. now apply multiple_nearer.
  - apply Qle_trans with (Qabs (inject_Z (10 ^ 14) * pw 10 (K - 14) - ratio a b)); [now apply multiple_nearer|].
    assert (V : (inject_Z n' * pw 10 k' <= inject_Z (10 ^ 14) * pw 10 (K - 14))%Q).
    { apply Qle_trans with (vq 10 (10 ^ 15) k'); [apply vq_mono; lia|]. unfold vq. rewrite <- (pw_split 10 ten_ok 15 k' (k' + 15)), <- (pw_split 10 ten_ok 14 (K - 14) K) by lia. apply pw_mono; lia. }
    rewrite !Qabs_neg by lra. lra.
Qed.
(** C121. What is written for a double is as near to it as any number of 15 significant digits. *)
Theorem written_nearest : forall x, finite x = true -> valid x = true ->
  exists N, numeral_ok N /\ print_double x = numeral_text N /\
    forall (neg : bool) n k, 0 <= n < 10 ^ 15 ->
      (Qabs (value N - double_value x) <= Qabs ((if neg then - (inject_Z n * Qpower (inject_Z 10) k) else inject_Z n * Qpower (inject_Z 10) k) - double_value x))%Q.
Proof.
  intros x Hf Hv. pose proof (valid_good x Hf Hv) as Hg. destruct (print_spec x Hg) as (N & N1 & _ & _ & N4 & N5 & _). exists N. split; [exact N1|]. split; [now symmetry|]. intros neg n k Hn.
  change (inject_Z n * Qpower (inject_Z 10) k)%Q with (vq 10 n k). destruct x as [s|s| |s p e]; try discriminate.
  - cbn [stands_for] in N5. subst N. cbn [double_value]. assert (Z : (value (with_sign s zero_numeral) == 0)%Q) by (destruct s; vm_compute; reflexivity). rewrite Z. change (Qabs (0 - 0)) with 0%Q. apply Qabs_nonneg.
  - destruct N5 as (Hs & a & b & n' & k' & Ef & Ed & Em & _). destruct (fraction_spec (Zpos p) e a b ltac:(lia) Ef) as (Fa & Fb & Fr). cbn [double_value].
    change (inject_Z (Zpos p) * Qpower (inject_Z 2) e)%Q with (vq 2 (Zpos p) e). unfold value. rewrite Hs.
    assert (K : forall j i, 0 <= j < 10 ^ 15 -> (Qabs (magnitude N - vq 2 (Zpos p) e) <= Qabs (vq 10 j i - vq 2 (Zpos p) e))%Q) by (intros j i Hj; rewrite Em, <- Fr; now apply decimal_nearest).
    pose proof (ratio_pos a b Fa Fb) as R0. rewrite Fr in R0. assert (V : (0 <= vq 10 n k)%Q) by (unfold vq; apply Qmult_le_0_compat; [change 0%Q with (inject_Z 0); apply iz_le; lia|apply Qlt_le_weak; exact (pw_pos 10 ten_ok k)]).
    pose proof (K 0 0 ltac:(lia)) as K0. setoid_replace (vq 10 0 0) with 0%Q in K0 by reflexivity. specialize (K n k Hn). set (A := vq 2 (Zpos p) e) in *. set (B := vq 10 n k) in *. rewrite (Qabs_neg (0 - A)) in K0 by lra.
    destruct s, neg.
    + setoid_replace (- magnitude N - - A)%Q with (- (magnitude N - A))%Q by ring. setoid_replace (- B - - A)%Q with (- (B - A))%Q by ring. rewrite !Qabs_opp. exact K.
    + setoid_replace (- magnitude N - - A)%Q with (- (magnitude N - A))%Q by ring. rewrite Qabs_opp, (Qabs_pos (B - - A)) by lra. lra.
    + rewrite (Qabs_neg (- B - A)) by lra. lra.
    + exact K.
Qed.
Print Assumptions written_nearest.
(** Of two doubles equally near, the even one is taken: 2^53 + 1 and 2^53 + 3. *)
Example ties_to_even : read_double (S_ "9007199254740993") = S754_finite false (2 ^ 52) 1 /\ read_double (S_ "9007199254740995") = S754_finite false (2 ^ 52 + 2) 1.
Proof. vm_compute. split; reflexivity. Qed.
(** C121. A number of 16 digits is not kept, and neither is every double. *)
Theorem sixteen_digits_refuted : print_double (read_double (S_ "-122.0839597145766")) = S_ "-122.083959714577".
Proof. vm_compute. reflexivity. Qed.
Print Assumptions sixteen_digits_refuted.
Theorem double_kept_refuted : exists x, finite x = true /\ valid x = true /\ read_double (print_double x) <> x /\ print_double x = S_ "0.3".
Proof. exists (read_double (S_ "0.30000000000000004")). split; [vm_compute; reflexivity|]. split; [vm_compute; reflexivity|]. split; [vm_compute; discriminate|vm_compute; reflexivity]. Qed.
Print Assumptions double_kept_refuted.
(** C121. A number too large becomes the largest double, one too small becomes zero. *)
Theorem out_of_range_refuted : print_double (read_double (S_ "1e999")) = S_ "1.79769313486232e+308" /\ print_double (read_double (S_ "1e-999")) = S_ "0".
Proof. split; vm_compute; reflexivity. Qed.
Print Assumptions out_of_range_refuted.
(** C121. Doubles that are no numbers, which no text is read as, are written as words, and those are read as zero. *)
Theorem special_values_refuted : print_double (S754_infinity false) = S_ "inf" /\ print_double (S754_infinity true) = S_ "-inf" /\ print_double S754_nan = S_ "nan" /\
  forall tok, In tok [S_ "inf"; S_ "-inf"; S_ "nan"] -> print_double (read_double tok) = S_ "0".
Proof. repeat split. intros tok [<-|[<-|[<-|[]]]]; reflexivity. Qed.
Print Assumptions special_values_refuted.
(** C121. Text which does not begin with a number counts as zero, with or without a sign. *)
Theorem no_number_is_zero : forall sign t, In sign [[]; S_ "-"; S_ "+"] ->
  (forall c r, t = c :: r -> isdigit c = false /\ c <> "."%char /\ (sign = [] -> c <> "-"%char /\ c <> "+"%char)) ->
  read_double (sign ++ t) = S754_zero false /\ print_double (read_double (sign ++ t)) = S_ "0".
Proof.
  intros sign t Hs Ht. assert (K : read_double (sign ++ t) = S754_zero false); [|rewrite K; split; reflexivity].
  assert (R : exists neg, read_sign (sign ++ t) = (neg, t)).
  { destruct Hs as [<-|[<-|[<-|[]]]]; cbn [app read_sign]; [|now eexists..]. destruct t as [|c r]; [now eexists|]. destruct (Ht c r eq_refl) as (_ & _ & H). destruct (H eq_refl) as [H1 H2].
    cbn [read_sign]. rewrite (proj2 (aeq_neq c "-"%char) H1), (proj2 (aeq_neq c "+"%char) H2). now eexists. }
  destruct R as [neg R]. unfold read_double, read_decimal. rewrite R. destruct t as [|c r]; [reflexivity|]. destruct (Ht c r eq_refl) as (H1 & H2 & _).
  cbn [take_while drop_while]. rewrite H1, (proj2 (aeq_neq c "."%char) H2). reflexivity.
Qed.
Print Assumptions no_number_is_zero.
Example no_number_sample : print_double (read_double (S_ "north")) = S_ "0" /\ print_double (read_double (S_ "-")) = S_ "0" /\ print_double (read_double (S_ "-0")) = S_ "-0".
Proof. repeat split; vm_compute; reflexivity. Qed.

(** Rounding keeps bounds: sums and halves of binary64 numbers, rounded to nearest even, stay
    between any two binary64 numbers the exact result is between. Mathematics about the standard
    library's SpecFloat; nothing of /repo is modelled here. *)
From Verif Require Import Common Doubles DoublesMore.
Local Open Scope Z_scope.

Definition valid (x : double) : bool := valid_binary 53 1024 x.

(** The value scaled by 2^1074, an integer. *)
Definition V (x : double) : Z :=
  match x with
  | S754_finite s m e => cond_Zopp s (Zpos m * 2 ^ (e + 1074))
  | _ => 0
  end.

Lemma digits_spec m : 2 ^ (Zpos (digits2_pos m) - 1) <= Zpos m < 2 ^ Zpos (digits2_pos m).
Proof.
  induction m as [m IH|m IH|]; cbn [digits2_pos].
  - rewrite Pos2Z.inj_succ, (Pos2Z.inj_xI m). replace (Z.succ (Zpos (digits2_pos m)) - 1) with (Z.succ (Zpos (digits2_pos m) - 1)) by lia.
    rewrite !Z.pow_succ_r by lia. revert IH. generalize (2 ^ (Zpos (digits2_pos m) - 1)) (2 ^ Zpos (digits2_pos m)). intros. lia.
  - rewrite Pos2Z.inj_succ, (Pos2Z.inj_xO m). replace (Z.succ (Zpos (digits2_pos m)) - 1) with (Z.succ (Zpos (digits2_pos m) - 1)) by lia.
    rewrite !Z.pow_succ_r by lia. revert IH. generalize (2 ^ (Zpos (digits2_pos m) - 1)) (2 ^ Zpos (digits2_pos m)). intros. lia.
  - cbn. lia.
Qed.
Lemma digits_unique m d : 0 < d -> 2 ^ (d - 1) <= Zpos m < 2 ^ d -> Zpos (digits2_pos m) = d.
Proof.
  intros Hd H. pose proof (digits_spec m) as Hs.
  assert (Zpos (digits2_pos m) - 1 < d).
  { apply (Z.pow_lt_mono_r_iff 2); lia. }
  assert (d - 1 < Zpos (digits2_pos m)).
  { apply (Z.pow_lt_mono_r_iff 2); lia. }
  lia.
Qed.

Definition fexp' (e : Z) : Z := Z.max (e - 53) (-1074).
Lemma fexp_eq e : fexp 53 1024 e = fexp' e.
Proof. reflexivity. Qed.

Lemma valid_finite s m e : valid (S754_finite s m e) = true ->
  -1074 <= e <= 971 /\ 1 <= Zpos m < 2 ^ 53 /\ (e = -1074 \/ 2 ^ 52 <= Zpos m).
Proof.
  unfold valid, valid_binary, bounded, canonical_mantissa. rewrite andb_true_iff. intros [H1 H2].
  apply Zeq_bool_eq in H1. rewrite fexp_eq in H1. unfold fexp' in H1. apply Zle_bool_imp_le in H2.
  pose proof (digits_spec m) as Hs. change (1024 - 53) with 971 in H2.
  assert (Zpos (digits2_pos m) <= 53) by lia.
  assert (2 ^ Zpos (digits2_pos m) <= 2 ^ 53) by (apply Z.pow_le_mono_r; lia).
  split; [lia|]. split; [lia|].
  destruct (Z.eq_dec e (-1074)); [now left|right].
  assert (Zpos (digits2_pos m) = 53) by lia. rewrite H3 in Hs. change (53 - 1) with 52 in Hs. lia.
Qed.

Lemma pow2_pos k : 0 <= k -> 0 < 2 ^ k.
Proof. intros. apply Z.pow_pos_nonneg; lia. Qed.

Lemma V_pos_lt m1 e1 m2 e2 : -1074 <= e1 -> Zpos m1 < 2 ^ 53 -> 2 ^ 52 <= Zpos m2 -> e1 < e2 ->
  Zpos m1 * 2 ^ (e1 + 1074) < Zpos m2 * 2 ^ (e2 + 1074).
Proof.
  intros H1 H2 H3 H4.
  assert (2 ^ (e1 + 1074) * 2 <= 2 ^ (e2 + 1074)).
  { rewrite <- (Z.mul_comm 2), <- Z.pow_succ_r by lia. apply Z.pow_le_mono_r; lia. }
  assert (0 < 2 ^ (e1 + 1074)) by (apply pow2_pos; lia).
  change (2 ^ 53) with (2 * 2 ^ 52) in H2. remember (2 ^ 52) as P. nia.
Qed.

(** The comparison is the comparison of values. *)
Lemma compare_V x y : finite x = true -> finite y = true -> valid x = true -> valid y = true ->
  SFcompare x y = Some (V x ?= V y).
Proof.
  intros Fx Fy Vx Vy.
  assert (Hpos : forall m e, -1074 <= e -> 0 < Zpos m * 2 ^ (e + 1074)).
  { intros m e He. pose proof (pow2_pos (e + 1074) ltac:(lia)). lia. }
  destruct x as [a|a| |a m e]; try discriminate; destruct y as [b|b| |b m' e']; try discriminate; cbn [SFcompare V cond_Zopp].
  - reflexivity.
  - apply valid_finite in Vy as (H1 & H2 & H3). specialize (Hpos m' e' ltac:(lia)).
    destruct b; cbn [cond_Zopp]; f_equal; symmetry; [apply Z.compare_gt_iff | apply Z.compare_lt_iff]; lia.
  - apply valid_finite in Vx as (H1 & H2 & H3). specialize (Hpos m e ltac:(lia)).
    destruct a; cbn [cond_Zopp]; f_equal; symmetry; [apply Z.compare_lt_iff | apply Z.compare_gt_iff]; lia.
  - apply valid_finite in Vx as (H1 & H2 & H3). apply valid_finite in Vy as (H1' & H2' & H3').
    pose proof (Hpos m e ltac:(lia)) as P1. pose proof (Hpos m' e' ltac:(lia)) as P2.
    assert (Hc : match (e ?= e') with Lt => Lt | Gt => Gt | Eq => Pos.compare_cont Eq m m' end =
                 (Zpos m * 2 ^ (e + 1074) ?= Zpos m' * 2 ^ (e' + 1074))).
    { destruct (Z.compare_spec e e') as [->|H|H].
      - change (Pos.compare_cont Eq m m') with (Zpos m ?= Zpos m').
        pose proof (pow2_pos (e' + 1074) ltac:(lia)).
        destruct (Z.compare_spec (Zpos m) (Zpos m')); symmetry;
          [apply Z.compare_eq_iff | apply Z.compare_lt_iff | apply Z.compare_gt_iff]; nia.
      - symmetry. apply Z.compare_lt_iff. apply V_pos_lt; lia.
      - symmetry. apply Z.compare_gt_iff. apply V_pos_lt; lia. }
    destruct a, b; cbn [cond_Zopp]; f_equal.
    + assert (Ho : forall A B, (- A ?= - B) = CompOpp (A ?= B)) by (intros A B; destruct (Z.compare_spec A B); destruct (Z.compare_spec (-A) (-B)); try reflexivity; lia). rewrite Ho, <- Hc.
      destruct (Z.compare_spec e e'); reflexivity.
    + symmetry. apply Z.compare_lt_iff. lia.
    + symmetry. apply Z.compare_gt_iff. lia.
    + exact Hc.
Qed.

Lemma dle_V x y : finite x = true -> finite y = true -> valid x = true -> valid y = true ->
  (dle x y = true <-> V x <= V y).
Proof.
  intros. unfold dle, SFleb. rewrite compare_V by assumption.
  destruct (Z.compare_spec (V x) (V y)); split; intros; try lia; try discriminate; reflexivity.
Qed.

(** [W], an exact result scaled by 2^1075, lies in the interval of length 2^e from m, and [l] says
    whether it is the lower end. *)
Definition approx (m e : Z) (l : location) (W : Z) : Prop :=
  m * 2 ^ (e + 1075) <= W < (m + 1) * 2 ^ (e + 1075) /\ (l = loc_Exact <-> W = m * 2 ^ (e + 1075)).

Definition rec_approx (r : shr_record) (e W : Z) : Prop := approx (shr_m r) e (loc_of_shr_record r) W.

Lemma loc_record m l : loc_of_shr_record (shr_record_of_loc m l) = l.
Proof. destruct l as [|[]]; reflexivity. Qed.

Lemma shr_1_approx r e W : 0 <= shr_m r -> -1075 <= e -> rec_approx r e W -> rec_approx (shr_1 r) (e + 1) W.
Proof.
  intros Hm He [[H1 H2] H3].
  assert (E : 2 ^ (e + 1 + 1075) = 2 * 2 ^ (e + 1075)).
  { rewrite <- Z.pow_succ_r by lia. f_equal. lia. }
  pose proof (pow2_pos (e + 1075) ltac:(lia)) as Hp.
  unfold rec_approx, approx. rewrite E. remember (2 ^ (e + 1075)) as P.
  assert (Hex : forall b s m, loc_of_shr_record {| shr_m := m; shr_r := b; shr_s := s |} = loc_Exact <-> b = false /\ s = false).
  { intros [] [] m; cbn; split; try discriminate; try (intros [? ?]; discriminate); auto. }
  destruct r as [m b s]. cbn [shr_m] in *. rewrite Hex in H3.
  destruct m as [|[p|p|]|p]; [| | | |lia]; cbn [shr_1 shr_m]; rewrite Hex.
  - split; [lia|]. rewrite orb_false_iff. destruct b, s; split; intros; lia || (split; auto; intuition congruence || idtac); intuition.
  - rewrite (Pos2Z.inj_xI p) in *. split; [lia|]. split; [intros [? ?]; discriminate|]. intros. exfalso. lia.
  - rewrite (Pos2Z.inj_xO p) in *. split; [lia|]. rewrite orb_false_iff. split.
    + intros [_ Hb]. apply H3 in Hb. lia.
    + intros Hw. split; [reflexivity|]. apply H3. lia.
  - split; [lia|]. split; [intros [? ?]; discriminate|]. intros. exfalso. lia.
Qed.

Lemma iter_approx p : forall r e W, 0 <= shr_m r -> -1075 <= e -> rec_approx r e W ->
  0 <= shr_m (iter_pos shr_1 p r) /\ rec_approx (iter_pos shr_1 p r) (e + Zpos p) W.
Proof.
  induction p as [p IH|p IH|]; intros r e W Hm He Hr; cbn [iter_pos].
  - destruct (IH (shr_1 r) (e + 1) W) as [A B]; [now apply shr_1_nonneg | lia | now apply shr_1_approx |].
    destruct (IH _ (e + 1 + Zpos p) W A) as [C D]; [lia | exact B |]. split; [exact C|].
    rewrite (Pos2Z.inj_xI p). replace (e + (2 * Zpos p + 1)) with (e + 1 + Zpos p + Zpos p) by lia. exact D.
  - destruct (IH r e W) as [A B]; auto.
    destruct (IH _ (e + Zpos p) W A) as [C D]; [lia | exact B |]. split; [exact C|].
    rewrite (Pos2Z.inj_xO p). replace (e + 2 * Zpos p) with (e + Zpos p + Zpos p) by lia. exact D.
  - split; [now apply shr_1_nonneg | now apply shr_1_approx].
Qed.

Lemma shr_fexp_approx m e l W r e' : 0 <= m -> -1074 <= e -> e <= fexp' (Zdigits2 m + e) -> approx m e l W ->
  shr_fexp 53 1024 m e l = (r, e') -> e' = fexp' (Zdigits2 m + e) /\ 0 <= shr_m r /\ rec_approx r e' W.
Proof.
  intros Hm He Hf Ha. unfold shr_fexp, shr. rewrite fexp_eq.
  assert (H0 : rec_approx (shr_record_of_loc m l) e W).
  { unfold rec_approx. now rewrite record_nonneg, loc_record. }
  destruct (fexp' (Zdigits2 m + e) - e) as [|p|p] eqn:E; intros X; inversion X; subst; clear X.
  - replace (fexp' (Zdigits2 m + e')) with e' by lia. rewrite record_nonneg. auto.
  - destruct (iter_approx p (shr_record_of_loc m l) e W) as [A B]; [now rewrite record_nonneg | lia | exact H0 |].
    repeat split; try apply B; try exact A. lia.
  - lia.
Qed.

Lemma shr_exact_small q E : 0 < q < 2 ^ 53 -> -1074 <= E ->
  shr_fexp 53 1024 q E loc_Exact = ({| shr_m := q; shr_r := false; shr_s := false |}, E).
Proof.
  intros Hq HE. unfold shr_fexp, shr. rewrite fexp_eq. destruct q as [|q|q]; try lia. cbn [Zdigits2].
  pose proof (digits_spec q) as Hs.
  assert (Zpos (digits2_pos q) <= 53).
  { assert (Zpos (digits2_pos q) - 1 < 53); [|lia]. apply (Z.pow_lt_mono_r_iff 2); lia. }
  unfold fexp'. destruct (Z.max (Z.pos (digits2_pos q) + E - 53) (-1074) - E) eqn:X; try reflexivity. lia.
Qed.
Lemma shr_exact_top E : -1074 <= E ->
  shr_fexp 53 1024 (2 ^ 53) E loc_Exact = ({| shr_m := 2 ^ 52; shr_r := false; shr_s := false |}, E + 1).
Proof.
  intros HE. unfold shr_fexp, shr. rewrite fexp_eq. change (Zdigits2 (2 ^ 53)) with 54.
  unfold fexp'. replace (Z.max (54 + E - 53) (-1074) - E) with 1 by lia. reflexivity.
Qed.

(** What rounding returns: the lower or the upper end of the interval the exact result is in,
    the lower one if it is exact; or an infinity if that end is too large. *)
Lemma round_aux_spec sx m e l W : 0 <= m -> -1074 <= e -> e <= fexp' (Zdigits2 m + e) -> approx m e l W ->
  exists q E q', -1074 <= E /\ q * 2 ^ (E + 1075) <= W < (q + 1) * 2 ^ (E + 1075) /\ 0 <= q < 2 ^ 53 /\
    (E = -1074 \/ 2 ^ 52 <= q) /\ (q' = q \/ q' = q + 1 /\ W <> q * 2 ^ (E + 1075)) /\
    let r := binary_round_aux 53 1024 sx m e l in
    (finite r = true /\ valid r = true /\ V r = cond_Zopp sx (q' * 2 ^ (E + 1074))) \/
    (r = S754_infinity sx /\ 2 ^ 53 * 2 ^ (971 + 1074) <= q' * 2 ^ (E + 1074)).
Proof.
  intros Hm He Hf Ha. unfold binary_round_aux.
  destruct (shr_fexp 53 1024 m e l) as [r1 E] eqn:E1.
  destruct (shr_fexp_approx m e l W r1 E Hm He Hf Ha E1) as (HE & Hq & [Hb Hx]).
  set (q := shr_m r1) in *. set (q' := round_nearest_even q (loc_of_shr_record r1)).
  assert (HE' : -1074 <= E) by (rewrite HE; unfold fexp'; lia).
  pose proof (pow2_pos (E + 1075) ltac:(lia)) as HP.
  assert (Hlt : q < 2 ^ 53).
  { destruct Ha as [[_ Ha] _].
    assert (Hmd : m + 1 <= 2 ^ Zdigits2 m).
    { destruct m as [|m|m]; [cbn; lia| |lia]. cbn [Zdigits2]. pose proof (digits_spec m). lia. }
    pose proof (pow2_pos (e + 1075) ltac:(lia)) as HPe.
    assert (W < 2 ^ Zdigits2 m * 2 ^ (e + 1075)) by nia.
    assert (0 <= Zdigits2 m) by (destruct m; cbn; lia).
    rewrite <- Z.pow_add_r in H by lia.
    assert (2 ^ (Zdigits2 m + (e + 1075)) <= 2 ^ (53 + (E + 1075))).
    { apply Z.pow_le_mono_r; [lia|]. rewrite HE. unfold fexp'. lia. }
    rewrite (Z.pow_add_r 2 53 (E + 1075)) in H1 by lia. apply (Z.mul_lt_mono_pos_r (2 ^ (E + 1075))); lia. }
  assert (Hge : E = -1074 \/ 2 ^ 52 <= q).
  { destruct (Z.eq_dec E (-1074)) as [|Hne]; [now left|right].
    assert (HEd : E = Zdigits2 m + e - 53) by (unfold fexp' in HE; lia).
    destruct Ha as [[Ha _] _].
    destruct m as [|m|m]; [clear - HE Hf Hne He; unfold fexp' in *; cbn [Zdigits2] in *; lia| |lia]. cbn [Zdigits2] in *.
    pose proof (digits_spec m) as Hs.
    pose proof (pow2_pos (e + 1075) ltac:(lia)) as HPe.
    assert (2 ^ (Zpos (digits2_pos m) - 1) * 2 ^ (e + 1075) <= W) by nia.
    rewrite <- Z.pow_add_r in H by lia.
    replace (Zpos (digits2_pos m) - 1 + (e + 1075)) with (52 + (E + 1075)) in H by lia.
    rewrite (Z.pow_add_r 2 52 (E + 1075)) in H by lia. assert (2 ^ 52 < q + 1); [|lia]. apply (Z.mul_lt_mono_pos_r (2 ^ (E + 1075))); lia. }
  assert (Hq' : q' = q \/ q' = q + 1 /\ W <> q * 2 ^ (E + 1075)).
  { unfold q'. destruct (loc_of_shr_record r1) as [|[]] eqn:El; cbn [round_nearest_even].
    - now left.
    - destruct (Z.even q); [now left|right]. split; [reflexivity|]. intros C. apply Hx in C. congruence.
    - now left.
    - right. split; [reflexivity|]. intros C. apply Hx in C. congruence. }
  exists q, E, q'. split; [exact HE'|]. split; [exact Hb|]. split; [lia|]. split; [exact Hge|]. split; [exact Hq'|].
  assert (Hcase : q' = 0 \/ 0 < q' < 2 ^ 53 \/ q' = 2 ^ 53) by lia.
  cbv zeta. destruct Hcase as [H0|[H0|H0]].
  - rewrite H0. left.
    assert (Es : exists e2, shr_fexp 53 1024 0 E loc_Exact = ({| shr_m := 0; shr_r := false; shr_s := false |}, e2)).
    { unfold shr_fexp, shr. destruct (fexp 53 1024 (Zdigits2 0 + E) - E) as [|p|p]; cbn [shr_record_of_loc]; eauto.
      exists (E + Zpos p). f_equal. clear. induction p as [p IH|p IH|]; cbn [iter_pos].
      - change (shr_1 {| shr_m := 0; shr_r := false; shr_s := false |}) with {| shr_m := 0; shr_r := false; shr_s := false |}. now rewrite !IH.
      - now rewrite !IH.
      - reflexivity. }
    destruct Es as [e2 ->]. cbn [shr_m]. repeat split. cbn. destruct sx; reflexivity.
  - rewrite (shr_exact_small q' E H0 HE'). cbn [shr_m]. destruct q' as [|q''|q'']; try lia.
    destruct (Zle_bool E (1024 - 53)) eqn:Ele.
    + left. split; [reflexivity|]. split; [|reflexivity].
      unfold valid, valid_binary, bounded, canonical_mantissa. rewrite Ele, andb_true_r.
      apply Zeq_is_eq_bool. rewrite fexp_eq. unfold fexp'. pose proof (digits_spec q'') as Hs.
      assert (Zpos (digits2_pos q'') <= 53).
      { assert (Zpos (digits2_pos q'') - 1 < 53); [|lia]. apply (Z.pow_lt_mono_r_iff 2); lia. }
      destruct Hge as [->|Hge]; [lia|].
      assert (Zpos (digits2_pos q'') = 53); [|lia].
      apply digits_unique; [lia|]. change (53 - 1) with 52. lia.
    + right. split; [reflexivity|]. apply Z.leb_gt in Ele. change (1024 - 53) with 971 in Ele.
      assert (2 ^ 52 <= Zpos q'') by (destruct Hge as [->|]; lia).
      assert (2 ^ (971 + 1074) * 2 <= 2 ^ (E + 1074)).
      { rewrite <- (Z.mul_comm 2), <- Z.pow_succ_r by lia. apply Z.pow_le_mono_r; lia. }
      change (2 ^ 53) with (2 * 2 ^ 52). pose proof (pow2_pos (971 + 1074) ltac:(lia)).
      remember (2 ^ 52) as P. remember (2 ^ (971 + 1074)) as Q. clear HeqP HeqQ. nia.
  - rewrite H0. rewrite (shr_exact_top E HE'). cbn [shr_m]. change (2 ^ 52) with (Zpos 4503599627370496).
    destruct (Zle_bool (E + 1) (1024 - 53)) eqn:Ele.
    + left. split; [reflexivity|]. split.
      * unfold valid, valid_binary, bounded, canonical_mantissa. rewrite Ele, andb_true_r.
        apply Zeq_is_eq_bool. rewrite fexp_eq. change (Zpos (digits2_pos 4503599627370496)) with 53. unfold fexp'. lia.
      * unfold V. f_equal. change (Zpos 4503599627370496) with (2 ^ 52). rewrite <- !Z.pow_add_r by lia. f_equal. lia.
    + right. split; [reflexivity|]. apply Z.leb_gt in Ele. change (1024 - 53) with 971 in Ele.
      apply Z.mul_le_mono_nonneg_l; [lia|]. apply Z.pow_le_mono_r; lia.
Qed.

(** A binary64 number is never strictly inside such an interval. *)
Lemma grid m e q E : -1074 <= e -> 1 <= Zpos m < 2 ^ 53 -> -1074 <= E -> 0 <= q -> (E = -1074 \/ 2 ^ 52 <= q) ->
  Zpos m * 2 ^ (e + 1074) <= q * 2 ^ (E + 1074) \/ (q + 1) * 2 ^ (E + 1074) <= Zpos m * 2 ^ (e + 1074).
Proof.
  intros He Hm HE Hq Hn. destruct (Z_lt_le_dec e E) as [H|H].
  - left. destruct Hn as [->|Hn]; [lia|].
    assert (2 ^ (e + 1074) * 2 <= 2 ^ (E + 1074)).
    { rewrite <- (Z.mul_comm 2), <- Z.pow_succ_r by lia. apply Z.pow_le_mono_r; lia. }
    assert (0 < 2 ^ (e + 1074)) by (apply pow2_pos; lia).
    destruct Hm as [_ Hm]. change (2 ^ 53) with (2 * 2 ^ 52) in Hm. remember (2 ^ 52) as P. clear HeqP. nia.
  - replace (e + 1074) with ((e - E) + (E + 1074)) by lia. rewrite Z.pow_add_r, Z.mul_assoc by lia.
    assert (0 < 2 ^ (E + 1074)) by (apply pow2_pos; lia).
    destruct (Z_le_gt_dec (Zpos m * 2 ^ (e - E)) q); [left|right]; nia.
Qed.

(** Rounding the magnitude of an exact result keeps the bounds it has. *)
Lemma round_bounds sx m e l W : 0 <= m -> -1074 <= e -> e <= fexp' (Zdigits2 m + e) -> approx m e l W ->
  let r := binary_round_aux 53 1024 sx m e l in
  (forall s' m' e', valid (S754_finite s' m' e') = true -> 2 * (Zpos m' * 2 ^ (e' + 1074)) <= W ->
     finite r = true -> Zpos m' * 2 ^ (e' + 1074) <= Z.abs (V r)) /\
  (forall s' m' e', valid (S754_finite s' m' e') = true -> W <= 2 * (Zpos m' * 2 ^ (e' + 1074)) ->
     finite r = true /\ Z.abs (V r) <= Zpos m' * 2 ^ (e' + 1074)) /\
  (finite r = true -> valid r = true /\ V r = cond_Zopp sx (Z.abs (V r))).
Proof.
  intros Hm He Hf Ha r.
  destruct (round_aux_spec sx m e l W Hm He Hf Ha) as (q & E & q' & HE & Hb & Hq & Hn & Hq' & Hr). fold r in Hr.
  assert (E2 : 2 ^ (E + 1075) = 2 * 2 ^ (E + 1074)).
  { rewrite <- Z.pow_succ_r by lia. f_equal. lia. }
  rewrite E2 in *. pose proof (pow2_pos (E + 1074) ltac:(lia)) as HP.
  assert (Hv : finite r = true -> valid r = true /\ Z.abs (V r) = q' * 2 ^ (E + 1074) /\ V r = cond_Zopp sx (Z.abs (V r))).
  { intros Fr. destruct Hr as [(_ & Vr & Er)|[Er _]]; [|rewrite Er in Fr; discriminate].
    split; [exact Vr|]. assert (0 <= q' * 2 ^ (E + 1074)) by nia.
    rewrite Er. destruct sx; cbn [cond_Zopp]; split; lia. }
  split; [|split].
  - intros s' m' e' Vm Hw Fr. apply valid_finite in Vm as (A & B & C).
    destruct (Hv Fr) as (_ & Ea & _). rewrite Ea.
    destruct (grid m' e' q E) as [G|G]; try lia; nia.
  - intros s' m' e' Vm Hw. apply valid_finite in Vm as (A & B & C).
    assert (Hle : q' * 2 ^ (E + 1074) <= Zpos m' * 2 ^ (e' + 1074)).
    { destruct (grid m' e' q E) as [G|G]; try lia; nia. }
    destruct Hr as [(Fr & _)|[Er Ho]].
    + split; [exact Fr|]. destruct (Hv Fr) as (_ & Ea & _). rewrite Ea. exact Hle.
    + exfalso. assert (2 ^ (e' + 1074) <= 2 ^ (971 + 1074)) by (apply Z.pow_le_mono_r; lia).
      pose proof (pow2_pos (e' + 1074) ltac:(lia)). pose proof (pow2_pos (971 + 1074) ltac:(lia)).
      remember (2 ^ (971 + 1074)) as Q. remember (2 ^ (e' + 1074)) as Q'. remember (2 ^ 53) as P.
      clear HeqQ HeqQ' HeqP. nia.
  - intros Fr. destruct (Hv Fr) as (A & _ & B). auto.
Qed.

Lemma V_cases x : finite x = true -> valid x = true ->
  V x = 0 \/ exists s m e, x = S754_finite s m e /\ V x = cond_Zopp s (Zpos m * 2 ^ (e + 1074)) /\ 0 < Zpos m * 2 ^ (e + 1074).
Proof.
  intros F Vx. destruct x as [s|s| |s m e]; try discriminate; [now left|right].
  exists s, m, e. repeat split. apply valid_finite in Vx as (A & _). pose proof (pow2_pos (e + 1074) ltac:(lia)). lia.
Qed.

(** The same with signs. *)
Lemma round_signed sx m e l W lo hi : 0 <= m -> -1074 <= e -> e <= fexp' (Zdigits2 m + e) -> approx m e l W -> 0 < W ->
  finite lo = true -> valid lo = true -> finite hi = true -> valid hi = true ->
  2 * V lo <= cond_Zopp sx W <= 2 * V hi ->
  let r := binary_round_aux 53 1024 sx m e l in
  finite r = true /\ valid r = true /\ V lo <= V r <= V hi.
Proof.
  intros Hm He Hf Ha HW Fl Vl Fh Vh Hb r.
  destruct (round_bounds sx m e l W Hm He Hf Ha) as (B1 & B2 & B3). fold r in B1, B2, B3.
  destruct sx; cbn [cond_Zopp] in Hb, B3.
  - destruct (V_cases lo Fl Vl) as [E|(s & m' & e' & -> & E & P)]; [lia|].
    destruct s; cbn [cond_Zopp] in E; [|lia].
    destruct (B2 _ _ _ Vl ltac:(lia)) as [Fr Hr]. destruct (B3 Fr) as [Vr Er].
    split; [exact Fr|]. split; [exact Vr|]. split; [lia|].
    destruct (V_cases hi Fh Vh) as [E2|(s & m2 & e2 & -> & E2 & P2)]; [lia|].
    destruct s; cbn [cond_Zopp] in E2; [|lia].
    pose proof (B1 _ _ _ Vh ltac:(lia) Fr). lia.
  - destruct (V_cases hi Fh Vh) as [E|(s & m' & e' & -> & E & P)]; [lia|].
    destruct s; cbn [cond_Zopp] in E; [lia|].
    destruct (B2 _ _ _ Vh ltac:(lia)) as [Fr Hr]. destruct (B3 Fr) as [Vr Er].
    split; [exact Fr|]. split; [exact Vr|]. split; [|lia].
    destruct (V_cases lo Fl Vl) as [E2|(s & m2 & e2 & -> & E2 & P2)]; [lia|].
    destruct s; cbn [cond_Zopp] in E2; [lia|].
    pose proof (B1 _ _ _ Vl ltac:(lia) Fr). lia.
Qed.

Lemma shift_digits d m : Zpos (digits2_pos (shift_pos d m)) = Zpos (digits2_pos m) + Zpos d.
Proof.
  apply digits_unique; [lia|]. rewrite shift_pos_correct. change (Zpower_pos 2 d) with (2 ^ Zpos d).
  pose proof (digits_spec m) as Hs.
  replace (Z.pos (digits2_pos m) + Z.pos d - 1) with (Z.pos d + (Z.pos (digits2_pos m) - 1)) by lia.
  replace (Z.pos (digits2_pos m) + Z.pos d) with (Z.pos d + Z.pos (digits2_pos m)) by lia.
  rewrite !Z.pow_add_r by lia. pose proof (pow2_pos (Zpos d) ltac:(lia)). nia.
Qed.

Lemma approx_exact m e : approx m e loc_Exact (m * 2 ^ (e + 1075)) <-> 0 < 2 ^ (e + 1075).
Proof. unfold approx. split; [lia|]. intros H. split; [lia|]. split; auto. Qed.

Lemma binary_round_signed sx m e lo hi : -1074 <= e ->
  finite lo = true -> valid lo = true -> finite hi = true -> valid hi = true ->
  V lo <= cond_Zopp sx (Zpos m * 2 ^ (e + 1074)) <= V hi ->
  let r := binary_round 53 1024 sx m e in finite r = true /\ valid r = true /\ V lo <= V r <= V hi.
Proof.
  intros He Fl Vl Fh Vh Hb r. unfold r, binary_round. rewrite fexp_eq.
  destruct (shl_align m e (fexp' (Zpos (digits2_pos m) + e))) as [mz ez] eqn:Es.
  assert (H : -1074 <= ez /\ ez <= fexp' (Zdigits2 (Zpos mz) + ez) /\ Zpos mz * 2 ^ (ez + 1075) = 2 * (Zpos m * 2 ^ (e + 1074))).
  { assert (E2 : 2 * (Zpos m * 2 ^ (e + 1074)) = Zpos m * 2 ^ (e + 1075)).
    { replace (e + 1075) with (Z.succ (e + 1074)) by lia. rewrite Z.pow_succ_r by lia. lia. }
    rewrite E2. revert Es.
    assert (HE : -1074 <= fexp' (Zpos (digits2_pos m) + e)) by (unfold fexp'; lia).
    remember (fexp' (Zpos (digits2_pos m) + e)) as E eqn:HEd. unfold shl_align.
    destruct (E - e) as [|d|d] eqn:Ed; intros X; injection X as <- <-; cbn [Zdigits2].
    - rewrite <- HEd. split; [exact He|]. split; [lia|reflexivity].
    - rewrite <- HEd. split; [exact He|]. split; [lia|reflexivity].
    - rewrite shift_digits. split; [exact HE|].
      replace (Zpos (digits2_pos m) + Zpos d + E) with (Zpos (digits2_pos m) + e) by lia. split; [lia|].
      rewrite shift_pos_correct. change (Zpower_pos 2 d) with (2 ^ Zpos d).
      rewrite (Z.mul_comm (2 ^ Zpos d)), <- Z.mul_assoc, <- Z.pow_add_r by lia. f_equal. f_equal. lia. }
  destruct H as (H1 & H2 & H3).
  pose proof (pow2_pos (e + 1074) ltac:(lia)) as HP.
  apply (round_signed sx (Zpos mz) ez loc_Exact (Zpos mz * 2 ^ (ez + 1075))); auto; try lia.
  - apply approx_exact. apply pow2_pos. lia.
  - rewrite H3. destruct sx; cbn [cond_Zopp] in *; lia.
Qed.

Lemma normalize_bounds M e lo hi : -1074 <= e ->
  finite lo = true -> valid lo = true -> finite hi = true -> valid hi = true ->
  V lo <= M * 2 ^ (e + 1074) <= V hi ->
  let r := binary_normalize 53 1024 M e false in finite r = true /\ valid r = true /\ V lo <= V r <= V hi.
Proof.
  intros He Fl Vl Fh Vh Hb. destruct M as [|m|m]; cbn [binary_normalize].
  - cbn in *. auto.
  - apply binary_round_signed; auto.
  - apply binary_round_signed; auto. cbn [cond_Zopp]. rewrite <- Z.mul_opp_l. exact Hb.
Qed.

Lemma align_scaled m e ez : ez <= e -> -1074 <= ez ->
  Zpos (fst (shl_align m e ez)) * 2 ^ (ez + 1074) = Zpos m * 2 ^ (e + 1074).
Proof.
  intros H1 H2. unfold shl_align. destruct (ez - e) as [|d|d] eqn:E; cbn [fst].
  - replace ez with e by lia. reflexivity.
  - lia.
  - rewrite shift_pos_correct. change (Zpower_pos 2 d) with (2 ^ Zpos d).
    rewrite (Z.mul_comm (2 ^ Zpos d)), <- Z.mul_assoc, <- Z.pow_add_r by lia. f_equal. f_equal. lia.
Qed.

(** Sums stay between the bounds the exact sum has. *)
Lemma dadd_bounds x y lo hi : finite x = true -> valid x = true -> finite y = true -> valid y = true ->
  finite lo = true -> valid lo = true -> finite hi = true -> valid hi = true ->
  V lo <= V x + V y <= V hi ->
  finite (dadd x y) = true /\ valid (dadd x y) = true /\ V lo <= V (dadd x y) <= V hi.
Proof.
  intros Fx Vx Fy Vy Fl Vl Fh Vh Hb. unfold dadd.
  destruct x as [a|a| |a m e]; try discriminate; destruct y as [b|b| |b m' e']; try discriminate; cbn [SFadd].
  - cbn [V] in Hb. destruct (Bool.eqb a b); auto.
  - change (V (S754_zero a)) with 0 in Hb. rewrite Z.add_0_l in Hb. auto.
  - change (V (S754_zero b)) with 0 in Hb. rewrite Z.add_0_r in Hb. auto.
  - apply valid_finite in Vx as (A & _). apply valid_finite in Vy as (A' & _).
    apply normalize_bounds; auto; [lia|].
    assert (E : forall s p, cond_Zopp s p * 2 ^ (Z.min e e' + 1074) = cond_Zopp s (p * 2 ^ (Z.min e e' + 1074))).
    { intros [] p; cbn [cond_Zopp]; [apply Z.mul_opp_l | reflexivity]. }
    rewrite Z.mul_add_distr_r, !E, !align_scaled by lia. exact Hb.
Qed.

(** Halves stay between the bounds the exact half has. *)
Lemma half_bounds x lo hi : finite x = true -> valid x = true ->
  finite lo = true -> valid lo = true -> finite hi = true -> valid hi = true ->
  2 * V lo <= V x <= 2 * V hi ->
  let r := ddiv x (d_of_Z 2) in finite r = true /\ valid r = true /\ V lo <= V r <= V hi.
Proof.
  intros Fx Vx Fl Vl Fh Vh Hb. change (d_of_Z 2) with (S754_finite false 4503599627370496 (-51)). unfold ddiv.
  destruct x as [a|a| |a m e]; try discriminate; cbn [SFdiv].
  - change (V (S754_zero a)) with 0 in Hb. cbn [finite]. split; [reflexivity|]. split; [reflexivity|]. change (V (S754_zero (xorb a false))) with 0. lia.
  - destruct (SFdiv_core_binary 53 1024 (Zpos m) e (Zpos 4503599627370496) (-51)) as [[mz ez] lz] eqn:E.
    rewrite xorb_false_r. apply valid_finite in Vx as (A & B & _).
    pose proof (digits_spec m) as Hs.
    revert E. unfold SFdiv_core_binary. rewrite fexp_eq. cbn [Zdigits2].
    change (Zpos (digits2_pos 4503599627370496)) with 53.
    assert (Hd : Zpos (digits2_pos m) <= 53).
    { assert (Zpos (digits2_pos m) - 1 < 53); [|lia]. apply (Z.pow_lt_mono_r_iff 2); lia. }
    set (D := Zpos (digits2_pos m)) in *. assert (HD : 0 < D) by (unfold D; lia).
    set (E' := fexp' (D + e - (53 + -51))).
    assert (Hmin : Z.min E' (e - -51) = E') by (unfold E', fexp'; lia). rewrite Hmin.
    assert (HE : -1074 <= E') by (unfold E', fexp'; lia).
    assert (Hs2 : 0 < e - -51 - E') by (unfold E', fexp'; lia).
    destruct (e - -51 - E') as [|s|s] eqn:Es; try lia.
    rewrite Z.shiftl_mul_pow2 by lia. change (Z.pos 4503599627370496) with (2 ^ 52).
    pose proof (Z_div_mod_full (Zpos m * 2 ^ Zpos s) (2 ^ 52)) as Hdm.
    destruct (Z.div_eucl (Zpos m * 2 ^ Zpos s) (2 ^ 52)) as [q rem]. specialize (Hdm ltac:(discriminate)).
    destruct Hdm as [Hdm Hrem]. unfold Remainder in Hrem.
    assert (Hrem' : 0 <= rem < 2 ^ 52) by (change (2 ^ 52) with 4503599627370496 in *; lia).
    intros X. inversion X; subst mz ez lz; clear X Hrem.
    pose proof (pow2_pos (Zpos s) ltac:(lia)) as HPs.
    pose proof (pow2_pos (E' + 1074) ltac:(lia)) as HPE.
    pose proof (pow2_pos (e + 1074) ltac:(lia)) as HPe.
    (* the exact half, scaled *)
    assert (HW : 2 ^ 52 * (Zpos m * 2 ^ (e + 1074)) = (Zpos m * 2 ^ Zpos s) * 2 ^ (E' + 1075)).
    { rewrite (Z.mul_comm (2 ^ 52)), <- !Z.mul_assoc, <- !Z.pow_add_r by lia. f_equal. f_equal. lia. }
    assert (HPE5 : 2 ^ (E' + 1075) = 2 * 2 ^ (E' + 1074)) by (rewrite <- Z.pow_succ_r by lia; f_equal; lia).
    assert (Hq0 : 0 <= q) by (change (2 ^ 52) with 4503599627370496 in *; nia).
    assert (Hap : approx q E' (new_location (2 ^ 52) rem) (Zpos m * 2 ^ (e + 1074))).
    { rewrite Hdm in HW. remember (2 ^ (E' + 1075)) as P. remember (Zpos m * 2 ^ (e + 1074)) as W.
      assert (0 < P) by lia. change (2 ^ 52) with 4503599627370496 in *. split.
      - split; nia.
      - unfold new_location. change (Z.even 4503599627370496) with true. cbn iota. unfold new_location_even.
        destruct (Zeq_bool rem 0) eqn:Er.
        + apply Zeq_bool_eq in Er. split; [intros _; nia | reflexivity].
        + apply Zeq_bool_neq in Er. split; [discriminate|]. intros C. nia. }
    apply (round_signed a q E' (new_location (2 ^ 52) rem) (Zpos m * 2 ^ (e + 1074))); auto; try lia.
    + (* enough digits *)
      destruct (Z.eq_dec E' (-1074)) as [->|Hne].
      { unfold fexp'. lia. }
      assert (HE2 : E' = D + e - 2 - 53) by (unfold E', fexp' in *; lia).
      assert (Hqd : 2 ^ 53 <= q).
      { assert (2 ^ (D - 1) * 2 ^ Zpos s <= 2 ^ 52 * q + rem) by nia.
        rewrite <- Z.pow_add_r in H by lia. replace (D - 1 + Zpos s) with (53 + 52) in H by lia.
        rewrite Z.pow_add_r in H by lia. change (2 ^ 52) with 4503599627370496 in *. change (2 ^ 53) with 9007199254740992 in *. nia. }
      destruct q as [|q|q]; try lia. cbn [Zdigits2].
      assert (54 <= Zpos (digits2_pos q)).
      { pose proof (digits_spec q) as Hq. assert (53 < Zpos (digits2_pos q)); [|lia]. apply (Z.pow_lt_mono_r_iff 2); lia. }
      unfold fexp'. lia.
Qed.

(** The midpoint bbox.h computes lies between the numbers, if doubling them does not overflow. *)
Definition doubles_ok (x : double) : bool :=
  finite x && valid x && match x with S754_finite _ _ e => (e <? 971) | _ => true end.
Definition twice (x : double) : double :=
  match x with
  | S754_finite s m e =>
      if (Zpos m <? 2 ^ 52) then
        (if (2 * Zpos m <? 2 ^ 53) then S754_finite s (2 * m) e else S754_finite s m (e + 1))
      else S754_finite s m (e + 1)
  | _ => x
  end.
Lemma twice_spec x : doubles_ok x = true -> finite (twice x) = true /\ valid (twice x) = true /\ V (twice x) = 2 * V x.
Proof.
  unfold doubles_ok. rewrite !andb_true_iff. intros [[F Vx] He].
  destruct x as [s|s| |s m e]; try discriminate; [repeat split|].
  pose proof Vx as Vx'. apply valid_finite in Vx' as (A & B & C). apply Z.ltb_lt in He. cbn [twice].
  pose proof (digits_spec m) as Hs.
  assert (Hc : forall k p, cond_Zopp s (k * p) = k * cond_Zopp s p) by (intros; destruct s; cbn [cond_Zopp]; lia).
  destruct (Z.ltb_spec (Zpos m) (2 ^ 52)).
  - assert (e = -1074) by lia. subst e.
    destruct (Z.ltb_spec (2 * Zpos m) (2 ^ 53)); [|change (2 ^ 53) with (2 * 2 ^ 52) in *; lia].
    split; [reflexivity|]. split.
    + unfold valid, valid_binary, bounded, canonical_mantissa. apply andb_true_iff. split; [|reflexivity].
      apply Zeq_is_eq_bool. rewrite fexp_eq. unfold fexp'.
      pose proof (digits_spec (2 * m)) as Hs2.
      assert (Zpos (digits2_pos (2 * m)) <= 53); [|lia].
      assert (Zpos (digits2_pos (2 * m)) - 1 < 53); [|lia]. apply (Z.pow_lt_mono_r_iff 2); lia.
    + cbn [V]. rewrite Pos2Z.inj_mul, <- Z.mul_assoc. apply Hc.
  - split; [reflexivity|]. split.
    + unfold valid, valid_binary, bounded, canonical_mantissa. apply andb_true_iff. split.
      * apply Zeq_is_eq_bool. rewrite fexp_eq. unfold fexp'.
        assert (Zpos (digits2_pos m) = 53); [apply digits_unique; [lia|]; change (53 - 1) with 52; lia | lia].
      * apply Z.leb_le. lia.
    + cbn [V]. replace (e + 1 + 1074) with (Z.succ (e + 1074)) by lia. rewrite Z.pow_succ_r by lia.
      rewrite <- Hc. f_equal. lia.
Qed.

Theorem half_sum_between x y : doubles_ok x = true -> doubles_ok y = true -> dle x y = true ->
  let m := ddiv (dadd y x) (d_of_Z 2) in
  finite m = true /\ valid m = true /\ dle x m = true /\ dle m y = true.
Proof.
  intros Hx Hy Hle m.
  destruct (twice_spec x Hx) as (F1 & V1 & E1). destruct (twice_spec y Hy) as (F2 & V2 & E2).
  assert (Fx : finite x = true /\ valid x = true) by (unfold doubles_ok in Hx; rewrite !andb_true_iff in Hx; tauto).
  assert (Fy : finite y = true /\ valid y = true) by (unfold doubles_ok in Hy; rewrite !andb_true_iff in Hy; tauto).
  destruct Fx as [Fx Vx], Fy as [Fy Vy].
  apply dle_V in Hle; auto.
  destruct (dadd_bounds y x (twice x) (twice y)) as (F & Vd & B); auto; [lia|].
  destruct (half_bounds (dadd y x) x y) as (Fm & Vm & Bm); auto; [lia|].
  fold m in Fm, Vm, Bm. repeat split; auto; apply dle_V; auto; lia.
Qed.
Print Assumptions half_sum_between.

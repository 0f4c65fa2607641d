From Verif Require Import Common DateTimeModel.
Local Open Scope Z_scope.

(** * Specification: the proleptic Gregorian calendar. *)
Definition gregorian_leap (y : Z) : Prop := (4 | y) /\ (~ (100 | y) \/ (400 | y)).
Definition leap_days_before (y : Z) : Z := (y - 1) / 4 - (y - 1) / 100 + (y - 1) / 400.
Definition year_start (y : Z) : Z := 365 * (y - 1970) + (leap_days_before y - leap_days_before 1970).
(** Days of the months: September, April, June and November have 30, February 28 or 29. *)
Definition month_days (leap : bool) (m : Z) : Z :=
  if m =? 2 then (if leap then 29 else 28)
  else if (m =? 4) || (m =? 6) || (m =? 9) || (m =? 11) then 30 else 31.
Fixpoint month_start (leap : bool) (m : nat) : Z :=   (* days before month m (counted from 0) *)
  match m with O => 0 | S m' => month_start leap m' + month_days leap (Z.of_nat m' + 1) end.
Definition spec_leap (y : Z) : bool := (y mod 4 =? 0) && (negb (y mod 100 =? 0) || (y mod 400 =? 0)).
Definition unix_seconds (y : Z) (m : nat) (d h mi s : Z) : Z :=
  86400 * (year_start y + month_start (spec_leap y) m + (d - 1)) + 3600 * h + 60 * mi + s.

Lemma spec_leap_iff y : spec_leap y = true <-> gregorian_leap y.
Proof.
  unfold spec_leap, gregorian_leap. rewrite andb_true_iff, orb_true_iff, negb_true_iff, !Z.eqb_eq, Z.eqb_neq.
  rewrite !Z.mod_divide by lia. tauto.
Qed.

Lemma is_leap_spec y : 0 <= y + 1900 -> is_leap y = spec_leap (y + 1900).
Proof. intros H. unfold is_leap, spec_leap. now rewrite !Z.rem_mod_nonneg by lia. Qed.

Lemma leap_step y : leap_days_before (y + 1) = leap_days_before y + if spec_leap y then 1 else 0.
Proof.
  unfold leap_days_before, spec_leap. replace (y + 1 - 1) with y by lia.
  assert (H4 : y / 4 = (y - 1) / 4 + if y mod 4 =? 0 then 1 else 0) by (destruct (y mod 4 =? 0) eqn:E; Z.div_mod_to_equations; lia).
  assert (H100 : y / 100 = (y - 1) / 100 + if y mod 100 =? 0 then 1 else 0) by (destruct (y mod 100 =? 0) eqn:E; Z.div_mod_to_equations; lia).
  assert (H400 : y / 400 = (y - 1) / 400 + if y mod 400 =? 0 then 1 else 0) by (destruct (y mod 400 =? 0) eqn:E; Z.div_mod_to_equations; lia).
  rewrite H4, H100, H400.
  destruct (y mod 4 =? 0) eqn:E4, (y mod 100 =? 0) eqn:E100, (y mod 400 =? 0) eqn:E400; cbn [andb orb negb];
    try lia; exfalso; Z.div_mod_to_equations; lia.
Qed.

Lemma year_step y : year_start (y + 1) = year_start y + if spec_leap y then 366 else 365.
Proof. unfold year_start. rewrite leap_step. destruct (spec_leap y); lia. Qed.

Lemma year_loop_spec n y r : 0 <= y + 1900 -> year_loop n y r = r + (year_start (y + 1900 + Z.of_nat n) - year_start (y + 1900)).
Proof.
  revert y r. induction n as [|n IH]; intros y r H.
  - cbn [year_loop]. replace (y + 1900 + Z.of_nat 0) with (y + 1900) by lia. lia.
  - cbn [year_loop]. rewrite IH by lia. rewrite is_leap_spec by lia.
    pose proof (year_step (y + 1900)) as Hs. replace (y + 1900 + 1) with (y + 1 + 1900) in Hs by lia.
    replace (y + 1900 + Z.of_nat (S n)) with (y + 1 + 1900 + Z.of_nat n) by lia.
    rewrite Hs. destruct (spec_leap (y + 1900)); lia.
Qed.

Lemma month_loop_spec l m r : (m <= 11)%nat -> month_loop l m 0 r = Ok (r + month_start l m).
Proof.
  intros H. do 12 (destruct m as [|m]; [destruct l; cbn [month_loop nth_error ndays]; f_equal; cbn; lia|]). lia.
Qed.

Lemma time_t_spec y m d h mi s : 1970 <= y -> (m <= 11)%nat ->
  get_time_t {| tm_year := y - 1900; tm_mon := Z.of_nat m; tm_mday := d; tm_hour := h; tm_min := mi; tm_sec := s |}
  = Ok (unix_seconds y m d h mi s).
Proof.
  intros Hy Hm. unfold get_time_t. cbn [tm_year tm_mon tm_mday tm_hour tm_min tm_sec].
  rewrite year_loop_spec by lia. rewrite Nat2Z.id, month_loop_spec by auto. cbn [bind].
  rewrite is_leap_spec by lia. replace (y - 1900 + 1900) with y by lia.
  replace (70 + 1900 + Z.of_nat (Z.to_nat (y - 1900 - 70))) with y by lia.
  unfold unix_seconds. f_equal. change (year_start (70 + 1900)) with 0. lia.
Qed.

(** Valid dates and their order. *)
Definition valid (y : Z) (m : nat) (d h mi s : Z) : Prop :=
  1970 <= y /\ (m <= 11)%nat /\ 1 <= d <= month_days (spec_leap y) (Z.of_nat m + 1) /\ 0 <= h <= 23 /\ 0 <= mi <= 59 /\ 0 <= s <= 59.
Definition before (y1 : Z) (m1 : nat) (d1 h1 mi1 s1 y2 : Z) (m2 : nat) (d2 h2 mi2 s2 : Z) : Prop :=
  y1 < y2 \/ y1 = y2 /\ ((m1 < m2)%nat \/ m1 = m2 /\ (d1 < d2 \/ d1 = d2 /\ (h1 < h2 \/ h1 = h2 /\ (mi1 < mi2 \/ mi1 = mi2 /\ s1 < s2)))).

Lemma month_days_pos l m : 28 <= month_days l m.
Proof. unfold month_days. destruct (m =? 2), l, ((m =? 4) || (m =? 6) || (m =? 9) || (m =? 11)); lia. Qed.
Lemma month_start_mono l m1 m2 : (m1 < m2)%nat -> month_start l m1 + month_days l (Z.of_nat m1 + 1) <= month_start l m2.
Proof.
  intros H. induction H; cbn [month_start]; [lia|]. pose proof (month_days_pos l (Z.of_nat m + 1)). lia.
Qed.
Lemma month_start_12 l : month_start l 12 = if l then 366 else 365.
Proof. destruct l; reflexivity. Qed.
Lemma year_start_mono y1 y2 : y1 < y2 -> year_start y1 + (if spec_leap y1 then 366 else 365) <= year_start y2.
Proof.
  intros H. rewrite <- year_step. replace y2 with (y1 + 1 + Z.of_nat (Z.to_nat (y2 - y1 - 1))) by lia.
  induction (Z.to_nat (y2 - y1 - 1)) as [|n IH].
  - replace (y1 + 1 + Z.of_nat 0) with (y1 + 1) by lia. lia.
  - replace (y1 + 1 + Z.of_nat (S n)) with (y1 + 1 + Z.of_nat n + 1) by lia. rewrite (year_step (y1 + 1 + Z.of_nat n)).
    destruct (spec_leap (y1 + 1 + Z.of_nat n)); lia.
Qed.
Lemma day_in_year l m d : (m <= 11)%nat -> 1 <= d <= month_days l (Z.of_nat m + 1) ->
  0 <= month_start l m + (d - 1) < if l then 366 else 365.
Proof.
  intros Hm Hd. assert (0 <= month_start l m).
  { clear. induction m; cbn [month_start]; [lia|]. pose proof (month_days_pos l (Z.of_nat m + 1)). lia. }
  assert (Hl : (m < 12)%nat) by lia. pose proof (month_start_mono l m 12 Hl) as H12. rewrite month_start_12 in H12. destruct l; lia.
Qed.

Lemma monotone y1 m1 d1 h1 mi1 s1 y2 m2 d2 h2 mi2 s2 :
  valid y1 m1 d1 h1 mi1 s1 -> valid y2 m2 d2 h2 mi2 s2 -> before y1 m1 d1 h1 mi1 s1 y2 m2 d2 h2 mi2 s2 ->
  unix_seconds y1 m1 d1 h1 mi1 s1 < unix_seconds y2 m2 d2 h2 mi2 s2.
Proof.
  intros (Y1 & M1 & D1 & H1 & I1 & S1) (Y2 & M2 & D2 & H2 & I2 & S2) B. unfold unix_seconds.
  pose proof (day_in_year _ _ _ M1 D1). pose proof (day_in_year _ _ _ M2 D2).
  destruct B as [B|[-> B]].
  - pose proof (year_start_mono _ _ B). destruct (spec_leap y1); lia.
  - destruct B as [B|[-> B]].
    + pose proof (month_start_mono (spec_leap y2) _ _ B). lia.
    + lia.
Qed.

Lemma time_t_pre1970_wit : exists y m d, y < 1970 /\
  get_time_t {| tm_year := y - 1900; tm_mon := Z.of_nat m; tm_mday := d; tm_hour := 0; tm_min := 0; tm_sec := 0 |}
  <> Ok (unix_seconds y m d 0 0 0).
Proof. exists 1969, 11%nat, 31. split; [lia|vm_compute; discriminate]. Qed.
(** Every year up to 1970 with the same leap status is confused with 1970. *)
Lemma time_t_pre1970 y m d h mi s : 1900 <= y <= 1970 -> (m <= 11)%nat -> spec_leap y = false ->
  get_time_t {| tm_year := y - 1900; tm_mon := Z.of_nat m; tm_mday := d; tm_hour := h; tm_min := mi; tm_sec := s |}
  = Ok (unix_seconds 1970 m d h mi s).
Proof.
  intros Hy Hm Hl. rewrite <- time_t_spec by lia. unfold get_time_t. cbn [tm_year tm_mon tm_mday tm_hour tm_min tm_sec].
  rewrite !is_leap_spec by lia. replace (y - 1900 + 1900) with y by lia. rewrite Hl.
  replace (Z.to_nat (y - 1900 - 70)) with 0%nat by lia. reflexivity.
Qed.

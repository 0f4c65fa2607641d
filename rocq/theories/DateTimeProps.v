(** Property theorems about date-times (C12). *)
From Verif Require Import Common DateTimeModel DateTimeProofs.
Local Open Scope Z_scope.

(** C12. From 1970 on, the seconds are those of the proleptic Gregorian calendar. *)
Theorem date_time_seconds : forall y m d h mi s, 1970 <= y -> (m <= 11)%nat ->
  get_time_t {| tm_year := y - 1900; tm_mon := Z.of_nat m; tm_mday := d; tm_hour := h; tm_min := mi; tm_sec := s |}
  = Ok (unix_seconds y m d h mi s).
Proof. exact time_t_spec. Qed.
Print Assumptions date_time_seconds.

(** C12. Leap years are those of the Gregorian calendar. *)
Theorem date_time_leap_years : forall y, 0 <= y -> (is_leap (y - 1900) = true <-> gregorian_leap y).
Proof.
  exact (fun y H => eq_ind_r (fun b => b = true <-> gregorian_leap y)
    (eq_ind_r (fun z => spec_leap z = true <-> gregorian_leap y) (spec_leap_iff y) (Z.sub_add 1900 y))
    (is_leap_spec (y - 1900) (eq_ind_r (fun z => 0 <= z) H (Z.sub_add 1900 y)))).
Qed.
Print Assumptions date_time_leap_years.

(** C12. Later valid date-times have larger seconds, so distinct ones are never confused. *)
Theorem date_time_monotone : forall y1 m1 d1 h1 mi1 s1 y2 m2 d2 h2 mi2 s2,
  valid y1 m1 d1 h1 mi1 s1 -> valid y2 m2 d2 h2 mi2 s2 -> before y1 m1 d1 h1 mi1 s1 y2 m2 d2 h2 mi2 s2 ->
  unix_seconds y1 m1 d1 h1 mi1 s1 < unix_seconds y2 m2 d2 h2 mi2 s2.
Proof. exact monotone. Qed.
Print Assumptions date_time_monotone.

(** Non-vacuity and known values. *)
Example date_time_nonvacuous : valid 2008 1 29 23 59 59 /\ before 2008 1 29 23 59 59 2008 2 1 0 0 0 /\
  unix_seconds 2008 2 1 0 0 0 = 1204329600 /\ unix_seconds 2008 1 29 23 59 59 = 1204329599.
Proof. unfold valid, before. repeat split; try reflexivity; try (vm_compute; congruence); try lia. Qed.

(** C12. Refuted before 1970: 1969-12-31 is not one day before the epoch. *)
Theorem date_time_before_1970_refuted : exists y m d, y < 1970 /\
  get_time_t {| tm_year := y - 1900; tm_mon := Z.of_nat m; tm_mday := d; tm_hour := 0; tm_min := 0; tm_sec := 0 |}
  <> Ok (unix_seconds y m d 0 0 0).
Proof. exact time_t_pre1970_wit. Qed.
Print Assumptions date_time_before_1970_refuted.

(** C12. What happens instead: a date in a common year before 1970 gets the seconds of the same day of 1970. *)
Theorem date_time_before_1970_as_1970 : forall y m d h mi s, 1900 <= y <= 1970 -> (m <= 11)%nat -> spec_leap y = false ->
  get_time_t {| tm_year := y - 1900; tm_mon := Z.of_nat m; tm_mday := d; tm_hour := h; tm_min := mi; tm_sec := s |}
  = Ok (unix_seconds 1970 m d h mi s).
Proof. exact time_t_pre1970. Qed.
Print Assumptions date_time_before_1970_as_1970.

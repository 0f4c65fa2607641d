(** Model of kmlbase::DateTime::GetTimeT (src/kml/base/date_time.cc). *)
From Verif Require Import Common.
Local Open Scope Z_scope.

(** struct tm fields used (date_time.h tm_): tm_year counts from 1900, tm_mon from 0. *)
Record tm := { tm_year : Z; tm_mon : Z; tm_mday : Z; tm_hour : Z; tm_min : Z; tm_sec : Z }.

(** date_time.cc:57-60 is_leap; C's % is Z.rem.  Simplification: int does not overflow. *)
Definition is_leap (year : Z) : bool :=
  let year := year + 1900 in
  (Z.rem year 4 =? 0) && (negb (Z.rem year 100 =? 0) || (Z.rem year 400 =? 0)).
(** date_time.cc:65-67 ndays. *)
Definition ndays (leap : bool) : list Z :=
  if leap then [31; 29; 31; 30; 31; 30; 31; 31; 30; 31; 30; 31]
  else [31; 28; 31; 30; 31; 30; 31; 31; 30; 31; 30; 31].
(** date_time.cc:71-72: the year loop, [n] = number of iterations. *)
Fixpoint year_loop (n : nat) (year res : Z) : Z :=
  match n with
  | O => res
  | S n' => year_loop n' (year + 1) (res + if is_leap year then 366 else 365)
  end.
(** date_time.cc:74-75: the month loop; reading past the twelve months is UB. *)
Fixpoint month_loop (leap : bool) (n : nat) (month : nat) (acc : Z) : res Z :=
  match n with
  | O => Ok acc
  | S n' => match nth_error (ndays leap) month with
            | Some d => month_loop leap n' (S month) (acc + d)
            | None => UB
            end
  end.
(** date_time.cc:62-85 GetTimeT.  Simplification: time_t is unbounded. *)
Definition get_time_t (t : tm) : res Z :=
  let r := year_loop (Z.to_nat (tm_year t - 70)) 70 0 in
  do r <- month_loop (is_leap (tm_year t)) (Z.to_nat (tm_mon t)) 0 r;
  Ok (((((r + (tm_mday t - 1)) * 24 + tm_hour t) * 60) + tm_min t) * 60 + tm_sec t).

(** Model of the text of kmlbase::DateTime (src/kml/base/date_time.cc) with strptime as in src/kml/base/contrib/strptime.c.  That file is compiled on
    Windows only; elsewhere the strptime of the C library takes its place, which does the same for these conversions except that it may skip white space
    before a number.  strftime is that of the C standard. *)
From Coq Require Import DecimalString.
From Verif Require Import Common DateTimeModel.
Local Open Scope Z_scope.

(** strptime.c:571: the value of a digit. *)
Definition dval (c : ascii) : Z := Z.of_N (code c) - 48.
(** strptime.c:556-581 conv_num; the end of the text is a NUL, which is no digit.  uint does not overflow: the limit is at most 9999. *)
Fixpoint conv_digits (ulim result rulim : Z) (s : str) : Z * str :=
  match s with
  | [] => (result, [])
  | ch :: r =>
      let result := result * 10 + dval ch in
      let rulim := rulim / 10 in
      if (result * 10 <=? ulim) && (0 <? rulim) && match r with d :: _ => isdigit d | [] => false end
      then conv_digits ulim result rulim r else (result, r)
  end.
Definition conv_num (llim ulim : Z) (s : str) : option (Z * str) :=
  match s with
  | [] => None
  | ch :: _ =>
      if isdigit ch
      then let '(v, r) := conv_digits ulim 0 ulim s in if (v <? llim) || (ulim <? v) then None else Some (v, r)
      else None
  end.
(** strptime.c:583-603 find_string with the names of the months (86-91). *)
Definition months : list str := map list_ascii_of_string
  ["january"; "february"; "march"; "april"; "may"; "june"; "july"; "august"; "september"; "october"; "november"; "december"]%string.
Definition short_months : list str := map list_ascii_of_string ["jan"; "feb"; "mar"; "apr"; "may"; "jun"; "jul"; "aug"; "sep"; "oct"; "nov"; "dec"]%string.
Fixpoint find_name (s : str) (l : list str) (i : Z) : option (Z * str) :=
  match l with
  | [] => None
  | n :: l => if prefixb n (map tolower s) then Some (i, skipn (length n) s) else find_name s l (i + 1)
  end.
Definition find_month (s : str) : option (Z * str) := match find_name s months 0 with Some r => Some r | None => find_name s short_months 0 end.

(** struct tm assignments (strptime.c:207-212, 226-230, 235-238, 257-267, 277-280, 354-359). *)
Definition set_year v t := {| tm_year := v; tm_mon := tm_mon t; tm_mday := tm_mday t; tm_hour := tm_hour t; tm_min := tm_min t; tm_sec := tm_sec t |}.
Definition set_mon v t := {| tm_year := tm_year t; tm_mon := v; tm_mday := tm_mday t; tm_hour := tm_hour t; tm_min := tm_min t; tm_sec := tm_sec t |}.
Definition set_mday v t := {| tm_year := tm_year t; tm_mon := tm_mon t; tm_mday := v; tm_hour := tm_hour t; tm_min := tm_min t; tm_sec := tm_sec t |}.
Definition set_hour v t := {| tm_year := tm_year t; tm_mon := tm_mon t; tm_mday := tm_mday t; tm_hour := v; tm_min := tm_min t; tm_sec := tm_sec t |}.
Definition set_min v t := {| tm_year := tm_year t; tm_mon := tm_mon t; tm_mday := tm_mday t; tm_hour := tm_hour t; tm_min := v; tm_sec := tm_sec t |}.
Definition set_sec v t := {| tm_year := tm_year t; tm_mon := tm_mon t; tm_mday := tm_mday t; tm_hour := tm_hour t; tm_min := tm_min t; tm_sec := v |}.
(** One conversion (strptime.c:127-549): the rest of the text and the fields; None: NULL.  The conversions DateTime does not use are left out (as 547-548). *)
Definition convert (k : ascii) (s : str) (t : tm) : option (str * tm) :=
  let num lo hi (set : Z -> tm) := match conv_num lo hi s with Some (v, r) => Some (r, set v) | None => None end in
  if aeq k "Y"%char then num 0 9999 (fun v => set_year (v - 1900) t)
  else if aeq k "m"%char then num 1 12 (fun v => set_mon (v - 1) t)
  else if aeq k "d"%char then num 1 31 (fun v => set_mday v t)
  else if aeq k "H"%char then num 0 23 (fun v => set_hour v t)
  else if aeq k "M"%char then num 0 59 (fun v => set_min v t)
  else if aeq k "S"%char then num 0 61 (fun v => set_sec v t)
  else if aeq k "b"%char then match find_month s with Some (v, r) => Some (r, set_mon v t) | None => None end
  else None.
(** strptime.c:101-133, 552: the rest of the text (None: NULL) and the fields. *)
Fixpoint strptime (fmt s : str) (t : tm) : option (str * tm) :=
  match fmt with
  | [] => Some (s, t)
  | c :: f =>
      if isspace c then strptime f (drop_while isspace s) t
      else if aeq c "%"%char then
        match f with
        | [] => None
        | k :: f => match convert k s t with Some (s, t) => strptime f s t | None => None end
        end
      else match s with d :: s => if aeq c d then strptime f s t else None | [] => None end
  end.

(** c_str(): the text ends at the first NUL. *)
Definition c_str (s : str) : str := take_while (fun c => negb (aeq c zero)) s.
(** date_time.cc:107-111 DateTime(): the fields at the start do not matter, all are set. *)
Definition new_date_time : tm :=
  let t := {| tm_year := 0; tm_mon := 0; tm_mday := 0; tm_hour := 0; tm_min := 0; tm_sec := 0 |} in
  match strptime (S_ "%d %b %Y %H:%M:%S") (S_ "14 Nov 1991 12:33:45") t with Some (_, t) => t | None => t end.
(** date_time.cc:38-46 Create with 114-117 ParseXsdDateTime; None: NULL. *)
Definition create (s : str) : option tm :=
  match strptime (S_ "%Y-%m-%dT%H:%M:%SZ") (c_str s) new_date_time with Some (_, t) => Some t | None => None end.
(** date_time.cc:49-52 ToTimeT. *)
Definition to_time_t (s : str) : res Z := match create s with Some t => get_time_t t | None => Ok 0 end.

(** strftime %m %d %H %M %S (two digits) and %Y (the number as it is). *)
Definition dig (d : Z) : ascii := chr (Z.to_N (48 + d)).
Definition two (z : Z) : str := [dig (z / 10); dig (z mod 10)].
Definition show (z : Z) : str := String.list_ascii_of_string (NilEmpty.string_of_uint (N.to_uint (Z.to_N z))).
(** date_time.cc:87-92 DoStrftime<N>: what does not fit with its NUL leaves the buffer undetermined. *)
Definition do_strftime (n : nat) (s : str) : res str := if (length s <? n)%nat then Ok s else UB.
(** date_time.cc:94-96 GetXsdTime, 98-100 GetXsdDate, 102-104 GetXsdDateTime. *)
Definition get_xsd_time (t : tm) : res str := do_strftime 9 (two (tm_hour t) ++ S_ ":" ++ two (tm_min t) ++ S_ ":" ++ two (tm_sec t)).
Definition get_xsd_date (t : tm) : res str := do_strftime 11 (show (tm_year t + 1900) ++ S_ "-" ++ two (tm_mon t + 1) ++ S_ "-" ++ two (tm_mday t)).
Definition get_xsd_date_time (t : tm) : res str := do d <- get_xsd_date t; do h <- get_xsd_time t; Ok (d ++ S_ "T" ++ h ++ S_ "Z").

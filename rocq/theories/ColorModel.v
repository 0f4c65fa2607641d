(** Model of kmlbase::Color32 (src/kml/base/color32.h) and b2a_hex (src/kml/base/string_util.cc).
    A colour is a uint32_t, modelled as an N below 2^32; every operation that can leave the
    32-bit range is reduced explicitly. *)
From Verif Require Import Common.
Local Open Scope N_scope.

(** uint32_t wrap-around. *)
Definition u32 (n : N) : N := n mod 4294967296.

(** color32.h:55-60 get_red / set_red. *)
Definition get_red (c : N) : N := N.land c 255.
Definition set_red (c v : N) : N := N.lor (N.land c 4294967040) v.
(** color32.h:63-68 get_green / set_green. *)
Definition get_green (c : N) : N := N.shiftr (N.land c 65280) 8.
Definition set_green (c v : N) : N := N.lor (N.land c 4294902015) (N.shiftl v 8).
(** color32.h:71-76 get_blue / set_blue. *)
Definition get_blue (c : N) : N := N.shiftr (N.land c 16711680) 16.
Definition set_blue (c v : N) : N := N.lor (N.land c 4278255615) (N.shiftl v 16).
(** color32.h:79-84 get_alpha / set_alpha.  [value << 24] is an int shift; on the supported
    platforms its conversion to uint32_t is the plain bit pattern. *)
Definition get_alpha (c : N) : N := N.shiftr (N.land c 4278190080) 24.
Definition set_alpha (c v : N) : N := N.lor (N.land c 16777215) (u32 (N.shiftl v 24)).

(** color32.h:92-97 get_color_argb. *)
Definition get_color_argb (c : N) : N :=
  N.lor (N.lor (N.lor (N.land c 4278190080)
                      (N.shiftr (N.land c 16711680) 16))
               (N.land c 65280))
        (u32 (N.shiftl (N.land c 255) 16)).

(** string_util.cc:34-39 b2a_hex: the two map[] look-ups. *)
Definition hexdigit (n : N) : ascii :=
  nth (N.to_nat n) (S_ "0123456789abcdef") zero.
Definition b2a_hex (i : N) : str := [hexdigit (N.land (N.shiftr i 4) 15); hexdigit (N.land i 15)].

(** color32.h:100-108 to_string_abgr. *)
Definition to_string_abgr (c : N) : str :=
  b2a_hex (get_alpha c) ++ b2a_hex (get_blue c) ++ b2a_hex (get_green c) ++ b2a_hex (get_red c).
(** color32.h:111-119 to_string_argb. *)
Definition to_string_argb (c : N) : str :=
  b2a_hex (get_alpha c) ++ b2a_hex (get_red c) ++ b2a_hex (get_green c) ++ b2a_hex (get_blue c).

(** const std::string::operator[]: index size() yields NUL, beyond it is undefined. *)
Definition at_ (s : str) (i : nat) : res ascii :=
  if (i <? length s)%nat then Ok (nth i s zero)
  else if (i =? length s)%nat then Ok zero else UB.

(** color32.h:134-136 while (isspace(color_abgr[offset])) offset++.
    The NUL at index size() stops the loop. *)
Definition skip_space_count (s : str) : nat := length (take_while isspace s).

(** color32.h:142-148 body of the digit loop. A byte that is no hex digit adds 0. *)
Definition digit_step (out : N) (c : ascii) : N :=
  let o := u32 (out * 16) in
  let o := if (48 <=? code c) && (code c <=? 57) then u32 (o + (code c - 48)) else o in
  let l := tolower c in
  if (97 <=? code l) && (code l <=? 102) then u32 (o + (code l - 97 + 10)) else o.

(** color32.h:141-149 for (i = offset; i < length + offset; ++i), n iterations left. *)
Fixpoint digit_loop (s : str) (i n : nat) (out : N) : res N :=
  match n with
  | O => Ok out
  | S n' => do c <- at_ s i; digit_loop s (S i) n' (digit_step out c)
  end.

(** color32.h:127-154 set_color_abgr(const string&), [c] is the previous value. *)
Definition set_color_abgr_str (c : N) (s : str) : res N :=
  let offset := skip_space_count s in
  do c0 <- (if (0 <? length s)%nat then at_ s offset else Ok zero);
  let offset := if (0 <? length s)%nat && aeq c0 "#"%char then S offset else offset in
  let length_ := if (8 + offset <=? length s)%nat then 8%nat else length s in
  do out <- digit_loop s offset length_ 0;
  let c := set_red c (N.land out 255) in
  let c := set_green c (N.land (N.shiftr out 8) 255) in
  let c := set_blue c (N.land (N.shiftr out 16) 255) in
  Ok (set_alpha c (N.land (N.shiftr out 24) 255)).

(** color32.h:157-163 set_color_abgr(a, b, g, r). *)
Definition set_color_abgr_4 (c a b g r : N) : N :=
  set_red (set_green (set_blue (set_alpha c a) b) g) r.

(** color32.h:166-171 set_color_argb. *)
Definition set_color_argb (c argb : N) : N :=
  let c := set_alpha c (N.land (N.shiftr argb 24) 255) in
  let c := set_red c (N.land (N.shiftr argb 16) 255) in
  let c := set_green c (N.land (N.shiftr argb 8) 255) in
  set_blue c (N.land argb 255).

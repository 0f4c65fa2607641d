(** Property theorems about colours (C01, C02). Statements only; proofs in ColorProofs.v. *)
From Verif Require Import Common ColorModel ColorProofs.
Local Open Scope N_scope.

(** C01. Reading back the AABBGGRR text of any 32-bit colour gives that colour, whatever the
    object held before. *)
Theorem color_text_round_trip : forall c0 c, c0 < 2 ^ 32 -> c < 2 ^ 32 ->
  set_color_abgr_str c0 (to_string_abgr c) = Ok c.
Proof. exact color_round_trip. Qed.
Print Assumptions color_text_round_trip.

(** C01. The text is eight lower-case hex digits and denotes the colour as a hex number. *)
Theorem color_text_canonical : forall c, c < 2 ^ 32 ->
  length (to_string_abgr c) = 8%nat /\
  Forall (fun x => In x (S_ "0123456789abcdef")) (to_string_abgr c) /\
  hexnum (to_string_abgr c) 0 = Some c.
Proof. exact (fun c H => conj (proj1 (color_text_shape c)) (conj (proj2 (color_text_shape c)) (to_string_num c H))). Qed.
Print Assumptions color_text_canonical.

(** C01. Each channel setter sets its channel and leaves the three others alone. *)
Theorem color_channels_independent : forall c v, c < 2 ^ 32 -> v < 256 ->
  (get_red (set_red c v) = v /\ get_green (set_red c v) = get_green c /\ get_blue (set_red c v) = get_blue c /\ get_alpha (set_red c v) = get_alpha c) /\
  (get_green (set_green c v) = v /\ get_red (set_green c v) = get_red c /\ get_blue (set_green c v) = get_blue c /\ get_alpha (set_green c v) = get_alpha c) /\
  (get_blue (set_blue c v) = v /\ get_red (set_blue c v) = get_red c /\ get_green (set_blue c v) = get_green c /\ get_alpha (set_blue c v) = get_alpha c) /\
  (get_alpha (set_alpha c v) = v /\ get_red (set_alpha c v) = get_red c /\ get_green (set_alpha c v) = get_green c /\ get_blue (set_alpha c v) = get_blue c).
Proof. exact channels. Qed.
Print Assumptions color_channels_independent.

(** C01. ARGB conversion loses nothing, and the ARGB text denotes the ARGB value. *)
Theorem color_argb_round_trip : forall c0 c, c0 < 2 ^ 32 -> c < 2 ^ 32 ->
  set_color_argb c0 (get_color_argb c) = c /\ hexnum (to_string_argb c) 0 = Some (get_color_argb c).
Proof. exact (fun c0 c H0 H => conj (argb_round_trip c0 c H0 H) (argb_string c H)). Qed.
Print Assumptions color_argb_round_trip.

(** C01. The four-byte setter packs the bytes as AABBGGRR. *)
Theorem color_from_bytes : forall c a b g r, c < 2 ^ 32 -> a < 256 -> b < 256 -> g < 256 -> r < 256 ->
  set_color_abgr_4 c a b g r = a * 2 ^ 24 + b * 2 ^ 16 + g * 2 ^ 8 + r.
Proof.
  exact (fun c a b g r Hc Ha Hb Hg Hr => eq_trans (set4 c a b g r Hc Ha Hb Hg Hr) (mk_sum a b g r)).
Qed.
Print Assumptions color_from_bytes.

(** C02. A text with at least eight bytes after the optional prefix, or with no prefix, is read as
    the hex number its specification gives. *)
Theorem color_parse_correct : forall c s v, c < 2 ^ 32 -> color_text_spec s = Some v ->
  (let s' := drop_while isspace s in
   let s' := match s' with x :: t => if aeq x "#"%char then t else s' | [] => s' end in
   (8 <= length s')%nat \/ s' = s) ->
  set_color_abgr_str c s = Ok v.
Proof. exact parse_refines_spec. Qed.
Print Assumptions color_parse_correct.

(** C02. Refuted: a short text after white space is read as a different number. *)
Theorem color_parse_short_prefixed_refuted : exists s v w, color_text_spec s = Some v /\
  set_color_abgr_str 0 s = Ok w /\ v <> w.
Proof. exact parse_shift_wit. Qed.
Print Assumptions color_parse_short_prefixed_refuted.

(** C02. Refuted: a short text after two white-space bytes makes the code read past the string. *)
Theorem color_parse_in_bounds_refuted : exists s v, color_text_spec s = Some v /\
  set_color_abgr_str 0 s = UB.
Proof. exact parse_oob_wit. Qed.
Print Assumptions color_parse_in_bounds_refuted.

(** Non-vacuity. *)
Example color_parse_correct_example : color_text_spec (S_ " #7f00FFaa;") = Some 2130771882
  /\ set_color_abgr_str 5 (S_ " #7f00FFaa;") = Ok 2130771882.
Proof. split; vm_compute; reflexivity. Qed.

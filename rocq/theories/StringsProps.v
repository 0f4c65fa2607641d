(** Property theorems about string utilities (C03-C08, C52). *)
From Verif Require Import Common StringsModel StringsProofs.

(** C03. Expansion always terminates normally, for any text, entries and delimiters. *)
Theorem expansion_terminates : forall input m st en, exists out, create_expanded input m st en = Ok out.
Proof. exact create_expanded_total. Qed.
Print Assumptions expansion_terminates.

(** C03. If for each entry the value does not contain the key, is at least as long as the marker, and
    its part beyond the marker length lacks the marker's first byte, every occurrence is replaced,
    left to right, entry by entry. *)
Theorem expansion_replaces_all : forall st en m input,
  Forall (fun kv => exists c0 c, st ++ fst kv ++ en = c0 :: c /\ ~ occurs (fst kv) (snd kv) /\
      length (c0 :: c) <= length (snd kv) /\ ~ In c0 (skipn (length (c0 :: c)) (snd kv))) m ->
  exists r, create_expanded input m st en = Ok r /\ ReplaceSeq st en m input r.
Proof. exact create_expanded_correct. Qed.
Print Assumptions expansion_replaces_all.

(** C03. The specification is functional: it determines the result. *)
Theorem replacement_spec_deterministic : forall c v s r1 r2, c <> [] ->
  ReplaceAll c v s r1 -> ReplaceAll c v s r2 -> r1 = r2.
Proof. exact replace_all_fun. Qed.
Print Assumptions replacement_spec_deterministic.

(** C03. Refuted for values shorter than the marker: the second occurrence is skipped. *)
Theorem expansion_shorter_value_refuted : exists s key v,
  expand_one (S_ "$[") (S_ "]") s (key, v) = Ok (S_ "$[a]") /\
  ReplaceAll (S_ "$[a]") [] s [] /\ key = S_ "a" /\ v = [].
Proof. exact expand_shorter_wit. Qed.
Print Assumptions expansion_shorter_value_refuted.

(** C03. Refuted for values containing the key: only the first occurrence is replaced. *)
Theorem expansion_value_contains_key_refuted : exists s r,
  expand_one [] [] s (S_ "&", S_ "&amp;") = Ok r /\ ~ ReplaceAll (S_ "&") (S_ "&amp;") s r.
Proof. exact expand_self_wit. Qed.
Print Assumptions expansion_value_contains_key_refuted.

Example expansion_replaces_all_example :
  create_expanded (S_ "x $[a] y $[a]$[a]") [(S_ "a", S_ "12345")] (S_ "$[") (S_ "]") = Ok (S_ "x 12345 y 1234512345")
  /\ Forall (fun kv => exists c0 c, S_ "$[" ++ fst kv ++ S_ "]" = c0 :: c /\ ~ occurs (fst kv) (snd kv) /\
      length (c0 :: c) <= length (snd kv) /\ ~ In c0 (skipn (length (c0 :: c)) (snd kv))) [(S_ "a", S_ "12345")].
Proof.
  split; [vm_compute; reflexivity|]. constructor; [|constructor].
  exists "$"%char, (S_ "[a]"). split; [reflexivity|]. split; [apply find_none; reflexivity|].
  split; [simpl; lia|]. simpl. intros [H|[]]; discriminate.
Qed.

(** C04. Splitting on one byte: the pieces joined give the text back, no piece contains the byte. *)
Theorem split_single_lossless : forall c s, exists ps, split_string_using s [c] = Ok ps /\
  join [c] ps = s /\ Forall (fun p => ~ In c p) ps /\ ps <> [].
Proof.
  exact (fun c s => ex_intro _ (split_spec c s) (conj (split_string_ok c s) (conj (split_join c s)
    (conj (split_pieces c s) (split_spec_nonempty c s))))).
Qed.
Print Assumptions split_single_lossless.

(** C04. Conversely, splitting a join of separator-free pieces returns the pieces. *)
Theorem split_single_of_join : forall c ps, ps <> [] -> Forall (fun p => ~ In c p) ps ->
  split_string_using (join [c] ps) [c] = Ok ps.
Proof.
  exact (fun c ps H1 H2 => eq_trans (split_string_ok c (join [c] ps)) (f_equal Ok (split_of_join c ps H1 H2))).
Qed.
Print Assumptions split_single_of_join.

(** C04. Every non-empty separator terminates; the empty separator always throws. *)
Theorem split_terminates : forall s c0 c, exists ps, split_string_using s (c0 :: c) = Ok ps.
Proof. exact split_string_total. Qed.
Print Assumptions split_terminates.
Theorem split_empty_separator_refuted : forall s, split_string_using s [] = Throw.
Proof. exact split_string_empty_sep. Qed.
Print Assumptions split_empty_separator_refuted.

(** C04. Refuted for longer separators: residue stays in the pieces. *)
Theorem split_long_separator_refuted : exists s sep ps, sep <> [] /\ split_string_using s sep = Ok ps /\ join sep ps <> s.
Proof. exact split_string_long_wit. Qed.
Print Assumptions split_long_separator_refuted.

(** C05. Quoted CSV fields round trip. *)
Theorem csv_quoted_round_trip : forall fs, Forall (fun s => ~ In zero s) fs ->
  split_quoted_using (join (S_ ",") (map quote fs)) ","%char = Ok fs.
Proof. exact quoted_round_trip. Qed.
Print Assumptions csv_quoted_round_trip.
Example csv_quoted_example : split_quoted_using (join (S_ ",") (map quote [S_ "a,b"; S_ "say ""hi"""; []; S_ " x "])) ","%char
  = Ok [S_ "a,b"; S_ "say ""hi"""; []; S_ " x "].
Proof. vm_compute. reflexivity. Qed.

(** C05. Splitting terminates for every input and delimiter. *)
Theorem csv_split_terminates : forall input d, exists cols, split_quoted_using input d = Ok cols.
Proof. exact split_quoted_total. Qed.
Print Assumptions csv_split_terminates.

(** C06. Plain fields joined by any delimiter other than a quote or NUL split back, including empty
    fields anywhere; only the single empty field is excluded (an empty line has no columns). *)
Theorem csv_plain_round_trip : forall d fs, d <> """"%char -> d <> zero ->
  Forall (fun s => ~ In d s /\ ~ In zero s /\
     (forall c t, s = c :: t -> isspace c = false /\ c <> """"%char) /\
     (forall t c, s = t ++ [c] -> isspace c = false)) fs ->
  fs <> [] -> fs <> [[]] -> split_quoted_using (join [d] fs) d = Ok fs.
Proof. exact plain_round_trip. Qed.
Print Assumptions csv_plain_round_trip.
Example csv_plain_example : split_quoted_using (S_ "a|b c||") "|"%char = Ok [S_ "a"; S_ "b c"; []; []].
Proof. vm_compute. reflexivity. Qed.

(** C07. Line iteration terminates and yields the first line and then every non-empty line. *)
Theorem csv_lines_correct : forall data, csv_all_lines data = Ok (lines_spec data).
Proof. exact csv_all_lines_spec. Qed.
Print Assumptions csv_lines_correct.
Example csv_lines_example : lines_spec (S_ "a
b

c
") = [S_ "a"; S_ "b"; S_ "c"] /\ lines_spec [] = [[]].
Proof. split; vm_compute; reflexivity. Qed.

(** C08. Ends-with. *)
Theorem ends_with_iff_suffix : forall s e, string_ends_with s e = true <-> e <> [] /\ exists u, s = u ++ e.
Proof. exact ends_with_spec. Qed.
Print Assumptions ends_with_iff_suffix.

(** C08. Case-insensitive equality is an equivalence; on NUL-free text it is equality of the
    lower-cased strings. *)
Theorem case_equal_equivalence : (forall a, string_case_equal a a = true) /\
  (forall a b, string_case_equal a b = string_case_equal b a) /\
  (forall a b c, string_case_equal a b = true -> string_case_equal b c = true -> string_case_equal a c = true).
Proof. exact (conj case_equal_refl (conj case_equal_sym case_equal_trans)). Qed.
Print Assumptions case_equal_equivalence.
Theorem case_equal_is_lower_equal : forall a b, ~ In zero a ->
  string_case_equal a b = true <-> map tolower a = map tolower b.
Proof. exact case_equal_lower. Qed.
Print Assumptions case_equal_is_lower_equal.
(** C08. Refuted with embedded NUL: bytes after it are ignored. *)
Theorem case_equal_nul_refuted : exists a b, string_case_equal a b = true /\ map tolower a <> map tolower b.
Proof. exact case_equal_nul_wit. Qed.
Print Assumptions case_equal_nul_refuted.

(** C52. Boolean text. *)
Theorem bool_text_round_trip : forall b, from_string_bool (to_string_bool b) = b.
Proof. exact bool_round_trip. Qed.
Print Assumptions bool_text_round_trip.
Theorem bool_text_accepts : forall s, from_string_bool s = true <->
  exists ws t, forallb isspace ws = true /\ (s = ws ++ S_ "true" ++ t \/ s = ws ++ S_ "1" ++ t).
Proof. exact bool_spec. Qed.
Print Assumptions bool_text_accepts.

(** C52. Decimal text: accepted exactly when it starts -?.?digit. *)
Theorem decimal_text_accepts : forall s, is_decimal_double_string s = true <->
  exists sg dot d t, (sg = [] \/ sg = S_ "-") /\ (dot = [] \/ dot = S_ ".") /\ isdigit d = true /\ s = sg ++ dot ++ d :: t.
Proof. exact decimal_spec. Qed.
Print Assumptions decimal_text_accepts.

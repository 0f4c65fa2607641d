(** Property theorems about paths and archive entry names (C13, C14, C54). *)
From Verif Require Import Common StringsModel PathModel PathProofs.

(** C13. Splitting a path at its last separator; a path without one lies in ".". *)
Theorem path_split : forall d c f, (c = "/"%char \/ c = "\"%char) -> no_sep f ->
  split_file_path (d ++ c :: f) = (match d with [] => [c] | _ => d end, f).
Proof. exact split_correct. Qed.
Print Assumptions path_split.
Theorem path_split_no_dir : forall f, no_sep f -> split_file_path f = (S_ ".", f).
Proof. exact split_no_dir. Qed.
Print Assumptions path_split_no_dir.
(** C13. These two cases cover every path, and the file part never holds a separator. *)
Theorem path_split_total : forall p, (no_sep p \/
  exists d c f, p = d ++ c :: f /\ (c = "/"%char \/ c = "\"%char) /\ no_sep f) /\ no_sep (snd (split_file_path p)).
Proof. exact (fun p => conj (path_cases p) (split_file_no_sep p)). Qed.
Print Assumptions path_split_total.
(** C13. Joining what was split gives the path again. *)
Theorem path_split_join : forall d f, f <> [] -> no_sep f -> last d " "%char <> "/"%char ->
  let '(b, n) := split_file_path (d ++ S_ "/" ++ f) in join_paths b n = d ++ S_ "/" ++ f.
Proof. exact split_join. Qed.
Print Assumptions path_split_join.
(** C13. Splitting what was joined gives the parts again. *)
Theorem path_join_split : forall b f, b <> [] -> f <> [] -> no_sep f -> last b " "%char <> "/"%char ->
  split_file_path (join_paths b f) = (b, f).
Proof. exact join_split. Qed.
Print Assumptions path_join_split.
(** C13. Exactly one separator is put between the parts; empty parts are neutral; joining is associative. *)
Theorem path_join_separator : forall a b, a <> [] -> b <> [] -> last a " "%char <> "/"%char ->
  join_paths a b = a ++ S_ "/" ++ b /\ join_paths (a ++ S_ "/") b = a ++ S_ "/" ++ b /\
  join_paths [] b = b /\ join_paths a [] = a.
Proof.
  exact (fun a b Ha Hb Hl => conj (join_no_sep a b Ha Hb Hl) (conj (join_sep a b Hb)
    (conj (proj1 (join_empty b)) (proj2 (join_empty a))))).
Qed.
Print Assumptions path_join_separator.
Theorem path_join_assoc : forall a b c, b <> [] -> join_paths (join_paths a b) c = join_paths a (join_paths b c).
Proof. exact join_assoc. Qed.
Print Assumptions path_join_assoc.
Example path_nonvacuous : no_sep (S_ "doc.kml") /\ last (S_ "/home/x") " "%char <> "/"%char /\
  split_file_path (S_ "/home/x/doc.kml") = (S_ "/home/x", S_ "doc.kml") /\
  split_file_path (S_ "/doc.kml") = (S_ "/", S_ "doc.kml").
Proof. split; [split; cbn; intuition discriminate|]. split; [discriminate|]. split; reflexivity. Qed.
(** C13. Refuted for doubled and for trailing separators. *)
Theorem path_split_join_double_refuted : exists p, In "/"%char p /\
  let '(b, f) := split_file_path p in f <> [] /\ join_paths b f <> p.
Proof. exact split_join_wit. Qed.
Print Assumptions path_split_join_double_refuted.
Theorem path_split_join_trailing_refuted : exists p,
  let '(b, f) := split_file_path p in f = [] /\ join_paths b f <> p /\ b <> [].
Proof. exact split_join_trailing_wit. Qed.
Print Assumptions path_split_join_trailing_refuted.

(** C14. An accepted name without a ".." component stays below the extraction directory; absolute
    names and names that start with a ".." component are rejected. *)
Theorem entry_name_safe_without_dotdot : forall s, add_entry_accepts s = true ->
  ~ In (S_ "..") (components s) -> stays_below s.
Proof. exact accepts_safe. Qed.
Print Assumptions entry_name_safe_without_dotdot.
Theorem entry_name_absolute_rejected : forall s, absolute s = true \/ hd [] (components s) = S_ ".." ->
  add_entry_accepts s = false.
Proof. exact (fun s H => match H with or_introl a => absolute_rejected s a | or_intror b => leading_dotdot_rejected s b end). Qed.
Print Assumptions entry_name_absolute_rejected.
Example entry_name_nonvacuous : add_entry_accepts (S_ "files/a..b/x.png") = true /\
  ~ In (S_ "..") (components (S_ "files/a..b/x.png")) /\ absolute (S_ "/etc/x") = true.
Proof. split; [reflexivity|]. split; [cbn; intuition discriminate|reflexivity]. Qed.
(** C14. Refuted: a later ".." component escapes. *)
Theorem entry_name_escape_refuted : exists s, add_entry_accepts s = true /\ ~ stays_below s.
Proof. exact escape_wit. Qed.
Print Assumptions entry_name_escape_refuted.
Theorem entry_name_dot_escape_refuted : exists s, add_entry_accepts s = true /\ ~ stays_below s /\ firstn 2 s = S_ "./".
Proof. exact dot_escape_wit. Qed.
Print Assumptions entry_name_dot_escape_refuted.
(** C14. Refuted the other way: a harmless name starting with two dots is rejected. *)
Theorem entry_name_harmless_rejected_refuted : exists s, add_entry_accepts s = false /\ stays_below s.
Proof. exact overreject_wit. Qed.
Print Assumptions entry_name_harmless_rejected_refuted.

(** C54. The first table-of-contents entry with the given suffix is found, or none exists. *)
Theorem zip_find_first : forall ext toc,
  match find_first_of ext toc with
  | Some f => exists a b, toc = a ++ f :: b /\ (ext <> [] /\ exists u, f = u ++ ext) /\
                forall g, In g a -> ~ (ext <> [] /\ exists u, g = u ++ ext)
  | None => forall g, In g toc -> ~ (ext <> [] /\ exists u, g = u ++ ext)
  end.
Proof. exact find_first_of_spec. Qed.
Print Assumptions zip_find_first.
(** C54. An entry is returned exactly if it is listed, found, not empty and not above the size limit. *)
Theorem zip_get_entry : forall toc lookup max p d, get_entry toc lookup max p = Some d <->
  In p toc /\ lookup p = Some d /\ (1 <= N.of_nat (length d) <= max)%N.
Proof. exact get_entry_spec. Qed.
Print Assumptions zip_get_entry.
(** C54. Data is taken for an archive exactly if it starts with the local file header signature. *)
Theorem zip_data_detection : forall d, is_zip_data d = true <-> exists r, d = zip_magic ++ r.
Proof. exact zip_magic_spec. Qed.
Print Assumptions zip_data_detection.
Example zip_nonvacuous : find_first_of (S_ ".kml") [S_ "a.png"; S_ "doc.kml"; S_ "b.kml"] = Some (S_ "doc.kml").
Proof. reflexivity. Qed.

From Verif Require Import Common StringsModel StringsProofs PathModel.

Lemma find_last_none p s : find_last p s = None <-> forallb (fun c => negb (p c)) s = true.
Proof.
  induction s as [|c t IH]; simpl; [tauto|]. destruct (find_last p t) eqn:E.
  - split; [discriminate|]. intros H. apply andb_true_iff in H as [_ H]. apply IH in H. discriminate.
  - destruct (p c); simpl; [split; discriminate|]. tauto.
Qed.
Lemma find_last_app p d c f : p c = true -> forallb (fun c => negb (p c)) f = true ->
  find_last p (d ++ c :: f) = Some (length d).
Proof.
  intros Hc Hf. induction d as [|x d IH]; simpl.
  - apply find_last_none in Hf. now rewrite Hf, Hc.
  - now rewrite IH.
Qed.
Lemma find_last_some p s n : find_last p s = Some n -> exists d c f, s = d ++ c :: f /\ length d = n /\ p c = true /\
  forallb (fun c => negb (p c)) f = true.
Proof.
  revert n; induction s as [|x t IH]; intros n; simpl; [discriminate|].
  destruct (find_last p t) eqn:E.
  - intros H; inversion H; subst. destruct (IH _ eq_refl) as (d & c & f & -> & <- & Hc & Hf).
    exists (x :: d), c, f. auto.
  - destruct (p x) eqn:Ex; [|discriminate]. intros H; inversion H; subst. exists [], x, t.
    repeat split; auto. now apply find_last_none.
Qed.

(** * C13 *)
Definition no_sep (f : str) : Prop := ~ In "/"%char f /\ ~ In "\"%char f.
Lemma no_sep_forallb f : no_sep f <-> forallb (fun c => negb (is_sep c)) f = true.
Proof.
  unfold no_sep, is_sep. rewrite forallb_forall. split.
  - intros [H1 H2] x Hx. apply negb_true_iff, orb_false_iff. split; apply aeq_neq; intros ->; auto.
  - intros H. split; intros Hx; specialize (H _ Hx); discriminate.
Qed.

Lemma split_correct d c f : (c = "/"%char \/ c = "\"%char) -> no_sep f ->
  split_file_path (d ++ c :: f) = (match d with [] => [c] | _ => d end, f).
Proof.
  intros Hc Hf. unfold split_file_path. rewrite find_last_app.
  - destruct d as [|x d]; [reflexivity|]. cbn [length]. f_equal.
    + change (S (length d)) with (length (x :: d)). apply firstn_length_app.
    + replace (S (length d) + 1) with (length ((x :: d) ++ [c])) by (rewrite app_length; simpl; lia).
      change ((x :: d) ++ c :: f) with ((x :: d) ++ [c] ++ f). rewrite app_assoc. apply skipn_length_app.
  - destruct Hc as [-> | ->]; reflexivity.
  - now apply no_sep_forallb.
Qed.
Lemma split_no_dir f : no_sep f -> split_file_path f = (S_ ".", f).
Proof. intros H. apply no_sep_forallb, find_last_none in H. unfold split_file_path. now rewrite H. Qed.
(** Every path is of one of these two forms. *)
Lemma path_cases p : no_sep p \/ exists d c f, p = d ++ c :: f /\ (c = "/"%char \/ c = "\"%char) /\ no_sep f.
Proof.
  destruct (find_last is_sep p) eqn:E.
  - apply find_last_some in E as (d & c & f & -> & _ & Hc & Hf). right. exists d, c, f. repeat split; auto.
    + unfold is_sep in Hc. apply orb_true_iff in Hc as [Hc|Hc]; apply aeq_spec in Hc; auto.
    + now apply no_sep_forallb.
    + now apply no_sep_forallb.
  - left. apply no_sep_forallb. now apply find_last_none.
Qed.
Lemma split_file_no_sep p : no_sep (snd (split_file_path p)).
Proof.
  destruct (path_cases p) as [H|(d & c & f & -> & Hc & Hf)].
  - now rewrite split_no_dir.
  - now rewrite split_correct.
Qed.

Lemma last_snoc {A} (l : list A) x d : last (l ++ [x]) d = x.
Proof. induction l as [|a l IH]; simpl; auto. destruct (l ++ [x]) eqn:E; auto. now destruct l. Qed.
Lemma join_no_sep a b : a <> [] -> b <> [] -> last a " "%char <> "/"%char -> join_paths a b = a ++ S_ "/" ++ b.
Proof.
  intros Ha Hb Hl. destruct a as [|x a]; [congruence|]. destruct b as [|y b]; [congruence|].
  cbn [join_paths]. apply aeq_neq in Hl. now rewrite Hl.
Qed.
Lemma join_sep a b : b <> [] -> join_paths (a ++ S_ "/") b = a ++ S_ "/" ++ b.
Proof.
  intros Hb. destruct (a ++ S_ "/") as [|x t] eqn:E; [now destruct a|]. destruct b as [|y b]; [congruence|].
  cbn [join_paths]. rewrite <- E. assert (El : last (a ++ S_ "/") " "%char = "/"%char) by apply last_snoc.
  rewrite El, aeq_refl. now rewrite <- app_assoc.
Qed.
Lemma join_empty a : join_paths [] a = a /\ join_paths a [] = a.
Proof. destruct a; auto. Qed.

Lemma split_join d f : f <> [] -> no_sep f -> last d " "%char <> "/"%char ->
  let '(b, n) := split_file_path (d ++ S_ "/" ++ f) in join_paths b n = d ++ S_ "/" ++ f.
Proof.
  intros Hf Hn Hd. change (d ++ S_ "/" ++ f) with (d ++ "/"%char :: f).
  rewrite split_correct by auto. destruct d as [|x d].
  - destruct f; [congruence|]. reflexivity.
  - rewrite join_no_sep; auto. discriminate.
Qed.
Lemma join_split b f : b <> [] -> f <> [] -> no_sep f -> last b " "%char <> "/"%char ->
  split_file_path (join_paths b f) = (b, f).
Proof.
  intros Hb Hf Hn Hl. rewrite join_no_sep by auto. change (b ++ S_ "/" ++ f) with (b ++ "/"%char :: f).
  rewrite split_correct by auto. now destruct b.
Qed.
Lemma split_join_wit : exists p, In "/"%char p /\ let '(b, f) := split_file_path p in f <> [] /\ join_paths b f <> p.
Proof. exists (S_ "a//b"). vm_compute. split; [auto|]. split; discriminate. Qed.
Lemma split_join_trailing_wit : exists p, let '(b, f) := split_file_path p in f = [] /\ join_paths b f <> p /\ b <> [].
Proof. exists (S_ "dir/"). vm_compute. repeat split; discriminate. Qed.
(** Joining is associative on non-empty parts. *)
Lemma join_assoc a b c : b <> [] -> join_paths (join_paths a b) c = join_paths a (join_paths b c).
Proof.
  intros Hb. destruct a as [|x a].
  { rewrite (proj1 (join_empty b)), (proj1 (join_empty (join_paths b c))). reflexivity. }
  destruct c as [|z c].
  { now rewrite (proj2 (join_empty b)), (proj2 (join_empty (join_paths _ b))). }
  destruct b as [|y b]; [congruence|].
  assert (Hl : forall s t : str, t <> [] -> last (s ++ t) " "%char = last t " "%char).
  { intros s t Ht. destruct (exists_last Ht) as (t' & q & ->). rewrite app_assoc. now rewrite !last_snoc. }
  set (B := y :: b) in *. set (A := x :: a) in *. set (C := z :: c) in *.
  assert (HA : A <> []) by discriminate. assert (HC : C <> []) by discriminate.
  assert (J : forall s t : str, s <> [] -> t <> [] -> join_paths s t = (if aeq (last s " "%char) "/"%char then s ++ t else s ++ S_ "/" ++ t)).
  { intros s t Hs Ht. destruct s; [congruence|]. destruct t; [congruence|]. reflexivity. }
  assert (JN : forall s t : str, s <> [] -> t <> [] -> join_paths s t <> []).
  { intros s t Hs Ht. rewrite J by auto. destruct s; [congruence|]. destruct (aeq _ _); discriminate. }
  rewrite (J (join_paths A B)), (J A (join_paths B C)) by auto.
  rewrite (J A B), (J B C) by auto.
  destruct (aeq (last A " "%char) "/"%char) eqn:EA.
  - rewrite Hl by auto. destruct (aeq (last B " "%char) "/"%char); now rewrite <- !app_assoc.
  - rewrite (app_assoc A), Hl by auto. destruct (aeq (last B " "%char) "/"%char); now rewrite <- !app_assoc.
Qed.

(** * C14 *)
(** Specification: the components of a path, walked from the extraction directory. *)
Fixpoint components (s : str) : list str :=
  match s with
  | [] => [[]]
  | c :: t => if is_sep c then [] :: components t
              else match components t with
                   | w :: ws => (c :: w) :: ws
                   | [] => [[c]]
                   end
  end.
Fixpoint walk (ws : list str) (depth : nat) : bool :=
  match ws with
  | [] => true
  | w :: ws' =>
      if eqs w (S_ "..") then match depth with O => false | S d => walk ws' d end
      else if eqs w [] || eqs w (S_ ".") then walk ws' depth
      else walk ws' (S depth)
  end.
Definition absolute (s : str) : bool := match s with c :: _ => is_sep c | [] => false end.
Definition stays_below (s : str) : Prop := absolute s = false /\ walk (components s) 0 = true.

Lemma walk_no_dotdot ws d : ~ In (S_ "..") ws -> walk ws d = true.
Proof.
  revert d; induction ws as [|w ws IH]; intros d H; auto. cbn [walk].
  destruct (eqs w (S_ "..")) eqn:E; [apply eqs_spec in E; subst; elim H; simpl; auto|].
  assert (forall d, walk ws d = true) by (intros; apply IH; simpl in H; tauto).
  destruct (eqs w [] || eqs w (S_ ".")); auto.
Qed.
Lemma accepts_absolute s : add_entry_accepts s = true -> absolute s = false.
Proof.
  unfold add_entry_accepts. destruct s as [|c s]; auto. cbn [firstn existsb absolute]. rewrite orb_false_r.
  intros H. apply negb_true_iff, orb_false_iff in H. tauto.
Qed.
Lemma accepts_safe s : add_entry_accepts s = true -> ~ In (S_ "..") (components s) -> stays_below s.
Proof. intros H1 H2. split; [now apply accepts_absolute|now apply walk_no_dotdot]. Qed.
Lemma absolute_rejected s : absolute s = true -> add_entry_accepts s = false.
Proof. intros H. destruct (add_entry_accepts s) eqn:E; auto. apply accepts_absolute in E. congruence. Qed.
Lemma leading_dotdot_rejected s : hd [] (components s) = S_ ".." -> add_entry_accepts s = false.
Proof.
  intros H. destruct s as [|c s]; [discriminate|]. cbn [components] in H. destruct (is_sep c) eqn:E.
  - discriminate.
  - destruct s as [|c2 s]; [cbn in H; inversion H|].
    cbn [components] in H. destruct (is_sep c2) eqn:E2; [cbn in H; inversion H|].
    destruct (components s) as [|w ws]; cbn in H; inversion H; subst; reflexivity.
Qed.
Lemma escape_wit : exists s, add_entry_accepts s = true /\ ~ stays_below s.
Proof. exists (S_ "a/../../x"). split; [reflexivity|]. intros [_ H]. discriminate. Qed.
Lemma dot_escape_wit : exists s, add_entry_accepts s = true /\ ~ stays_below s /\ firstn 2 s = S_ "./".
Proof. exists (S_ "./../x"). split; [reflexivity|]. split; [|reflexivity]. intros [_ H]. discriminate. Qed.
Lemma overreject_wit : exists s, add_entry_accepts s = false /\ stays_below s.
Proof. exists (S_ "..foo"). split; [reflexivity|]. split; reflexivity. Qed.

(** * C54: table of contents *)
Lemma find_first_of_spec ext toc :
  match find_first_of ext toc with
  | Some f => exists a b, toc = a ++ f :: b /\ (ext <> [] /\ exists u, f = u ++ ext) /\
                forall g, In g a -> ~ (ext <> [] /\ exists u, g = u ++ ext)
  | None => forall g, In g toc -> ~ (ext <> [] /\ exists u, g = u ++ ext)
  end.
Proof.
  unfold find_first_of. induction toc as [|g toc IH]; simpl; [tauto|].
  destruct (string_ends_with g ext) eqn:E.
  - exists [], toc. split; auto. split; [now apply ends_with_spec|]. simpl; tauto.
  - assert (Hg : ~ (ext <> [] /\ exists u, g = u ++ ext)) by (intros H; apply ends_with_spec in H; congruence).
    destruct (List.find _ toc).
    + destruct IH as (a & b & -> & H & Ha). exists (g :: a), b. split; auto. split; auto.
      intros h [<-|Hh]; auto.
    + intros h [<-|Hh]; auto.
Qed.
Lemma is_in_toc_spec p toc : is_in_toc p toc = true <-> In p toc.
Proof.
  unfold is_in_toc. rewrite existsb_exists. split.
  - intros (x & Hx & E). apply eqs_spec in E. now subst.
  - intros H. exists p. split; auto. apply eqs_refl.
Qed.
Lemma get_entry_spec toc lookup max p d : get_entry toc lookup max p = Some d <->
  In p toc /\ lookup p = Some d /\ (1 <= N.of_nat (length d) <= max)%N.
Proof.
  unfold get_entry. destruct (is_in_toc p toc) eqn:E.
  - apply is_in_toc_spec in E. destruct (lookup p) as [d'|]; [|split; [discriminate|intros (_ & H & _); discriminate]].
    destruct ((N.of_nat (length d') =? 0)%N || (max <? N.of_nat (length d'))%N) eqn:E2.
    + split; [discriminate|]. intros (_ & H & Hl). inversion H; subst. apply orb_true_iff in E2 as [E2|E2]; lia.
    + apply orb_false_iff in E2 as [E2 E3]. split.
      * intros H; inversion H; subst. repeat split; auto; lia.
      * tauto.
  - split; [discriminate|]. intros (H & _). apply is_in_toc_spec in H. congruence.
Qed.
Lemma zip_magic_spec d : is_zip_data d = true <-> exists r, d = zip_magic ++ r.
Proof.
  unfold is_zip_data. split.
  - intros H. apply eqs_spec in H. exists (skipn 4 d). rewrite <- H. symmetry. apply firstn_skipn.
  - intros [r ->]. reflexivity.
Qed.

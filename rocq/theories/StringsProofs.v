From Verif Require Import Common StringsModel ColorProofs.

(** * C03 template expansion *)

(** Specification: left-to-right, non-overlapping replacement of every occurrence. *)
Inductive ReplaceAll (c v : str) : str -> str -> Prop :=
| RA_done s : ~ occurs c s -> ReplaceAll c v s s
| RA_step u t t' : (forall j, j < length u -> prefixb c (skipn j (u ++ c ++ t)) = false) ->
    ReplaceAll c v t t' -> ReplaceAll c v (u ++ c ++ t) (u ++ v ++ t').

Lemma find_app_intro c u t : (forall j, j < length u -> prefixb c (skipn j (u ++ c ++ t)) = false) ->
  find c (u ++ c ++ t) = Some (length u).
Proof.
  induction u as [|x u IH]; intros H.
  - simpl. destruct c as [|y c]; [destruct t; reflexivity|]. simpl. now rewrite aeq_refl, prefixb_app.
  - pose proof (H 0 ltac:(simpl; lia)) as H0. cbn [skipn] in H0.
    cbn [app find]. cbn [app] in H0. rewrite H0. rewrite IH; auto.
    intros j Hj. apply (H (S j)). simpl. lia.
Qed.

Lemma find_split c s i : find c s = Some i ->
  exists u t, s = u ++ c ++ t /\ length u = i /\
    (forall j, j < length u -> prefixb c (skipn j (u ++ c ++ t)) = false).
Proof.
  intros H. destruct (find_some _ _ _ H) as [Hl Hs].
  exists (firstn i s), (skipn (i + length c) s). rewrite Hs. split; auto.
  assert (length (firstn i s) = i) as -> by (rewrite firstn_length; lia). split; auto.
  exact (find_first _ _ _ H).
Qed.

Lemma skipn_length_app {A} (u t : list A) : skipn (length u) (u ++ t) = t.
Proof. rewrite skipn_app, skipn_all, Nat.sub_diag. reflexivity. Qed.
Lemma firstn_length_app {A} (u t : list A) : firstn (length u) (u ++ t) = u.
Proof. rewrite firstn_app, firstn_all, Nat.sub_diag, app_nil_r. reflexivity. Qed.

(** After a replacement the scan resumes inside or after the inserted value. *)
Lemma find_from_at c u t : find_from c (u ++ t) (length u) = option_map (Nat.add (length u)) (find c t).
Proof.
  unfold find_from. rewrite app_length.
  replace (length u + length t <? length u) with false by (symmetry; apply Nat.ltb_ge; lia).
  now rewrite skipn_length_app.
Qed.

Lemma occurs_app_l c u s : occurs c s -> occurs c (u ++ s).
Proof. intros (a & b & ->). exists (u ++ a), b. now rewrite app_assoc. Qed.

(** Every match found after an insertion consumes bytes after the inserted value. *)
Lemma find_after_value c v t i : ~ occurs c v -> find c (v ++ t) = Some i -> length v < i + length c.
Proof.
  intros Hn H. destruct (find_some _ _ _ H) as [Hl Hs].
  destruct (Nat.lt_ge_cases (length v) (i + length c)) as [|Hge]; auto. exfalso. apply Hn.
  destruct (find_split _ _ _ H) as (u & t2 & E & Hu & _).
  exists u, (firstn (length v - length (u ++ c)) t2).
  pose proof (f_equal (firstn (length v)) E) as K. rewrite firstn_length_app, app_assoc, firstn_app in K.
  rewrite (firstn_all2 (u ++ c)) in K by (rewrite app_length; lia). rewrite <- app_assoc in K. exact K.
Qed.

Lemma occurs_key_cand key st en v : occurs (st ++ key ++ en) v -> occurs key v.
Proof.
  intros (u & w & ->). exists (u ++ st), (en ++ w). rewrite <- !app_assoc. reflexivity.
Qed.

Lemma expand_loop_step cand key v f out p : find key v = None ->
  expand_loop (S f) cand key v out (Some p) =
  let out' := firstn p out ++ v ++ skipn (p + length cand) out in
  expand_loop f cand key v out' (find_from cand out' (p + length cand)).
Proof. intros H. cbn [expand_loop]. now rewrite H. Qed.

(** Termination measure: the bytes after the replaced match. *)
Lemma expand_loop_terminates st key en v : find key v = None ->
  forall fuel out p, find_from (st ++ key ++ en) out p <> None \/ True ->
  forall i, (exists u t, out = u ++ (st ++ key ++ en) ++ t /\ length u = i /\ length t < fuel) ->
  exists r, expand_loop fuel (st ++ key ++ en) key v out (Some i) = Ok r.
Proof.
  intros Hk. set (cand := st ++ key ++ en).
  assert (Hcv : ~ occurs cand v).
  { intros H. apply find_none in Hk. apply Hk. now apply occurs_key_cand in H. }
  induction fuel as [|f IH]; intros out p _ i (u & t & -> & Hu & Ht); [lia|].
  rewrite expand_loop_step by auto. cbn zeta. subst i.
  rewrite firstn_length_app.
  replace (skipn (length u + length cand) (u ++ cand ++ t)) with t.
  2: { rewrite <- app_length, app_assoc. now rewrite skipn_length_app. }
  destruct (find_from cand (u ++ v ++ t) (length u + length cand)) as [j|] eqn:E.
  - apply (IH _ 0 (or_intror I)). unfold find_from in E.
    destruct (Nat.ltb_spec (length (u ++ v ++ t)) (length u + length cand)) as [|Hge]; [discriminate|].
    destruct (find cand (skipn (length u + length cand) (u ++ v ++ t))) as [k|] eqn:Ek; [|discriminate].
    simpl in E. inversion E; subst j; clear E.
    rewrite skipn_app in Ek.
    rewrite skipn_all2 in Ek by lia. cbn [app] in Ek.
    replace (length u + length cand - length u) with (length cand) in Ek by lia.
    rewrite !app_length in Hge.
    (* match at offset k in skipn |cand| (v ++ t) *)
    assert (Hend : length v < length cand + k + length cand).
    { rewrite skipn_app in Ek.
      destruct (Nat.le_gt_cases (length v) (length cand)) as [Hle|Hgt].
      - destruct cand as [|c0 cand'] eqn:Ec; [|simpl in *; lia].
        exfalso. apply Hcv. exists [], v. reflexivity.
      - replace (length cand - length v) with 0 in Ek by lia. simpl in Ek.
        apply find_after_value in Ek.
        + rewrite skipn_length in Ek. lia.
        + intros Ho. apply Hcv. rewrite <- (firstn_skipn (length cand) v). now apply occurs_app_l. }
    destruct (find_split _ _ _ Ek) as (u2 & t2 & E2 & Hu2 & _).
    exists (u ++ firstn (length cand) (v ++ t) ++ u2), t2. split; [|split].
    + rewrite <- !app_assoc. f_equal. rewrite <- (firstn_skipn (length cand) (v ++ t)) at 1.
      f_equal. exact E2.
    + rewrite !app_length, firstn_length, app_length. lia.
    + assert (length (skipn (length cand) (v ++ t)) = length u2 + (length cand + length t2)).
      { rewrite E2, !app_length. reflexivity. }
      rewrite skipn_length, app_length in H. lia.
  - destruct f; simpl; eauto.
Qed.

Lemma expand_one_total st en out kv : exists r, expand_one st en out kv = Ok r.
Proof.
  unfold expand_one. destruct kv as [key v]. cbn [fst snd].
  destruct (find (st ++ key ++ en) out) as [i|] eqn:E.
  - destruct (find key v) as [k|] eqn:Ek.
    + cbn [expand_loop]. rewrite Ek. eauto.
    + apply (expand_loop_terminates st key en v Ek _ _ 0 (or_intror I)).
      destruct (find_split _ _ _ E) as (u & t & -> & Hu & _). exists u, t. split; auto. split; auto.
      rewrite !app_length. lia.
  - cbn. eauto.
Qed.

Lemma create_expanded_total out m st en : exists r, create_expanded out m st en = Ok r.
Proof.
  revert out; induction m as [|kv m IH]; intros out; cbn [create_expanded]; eauto.
  destruct (expand_one_total st en out kv) as [r ->]. cbn [bind]. apply IH.
Qed.

(** Functional correctness when the tail of the value cannot start a match. *)
Lemma find_skip_nohead c0 c w t : ~ In c0 w ->
  find (c0 :: c) (w ++ t) = option_map (Nat.add (length w)) (find (c0 :: c) t).
Proof.
  induction w as [|x w IH]; intros Hn.
  - simpl app. cbn [length]. destruct (find (c0 :: c) t); reflexivity.
  - cbn [app find prefixb]. destruct (aeq c0 x) eqn:E.
    + apply aeq_spec in E; subst. elim Hn. now left.
    + cbn [andb]. rewrite IH by (intros H; apply Hn; now right).
      destruct (find (c0 :: c) t); reflexivity.
Qed.

Lemma expand_loop_correct c0 c key v : find key v = None ->
  length (c0 :: c) <= length v -> ~ In c0 (skipn (length (c0 :: c)) v) ->
  forall fuel u s, (forall i, find (c0 :: c) s = Some i -> length s < fuel + i + length (c0 :: c)) ->
  exists s', ReplaceAll (c0 :: c) v s s' /\
    expand_loop fuel (c0 :: c) key v (u ++ s) (option_map (Nat.add (length u)) (find (c0 :: c) s)) = Ok (u ++ s').
Proof.
  intros Hk Hlen Hnin. pose proof (find_skip_nohead c0 c) as Hskip. set (cand := c0 :: c) in *.
  induction fuel as [|f IH]; intros u s Hf.
  - destruct (find cand s) as [i|] eqn:E.
    + exfalso. destruct (find_some _ _ _ E) as [Hl _]. specialize (Hf i eq_refl). lia.
    + exists s. split; [apply RA_done; now apply find_none|reflexivity].
  - destruct (find cand s) as [i|] eqn:E.
    + destruct (find_split _ _ _ E) as (a & t & -> & Ha & Hfirst).
      cbn [option_map]. rewrite expand_loop_step by auto. cbn zeta.
      replace (length u + i) with (length (u ++ a)) by (rewrite app_length; lia).
      rewrite (app_assoc u a). rewrite firstn_length_app.
      replace (skipn (length (u ++ a) + length cand) ((u ++ a) ++ cand ++ t)) with t.
      2: { rewrite <- app_length, app_assoc. now rewrite skipn_length_app. }
      assert (Hff : find_from cand ((u ++ a) ++ v ++ t) (length (u ++ a) + length cand) =
                    option_map (Nat.add (length ((u ++ a) ++ v))) (find cand t)).
      { rewrite <- (firstn_skipn (length cand) v) at 1.
        replace ((u ++ a) ++ (firstn (length cand) v ++ skipn (length cand) v) ++ t)
          with (((u ++ a) ++ firstn (length cand) v) ++ skipn (length cand) v ++ t)
          by (rewrite <- !app_assoc; auto).
        replace (length (u ++ a) + length cand) with (length ((u ++ a) ++ firstn (length cand) v))
          by (rewrite app_length, firstn_length_le by auto; auto).
        rewrite find_from_at. rewrite Hskip by auto.
        destruct (find cand t); cbn [option_map]; auto. f_equal.
        rewrite !app_length, firstn_length_le, skipn_length by auto. lia. }
      rewrite Hff. replace ((u ++ a) ++ v ++ t) with (((u ++ a) ++ v) ++ t) by now rewrite <- app_assoc.
      destruct (IH ((u ++ a) ++ v) t) as (t' & Ht' & Heq).
      { intros k Ek. specialize (Hf i eq_refl). rewrite !app_length in Hf.
        assert (1 <= length cand) by (unfold cand; simpl; lia). lia. }
      exists (a ++ v ++ t'). split; [now apply RA_step|]. rewrite Heq. now rewrite <- !app_assoc.
    + exists s. split; [apply RA_done; now apply find_none|reflexivity].
Qed.

Definition safe_entry (st en : str) (kv : str * str) : Prop :=
  exists c0 c, st ++ fst kv ++ en = c0 :: c /\ ~ occurs (fst kv) (snd kv) /\
    length (c0 :: c) <= length (snd kv) /\ ~ In c0 (skipn (length (c0 :: c)) (snd kv)).

Lemma expand_one_correct st en out kv : safe_entry st en kv ->
  exists r, expand_one st en out kv = Ok r /\ ReplaceAll (st ++ fst kv ++ en) (snd kv) out r.
Proof.
  intros (c0 & c & Hc & Hno & Hlen & Hnin). unfold expand_one. rewrite Hc.
  apply find_none in Hno.
  destruct (expand_loop_correct c0 c (fst kv) (snd kv) Hno Hlen Hnin (S (length out)) [] out) as (s' & H1 & H2).
  { intros i Hi. lia. }
  exists s'. split; auto. cbn [app length] in H2.
  destruct (find (c0 :: c) out); exact H2.
Qed.

(** Entries applied one after the other in key order. *)
Inductive ReplaceSeq (st en : str) : list (str * str) -> str -> str -> Prop :=
| RS_nil s : ReplaceSeq st en [] s s
| RS_cons kv m s s1 s2 : ReplaceAll (st ++ fst kv ++ en) (snd kv) s s1 ->
    ReplaceSeq st en m s1 s2 -> ReplaceSeq st en (kv :: m) s s2.

Lemma create_expanded_correct st en m out : Forall (safe_entry st en) m ->
  exists r, create_expanded out m st en = Ok r /\ ReplaceSeq st en m out r.
Proof.
  intros H. revert out; induction H as [|kv m Hkv Hm IH]; intros out; cbn [create_expanded].
  - exists out. split; constructor.
  - destruct (expand_one_correct st en out kv Hkv) as (r & -> & Hr). cbn [bind].
    destruct (IH r) as (r2 & -> & Hr2). exists r2. split; auto. econstructor; eauto.
Qed.

Lemma replace_all_no_occurrence c v s r : ReplaceAll c v s r -> ~ occurs c s -> r = s.
Proof. intros H Hn. inversion H; subst; auto. elim Hn. now exists u, t. Qed.

(** ReplaceAll is functional (so the specification determines the result). *)
Lemma replace_all_fun c v s r1 r2 : c <> [] -> ReplaceAll c v s r1 -> ReplaceAll c v s r2 -> r1 = r2.
Proof.
  intros Hc H1. revert r2. induction H1 as [s Hn|u t t' Hf H1 IH]; intros r2 H2.
  - symmetry. eapply replace_all_no_occurrence; eauto.
  - inversion H2 as [s Hn|u2 t2 t2' Hf2 H2' E]; subst.
    + elim Hn. now exists u, t.
    + pose proof (find_app_intro c u t Hf) as F1. pose proof (find_app_intro c u2 t2 Hf2) as F2.
      rewrite E in F2. rewrite F1 in F2. inversion F2 as [Hlen].
      assert (u2 = u /\ t2 = t) as [-> ->].
      { assert (u2 = u). { pose proof (f_equal (firstn (length u)) E) as K. rewrite firstn_length_app in K.
          rewrite Hlen in K. now rewrite firstn_length_app in K. }
        subst. split; auto. apply app_inv_head in E. now apply app_inv_head in E. }
      f_equal. f_equal. auto.
Qed.

Lemma expand_shorter_wit : exists s key v, expand_one (S_ "$[") (S_ "]") s (key, v) = Ok (S_ "$[a]") /\
  ReplaceAll (S_ "$[a]") [] s [] /\ key = S_ "a" /\ v = [].
Proof.
  exists (S_ "$[a]$[a]"), (S_ "a"), []. split; [vm_compute; reflexivity|]. split; auto.
  apply (RA_step (S_ "$[a]") [] [] (S_ "$[a]") []); [simpl; lia|].
  apply (RA_step (S_ "$[a]") [] [] [] []); [simpl; lia|].
  constructor. intros (u & v & H). destruct u; discriminate.
Qed.

Lemma expand_self_wit : exists s r, expand_one [] [] s (S_ "&", S_ "&amp;") = Ok r /\
  ~ ReplaceAll (S_ "&") (S_ "&amp;") s r.
Proof.
  exists (S_ "a&b&c"), (S_ "a&amp;b&c"). split; [vm_compute; reflexivity|].
  intros H.
  assert (H2 : ReplaceAll (S_ "&") (S_ "&amp;") (S_ "a&b&c") (S_ "a&amp;b&amp;c")).
  { change (S_ "a&b&c") with (S_ "a" ++ S_ "&" ++ S_ "b&c").
    change (S_ "a&amp;b&amp;c") with (S_ "a" ++ S_ "&amp;" ++ S_ "b&amp;c").
    apply RA_step.
    { intros j Hj. simpl in Hj. assert (j = 0) by lia. subst. reflexivity. }
    change (S_ "b&c") with (S_ "b" ++ S_ "&" ++ S_ "c").
    change (S_ "b&amp;c") with (S_ "b" ++ S_ "&amp;" ++ S_ "c").
    apply RA_step.
    { intros j Hj. simpl in Hj. assert (j = 0) by lia. subst. reflexivity. }
    constructor. apply find_none. reflexivity. }
  assert (Hne : S_ "&" <> []) by discriminate.
  pose proof (replace_all_fun _ _ _ _ _ Hne H H2) as E. discriminate E.
Qed.

(** * C04 splitting on a separator *)
(** Specification: split at every occurrence of one byte. *)
Fixpoint split_spec (c : ascii) (s : str) : list str :=
  match s with
  | [] => [[]]
  | x :: t => if aeq x c then [] :: split_spec c t
              else match split_spec c t with p :: ps => (x :: p) :: ps | [] => [[x]] end
  end.

Lemma split_spec_nonempty c s : split_spec c s <> [].
Proof. destruct s as [|x t]; simpl; [discriminate|]. destruct (aeq x c); [discriminate|]. destruct (split_spec c t); discriminate. Qed.

Lemma find_single c s : find [c] s = find_char c s.
Proof.
  induction s as [|x s IH]; simpl; auto.
  rewrite andb_true_r. rewrite IH. unfold aeq. rewrite Ascii.eqb_sym. now destruct (Ascii.eqb x c).
Qed.

Lemma split_spec_app c u t : ~ In c u -> split_spec c (u ++ c :: t) = u :: split_spec c t.
Proof.
  induction u as [|x u IH]; intros H; simpl.
  - now rewrite aeq_refl.
  - destruct (aeq x c) eqn:E; [apply aeq_spec in E; subst; elim H; now left|].
    rewrite IH; auto. intros Hi; apply H; now right.
Qed.
Lemma split_spec_none c s : ~ In c s -> split_spec c s = [s].
Proof.
  induction s as [|x s IH]; intros H; simpl; auto.
  destruct (aeq x c) eqn:E; [apply aeq_spec in E; subst; elim H; now left|].
  rewrite IH; auto. intros Hi; apply H; now right.
Qed.

Lemma split_string_single fuel c s : length s <= fuel -> split_string_loop fuel s [c] = Ok (split_spec c s).
Proof.
  revert s; induction fuel as [|f IH]; intros s Hs.
  - destruct s; simpl in Hs; [reflexivity|lia].
  - cbn [split_string_loop]. rewrite find_single.
    destruct (find_char c s) as [i|] eqn:E.
    + destruct (find_char_some _ _ _ E) as (u & v & -> & <- & Hn).
      rewrite app_length in *. cbn [length] in *.
      replace (length u + S (length v) <? length u + 1) with false by (symmetry; apply Nat.ltb_ge; lia).
      replace (skipn (length u + 1) (u ++ c :: v)) with v.
      2: { replace (length u + 1) with (length (u ++ [c])) by (rewrite app_length; auto).
           replace (u ++ c :: v) with ((u ++ [c]) ++ v) by (rewrite <- app_assoc; auto).
           now rewrite skipn_length_app. }
      rewrite IH by lia. cbn [bind]. now rewrite firstn_length_app, split_spec_app.
    + apply find_char_none in E. now rewrite split_spec_none.
Qed.

Lemma split_join c s : join [c] (split_spec c s) = s.
Proof.
  induction s as [|x s IH]; simpl; auto.
  destruct (aeq x c) eqn:E.
  - apply aeq_spec in E; subst. destruct (split_spec c s) eqn:Es; [now apply split_spec_nonempty in Es|].
    rewrite <- IH. reflexivity.
  - destruct (split_spec c s) as [|p ps] eqn:Es; [now apply split_spec_nonempty in Es|].
    rewrite <- IH. destruct ps; reflexivity.
Qed.
Lemma split_pieces c s : Forall (fun p => ~ In c p) (split_spec c s).
Proof.
  induction s as [|x s IH]; simpl.
  - constructor; auto.
  - destruct (aeq x c) eqn:E; [constructor; auto|].
    destruct (split_spec c s) as [|p ps]; [constructor; auto|].
    + intros [->|[]]. rewrite aeq_refl in E. discriminate.
    + inversion IH; subst. constructor; auto. intros [->|H]; [rewrite aeq_refl in E; discriminate|auto].
Qed.
Lemma split_of_join c ps : ps <> [] -> Forall (fun p => ~ In c p) ps -> split_spec c (join [c] ps) = ps.
Proof.
  intros Hne H. induction H as [|p ps Hp Hps IH]; [congruence|].
  destruct ps as [|q ps].
  - simpl. now apply split_spec_none.
  - change (join [c] (p :: q :: ps)) with (p ++ c :: join [c] (q :: ps)).
    rewrite split_spec_app by auto. f_equal. apply IH. discriminate.
Qed.

Lemma split_string_ok c s : split_string_using s [c] = Ok (split_spec c s).
Proof. apply split_string_single. lia. Qed.

(** Empty separator: always an exception. *)
Lemma split_string_empty_sep s : split_string_using s [] = Throw.
Proof.
  unfold split_string_using.
  assert (forall f s, length s < f -> split_string_loop f s [] = Throw) as H.
  { induction f as [|f IH]; intros t Ht; [lia|].
    cbn [split_string_loop]. destruct t as [|x t].
    - reflexivity.
    - assert (find [] (x :: t) = Some 0) as -> by reflexivity.
      replace (length (x :: t) <? 0 + 1) with false by reflexivity.
      change (skipn (0 + 1) (x :: t)) with t. rewrite IH by (simpl in Ht; lia). reflexivity. }
  apply H. lia.
Qed.
(** Every non-empty separator: terminates normally. *)
Lemma split_string_total s c0 c : exists r, split_string_using s (c0 :: c) = Ok r.
Proof.
  unfold split_string_using.
  assert (forall f s, length s <= f -> exists r, split_string_loop f s (c0 :: c) = Ok r) as H.
  { induction f as [|f IH]; intros t Ht.
    - destruct t; [cbn; eauto|simpl in Ht; lia].
    - cbn [split_string_loop]. destruct (find (c0 :: c) t) as [i|] eqn:E; [|eauto].
      destruct (find_some _ _ _ E) as [Hl _]. cbn [length] in Hl.
      replace (length t <? i + 1) with false by (symmetry; apply Nat.ltb_ge; lia).
      destruct (IH (skipn (i + 1) t)) as [r ->]; [rewrite skipn_length; lia|]. cbn [bind]. eauto. }
  apply H. lia.
Qed.
Lemma split_string_long_wit : exists s sep ps, sep <> [] /\ split_string_using s sep = Ok ps /\ join sep ps <> s.
Proof. exists (S_ "a--b"), (S_ "--"), [S_ "a"; S_ "-b"]. repeat split; try (vm_compute; reflexivity); discriminate. Qed.

(** * C08 *)
Lemma ends_with_spec s e : string_ends_with s e = true <-> e <> [] /\ exists u, s = u ++ e.
Proof.
  unfold string_ends_with. destruct s as [|x s].
  - split; [discriminate|]. intros [He [u Hu]]. destruct u, e; try discriminate; congruence.
  - destruct e as [|y e].
    + split; [discriminate|]. intros [H _]; congruence.
    + destruct (Nat.eqb_spec (length (x :: s)) (length (y :: e))) as [El|El].
      * rewrite eqs_spec. split.
        -- intros ->. split; [discriminate|]. now exists [].
        -- intros [_ [u Hu]]. rewrite Hu in *. rewrite app_length in El.
           destruct u; auto. simpl in El. lia.
      * rewrite andb_true_iff, Nat.ltb_lt, eqs_spec. split.
        -- intros [Hl He]. split; [discriminate|].
           exists (firstn (length (x :: s) - length (y :: e)) (x :: s)).
           etransitivity; [symmetry; apply (firstn_skipn (length (x :: s) - length (y :: e)))|].
           f_equal. exact He.
        -- intros [_ [u Hu]]. rewrite Hu in *. rewrite app_length in *. split; [destruct u; simpl in *; lia|].
           replace (length u + length (y :: e) - length (y :: e)) with (length u) by lia.
           apply skipn_length_app.
Qed.

Lemma strncaseeq_lower a b : length a = length b -> ~ In nul a ->
  strncaseeq a b = eqs (map tolower a) (map tolower b).
Proof.
  revert b; induction a as [|x a IH]; intros [|y b]; simpl; intros Hl Hn; try discriminate; auto.
  destruct (aeq (tolower x) (tolower y)); simpl; auto.
  destruct (aeq x zero) eqn:E; [apply aeq_spec in E; subst; elim Hn; now left|]. simpl. apply IH; auto.
Qed.
Lemma case_equal_lower a b : ~ In nul a -> string_case_equal a b = true <-> map tolower a = map tolower b.
Proof.
  intros Hn. unfold string_case_equal. destruct (Nat.eqb_spec (length a) (length b)) as [E|E]; simpl.
  - rewrite strncaseeq_lower by auto. apply eqs_spec.
  - split; [discriminate|]. intros H. apply (f_equal (@length _)) in H. now rewrite !map_length in H.
Qed.
Lemma case_equal_refl a : string_case_equal a a = true.
Proof.
  unfold string_case_equal. rewrite Nat.eqb_refl. simpl.
  induction a as [|x a IH]; simpl; auto. rewrite aeq_refl, IH. now rewrite orb_true_r.
Qed.
Lemma tolower_nul x : aeq (tolower x) (tolower nul) = aeq x nul.
Proof.
  apply Bool.eq_iff_eq_true.
  pose proof (all_bytes (fun x => Bool.eqb (aeq (tolower x) (tolower nul)) (aeq x nul)) ltac:(vm_compute; reflexivity) x) as H.
  apply eqb_prop in H. rewrite H. tauto.
Qed.
Lemma case_equal_sym a b : string_case_equal a b = string_case_equal b a.
Proof.
  unfold string_case_equal. rewrite Nat.eqb_sym. destruct (length b =? length a) eqn:El; auto. simpl.
  apply Nat.eqb_eq in El. revert b El; induction a as [|x a IH]; intros [|y b] El; simpl in *; try discriminate; auto.
  unfold aeq in *. rewrite (Ascii.eqb_sym (tolower x)).
  destruct (Ascii.eqb (tolower y) (tolower x)) eqn:E; auto. simpl.
  rewrite IH by lia.
  assert (Ascii.eqb x zero = Ascii.eqb y zero) as ->; auto.
  apply Ascii.eqb_eq in E.
  pose proof (tolower_nul x) as Hx. pose proof (tolower_nul y) as Hy. unfold aeq, nul in *. congruence.
Qed.
Lemma case_equal_trans a b c : string_case_equal a b = true -> string_case_equal b c = true -> string_case_equal a c = true.
Proof.
  unfold string_case_equal. rewrite !andb_true_iff, !Nat.eqb_eq. intros [L1 H1] [L2 H2]. split; [lia|].
  clear - L1 L2 H1 H2. revert b c L1 L2 H1 H2; induction a as [|x a IH]; intros [|y b] [|z c]; simpl; intros L1 L2 H1 H2; try discriminate; auto.
  apply andb_true_iff in H1 as [T1 H1], H2 as [T2 H2]. apply aeq_spec in T1, T2.
  rewrite T1, T2, aeq_refl. simpl.
  destruct (aeq x zero) eqn:E; auto. simpl in *.
  assert (aeq y zero = false) as Ey.
  { pose proof (tolower_nul x) as Hx. pose proof (tolower_nul y) as Hy. unfold nul in *. congruence. }
  rewrite Ey in H2. simpl in H2. eapply IH; [| |eassumption|eassumption]; lia.
Qed.
Lemma case_equal_nul_wit : exists a b, string_case_equal a b = true /\ map tolower a <> map tolower b.
Proof. exists [nul; "a"%char], [nul; "b"%char]. split; [reflexivity|discriminate]. Qed.

(** bool text *)
Lemma bool_round_trip b : from_string_bool (to_string_bool b) = b.
Proof. destruct b; reflexivity. Qed.
Lemma bool_spec s : from_string_bool s = true <->
  exists ws t, forallb isspace ws = true /\ (s = ws ++ S_ "true" ++ t \/ s = ws ++ S_ "1" ++ t).
Proof.
  unfold from_string_bool, skip_leading_whitespace.
  assert (Hd : forall s, skipn (length (take_while isspace s)) s = drop_while isspace s).
  { intros u. rewrite <- (take_drop_while isspace u) at 2. apply skipn_length_app. }
  rewrite Hd. rewrite orb_true_iff, !eqs_spec. split.
  - intros [H|H].
    + exists (take_while isspace s), (skipn 4 (drop_while isspace s)). split; [apply take_while_all|]. left.
      rewrite <- H, firstn_skipn. now rewrite take_drop_while.
    + exists (take_while isspace s), (skipn 1 (drop_while isspace s)). split; [apply take_while_all|]. right.
      rewrite <- H, firstn_skipn. now rewrite take_drop_while.
  - intros (ws & t & Hws & [-> | ->]).
    + left. assert (drop_while isspace (ws ++ S_ "true" ++ t) = S_ "true" ++ t) as ->; [|reflexivity].
      induction ws as [|w ws IH]; simpl in *; auto. apply andb_true_iff in Hws as [-> Hws]. auto.
    + right. assert (drop_while isspace (ws ++ S_ "1" ++ t) = S_ "1" ++ t) as ->; [|reflexivity].
      induction ws as [|w ws IH]; simpl in *; auto. apply andb_true_iff in Hws as [-> Hws]. auto.
Qed.

Lemma decimal_spec s : is_decimal_double_string s = true <->
  exists sg dot d t, (sg = [] \/ sg = S_ "-") /\ (dot = [] \/ dot = S_ ".") /\ isdigit d = true /\ s = sg ++ dot ++ d :: t.
Proof.
  assert (Hd : forall d, isdigit d = true -> aeq d "-"%char = false /\ aeq d "."%char = false).
  { intros d H. pose proof (all_bytes (fun d => negb (isdigit d) || (negb (aeq d "-"%char) && negb (aeq d "."%char))) ltac:(vm_compute; reflexivity) d) as K.
    cbv beta in K. rewrite H in K. simpl in K. apply andb_true_iff in K as [K1 K2]. apply negb_true_iff in K1, K2. auto. }
  unfold is_decimal_double_string. split.
  - destruct s as [|c t]; [discriminate|].
    destruct (aeq c "-"%char) eqn:E1.
    + apply aeq_spec in E1; subst. destruct t as [|c1 t]; [discriminate|].
      destruct (aeq c1 "."%char) eqn:E2.
      * apply aeq_spec in E2; subst. destruct t as [|c2 t]; [discriminate|]. intros H.
        exists (S_ "-"), (S_ "."), c2, t. auto.
      * intros H. exists (S_ "-"), [], c1, t. auto.
    + destruct (aeq c "."%char) eqn:E2.
      * apply aeq_spec in E2; subst. destruct t as [|c2 t]; [discriminate|]. intros H.
        exists [], (S_ "."), c2, t. auto.
      * intros H. exists [], [], c, t. auto.
  - intros (sg & dot & d & t & [-> | ->] & [-> | ->] & H & ->); destruct (Hd d H) as [E1 E2]; simpl; rewrite ?E1, ?E2; auto.
Qed.

(** * C05/C06 CSV fields *)
Definition esc (s : str) : str := flat_map (fun c => if aeq c """"%char then [c; c] else [c]) s.
Definition quote (s : str) : str := """"%char :: esc s ++ [""""%char].

Lemma quoted_esc s r : ~ In nul s -> (rd r <> """"%char) -> quoted (esc s ++ """"%char :: r) = (s, r).
Proof.
  intros Hn Hr. induction s as [|x s IH].
  - simpl. destruct r as [|y r]; auto. simpl in Hr.
    destruct (aeq y """"%char) eqn:E; auto. apply aeq_spec in E. congruence.
  - assert (Hx : aeq x nul = false) by (apply aeq_neq; intros ->; apply Hn; now left).
    assert (Hs : ~ In nul s) by (intros H; apply Hn; now right).
    simpl esc. destruct (aeq x """"%char) eqn:E.
    + cbn [app quoted]. rewrite Hx, E. rewrite IH by auto. apply aeq_spec in E. now subst.
    + cbn [app quoted]. rewrite Hx, E. now rewrite IH.
Qed.

Lemma split_quoted_quoted fuel fs : Forall (fun s => ~ In nul s) fs ->
  length (join (S_ ",") (map quote fs)) <= fuel ->
  split_quoted_loop fuel (join (S_ ",") (map quote fs)) ","%char = Ok fs.
Proof.
  intros H. revert fuel. induction H as [|f fs Hf Hfs IH]; intros fuel Hl.
  - destruct fuel; reflexivity.
  - destruct fs as [|g fs].
    + destruct fuel as [|fuel]; [simpl in Hl; lia|].
      change (join (S_ ",") (map quote [f])) with (quote f). unfold quote.
      cbn [split_quoted_loop]. 
      change (drop_while (fun c => isspace c && negb (aeq c ","%char)) (""""%char :: esc f ++ [""""%char]))
        with (""""%char :: esc f ++ [""""%char]).
      change (aeq (rd (""""%char :: esc f ++ [""""%char])) """"%char && aeq ","%char ","%char) with true.
      cbn [tl]. rewrite (quoted_esc f []) by (auto; discriminate). cbn. destruct fuel; reflexivity.
    + destruct fuel as [|fuel]; [simpl in Hl; lia|].
      change (join (S_ ",") (map quote (f :: g :: fs))) with
        (quote f ++ S_ "," ++ join (S_ ",") (map quote (g :: fs))) in *.
      assert (Hrest : exists r, join (S_ ",") (map quote (g :: fs)) = """"%char :: r).
      { simpl. destruct (map quote fs); unfold quote; simpl; eauto. }
      destruct Hrest as [r Hr].
      unfold quote at 1. rewrite <- app_comm_cons, <- app_assoc. cbn [app].
      cbn [split_quoted_loop].
      set (tail := join (S_ ",") (map quote (g :: fs))) in *.
      change (S_ "," ++ tail) with (","%char :: tail) in *.
      set (line := """"%char :: esc f ++ """"%char :: ","%char :: tail).
      change (drop_while (fun c => isspace c && negb (aeq c ","%char)) line) with line.
      change (aeq (rd line) """"%char && aeq ","%char ","%char) with true.
      cbn [tl line]. rewrite (quoted_esc f (","%char :: tail)) by (auto; discriminate).
      change (strchr (","%char :: tail) ","%char) with (","%char :: tail).
      assert ((length (","%char :: tail) =? 1) = false) as -> by (rewrite Hr; reflexivity).
      rewrite andb_false_r. cbn [tl]. rewrite IH; auto.
      unfold quote in Hl. rewrite app_length in Hl. cbn [length] in Hl. lia.
Qed.

Lemma quoted_round_trip fs : Forall (fun s => ~ In nul s) fs ->
  split_quoted_using (join (S_ ",") (map quote fs)) ","%char = Ok fs.
Proof. intros H. apply split_quoted_quoted; auto. Qed.

(** A plain field: no delimiter, no NUL, no white space at either end, no opening quote. *)
Definition plain (d : ascii) (s : str) : Prop :=
  ~ In d s /\ ~ In nul s /\
  (forall c t, s = c :: t -> isspace c = false /\ c <> """"%char) /\
  (forall t c, s = t ++ [c] -> isspace c = false).

Lemma strchr_app d u t : ~ In d u -> ~ In nul u -> strchr (u ++ d :: t) d = d :: t.
Proof.
  induction u as [|x u IH]; simpl; intros Hd Hn; [now rewrite aeq_refl|].
  destruct (aeq x d) eqn:E; [apply aeq_spec in E; subst; tauto|].
  destruct (aeq x nul) eqn:E2; [apply aeq_spec in E2; subst; tauto|]. apply IH; tauto.
Qed.
Lemma strchr_none d u : ~ In d u -> strchr u d = [].
Proof.
  induction u as [|x u IH]; simpl; intros Hd; auto.
  destruct (aeq x d) eqn:E; [apply aeq_spec in E; subst; tauto|].
  destruct (aeq x nul); auto.
Qed.
Lemma trim_right_plain d s : plain d s -> trim_right d s = s.
Proof.
  intros (_ & _ & _ & H). unfold trim_right. destruct (rev s) as [|c r] eqn:E.
  - simpl. apply (f_equal (@rev _)) in E. now rewrite rev_involutive in E.
  - assert (Hs : s = rev r ++ [c]) by (rewrite <- (rev_involutive s), E; reflexivity).
    simpl. rewrite (H (rev r) c Hs). simpl. now rewrite Hs.
Qed.
Lemma cstr_plain s : ~ In nul s -> cstr s = s.
Proof.
  unfold cstr. induction s as [|x s IH]; intros H; auto. cbn [take_while].
  destruct (aeq x nul) eqn:E; [apply aeq_spec in E; subst; elim H; now left|]. cbn [negb].
  rewrite IH; auto. intros Hi; apply H; now right.
Qed.
Lemma between_app u t : between (u ++ t) t = u.
Proof. unfold between. rewrite app_length. replace (length u + length t - length t) with (length u) by lia. apply firstn_length_app. Qed.
Lemma drop_plain d s t : plain d s -> drop_while (fun c => isspace c && negb (aeq c d)) (s ++ d :: t) = s ++ d :: t.
Proof.
  intros (_ & _ & H & _). destruct s as [|c s]; simpl.
  - now rewrite aeq_refl, andb_false_r.
  - destruct (H c s eq_refl) as [-> _]. reflexivity.
Qed.
Lemma drop_plain_end d s : plain d s -> drop_while (fun c => isspace c && negb (aeq c d)) s = s.
Proof.
  intros (_ & _ & H & _). destruct s as [|c s]; simpl; auto. destruct (H c s eq_refl) as [-> _]. reflexivity.
Qed.
Lemma rd_plain d s t : d <> """"%char -> plain d s -> aeq (rd (s ++ d :: t)) """"%char = false.
Proof.
  intros Hd (_ & _ & H & _). apply aeq_neq. destruct s as [|c s]; simpl; auto. now destruct (H c s eq_refl).
Qed.
Lemma rd_plain_end d s : plain d s -> aeq (rd s) """"%char = false.
Proof.
  intros (_ & _ & H & _). apply aeq_neq. destruct s as [|c s]; simpl; [discriminate|]. now destruct (H c s eq_refl).
Qed.

Lemma split_plain fuel d fs : d <> """"%char -> d <> nul -> Forall (plain d) fs ->
  fs <> [] -> fs <> [[]] -> length (join [d] fs) <= fuel ->
  split_quoted_loop fuel (join [d] fs) d = Ok fs.
Proof.
  intros Hq Hz H. revert fuel. induction H as [|f fs Hf Hfs IH]; intros fuel Hne Hne2 Hl; [congruence|].
  destruct fs as [|g fs].
  - change (join [d] [f]) with f in *. destruct f as [|c f]; [elim Hne2; reflexivity|].
    destruct fuel as [|fuel]; [simpl in Hl; lia|].
    cbn [split_quoted_loop]. rewrite drop_plain_end by auto. rewrite (rd_plain_end d) by auto. cbn [andb].
    destruct Hf as (Hd & Hn & H1 & H2). rewrite strchr_none by auto.
    assert (between (c :: f) [] = c :: f) as -> by (pose proof (between_app (c :: f) []) as K; now rewrite app_nil_r in K).
    rewrite trim_right_plain by (repeat split; auto; eapply H1; eauto). rewrite cstr_plain by auto. simpl length.
    rewrite andb_false_r. destruct fuel; reflexivity.
  - destruct fuel as [|fuel].
    { exfalso. simpl in Hl. rewrite app_length in Hl. simpl in Hl. lia. }
    change (join [d] (f :: g :: fs)) with (f ++ d :: join [d] (g :: fs)) in *.
    assert (Hnn : f ++ d :: join [d] (g :: fs) <> []) by (destruct f; discriminate).
    cbn [split_quoted_loop]. destruct (f ++ d :: join [d] (g :: fs)) as [|x0 l0] eqn:E0; [congruence|].
    rewrite <- E0 in *. clear E0 x0 l0.
    rewrite drop_plain by auto. rewrite rd_plain by auto. cbn [andb].
    destruct Hf as (Hd & Hn & H1 & H2). rewrite strchr_app by auto.
    rewrite between_app. rewrite trim_right_plain by (repeat split; auto; eapply H1; eauto).
    rewrite cstr_plain by auto. cbn [rd hd tl]. rewrite aeq_refl. cbn [andb].
    rewrite app_length in Hl. cbn [length] in Hl.
    destruct (list_eq_dec str_dec (g :: fs) [[]]) as [Eg|Eg].
    + rewrite Eg. simpl. destruct fuel; reflexivity.
    + rewrite IH by (auto; try discriminate; lia). cbn [bind].
      destruct (Nat.eqb_spec (length (d :: join [d] (g :: fs))) 1) as [E1|E1]; auto.
      exfalso. simpl in E1. destruct fs as [|h fs].
      * destruct g; [elim Eg; reflexivity|simpl in E1; lia].
      * rewrite app_length in E1. simpl in E1. lia.
Qed.
Lemma plain_round_trip d fs : d <> """"%char -> d <> nul -> Forall (plain d) fs -> fs <> [] -> fs <> [[]] ->
  split_quoted_using (join [d] fs) d = Ok fs.
Proof. intros. apply split_plain; auto. Qed.

(** Termination of SplitQuotedUsing on every input. *)
Lemma strchr_length l d : length (strchr l d) <= length l.
Proof. induction l as [|x l IH]; simpl; auto. destruct (aeq x d); simpl; auto. destruct (aeq x nul); simpl; lia. Qed.
Lemma quoted_length_aux n : forall l, length l <= n -> length (snd (quoted l)) <= length l.
Proof.
  induction n as [|n IH]; intros l Hl; [destruct l; simpl in *; [auto|lia]|].
  destruct l as [|x l]; simpl; auto. simpl in Hl.
  destruct (aeq x nul); simpl; auto.
  destruct (aeq x """"%char).
  - destruct l as [|y l]; simpl; auto. simpl in Hl. destruct (aeq y """"%char).
    + specialize (IH l ltac:(lia)). destruct (quoted l); simpl in *. lia.
    + simpl. lia.
  - specialize (IH l ltac:(lia)). destruct (quoted l); simpl in *. lia.
Qed.
Lemma quoted_length l : length (snd (quoted l)) <= length l.
Proof. eapply quoted_length_aux; eauto. Qed.
Lemma split_quoted_total input d : exists r, split_quoted_using input d = Ok r.
Proof.
  unfold split_quoted_using.
  assert (H : forall f l, length l < f -> exists r, split_quoted_loop f l d = Ok r); [|apply H; lia].
  induction f as [|f IH]; intros l Hl; [lia|]. cbn [split_quoted_loop].
  destruct l as [|x l]; [eauto|].
  set (l1 := drop_while _ (x :: l)).
  assert (Hl1 : length l1 <= length (x :: l)) by apply drop_while_length.
  destruct (aeq (rd l1) """"%char && aeq d ","%char).
  - pose proof (quoted_length (tl l1)) as Hq. destruct (quoted (tl l1)) as [v l2]. simpl in Hq.
    pose proof (strchr_length l2 d) as Hs.
    assert (length (tl (strchr l2 d)) < f).
    { destruct l1 as [|a l1]; simpl in *; destruct (strchr l2 d); simpl in *; lia. }
    destruct (IH (tl (strchr l2 d)) H) as [r ->]. cbn. eauto.
  - pose proof (strchr_length l1 d) as Hs.
    assert (length (tl (strchr l1 d)) < f) by (destruct (strchr l1 d); simpl in *; lia).
    destruct (IH _ H) as [r ->]. cbn. eauto.
Qed.

(** * C07 CSV lines *)
(** Specification: cut at every CR or LF byte; drop the empty pieces except the first. *)
Fixpoint cut (f : ascii -> bool) (s : str) : list str :=
  match s with
  | [] => [[]]
  | x :: t => if f x then [] :: cut f t
              else match cut f t with p :: ps => (x :: p) :: ps | [] => [[x]] end
  end.
Definition nonempty (s : str) : bool := match s with [] => false | _ => true end.
Definition lines_spec (s : str) : list str :=
  match cut is_nl s with [] => [] | x :: r => x :: filter nonempty r end.

Lemma cut_shape f s : cut f s = take_while (fun c => negb (f c)) s ::
  match drop_while (fun c => negb (f c)) s with [] => [] | _ :: t => cut f t end.
Proof.
  induction s as [|x s IH]; simpl; auto.
  destruct (f x); simpl; auto. now rewrite IH.
Qed.
Lemma filter_cut_drop f s : filter nonempty (cut f s) =
  match drop_while f s with [] => [] | r => filter nonempty (cut f r) end.
Proof.
  induction s as [|x s IH]; simpl; auto.
  destruct (f x) eqn:E; simpl; auto. now rewrite E.
Qed.
Lemma csv_lines_spec fuel s : length s < fuel -> csv_lines fuel (Some s) = Ok (lines_spec s).
Proof.
  revert s; induction fuel as [|f IH]; intros s Hs; [lia|].
  cbn [csv_lines]. unfold find_next_line, lines_spec. rewrite cut_shape.
  pose proof (drop_while_length (fun c => negb (is_nl c)) s) as Hd.
  destruct (drop_while (fun c => negb (is_nl c)) s) as [|c t] eqn:Ed.
  - destruct f; reflexivity.
  - pose proof (drop_while_head _ _ _ _ Ed) as Hc. apply negb_false_iff in Hc.
    cbn [drop_while]. rewrite Hc.
    pose proof (drop_while_length is_nl t) as Hdt.
    rewrite filter_cut_drop.
    destruct (drop_while is_nl t) as [|y r] eqn:Er.
    + destruct f; reflexivity.
    + pose proof (drop_while_head _ _ _ _ Er) as Hy.
      rewrite IH by (simpl in *; lia). cbn [bind]. unfold lines_spec.
      assert (Hcut : exists p q, cut is_nl (y :: r) = (y :: p) :: q).
      { simpl. rewrite Hy. destruct (cut is_nl r); eauto. }
      destruct Hcut as (p & q & ->). reflexivity.
Qed.
Lemma csv_all_lines_spec s : csv_all_lines s = Ok (lines_spec s).
Proof. apply csv_lines_spec. lia. Qed.

(** Property theorems about the locale of numbers (C124). *)
From Verif Require Import Common LocaleModel.
Local Open Scope N_scope.

(** The locale in use exists, and each locale was made once. *)
Definition valid (s : locales) : Prop := (exists c, point_of s (now s) = Some c) /\ (forall n c, In (n, c) (alive s) -> n < next s).
(** What a program should see: the point in use, inside of a block always the dot. *)
Fixpoint should (c : ascii) (p : prog) : list ascii := match p with Use => [c] | Guard p => should "."%char p | Seq p q => should c p ++ should c q end.
Lemma fresh_find n (l : list (N * ascii)) : (forall m c, In (m, c) l -> m < n) -> List.find (fun e => fst e =? n) l = None.
Proof. intros H. induction l as [|[m c] l IH]; [reflexivity|]. cbn [List.find fst]. specialize (H m c) as Hm. assert (m < n) by (apply Hm; now left). destruct (N.eqb_spec m n); [lia|]. apply IH. intros. eapply H. right. eauto. Qed.
Lemma fresh_filter n (l : list (N * ascii)) : (forall m c, In (m, c) l -> m < n) -> List.filter (fun e => negb (fst e =? n)) l = l.
Proof. intros H. induction l as [|[m c] l IH]; [reflexivity|]. cbn [List.filter fst]. specialize (H m c) as Hm. assert (m < n) by (apply Hm; now left). destruct (N.eqb_spec m n); [lia|]. cbn [negb]. f_equal. apply IH. intros. eapply H. right. eauto. Qed.
Lemma run_spec p : forall s c, point_of s (now s) = Some c -> (forall n a, In (n, a) (alive s) -> n < next s) ->
  exists s', run p s = Ok (should c p, s') /\ now s' = now s /\ alive s' = alive s /\ process_point s' = process_point s /\ next s <= next s'.
Proof.
  induction p as [|p IH|p IHp q IHq]; intros s c Hc Hv; cbn [run should].
  - rewrite Hc. exists s. repeat split; auto. lia.
  - unfold locale_c, newlocale. cbn [uselocale point_of alive List.find fst snd]. rewrite N.eqb_refl. cbn [bind now process_point next].
    set (s1 := {| process_point := process_point s; now := Made (next s); alive := (next s, "."%char) :: alive s; next := next s + 1 |}).
    destruct (IH s1 "."%char) as (s2 & R1 & R2 & R3 & R4 & R5).
    + cbn [s1 point_of now alive List.find fst snd]. rewrite N.eqb_refl. reflexivity.
    + cbn [s1 alive next]. intros n a [[= <- <-]|H]; [lia|]. specialize (Hv n a H). lia.
    + rewrite R1. cbn [bind]. unfold locale_c_end, uselocale.
      assert (P : point_of s2 (now s) = Some c).
      { destruct (now s) as [|n] eqn:En; cbn [point_of] in *; [rewrite R4; exact Hc|]. rewrite R3. cbn [s1 alive List.find fst]. destruct (N.eqb_spec (next s) n) as [<-|_]; [|exact Hc]. rewrite fresh_find in Hc by exact Hv. discriminate. }
      rewrite P, R2. cbn [bind s1 now freelocale point_of alive]. rewrite R3. cbn [s1 alive List.find List.filter fst snd]. rewrite N.eqb_refl. cbn [negb bind]. rewrite fresh_filter by exact Hv.
      eexists. split; [reflexivity|]. cbn [now alive process_point next]. rewrite R4. repeat split; auto. cbn [s1 next] in R5. lia.
  - destruct (IHp s c Hc Hv) as (s1 & P1 & P2 & P3 & P4 & P5). rewrite P1. cbn [bind].
    destruct (IHq s1 c) as (s2 & Q1 & Q2 & Q3 & Q4 & Q5).
    + rewrite P2. destruct (now s) as [|n]; cbn [point_of] in *; [now rewrite P4|now rewrite P3].
    + rewrite P3. intros n a H. specialize (Hv n a H). lia.
    + rewrite Q1. cbn [bind]. eexists. split; [reflexivity|]. rewrite Q2, Q3, Q4. repeat split; auto. lia.
Qed.
(** C124. Inside of blocks with a LocaleC numbers have a decimal point whatever the locale is and however the blocks are nested; afterwards the
    locale in use is the one before, and no locale is left behind. *)
Theorem locale_c_blocks : forall p s, valid s -> exists c s', point_of s (now s) = Some c /\ run p s = Ok (should c p, s') /\ now s' = now s /\ alive s' = alive s /\ valid s'.
Proof.
  intros p s [[c Hc] Hv]. destruct (run_spec p s c Hc Hv) as (s' & R1 & R2 & R3 & R4 & R5). exists c, s'. split; [exact Hc|]. split; [exact R1|]. split; [exact R2|]. split; [exact R3|]. split.
  - exists c. rewrite R2. destruct (now s) as [|n]; cbn [point_of] in *; [now rewrite R4|now rewrite R3].
  - intros n a H. rewrite R3 in H. specialize (Hv n a H). lia.
Qed.
Print Assumptions locale_c_blocks.
(** A process with a decimal comma. *)
Definition german : locales := {| process_point := ","%char; now := Process; alive := []; next := 0 |}.
Example german_sample : valid german /\ run (Seq Use (Seq (Guard (Seq Use (Seq (Guard Use) Use))) Use)) german =
  Ok (S_ ",...,", {| process_point := ","%char; now := Process; alive := []; next := 2 |}).
Proof. split; [|vm_compute; reflexivity]. split; [exists ","%char; reflexivity|intros n c []]. Qed.
(** C124. When there is no memory for the new locale the numbers keep the comma, and the end of the block frees the locale of the process or one of
    somebody else. *)
Theorem locale_c_no_memory_refuted : exists previous s1, locale_c false german = Ok (previous, s1) /\ point_of s1 (now s1) = Some ","%char /\ locale_c_end previous s1 = UB.
Proof. do 2 eexists. split; [reflexivity|]. split; reflexivity. Qed.
Print Assumptions locale_c_no_memory_refuted.
(** C124. Two objects that end in the order they began in (on the heap): the second end is undefined. *)
Theorem locale_c_crossed_refuted : (do (p1, s1) <- locale_c true german; do (p2, s2) <- locale_c true s1; do s3 <- locale_c_end p1 s2; locale_c_end p2 s3) = UB /\
  exists s, (do (p1, s1) <- locale_c true german; do (p2, s2) <- locale_c true s1; do s3 <- locale_c_end p2 s2; locale_c_end p1 s3) = Ok s.
Proof. split; [reflexivity|]. eexists. reflexivity. Qed.
Print Assumptions locale_c_crossed_refuted.
(** C124. A locale that the program itself begins to use inside of the block is freed by its end. *)
Theorem locale_c_frees_others_refuted : match newlocale true "'"%char german with
  | (Some h, s0) => point_of s0 h = Some "'"%char /\ exists s, (do (p1, s1) <- locale_c true s0; do (_, s2) <- uselocale (Some h) s1; locale_c_end p1 s2) = Ok s /\ point_of s h = None
  | _ => False end.
Proof. cbn. split; [reflexivity|]. eexists. split; vm_compute; reflexivity. Qed.
Print Assumptions locale_c_frees_others_refuted.

(** C124. ToString writes the digits of a number in every locale of the program.  The names of the files of a regionated document have separators in a
    locale that has them: the digits are all there, so the names differ as the numbers do, and up to 999 files they are the same in all locales. *)
Theorem to_string_any_locale : forall global d, to_string_int global d = d.
Proof. intros g d. unfold to_string_int. induction d as [|c d IH]; [reflexivity|]. cbn [grouped]. now rewrite IH. Qed.
Print Assumptions to_string_any_locale.
Theorem region_file_digits : forall global d, (forall c, global = Some c -> ~ In c d) ->
  exists b, region_file global d = b ++ S_ ".kml" /\ (forall c, global = Some c -> List.filter (fun x => negb (aeq x c)) b = d) /\ (global = None \/ (length d <= 3)%nat -> b = d).
Proof.
  intros g d H. exists (grouped g d). split; [reflexivity|]. split.
  - intros c ->. specialize (H c eq_refl). induction d as [|x d IH]; [reflexivity|]. cbn [In] in H. assert (Hx : aeq x c = false) by (apply aeq_neq; intros ->; tauto). cbn [grouped].
    destruct (_ && _); cbn [List.filter]; rewrite Hx; cbn [negb]; rewrite ?aeq_refl; cbn [negb]; f_equal; apply IH; tauto.
  - intros [->|L].
    + clear. induction d as [|x d IH]; [reflexivity|]. cbn [grouped]. now rewrite IH.
    + destruct g as [c|]; [|clear; induction d as [|x d IH]; [reflexivity|]; cbn [grouped]; now rewrite IH]. destruct d as [|x [|y [|z [|w d]]]]; cbn [length] in L; try lia; reflexivity.
Qed.
Print Assumptions region_file_digits.
Theorem region_files_differ : forall global d d', (forall c, global = Some c -> ~ In c d /\ ~ In c d') -> region_file global d = region_file global d' -> d = d'.
Proof.
  intros g d d' H E. unfold region_file in E. apply app_inv_tail in E. destruct g as [c|].
  - destruct (H c eq_refl) as [H1 H2]. destruct (region_file_digits (Some c) d) as (b & B1 & B2 & _); [intros ? [= <-]; exact H1|]. destruct (region_file_digits (Some c) d') as (b' & B1' & B2' & _); [intros ? [= <-]; exact H2|].
    unfold region_file in B1, B1'. apply app_inv_tail in B1, B1'. rewrite <- (B2 c eq_refl), <- (B2' c eq_refl). congruence.
  - assert (G : forall x, grouped None x = x) by (induction x as [|y x IH]; [reflexivity|]; cbn [grouped]; now rewrite IH). now rewrite !G in E.
Qed.
Print Assumptions region_files_differ.
(** C124. The 1000th file is not called 1000.kml in a locale with separators. *)
Theorem region_file_locale_refuted : region_file (Some ","%char) (S_ "1000") = S_ "1,000.kml" /\ region_file None (S_ "1000") = S_ "1000.kml".
Proof. split; reflexivity. Qed.
Print Assumptions region_file_locale_refuted.
(** C124. Every use of a locale that was freed is undefined. *)
Theorem freed_locale_undefined : forall s h, point_of s h = None -> uselocale (Some h) s = UB /\ freelocale h s = UB /\ (now s = h -> run Use s = UB).
Proof. intros s h H. unfold uselocale, freelocale, run. rewrite H. split; [reflexivity|]. split; [now destruct h|]. intros ->. now rewrite H. Qed.
Print Assumptions freed_locale_undefined.

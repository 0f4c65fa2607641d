(** Facts about the XML reader specification. *)
From Verif Require Import Common AttributesModel AttributesProofs StringsProofs XmlSpec.

Lemma prepend_some {A} (l : list A) o e : prepend l o = Some e -> exists e', o = Some e' /\ e = l ++ e'.
Proof. destruct o; simpl; [|discriminate]. intros H; inversion H; eauto. Qed.

Lemma att_value_length s : forall k v r, att_value k s = Some (v, r) -> length r < length s.
Proof.
  induction s as [|c t IH]; intros k v r H; cbn [att_value] in H; [discriminate|].
  destruct k as [|k].
  - destruct (aeq c """"%char); [inversion H; subst; simpl; lia|].
    destruct (aeq c "<"%char); [discriminate|].
    destruct (aeq c "&"%char).
    + destruct (read_entity entities (c :: t)) as [[x k]|]; [|discriminate].
      destruct (att_value (k - 1) t) as [[v' r']|] eqn:E; [|discriminate]. apply IH in E. inversion H; subst. simpl. lia.
    + destruct (legal c); [|discriminate].
      destruct (att_value 0 t) as [[v' r']|] eqn:E; [|discriminate]. apply IH in E. inversion H; subst. simpl. lia.
  - apply IH in H. simpl. lia.
Qed.

Lemma drop_while_lt {A} (f : A -> bool) l x y t : drop_while f l = x :: y :: t -> length t + 2 <= length l.
Proof. intros H. pose proof (drop_while_length f l) as Hl. rewrite H in Hl. simpl in Hl. lia. Qed.

Lemma tag_atts_length f : forall s l b r, tag_atts f s = Some (l, b, r) -> length r < length s.
Proof.
  induction f as [|f IH]; intros s l b r H; simpl in H; [discriminate|].
  destruct s as [|c t]; [discriminate|].
  destruct (aeq c ">"%char); [inversion H; subst; simpl; lia|].
  destruct (aeq c "/"%char).
  - destruct t as [|d t]; [discriminate|]. destruct (aeq d ">"%char); [|discriminate]. inversion H; subst. simpl. lia.
  - destruct (xsp c); [|discriminate].
    pose proof (drop_while_length xsp t) as Hl.
    destruct (aeq (hd zero (drop_while xsp t)) ">"%char || aeq (hd zero (drop_while xsp t)) "/"%char).
    + apply IH in H. simpl. lia.
    + destruct (drop_while name_ch (drop_while xsp t)) as [|e [|q r0]] eqn:E; [discriminate|discriminate|].
      apply drop_while_lt in E.
      destruct (xml_name _ && _ && _); [|discriminate].
      destruct (att_value 0 r0) as [[v r']|] eqn:Ev; [|discriminate]. apply att_value_length in Ev.
      destruct (tag_atts f r') as [[[l' b'] r'']|] eqn:Et; [|discriminate]. apply IH in Et. inversion H; subst. simpl. lia.
Qed.

Lemma tag_atts_fuel f : forall s x f', tag_atts f s = Some x -> length s <= f' -> tag_atts f' s = Some x.
Proof.
  induction f as [|f IH]; intros s x f' H Hl; simpl in H; [discriminate|].
  destruct s as [|c t]; [discriminate|]. simpl in Hl.
  destruct f' as [|f']; [lia|]. simpl.
  destruct (aeq c ">"%char); [auto|].
  destruct (aeq c "/"%char); [auto|].
  destruct (xsp c); [|discriminate].
  pose proof (drop_while_length xsp t) as Hd.
  destruct (aeq (hd zero (drop_while xsp t)) ">"%char || aeq (hd zero (drop_while xsp t)) "/"%char).
  - apply IH; auto. lia.
  - destruct (drop_while name_ch (drop_while xsp t)) as [|e [|q r0]] eqn:E; [discriminate|discriminate|].
    apply drop_while_lt in E.
    destruct (xml_name _ && _ && _); [|discriminate].
    destruct (att_value 0 r0) as [[v r']|] eqn:Ev; [|discriminate]. apply att_value_length in Ev.
    destruct (tag_atts f r') as [[[l' b'] r'']|] eqn:Et; [|discriminate].
    rewrite (IH _ _ f' Et) by lia. auto.
Qed.

Lemma read_entity_pos es s x k : read_entity es s = Some (x, k) -> Forall (fun p => fst p <> []) es -> 0 < k.
Proof.
  induction es as [|[e c] es IH]; simpl; [discriminate|]. intros H Hf. inversion Hf as [|? ? He Hf']; subst. destruct (prefixb e s).
  - inversion H; subst. simpl in He. destruct e; [easy|simpl; lia].
  - auto.
Qed.
Lemma entities_nonempty : Forall (fun p => fst p <> []) entities.
Proof. unfold entities. repeat constructor; discriminate. Qed.

(** The fuel does not matter as long as it is at least the length of the input. *)
Lemma rd_fuel f : forall s e f', rd f s = Some e -> length s <= f' -> rd f' s = Some e.
Proof.
  induction f as [|f IH]; intros s e f' H Hl; (destruct s as [|c t]; [destruct f'; simpl in *; auto|]); [discriminate|].
  cbn [rd] in H. simpl in Hl. destruct f' as [|f']; [lia|]. cbn [rd].
  destruct (aeq c "<"%char).
  - destruct (prefixb cdata_open (c :: t)) eqn:Ep.
    + destruct (find cdata_close (skipn 9 (c :: t))) as [i|]; [|discriminate].
      destruct (forallb legal _); [|discriminate].
      apply prepend_some in H as (e' & H & ->). rewrite (IH _ _ f' H); auto.
      rewrite !skipn_length. apply prefixb_length in Ep. simpl in Ep |- *. lia.
    + destruct (aeq (hd zero t) "/"%char).
      * destruct (drop_while name_ch (tl t)) as [|d r] eqn:Ed; [discriminate|].
        destruct (xml_name _ && _); [|discriminate]. apply prepend_some in H as (e' & H & ->).
        rewrite (IH _ _ f' H); auto.
        pose proof (drop_while_length name_ch (tl t)) as Hd. rewrite Ed in Hd. destruct t; simpl in *; lia.
      * destruct (xml_name (take_while name_ch t)); [|discriminate].
        destruct (tag_atts f _) as [[[a b] r]|] eqn:Et; [|discriminate].
        pose proof (drop_while_length name_ch t) as Hd.
        rewrite (tag_atts_fuel _ _ _ f' Et) by lia. apply tag_atts_length in Et.
        destruct (nodupb _); [|discriminate]. apply prepend_some in H as (e' & H & ->).
        rewrite (IH _ _ f' H); auto. lia.
  - destruct (aeq c "&"%char).
    + destruct (read_entity entities (c :: t)) as [[x k]|] eqn:Er; [|discriminate].
      apply prepend_some in H as (e' & H & ->). rewrite (IH _ _ f' H); auto.
      apply read_entity_pos in Er; [|apply entities_nonempty]. rewrite skipn_length. cbn [length]. lia.
    + destruct (prefixb cdata_close (c :: t)); [discriminate|]. destruct (legal c); [|discriminate].
      apply prepend_some in H as (e' & H & ->). rewrite (IH _ _ f' H); auto. lia.
Qed.

(** Relational view: [reads s es]. *)
Definition reads (s : str) (es : list ev) : Prop := rd (length s) s = Some es.
Lemma reads_intro f s es : rd f s = Some es -> reads s es.
Proof. intros H. eapply rd_fuel; eauto. Qed.
Lemma reads_fuel f s es : reads s es -> length s <= f -> rd f s = Some es.
Proof. intros H Hl. eapply rd_fuel; eauto. Qed.
Lemma reads_nil : reads [] [].
Proof. reflexivity. Qed.
Lemma reads_det s e1 e2 : reads s e1 -> reads s e2 -> e1 = e2.
Proof. unfold reads. congruence. Qed.

(** [okf t]: t cannot complete a "]]>" begun before it. *)
Definition okf (t : str) : Prop := hd zero t <> ">"%char /\ prefixb (S_ "]>") t = false.
(** [frag s es]: s contributes exactly the events es in any content that continues with [okf] text. *)
Definition frag (s : str) (es : list ev) : Prop :=
  forall t, okf t -> okf (s ++ t) /\ forall r, reads t r -> reads (s ++ t) (es ++ r).
Lemma frag_nil : frag [] [].
Proof. intros t H. split; auto. Qed.
Lemma frag_app s1 e1 s2 e2 : frag s1 e1 -> frag s2 e2 -> frag (s1 ++ s2) (e1 ++ e2).
Proof.
  intros H1 H2 t Ht. rewrite <- app_assoc. destruct (H2 t Ht) as [Ht2 Hr2]. destruct (H1 _ Ht2) as [Ht1 Hr1].
  split; auto. intros r Hr. rewrite <- app_assoc. auto.
Qed.
Lemma frag_reads s es : frag s es -> reads s es.
Proof.
  intros H. destruct (H [] (conj (ltac:(discriminate) : hd zero [] <> ">"%char) eq_refl)) as [_ Hr].
  specialize (Hr [] reads_nil). now rewrite !app_nil_r in Hr.
Qed.

Definition plain_char (c : ascii) : bool :=
  legal c && negb (aeq c "<"%char) && negb (aeq c "&"%char) && negb (aeq c ">"%char).
Lemma okf_lt t : okf ("<"%char :: t).
Proof. split; [discriminate|reflexivity]. Qed.
Lemma frag_char c : plain_char c = true -> frag [c] [EChar c].
Proof.
  unfold plain_char. rewrite !andb_true_iff, !negb_true_iff. intros (((Hl & H1) & H2) & H3) t [Ht1 Ht2].
  change ([c] ++ t) with (c :: t). split.
  - split; [simpl; apply aeq_neq in H3; exact H3|]. destruct t as [|d t]; [simpl; apply andb_false_r|].
    simpl in Ht1. apply not_eq_sym, aeq_neq in Ht1.
    change (aeq "]"%char c && (aeq ">"%char d && true) = false). rewrite Ht1. apply andb_false_r.
  - intros r Hr. apply (reads_intro (S (length t))). cbn [rd]. rewrite H1, H2.
    replace (prefixb cdata_close (c :: t)) with false.
    + rewrite Hl. unfold reads in Hr. rewrite Hr. reflexivity.
    + symmetry. change (aeq "]"%char c && prefixb (S_ "]>") t = false). rewrite Ht2. apply andb_false_r.
Qed.
Lemma frag_plain u : forallb plain_char u = true -> frag u (map EChar u).
Proof.
  induction u as [|c u IH]; intros H; [apply frag_nil|]. simpl in H. apply andb_true_iff in H as [Hc H].
  change (c :: u) with ([c] ++ u). rewrite map_app. apply frag_app; auto. now apply frag_char.
Qed.

(** A self-delimiting piece starting with '<'. *)
Lemma frag_lt s es : (exists s', s = "<"%char :: s') -> (forall t r, reads t r -> reads (s ++ t) (es ++ r)) -> frag s es.
Proof. intros [s' ->] H t Ht. split; [apply okf_lt|]. intros r Hr. now apply H. Qed.

Lemma frag_cdata v : ~ occurs cdata_close v -> forallb legal v = true ->
  frag (cdata_open ++ v ++ cdata_close) (map EChar v).
Proof.
  intros Hn Hl. apply frag_lt; [eexists; reflexivity|]. intros t r Hr.
  apply (reads_intro (S (length t + length v + 12))).
  change ((cdata_open ++ v ++ cdata_close) ++ t) with ("<"%char :: S_ "![CDATA[" ++ ((v ++ cdata_close) ++ t)).
  rewrite <- app_assoc. cbn [rd]. rewrite aeq_refl.
  change (prefixb cdata_open ("<"%char :: S_ "![CDATA[" ++ v ++ cdata_close ++ t)) with true.
  change (skipn 9 ("<"%char :: S_ "![CDATA[" ++ v ++ cdata_close ++ t)) with (v ++ cdata_close ++ t).
  cbv zeta iota.
  assert (Hf : find cdata_close (v ++ cdata_close ++ t) = Some (length v)).
  { apply find_app_intro. intros j Hj. destruct (prefixb cdata_close (skipn j (v ++ cdata_close ++ t))) eqn:E; auto. exfalso.
    rewrite skipn_app in E. replace (j - length v) with 0 in E by lia. change (skipn 0 (cdata_close ++ t)) with (cdata_close ++ t) in E.
    assert (Hlen : 0 < length (skipn j v)) by (rewrite skipn_length; lia).
    pose proof (firstn_skipn j v) as Hv. destruct (skipn j v) as [|a [|b [|c w]]]; simpl in Hlen; try lia.
    - cbn in E. rewrite ?andb_false_r in E. discriminate.
    - cbn in E. rewrite ?andb_false_r in E. discriminate.
    - unfold cdata_close in E. cbn [prefixb app String.list_ascii_of_string] in E. rewrite !andb_true_iff in E. destruct E as (E1 & E2 & E3 & _). apply aeq_spec in E1, E2, E3. subst.
      apply Hn. exists (firstn j v), w. symmetry. exact Hv. }
  rewrite Hf. rewrite firstn_length_app, Hl.
  replace (skipn (length v + 3) (v ++ cdata_close ++ t)) with t.
  - rewrite (reads_fuel _ _ _ Hr) by lia. reflexivity.
  - replace (length v + 3) with (length (v ++ cdata_close)) by (rewrite app_length; reflexivity).
    rewrite app_assoc, skipn_length_app. reflexivity.
Qed.

Lemma name_start_ch c : name_start c = true -> name_ch c = true.
Proof. intros H. unfold name_ch. now rewrite H. Qed.
Lemma xml_name_chars n : xml_name n = true -> forallb name_ch n = true.
Proof. destruct n as [|c n]; [discriminate|]. simpl. rewrite !andb_true_iff. intros [H1 H2]. split; auto using name_start_ch. Qed.
Lemma take_drop_pred {A} (f : A -> bool) n c t : forallb f n = true -> f c = false ->
  take_while f (n ++ c :: t) = n /\ drop_while f (n ++ c :: t) = c :: t.
Proof.
  induction n as [|x n IH]; intros H Hc; simpl.
  - now rewrite Hc.
  - simpl in H. apply andb_true_iff in H as [-> H]. destruct (IH H Hc) as [-> ->]. auto.
Qed.

Lemma name_start_hd n r (P : xml_name n = true) : exists c u, n = c :: u /\ name_start c = true /\ n ++ r = c :: (u ++ r).
Proof. destruct n as [|c u]; [discriminate|]. simpl in P. apply andb_true_iff in P as [P _]. exists c, u. auto. Qed.
Lemma name_start_not c d : name_start c = true -> name_start d = false -> aeq c d = false.
Proof. intros H1 H2. apply aeq_neq. intros ->. congruence. Qed.

Definition close_tag (n : str) : str := S_ "</" ++ n ++ S_ ">".
Lemma frag_close n : xml_name n = true -> frag (close_tag n) [EEnd n].
Proof.
  intros Hn. apply frag_lt; [eexists; reflexivity|]. intros t r Hr. apply (reads_intro (S (length t))).
  unfold close_tag. change ((S_ "</" ++ n ++ S_ ">") ++ t) with ("<"%char :: "/"%char :: (n ++ S_ ">") ++ t).
  rewrite <- app_assoc. change (S_ ">" ++ t) with (">"%char :: t). cbn [rd]. rewrite aeq_refl.
  change (prefixb cdata_open ("<"%char :: "/"%char :: n ++ ">"%char :: t)) with false.
  cbn [hd tl]. rewrite aeq_refl.
  destruct (take_drop_pred name_ch n ">"%char t (xml_name_chars n Hn) eq_refl) as [-> ->].
  rewrite Hn, aeq_refl. cbn [andb]. unfold reads in Hr. rewrite Hr. reflexivity.
Qed.

(** Attributes as the library writes them. *)
Definition att_char (c : ascii) : bool :=
  legal c && negb (aeq c """"%char) && negb (aeq c "<"%char) && negb (aeq c "&"%char) && negb (xsp c && negb (aeq c " "%char)).
Definition att_ok (kv : str * str) : bool := xml_name (fst kv) && forallb att_char (snd kv).

Lemma att_value_ok v r : forallb att_char v = true -> att_value 0 (v ++ """"%char :: r) = Some (v, r).
Proof.
  induction v as [|c v IH]; intros H; [reflexivity|]. simpl in H. apply andb_true_iff in H as [Hc H].
  unfold att_char in Hc. rewrite !andb_true_iff, !negb_true_iff in Hc. destruct Hc as ((((Hl & H1) & H2) & H3) & H4).
  cbn [app att_value]. rewrite H1, H2, H3, Hl, IH by auto. simpl.
  destruct (xsp c) eqn:Ex; auto. simpl in H4. apply negb_false_iff in H4. apply aeq_spec in H4. now subst.
Qed.
Definition tag_end (b : bool) : str := if b then S_ "/>" else S_ ">".
Lemma tag_atts_ok m b t f : forallb att_ok m = true -> length m < f ->
  tag_atts f (serialize m ++ tag_end b ++ t) = Some (m, b, t).
Proof.
  revert f; induction m as [|[k v] m IH]; intros f H Hf.
  - destruct f; [simpl in Hf; lia|]. destruct b; reflexivity.
  - simpl in H. apply andb_true_iff in H as [Hkv H]. unfold att_ok in Hkv. simpl in Hkv. apply andb_true_iff in Hkv as [Hk Hv].
    simpl in Hf. destruct f as [|f]; [lia|].
    change (serialize ((k, v) :: m)) with ((S_ " " ++ k ++ S_ "=""" ++ v ++ S_ """") ++ serialize m).
    rewrite <- !app_assoc.
    change (S_ " " ++ ?x) with (" "%char :: x). cbn [tag_atts].
    change (aeq " "%char ">"%char) with false. change (aeq " "%char "/"%char) with false. change (xsp " "%char) with true. cbv iota.
    destruct (name_start_hd k (S_ "=""" ++ v ++ S_ """" ++ serialize m ++ tag_end b ++ t) Hk) as (c & u & Ek & Hc & Eapp).
    assert (Hd : drop_while xsp (k ++ S_ "=""" ++ v ++ S_ """" ++ serialize m ++ tag_end b ++ t) =
                 k ++ S_ "=""" ++ v ++ S_ """" ++ serialize m ++ tag_end b ++ t).
    { rewrite Eapp. simpl. destruct (xsp c) eqn:Ex; auto. exfalso. unfold xsp, name_start in *. lia. }
    rewrite Hd. cbv zeta.
    replace (aeq (hd zero (k ++ S_ "=""" ++ v ++ S_ """" ++ serialize m ++ tag_end b ++ t)) ">"%char) with false
      by (rewrite Eapp; symmetry; now apply name_start_not).
    replace (aeq (hd zero (k ++ S_ "=""" ++ v ++ S_ """" ++ serialize m ++ tag_end b ++ t)) "/"%char) with false
      by (rewrite Eapp; symmetry; now apply name_start_not).
    cbn [orb].
    change (k ++ S_ "=""" ++ v ++ S_ """" ++ serialize m ++ tag_end b ++ t) with
      (k ++ "="%char :: """"%char :: (v ++ """"%char :: (serialize m ++ tag_end b ++ t))).
    destruct (take_drop_pred name_ch k "="%char (""""%char :: (v ++ """"%char :: (serialize m ++ tag_end b ++ t)))
                (xml_name_chars k Hk) eq_refl) as [-> ->].
    rewrite Hk, !aeq_refl. cbn [andb]. rewrite att_value_ok by auto. rewrite IH by (auto; lia). reflexivity.
Qed.

Lemma serialize_length m : length m <= length (serialize m).
Proof.
  induction m as [|kv m IH]; [auto|]. change (serialize (kv :: m)) with (serialize1 kv ++ serialize m).
  unfold serialize1. rewrite !app_length. cbn [length String.list_ascii_of_string]. lia.
Qed.

Definition open_tag (n : str) (m : attrs) (b : bool) : str := S_ "<" ++ n ++ serialize m ++ tag_end b.
Definition open_events (n : str) (m : attrs) (b : bool) : list ev := EStart n m :: if b then [EEnd n] else [].
Lemma serialize_head m b t : name_ch (hd zero (serialize m ++ tag_end b ++ t)) = false /\
  exists c u, serialize m ++ tag_end b ++ t = c :: u.
Proof. destruct m as [|kv m]; [destruct b; split; eauto; eexists; eexists; reflexivity|]. split; [reflexivity|]. eexists; eexists; reflexivity. Qed.
Lemma frag_open n m b : xml_name n = true -> forallb att_ok m = true -> nodupb (map fst m) = true ->
  frag (open_tag n m b) (open_events n m b).
Proof.
  intros Hn Hm Hd. apply frag_lt; [eexists; reflexivity|]. intros t r Hr.
  apply (reads_intro (S (length t + S (length m)))).
  unfold open_tag. change ((S_ "<" ++ n ++ serialize m ++ tag_end b) ++ t) with ("<"%char :: (n ++ serialize m ++ tag_end b) ++ t).
  rewrite <- !app_assoc. cbn [rd]. rewrite aeq_refl.
  destruct (name_start_hd n (serialize m ++ tag_end b ++ t) Hn) as (c & u & En & Hc & Eapp).
  replace (prefixb cdata_open ("<"%char :: n ++ serialize m ++ tag_end b ++ t)) with false.
  2:{ rewrite Eapp. unfold cdata_open. cbn [prefixb String.list_ascii_of_string].
      replace (aeq "!"%char c) with false; auto. symmetry. apply aeq_neq. intros <-. discriminate. }
  replace (aeq (hd zero (n ++ serialize m ++ tag_end b ++ t)) "/"%char) with false
    by (rewrite Eapp; symmetry; now apply name_start_not).
  destruct (serialize_head m b t) as [Hh (d & w & Ed)]. rewrite Ed in Hh. simpl in Hh.
  assert (Htd : take_while name_ch (n ++ serialize m ++ tag_end b ++ t) = n /\
                drop_while name_ch (n ++ serialize m ++ tag_end b ++ t) = serialize m ++ tag_end b ++ t).
  { rewrite Ed. apply take_drop_pred; auto using xml_name_chars. }
  destruct Htd as [-> ->]. rewrite Hn. rewrite tag_atts_ok by (auto; lia). rewrite Hd.
  rewrite (reads_fuel _ _ _ Hr) by lia. reflexivity.
Qed.

(** Line ends: without CR nothing changes. *)
Lemma norm_eol_id s : ~ In "013"%char s -> norm_eol s = s.
Proof.
  induction s as [|c t IH]; simpl; auto. intros H. destruct (aeq c "013"%char) eqn:E.
  - apply aeq_spec in E. tauto.
  - f_equal. auto.
Qed.

(** * Nesting of tree events *)
Section xml_ind2.
  Variable P : xml -> Prop.
  Hypothesis HE : forall n a ks, Forall P ks -> P (XElem n a ks).
  Hypothesis HC : forall c, P (XChar c).
  Fixpoint xml_ind2 (x : xml) : P x :=
    match x with
    | XElem n a ks => HE n a ks ((fix go l : Forall P l := match l with [] => Forall_nil P | y :: l' => Forall_cons y (xml_ind2 y) (go l') end) ks)
    | XChar c => HC c
    end.
End xml_ind2.

Lemma nest_tree x : forall m st r, nest (xevents x ++ r) (m :: st) true = nest r (m :: st) true.
Proof.
  induction x as [n a ks IH|c] using xml_ind2; intros m st r; [|reflexivity].
  cbn [xevents]. rewrite <- app_comm_cons. cbn [nest].
  assert (H : forall q, nest (flat_map xevents ks ++ q) (n :: m :: st) true = nest q (n :: m :: st) true).
  { induction IH as [|k ks Hk Hks IHks]; intros q; simpl; auto. now rewrite <- app_assoc, Hk. }
  rewrite <- app_assoc, H. cbn [app nest]. now rewrite eqs_refl.
Qed.
Lemma nest_doc n a ks ws0 ws : forallb xsp ws0 = true -> forallb xsp ws = true ->
  nest (map EChar ws0 ++ xevents (XElem n a ks) ++ map EChar ws) [] false = true.
Proof.
  intros Hw0 Hw. revert Hw0. induction ws0 as [|c ws0 IH0]; intros Hw0.
  2:{ simpl in Hw0. apply andb_true_iff in Hw0 as [H1 H2]. cbn [map app nest]. rewrite H1. cbn [andb]. auto. }
  cbn [map app]. cbn [xevents]. rewrite <- app_comm_cons. cbn [nest negb andb].
  assert (H : forall q, nest (flat_map xevents ks ++ q) [n] true = nest q [n] true).
  { induction ks as [|k ks IH]; intros q; simpl; auto. now rewrite <- app_assoc, nest_tree. }
  rewrite <- app_assoc, H. cbn [app nest]. rewrite eqs_refl. cbn [andb].
  induction ws as [|c ws IH]; simpl in *; auto. apply andb_true_iff in Hw as [-> Hw]. auto.
Qed.

(** * Text that reads on its own reads the same inside other content *)
Lemma take_drop_app {A} (f : A -> bool) l t x r : drop_while f l = x :: r ->
  take_while f (l ++ t) = take_while f l /\ drop_while f (l ++ t) = x :: r ++ t.
Proof.
  induction l as [|y l IH]; simpl; [discriminate|]. destruct (f y) eqn:E; intros H.
  - destruct (IH H) as [-> ->]. auto.
  - inversion H; subst. auto.
Qed.
Lemma read_entity_app es s t x k : read_entity es s = Some (x, k) -> read_entity es (s ++ t) = Some (x, k) \/
  exists e c, In (e, c) es /\ prefixb e s = false /\ prefixb e (s ++ t) = true.
Proof.
  induction es as [|[e c] es IH]; simpl; [discriminate|]. destruct (prefixb e s) eqn:E.
  - intros H. apply prefixb_spec in E as [u ->]. rewrite <- app_assoc, prefixb_app. auto.
  - intros H. destruct (prefixb e (s ++ t)) eqn:E2; [right; exists e, c; auto|].
    destruct (IH H) as [H1|(e' & c' & H1 & H2)]; auto. right. exists e', c'. auto.
Qed.
Lemma prefixb_app_l p s t : prefixb p s = true -> prefixb p (s ++ t) = true.
Proof. intros H. apply prefixb_spec in H as [u ->]. now rewrite <- app_assoc, prefixb_app. Qed.
Lemma prefixb_both p q s : prefixb p s = true -> prefixb q s = true -> prefixb p q = true \/ prefixb q p = true.
Proof.
  revert q s; induction p as [|a p IH]; intros q s; [simpl; auto|]. destruct q as [|b q]; [simpl; auto|].
  destruct s as [|c s]; [discriminate|]. cbn [prefixb]. rewrite !andb_true_iff. intros [Ha Hp] [Hb Hq].
  apply aeq_spec in Ha, Hb. subst. rewrite aeq_refl. destruct (IH q s Hp Hq); auto.
Qed.
Lemma read_entity_in es s x k : read_entity es s = Some (x, k) -> exists e, In (e, x) es /\ prefixb e s = true /\ k = length e.
Proof.
  induction es as [|[e c] es IH]; simpl; [discriminate|]. destruct (prefixb e s) eqn:E.
  - intros H. inversion H; subst. exists e. auto.
  - intros H. destruct (IH H) as (e' & H1 & H2). exists e'. auto.
Qed.
Lemma read_entity_app_ok s t x k : read_entity entities s = Some (x, k) -> read_entity entities (s ++ t) = Some (x, k).
Proof.
  intros H. destruct (read_entity_app _ _ t _ _ H) as [H1|(e & c & Hin & Hn & Hy)]; auto. exfalso.
  apply read_entity_in in H as (e' & Hin' & Hp & _).
  pose proof (prefixb_app_l _ _ t Hp) as Hp2.
  assert (Hne : e' <> e) by (intros ->; congruence).
  destruct (prefixb_both _ _ _ Hp2 Hy) as [Hb|Hb]; revert Hin Hin' Hne Hb; clear;
  intros [E|[E|[E|[E|[E|[]]]]]] [E'|[E'|[E'|[E'|[E'|[]]]]]]; injection E as <- <-; injection E' as <- <-; intros Hne Hb; vm_compute in Hb; congruence.
Qed.
Lemma att_value_app s t : forall k v r, att_value k s = Some (v, r) -> att_value k (s ++ t) = Some (v, r ++ t).
Proof.
  induction s as [|c s IH]; intros k v r H; cbn [att_value] in H; [discriminate|]. cbn [app att_value].
  destruct k as [|k]; [|now apply IH].
  destruct (aeq c """"%char); [inversion H; subst; auto|].
  destruct (aeq c "<"%char); [discriminate|].
  destruct (aeq c "&"%char).
  - destruct (read_entity entities (c :: s)) as [[x k]|] eqn:E; [|discriminate].
    apply read_entity_app_ok with (t := t) in E. change ((c :: s) ++ t) with (c :: s ++ t) in E. rewrite E.
    destruct (att_value (k - 1) s) as [[v' r']|] eqn:Ev; [|discriminate]. apply IH in Ev. rewrite Ev. inversion H; subst. auto.
  - destruct (legal c); [|discriminate].
    destruct (att_value 0 s) as [[v' r']|] eqn:Ev; [|discriminate]. apply IH in Ev. rewrite Ev. inversion H; subst. auto.
Qed.
Lemma tag_atts_app f t : forall s l b r, tag_atts f s = Some (l, b, r) -> tag_atts f (s ++ t) = Some (l, b, r ++ t).
Proof.
  induction f as [|f IH]; intros s l b r H; simpl in H; [discriminate|].
  destruct s as [|c s]; [discriminate|]. cbn [app tag_atts].
  destruct (aeq c ">"%char); [inversion H; subst; auto|].
  destruct (aeq c "/"%char).
  - destruct s as [|d s]; [discriminate|]. cbn [app]. destruct (aeq d ">"%char); [|discriminate]. inversion H; subst. auto.
  - destruct (xsp c); [|discriminate].
    destruct (drop_while xsp s) as [|x u] eqn:Ed.
    { simpl in H. discriminate. }
    destruct (take_drop_app xsp s t x u Ed) as [_ ->]. cbn [hd] in *.
    destruct (aeq x ">"%char || aeq x "/"%char).
    + apply IH in H. exact H.
    + change (x :: u ++ t) with ((x :: u) ++ t).
      destruct (drop_while name_ch (x :: u)) as [|e [|q r0]] eqn:En; [discriminate|discriminate|].
      destruct (take_drop_app name_ch (x :: u) t e (q :: r0) En) as [-> ->]. cbn [app].
      destruct (xml_name _ && _ && _); [|discriminate].
      destruct (att_value 0 r0) as [[v r']|] eqn:Ev; [|discriminate]. rewrite (att_value_app _ t _ _ _ Ev).
      destruct (tag_atts f r') as [[[l' b'] r'']|] eqn:Et; [|discriminate]. rewrite (IH _ _ _ _ Et). inversion H; subst. auto.
Qed.
Lemma find_app_l p s t i : p <> [] -> find p s = Some i -> find p (s ++ t) = Some i.
Proof.
  intros Hp. revert i; induction s as [|c s IH]; intros i H.
  - destruct p; [congruence|discriminate].
  - simpl in H |- *. destruct (prefixb p (c :: s)) eqn:E.
    + change (c :: s ++ t) with ((c :: s) ++ t). rewrite (prefixb_app_l _ _ _ E). auto.
    + destruct (find p s) as [j|] eqn:Ej; [|discriminate]. inversion H; subst.
      destruct (prefixb p (c :: s ++ t)) eqn:E2; [|now rewrite (IH j)].
      exfalso. apply find_some in Ej as [Hl _]. change (c :: s ++ t) with ((c :: s) ++ t) in E2.
      pose proof (proj1 (prefixb_false _ _) E) as E'. apply prefixb_spec in E2 as [w Hw].
      assert (firstn (length p) ((c :: s) ++ t) = firstn (length p) (p ++ w)) as Hf by now rewrite Hw.
      rewrite firstn_app in Hf. replace (length p - length (c :: s)) with 0 in Hf by (simpl; lia). simpl firstn at 2 in Hf.
      rewrite app_nil_r, firstn_length_app in Hf. apply (E' (skipn (length p) (c :: s))).
      rewrite <- Hf at 1. symmetry. apply firstn_skipn.
Qed.

Lemma rd_app f t (Ht : okf t) : forall s e, length s <= f -> rd f s = Some e -> forall r, reads t r -> rd (f + length t) (s ++ t) = Some (e ++ r).
Proof.
  induction f as [|f IH]; intros s e Hlen H r Hr; (destruct s as [|c s]; [simpl in H; inversion H; subst; apply reads_fuel; auto; simpl; lia|]); [discriminate|].
  cbn [rd] in H. cbn [plus app rd].
  destruct (aeq c "<"%char).
  - destruct (prefixb cdata_open (c :: s)) eqn:Ep.
    + change (c :: s ++ t) with ((c :: s) ++ t). rewrite (prefixb_app_l _ _ _ Ep). rewrite skipn_app.
      pose proof (prefixb_length _ _ Ep) as Hpl. change (length cdata_open) with 9 in Hpl.
      replace (9 - length (c :: s)) with 0 by lia. change (skipn 0 t) with t.
      destruct (find cdata_close (skipn 9 (c :: s))) as [i|] eqn:Ef; [|discriminate].
      rewrite (find_app_l _ _ t i) by (auto; discriminate).
      pose proof (find_some _ _ _ Ef) as [Hi _]. change (length cdata_close) with 3 in Hi.
      rewrite firstn_app, skipn_app. replace (i - length (skipn 9 (c :: s))) with 0 by lia.
      replace (i + 3 - length (skipn 9 (c :: s))) with 0 by lia. change (skipn 0 t) with t. change (firstn 0 t) with (@nil ascii).
      rewrite app_nil_r. destruct (forallb legal _); [|discriminate].
      apply prepend_some in H as (e' & H & ->). rewrite (fun P => IH _ _ P H _ Hr) by (rewrite !skipn_length; cbn [length] in *; lia). simpl. now rewrite <- app_assoc.
    + assert (Ep2 : forall d u, s = d :: u -> name_start d = true \/ d = "/"%char -> prefixb cdata_open ("<"%char :: s ++ t) = false).
      { intros d u -> Hd. unfold cdata_open. cbn [app prefixb String.list_ascii_of_string]. rewrite aeq_refl. cbn [andb].
        replace (aeq "!"%char d) with false; auto. symmetry. apply aeq_neq. intros <-. destruct Hd as [Hd|Hd]; discriminate. }
      destruct (aeq (hd zero s) "/"%char) eqn:Es.
      * destruct s as [|d s]; [discriminate|]. cbn [hd] in Es. apply aeq_spec in Es. subst d. cbn [tl] in H.
        replace (prefixb cdata_open (c :: ("/"%char :: s) ++ t)) with false
          by (unfold cdata_open; cbn [app prefixb String.list_ascii_of_string]; symmetry; change (aeq "!"%char "/"%char) with false; apply andb_false_r).
        cbn [app hd tl]. rewrite aeq_refl.
        destruct (drop_while name_ch s) as [|d u] eqn:Ed; [discriminate|].
        destruct (take_drop_app name_ch s t d u Ed) as [-> ->].
        pose proof (drop_while_length name_ch s) as Hdl. rewrite Ed in Hdl.
        destruct (xml_name _ && _); [|discriminate]. apply prepend_some in H as (e' & H & ->). rewrite (fun P => IH _ _ P H _ Hr) by (cbn [length] in *; lia). reflexivity.
      * destruct (xml_name (take_while name_ch s)) eqn:En; [|discriminate].
        destruct s as [|d s]; [discriminate|].
        assert (Hd : name_start d = true).
        { simpl in En. destruct (name_ch d); [|discriminate]. simpl in En. apply andb_true_iff in En. tauto. }
        replace (prefixb cdata_open (c :: (d :: s) ++ t)) with false.
        2:{ unfold cdata_open; cbn [app prefixb String.list_ascii_of_string]; symmetry.
            replace (aeq "!"%char d) with false; [apply andb_false_r|]. symmetry. apply aeq_neq. intros <-. discriminate. }
        cbn [hd app] in *. rewrite Es.
        change (d :: s ++ t) with ((d :: s) ++ t).
        destruct (tag_atts f (drop_while name_ch (d :: s))) as [[[a b] u]|] eqn:Et; [|discriminate].
        destruct (drop_while name_ch (d :: s)) as [|x w] eqn:Ed; [destruct f; discriminate|].
        destruct (take_drop_app name_ch (d :: s) t x w Ed) as [-> ->]. rewrite En.
        pose proof (tag_atts_length _ _ _ _ _ Et) as Hal. pose proof (drop_while_length name_ch (d :: s)) as Hdl. rewrite Ed in Hdl.
        apply (tag_atts_app _ t) in Et. change ((x :: w) ++ t) with (x :: w ++ t) in Et.
        rewrite (tag_atts_fuel _ _ _ (f + length t) Et).
        -- destruct (nodupb _); [|discriminate]. apply prepend_some in H as (e' & H & ->). rewrite (fun P => IH _ _ P H _ Hr) by (cbn [length] in *; lia). simpl.
           destruct b; reflexivity.
        -- change (x :: w ++ t) with ((x :: w) ++ t). rewrite app_length. cbn [length] in *. lia.
  - destruct (aeq c "&"%char).
    + destruct (read_entity entities (c :: s)) as [[x k]|] eqn:Er; [|discriminate].
      change (c :: s ++ t) with ((c :: s) ++ t). rewrite (read_entity_app_ok _ t _ _ Er).
      pose proof (read_entity_pos _ _ _ _ Er entities_nonempty) as Hpos.
      apply read_entity_in in Er as (en & _ & Hp & ->). apply prefixb_length in Hp.
      rewrite skipn_app. replace (length en - length (c :: s)) with 0 by lia. change (skipn 0 t) with t.
      apply prepend_some in H as (e' & H & ->). rewrite (fun P => IH _ _ P H _ Hr) by (rewrite skipn_length; cbn [length] in *; lia). reflexivity.
    + destruct (prefixb cdata_close (c :: s)) eqn:Ep; [discriminate|].
      replace (prefixb cdata_close (c :: s ++ t)) with false.
      * destruct (legal c); [|discriminate]. apply prepend_some in H as (e' & H & ->). rewrite (fun P => IH _ _ P H _ Hr) by (cbn [length] in *; lia). reflexivity.
      * symmetry. destruct (prefixb cdata_close (c :: s ++ t)) eqn:E2; auto. exfalso. destruct Ht as [Ht1 Ht2].
        destruct s as [|d [|g s]].
        -- change (aeq "]"%char c && prefixb (S_ "]>") t = true) in E2. rewrite Ht2, andb_false_r in E2. discriminate.
        -- change (aeq "]"%char c && (aeq "]"%char d && prefixb (S_ ">") t) = true) in E2. rewrite !andb_true_iff in E2.
           destruct E2 as (_ & _ & E2). destruct t as [|y t]; [discriminate|]. change (aeq ">"%char y && true = true) in E2.
           rewrite andb_true_r in E2. apply aeq_spec in E2. subst. now elim Ht1.
        -- unfold cdata_close in *. cbn [app prefixb String.list_ascii_of_string] in *. congruence.
Qed.

Lemma okf_app s t : okf s -> okf t -> okf (s ++ t).
Proof.
  intros [Hs1 Hs2] [Ht1 Ht2]. destruct s as [|c [|d s]]; [split; auto| |].
  - split; [exact Hs1|]. destruct t as [|y t]; [exact Hs2|].
    change (aeq "]"%char c && (aeq ">"%char y && true) = false). replace (aeq ">"%char y) with false; [apply andb_false_r|].
    symmetry. apply aeq_neq. intros <-. now elim Ht1.
  - split; [exact Hs1|exact Hs2].
Qed.
Lemma reads_frag s e : reads s e -> okf s -> frag s e.
Proof.
  intros H Hs t Ht. split; [now apply okf_app|]. intros r Hr. eapply reads_intro. eapply rd_app; eauto.
Qed.

Lemma frag_entity e c : In (e, c) entities -> frag e [EChar c].
Proof.
  intros H t Ht. split.
  - destruct H as [H|[H|[H|[H|[H|[]]]]]]; injection H as <- <-; split; try discriminate; reflexivity.
  - intros r Hr. apply (reads_intro (S (length t))). unfold reads in Hr.
    assert (He : read_entity entities (e ++ t) = Some (c, length e) /\ exists e', e = "&"%char :: e').
    { destruct H as [H|[H|[H|[H|[H|[]]]]]]; injection H as <- <-; (split; [reflexivity|eexists; reflexivity]). }
    destruct He as [He (e' & ->)]. change (("&"%char :: e') ++ t) with ("&"%char :: e' ++ t) in *. cbn [rd].
    change (aeq "&"%char "<"%char) with false. change (aeq "&"%char "&"%char) with true. cbv iota. rewrite He.
    change ("&"%char :: e' ++ t) with (("&"%char :: e') ++ t). rewrite skipn_length_app, Hr. reflexivity.
Qed.

(** * Building the tree of a balanced event list *)
Fixpoint forest (es : list ev) (st : list (str * list (str * str) * list xml)) (acc : list xml) : option (list xml) :=
  match es with
  | [] => match st with [] => Some (rev acc) | _ => None end
  | EChar c :: r => forest r st (XChar c :: acc)
  | EStart n a :: r => forest r ((n, a, acc) :: st) []
  | EEnd n :: r => match st with
                   | (m, a, acc') :: st' => if eqs m n then forest r st' (XElem n a (rev acc) :: acc') else None
                   | [] => None
                   end
  end.
Fixpoint opened (st : list (str * list (str * str) * list xml)) : list ev :=
  match st with
  | [] => []
  | (n, a, acc) :: st' => opened st' ++ flat_map xevents (rev acc) ++ [EStart n a]
  end.
Lemma forest_events es : forall st acc F, forest es st acc = Some F ->
  opened st ++ flat_map xevents (rev acc) ++ es = flat_map xevents F.
Proof.
  induction es as [|e es IH]; intros st acc F H; simpl in H.
  - destruct st; [|discriminate]. inversion H; subst. now rewrite app_nil_r.
  - destruct e as [n a|n|c].
    + apply IH in H. rewrite <- H. cbn [opened rev flat_map app]. now rewrite <- !app_assoc.
    + destruct st as [|[[m a] acc'] st]; [discriminate|]. destruct (eqs m n) eqn:E; [|discriminate].
      apply eqs_spec in E. subst. apply IH in H. rewrite <- H. cbn [opened rev].
      rewrite flat_map_app. cbn [flat_map xevents app]. rewrite <- !app_assoc. cbn [app]. now rewrite <- !app_assoc.
    + apply IH in H. rewrite <- H. cbn [rev]. rewrite flat_map_app. cbn [flat_map xevents]. now rewrite <- !app_assoc.
Qed.
Lemma forest_tree x : forall r st acc, forest (xevents x ++ r) st acc = forest r st (x :: acc).
Proof.
  induction x as [n a ks IH|c] using xml_ind2; intros r st acc; [|reflexivity].
  cbn [xevents]. rewrite <- app_comm_cons. cbn [forest]. rewrite <- app_assoc.
  assert (H : forall q st acc, forest (flat_map xevents ks ++ q) st acc = forest q st (rev ks ++ acc)).
  { clear st acc. induction IH as [|k ks Hk Hks IHks]; intros q st acc; [reflexivity|].
    cbn [flat_map rev]. rewrite <- !app_assoc, Hk, IHks. reflexivity. }
  rewrite H. cbn [app forest]. rewrite eqs_refl, app_nil_r, rev_involutive. reflexivity.
Qed.
Lemma forest_complete F : forest (flat_map xevents F) [] [] = Some F.
Proof.
  assert (H : forall F q st acc, forest (flat_map xevents F ++ q) st acc = forest q st (rev F ++ acc)).
  { clear. induction F as [|k F IH]; intros q st acc; [reflexivity|]. cbn [flat_map rev]. rewrite <- !app_assoc, forest_tree, IH. reflexivity. }
  specialize (H F [] [] []). rewrite !app_nil_r in H. rewrite H. cbn [forest]. now rewrite rev_involutive.
Qed.
(** The document tree of a text: the single root element, white space around it dropped. *)
Definition xml_tree (s : str) : option xml :=
  match xml_parse s with
  | Some es => match forest es [] [] with
               | Some F => List.find (fun x => match x with XElem _ _ _ => true | XChar _ => false end) F
               | None => None
               end
  | None => None
  end.
Lemma xml_tree_doc s n a ks ws0 ws : norm_eol s = s -> forallb xsp ws0 = true -> forallb xsp ws = true ->
  reads s (map EChar ws0 ++ xevents (XElem n a ks) ++ map EChar ws) -> xml_tree s = Some (XElem n a ks).
Proof.
  intros Hn Hw0 Hw H. unfold xml_tree, xml_parse, xml_tokens. rewrite Hn. unfold reads in H. rewrite H.
  rewrite nest_doc by auto.
  assert (Hc : forall l, flat_map xevents (map XChar l) = map EChar l) by (clear; induction l; simpl; congruence).
  replace (map EChar ws0 ++ xevents (XElem n a ks) ++ map EChar ws) with
    (flat_map xevents (map XChar ws0 ++ XElem n a ks :: map XChar ws)).
  - rewrite forest_complete. clear. induction ws0; simpl; auto.
  - rewrite flat_map_app. cbn [flat_map]. now rewrite !Hc.
Qed.

(** Properties of the XST reader and of the XSD creators. *)
From Verif Require Import Common StrMap AttributesModel StringsModel StringsProofs XsdFileModel XstModel.

(** Specification: the text of a line which makes [alias] the alias of [real]. *)
Definition alias_line (real alias line : str) : Prop :=
  line = S_ "alias " ++ real ++ S_ " " ++ alias /\ ~ In " "%char real /\ ~ In " "%char alias.
Definition one_line (s : str) : Prop := ~ In (ascii_of_N 10) s.

Lemma words_alias line real alias : split_spec " "%char line = [S_ "alias"; real; alias] <-> alias_line real alias line.
Proof.
  split.
  - intros H. pose proof (split_join " "%char line) as J. pose proof (split_pieces " "%char line) as P. rewrite H in J, P.
    inversion P as [|? ? _ P2]; subst. inversion P2 as [|? ? Q1 P3]; subst. inversion P3 as [|? ? Q2 _]; subst.
    now repeat split.
  - intros (-> & H1 & H2). change (S_ "alias " ++ real ++ S_ " " ++ alias) with (S_ "alias" ++ " "%char :: (real ++ " "%char :: alias)).
    rewrite split_spec_app by (cbn; intuition discriminate). rewrite split_spec_app by auto. now rewrite split_spec_none.
Qed.

Lemma parse_line_ok l m : exists m', parse_xst_line l m = Ok m' /\
  ((forall r a, alias_line r a l -> m' = mset r a m) /\ ((forall r a, ~ alias_line r a l) -> m' = m)).
Proof.
  unfold parse_xst_line. change (S_ " ") with [" "%char]. rewrite split_string_ok. cbn [bind].
  destruct (split_spec " "%char l) as [|w ws] eqn:E; [now apply split_spec_nonempty in E|].
  eexists. split; [reflexivity|]. split.
  - intros r a H. apply words_alias in H. rewrite H in E. injection E as <- <-. rewrite eqs_refl. reflexivity.
  - intros H. destruct (eqs w (S_ "alias")) eqn:Ew; [|reflexivity]. apply eqs_spec in Ew. subst w.
    destruct ws as [|r [|a [|]]]; try reflexivity. elim (H r a). now apply words_alias.
Qed.
Lemma alias_dec l : (exists r a, alias_line r a l) \/ (forall r a, ~ alias_line r a l).
Proof.
  destruct (split_spec " "%char l) as [|w [|r [|a [|]]]] eqn:E;
    try (right; intros r0 a0 H; apply words_alias in H; congruence).
  destruct (eqs w (S_ "alias")) eqn:Ew.
  - apply eqs_spec in Ew. subst. left. exists r, a. now apply words_alias.
  - right. intros r0 a0 H. apply words_alias in H. rewrite H in E. injection E as <- <- <-. now rewrite eqs_refl in Ew.
Qed.
Lemma parse_lines_app ls ms m : parse_xst_lines (ls ++ ms) m = (do m' <- parse_xst_lines ls m; parse_xst_lines ms m').
Proof.
  revert m. induction ls as [|l ls IH]; intros m; [reflexivity|]. cbn [app parse_xst_lines].
  destruct (parse_xst_line l m); try reflexivity. cbn [bind]. apply IH.
Qed.
Lemma alias_inj l r a r2 a2 : alias_line r a l -> alias_line r2 a2 l -> r = r2 /\ a = a2.
Proof. intros H K. apply words_alias in H, K. rewrite H in K. injection K as -> ->. auto. Qed.

Lemma parse_lines_ok ls m : msorted m -> exists m', parse_xst_lines ls m = Ok m' /\ msorted m' /\
  (forall n, (forall l a, In l ls -> ~ alias_line n a l) -> mget n m' = mget n m) /\
  (forall n a l1 l l2, ls = l1 ++ l :: l2 -> alias_line n a l -> (forall k b, In k l2 -> ~ alias_line n b k) -> mget n m' = Some a).
Proof.
  revert m. induction ls as [|l ls IH]; intros m Hm.
  - exists m. repeat split; auto. intros n a [|] ? ? H; discriminate.
  - cbn [parse_xst_lines]. destruct (parse_line_ok l m) as (m1 & -> & H1 & H2). cbn [bind].
    assert (S1 : msorted m1). { destruct (alias_dec l) as [(r & a & D)|D]; [rewrite (H1 r a D); now apply mset_sorted|now rewrite (H2 D)]. }
    destruct (IH m1 S1) as (m' & E & S' & P & Q). exists m'. split; [exact E|]. split; [exact S'|]. split.
    + intros n Hn. rewrite P by (intros k a Hk; apply Hn; now right). destruct (alias_dec l) as [(r & a & D)|D]; [|now rewrite (H2 D)].
      rewrite (H1 r a D), mget_mset by auto. destruct (eqs n r) eqn:En; [|reflexivity]. apply eqs_spec in En. subst.
      elim (Hn l a); [now left|auto].
    + intros n a [|k l1] l0 l2 El Hl Hn; injection El as -> ->; [|eapply Q; eauto].
      rewrite P by (intros; now apply Hn). rewrite (H1 n a Hl), mget_mset by auto. now rewrite eqs_refl.
Qed.

(** C108. Reading any XST text ends; the alias of a name afterwards is the one of its last line in the text,
    and the one it had before if it has no line.  A line which is not exactly [alias real alias], with single
    spaces, means nothing. *)
Theorem xst_alias_correct : forall ls m, ls <> [] -> Forall one_line ls -> msorted m ->
  exists m', parse_xst (join newline ls) m = Ok m' /\ msorted m' /\
  (forall l1 l l2 n a, ls = l1 ++ l :: l2 -> alias_line n a l -> (forall k b, In k l2 -> ~ alias_line n b k) -> get_alias m' n = a) /\
  (forall n, (forall l a, In l ls -> ~ alias_line n a l) -> get_alias m' n = get_alias m n).
Proof.
  intros ls m Hne Hl Hm. unfold parse_xst. unfold newline at 2. unfold newline at 1.
  rewrite split_string_ok, split_of_join by auto. cbn [bind].
  destruct (parse_lines_ok ls m Hm) as (m' & E & S' & P & Q). exists m'. split; [exact E|]. split; [exact S'|]. split.
  - intros l1 l l2 n a El H Hn. unfold get_alias. now rewrite (Q n a l1 l l2 El H Hn).
  - intros n Hn. unfold get_alias. now rewrite P.
Qed.
Print Assumptions xst_alias_correct.
(** Every text is such a list of lines. *)
Theorem xst_text_lines : forall s, exists ls, ls <> [] /\ Forall one_line ls /\ s = join newline ls.
Proof.
  intros s. exists (split_spec (ascii_of_N 10) s). split; [apply split_spec_nonempty|]. split; [apply split_pieces|].
  symmetry. apply split_join.
Qed.
Print Assumptions xst_text_lines.
(** Aliases do not care for the order of lines about different names, and reading a text again changes nothing. *)
Theorem xst_idempotent : forall s m m1, msorted m -> parse_xst s m = Ok m1 -> parse_xst s m1 = Ok m1.
Proof.
  intros s m m1 Hm. unfold parse_xst. unfold newline. rewrite split_string_ok. cbn [bind]. set (ls := split_spec (ascii_of_N 10) s). clearbody ls.
  intros H. destruct (parse_lines_ok ls m Hm) as (x & E & S' & P & Q). rewrite H in E. injection E as <-.
  destruct (parse_lines_ok ls m1 S') as (m2 & E2 & S2 & P2 & Q2). rewrite E2. f_equal. apply msorted_ext; auto.
  intros n. assert (D : (exists l1 l l2 a, ls = l1 ++ l :: l2 /\ alias_line n a l /\ (forall k b, In k l2 -> ~ alias_line n b k)) \/ (forall l a, In l ls -> ~ alias_line n a l)).
  { clear. induction ls as [|l ls IH]; [right; intros ? ? []|]. destruct IH as [(l1 & k & l2 & a & -> & H)|H].
    - left. exists (l :: l1), k, l2, a. auto.
    - destruct (alias_dec l) as [(r & a & D)|D].
      + destruct (eqs n r) eqn:En.
        * apply eqs_spec in En. subst. left. exists [], l, ls, a. auto.
        * right. intros k b [<-|Hk] K; [|exact (H k b Hk K)]. destruct (alias_inj _ _ _ _ _ D K) as [-> _]. now rewrite eqs_refl in En.
      + right. intros k b [<-|Hk] K; [exact (D _ _ K)|exact (H k b Hk K)]. }
  destruct D as [(l1 & l & l2 & a & E & H1 & H2)|D].
  - now rewrite (Q n a l1 l l2 E H1 H2), (Q2 n a l1 l l2 E H1 H2).
  - now apply P2.
Qed.
Print Assumptions xst_idempotent.
(** Lines ended by a carriage return keep it in the alias, and a name or alias set off by more than one space is
    not read. *)
Theorem xst_space_refuted : exists m1 m2,
  parse_xst (S_ "alias Feature F" ++ [ascii_of_N 13; ascii_of_N 10]) [] = Ok m1 /\ get_alias m1 (S_ "Feature") = S_ "F" ++ [ascii_of_N 13] /\
  parse_xst (S_ "alias  Feature F") [] = Ok m2 /\ get_alias m2 (S_ "Feature") = [].
Proof. do 2 eexists. split; [vm_compute; reflexivity|]. split; [vm_compute; reflexivity|]. split; vm_compute; reflexivity. Qed.
Print Assumptions xst_space_refuted.
Example xst_sample :
  parse_xst (S_ "alias A a" ++ newline ++ newline ++ S_ "alia B b" ++ newline ++ S_ "alias B c" ++ newline ++ S_ "alias A d" ++ newline) []
  = Ok [(S_ "A", S_ "d"); (S_ "B", S_ "c")].
Proof. vm_compute. reflexivity. Qed.

(** C108. The creators make what they are asked for; a schema needs a prefix and a namespace. *)
Theorem xsd_create_correct : forall name type prefix target,
  create_complex_type name = Some (Complex name [] []) /\
  create_element name type = Some {| x_name := name; x_ref := false; x_abstract := false; x_default := []; x_type := type; x_subst := [] |} /\
  create_schema prefix target = (if eqs prefix [] || eqs target [] then None else Some (target, prefix)).
Proof.
  intros name type prefix target. split; [reflexivity|]. split; [reflexivity|]. unfold create_schema, schema_create.
  assert (H : mset (S_ "targetNamespace") target (mset (S_ "xmlns:" ++ prefix) target []) = [(S_ "targetNamespace", target); (S_ "xmlns:" ++ prefix, target)]) by reflexivity.
  rewrite H. clear H. change (mget (S_ "targetNamespace") [(S_ "targetNamespace", target); (S_ "xmlns:" ++ prefix, target)]) with (Some target).
  destruct target as [|c target]; [now rewrite orb_true_r|]. rewrite orb_false_r.
  change (match find_key (c :: target) [(prefix, c :: target)] with None | Some [] => None | Some p => Some (c :: target, p) end
    = (if eqs prefix [] then None else Some (c :: target, prefix))).
  cbn [find_key]. rewrite eqs_refl. destruct prefix; reflexivity.
Qed.
Print Assumptions xsd_create_correct.

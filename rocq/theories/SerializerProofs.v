(** Proofs about the XML writer. *)
From Verif Require Import Common StrMap StringsModel StringsProofs AttributesModel AttributesProofs XsdTables XsdModel XmlSpec XmlSpecProofs SerializerModel.

Section item_ind2.
  Variable P : item -> Prop.
  Hypothesis HE : forall ty a ks, Forall P ks -> P (IElem ty a ks).
  Hypothesis HF : forall ty v, P (IField ty v).
  Hypothesis HCo : forall ty v, P (IColor ty v).
  Hypothesis HC : forall s, P (IContent s).
  Hypothesis HV : forall a b c, P (IVec3 a b c).
  Hypothesis HU : forall s, P (IUnknown s).
  Fixpoint item_ind2 (x : item) : P x :=
    match x with
    | IElem ty a ks => HE ty a ks ((fix go l : Forall P l := match l with [] => Forall_nil P | y :: l' => Forall_cons y (item_ind2 y) (go l') end) ks)
    | IField ty v => HF ty v
    | IColor ty v => HCo ty v
    | IContent s => HC s
    | IVec3 a b c => HV a b c
    | IUnknown s => HU s
    end.
End item_ind2.

(** * What the writer should produce, by recursion on the element *)
Lemma maybe_quote_ok v : exists q, maybe_quote v = Ok q.
Proof.
  unfold maybe_quote. destruct (find _ v); [apply create_expanded_total|]. destruct (existsb reserved v); eauto.
Qed.
Definition quote (v : str) : str := match maybe_quote v with Ok q => q | _ => [] end.
Lemma maybe_quote_eq v : maybe_quote v = Ok (quote v).
Proof. unfold quote. destruct (maybe_quote_ok v) as [q ->]. reflexivity. Qed.

Section Render.
  Variables nl ind : str.
  Definition lines_end : str := match nl with [] => ["010"%char] | _ => nl end.
  Definition field_text (ty : N) (v : str) : str :=
    match v with
    | [] => S_ "<" ++ tag_name ty ++ S_ "/" ++ S_ ">" ++ nl
    | _ => S_ "<" ++ tag_name ty ++ S_ ">" ++ quote v ++ S_ "</" ++ tag_name ty ++ S_ ">" ++ nl
    end.
  (** Text in front of the parent's start tag (the indentation of unknown markup), and after it. *)
  Fixpoint render (d : nat) (i : item) : str * str :=
    match i with
    | IElem ty a ks =>
        ([], indent ind d ++
        match map (render (S d)) ks with
        | [] => S_ "<" ++ tag_name ty ++ serialize a ++ S_ "/>" ++ nl
        | k :: ks' => fst k ++ (S_ "<" ++ tag_name ty ++ serialize a ++ S_ ">" ++ nl) ++ snd k ++
                      flat_map (fun p => fst p ++ snd p) ks' ++ indent ind d ++ S_ "</" ++ tag_name ty ++ S_ ">" ++ nl
        end)
    | IField ty v | IColor ty v => ([], indent ind d ++ field_text ty v)
    | IContent s => ([], quote s)
    | IVec3 a b c => ([], indent ind d ++ a ++ S_ "," ++ b ++ S_ "," ++ c ++ lines_end)
    | IUnknown s => (indent ind d, s)
    end.
End Render.

(** The first child never comes before the start tag except for [IUnknown]'s indentation, but an
    element or field writes its own indentation after the pending start tag. *)
Lemma run_app nl ind s a b : run nl ind s (a ++ b) = do s' <- run nl ind s a; run nl ind s' b.
Proof.
  revert s; induction a as [|c a IH]; intros s; [reflexivity|]. simpl. destruct (step nl ind s c); simpl; auto.
Qed.

Definition start_text nl (s : ser) : str :=
  if pending s then match tags s with ty :: _ => S_ "<" ++ tag_name ty ++ satts s ++ S_ ">" ++ nl | [] => [] end else [].
(** States in which a call may arrive. *)
Definition good (s : ser) : Prop := (pending s = true -> tags s <> []) /\ (pending s = false -> satts s = []).

Lemma emit_open_ok nl s : good s ->
  emit_open nl s = Ok {| out := out s ++ start_text nl s; tags := tags s; pending := false; satts := [] |}.
Proof.
  intros [H1 H2]. unfold emit_open, emit_start, start_text. destruct s as [o ts p sa]. simpl in *. destruct p.
  - destruct ts; [elim H1; auto|]. reflexivity.
  - rewrite H2 by auto. cbn [bind]. now rewrite app_nil_r.
Qed.

Definition after nl ind (s : ser) (i : item) : ser :=
  let r := render nl ind (length (tags s)) i in
  {| out := out s ++ fst r ++ start_text nl s ++ snd r; tags := tags s; pending := false; satts := [] |}.

Lemma save_field_ok nl ind s ty v : good s ->
  save_field nl ind s ty v = Ok {| out := out s ++ start_text nl s ++ indent ind (length (tags s)) ++ field_text nl ty v;
                                   tags := tags s; pending := false; satts := [] |}.
Proof.
  intros Hg. unfold save_field. rewrite emit_open_ok by auto. cbn [bind].
  destruct v as [|c v].
  - unfold put, do_indent. cbn [out tags pending satts field_text put]. now rewrite <- !app_assoc.
  - rewrite maybe_quote_eq. cbn [bind]. unfold put, do_indent. cbn [out tags pending satts field_text put].
    now rewrite <- !app_assoc.
Qed.

Lemma run_item nl ind i : forall s, good s -> run nl ind s (calls i) = Ok (after nl ind s i).
Proof.
  induction i as [ty a ks IH|ty v|ty v|t|lon lat alt|t] using item_ind2; intros s Hg.
  - cbn [calls run step]. rewrite emit_open_ok by auto. cbn [bind].
    unfold do_indent, put. cbn [out tags pending satts app].
    set (s1 := {| out := (out s ++ start_text nl s) ++ indent ind (length (tags s)); tags := ty :: tags s; pending := true; satts := serialize a |}).
    rewrite run_app.
    destruct ks as [|k ks].
    + cbn [flat_map run bind]. unfold step, s1, emit_start. cbn [tags pending bind out satts].
      unfold after. cbn [render map fst snd app]. rewrite <- !app_assoc. reflexivity.
    + cbn [flat_map]. rewrite run_app. inversion IH as [|? ? Hk Hks]; subst.
      rewrite Hk by (split; [intros _; discriminate|intros; discriminate]). cbn [bind].
      assert (Hrest : forall ks', Forall (fun i => forall s, good s -> run nl ind s (calls i) = Ok (after nl ind s i)) ks' ->
                forall s2, pending s2 = false -> satts s2 = [] -> run nl ind s2 (flat_map calls ks') =
                  Ok {| out := out s2 ++ flat_map (fun p => fst p ++ snd p) (map (render nl ind (length (tags s2))) ks');
                        tags := tags s2; pending := false; satts := [] |}).
      { clear. induction 1 as [|k ks' Hk Hks IHks]; intros s2 Hp Hs.
        - cbn [flat_map run map]. rewrite app_nil_r. destruct s2; simpl in *; subst; reflexivity.
        - cbn [flat_map]. rewrite run_app, Hk by (split; congruence). cbn [bind]. rewrite IHks by reflexivity.
          unfold after, start_text. rewrite Hp. cbn [out tags map flat_map app]. now rewrite <- !app_assoc. }
      rewrite Hrest by (auto; reflexivity). cbn [bind]. cbn [run]. unfold step, after, s1, start_text.
      cbn [tags pending satts out length bind emit_start]. unfold emit_start. cbn [pending bind].
      unfold do_indent, put. cbn [out tags pending satts].
      cbn [render map fst snd app]. rewrite <- !app_assoc. reflexivity.
  - cbn [calls run step]. rewrite save_field_ok by auto. cbn [bind]. unfold after. cbn [render fst snd app]. reflexivity.
  - cbn [calls run step]. rewrite emit_open_ok by auto. cbn [bind]. rewrite save_field_ok by (split; auto; discriminate).
    cbn [bind]. unfold after. cbn [render fst snd app start_text pending out tags]. now rewrite <- !app_assoc.
  - cbn [calls run step]. rewrite emit_open_ok by auto. cbn [bind]. rewrite maybe_quote_eq. cbn [bind].
    unfold after, put. cbn [out tags pending satts render fst snd app]. now rewrite <- !app_assoc.
  - cbn [calls run step]. rewrite emit_open_ok by auto. cbn [bind].
    unfold after, put, do_indent, lines_end. cbn [out tags pending satts render fst snd app put]. rewrite <- !app_assoc. reflexivity.
  - cbn [calls run step bind]. rewrite emit_open_ok.
    + cbn [bind]. unfold after, put, do_indent. cbn [out tags pending satts render fst snd app put start_text]. now rewrite <- !app_assoc.
    + destruct Hg as [H1 H2]. split; auto.
Qed.

Definition text nl ind (i : item) : str := let r := render nl ind 0 i in fst r ++ snd r.
Lemma serialize_ok nl ind i : serialize_with nl ind i = Ok (text nl ind i).
Proof.
  unfold serialize_with. rewrite run_item; [|split; [discriminate|reflexivity]]. reflexivity.
Qed.

(** * Quoting *)
Definition subst1 (c : ascii) (w s : str) : str := flat_map (fun x => if aeq x c then w else [x]) s.
Lemma subst1_flat_map {A} c w (g : A -> str) v : subst1 c w (flat_map g v) = flat_map (fun x => subst1 c w (g x)) v.
Proof. induction v as [|x v IH]; simpl; auto. unfold subst1 in *. rewrite flat_map_app. now rewrite IH. Qed.
Lemma subst1_app c w a b : subst1 c w (a ++ b) = subst1 c w a ++ subst1 c w b.
Proof. apply flat_map_app. Qed.
Lemma subst1_id c w s : ~ In c s -> subst1 c w s = s.
Proof.
  induction s as [|x s IH]; simpl; auto. intros H. destruct (aeq x c) eqn:E; [apply aeq_spec in E; tauto|].
  unfold subst1 in IH. simpl. f_equal. apply IH. tauto.
Qed.
Lemma replace_all_subst1 c w s r : ReplaceAll [c] w s r -> r = subst1 c w s.
Proof.
  induction 1 as [s Hn|u t t' Hf H IH].
  - symmetry. apply subst1_id. intros Hi. apply in_split in Hi as (a & b & ->). apply Hn. exists a, b. reflexivity.
  - rewrite !subst1_app, <- IH. rewrite (subst1_id c w u).
    + f_equal. f_equal. unfold subst1. simpl. rewrite aeq_refl. now rewrite app_nil_r.
    + intros Hi. apply in_split in Hi as (a & b & ->). specialize (Hf (length a)).
      rewrite <- app_assoc, skipn_length_app in Hf. simpl in Hf. rewrite aeq_refl in Hf. rewrite app_length in Hf. simpl in Hf.
      discriminate Hf. lia.
Qed.
Lemma expand_one_char c w s : ~ In c w -> 1 <= length w -> ~ In c (skipn 1 w) ->
  expand_one [] [] s ([c], w) = Ok (subst1 c w s).
Proof.
  intros Hc Hl Hs. destruct (expand_one_correct [] [] s ([c], w)) as (r & Hr & Hra).
  - exists c, []. cbn [fst snd]. repeat split; auto. intros (u & v & ->). apply Hc. rewrite !in_app_iff. simpl. auto.
  - rewrite Hr. f_equal. apply replace_all_subst1. exact Hra.
Qed.
Lemma expand_one_none k w s : find k s = None -> expand_one [] [] s (k, w) = Ok s.
Proof. intros H. unfold expand_one. cbn [fst snd app]. rewrite app_nil_r, H. reflexivity. Qed.
Lemma expand_one_self c w s t : ~ In c s -> find [c] w <> None ->
  expand_one [] [] (s ++ c :: t) ([c], w) = Ok (s ++ w ++ t).
Proof.
  intros Hs Hw. unfold expand_one. cbn [fst snd app]. rewrite find_single, find_char_app by auto.
  cbn [expand_loop]. destruct (find [c] w); [|congruence].
  rewrite firstn_length_app. f_equal. f_equal. f_equal. change (s ++ c :: t) with (s ++ [c] ++ t).
  replace (length s + length [c]) with (length (s ++ [c])) by now rewrite app_length.
  rewrite app_assoc, skipn_length_app. reflexivity.
Qed.

(** The entity for each reserved byte. *)
Definition esc (c : ascii) : str :=
  if aeq c """"%char then S_ "&quot;" else if aeq c "&"%char then S_ "&amp;" else if aeq c "'"%char then S_ "&apos;"
  else if aeq c "<"%char then S_ "&lt;" else if aeq c ">"%char then S_ "&gt;" else [c].
Definition esc2 (c : ascii) : str :=
  if aeq c """"%char then S_ "&quot;" else if aeq c "&"%char then S_ "&amp;" else [c].

(** Values for which escaping is right: of the bytes quote and ampersand, at most one ampersand and
    it comes before all quotes. *)
Definition amp_or_quote (c : ascii) : bool := aeq c "&"%char || aeq c """"%char.
Definition esc_ok (v : str) : bool :=
  match filter amp_or_quote v with
  | [] => true
  | c :: r => aeq c "&"%char && forallb (aeq """"%char) r
  end.
Lemma esc2_id u : filter amp_or_quote u = [] -> flat_map esc2 u = u.
Proof.
  induction u as [|c u IH]; simpl; auto. unfold amp_or_quote at 1. destruct (aeq c "&"%char) eqn:E1; [discriminate|].
  destruct (aeq c """"%char) eqn:E2; [discriminate|]. simpl. intros H. unfold esc2. rewrite E1, E2. simpl. f_equal. auto.
Qed.
Lemma filter_nil_notin {A} (f : A -> bool) l x : filter f l = [] -> f x = true -> ~ In x l.
Proof. intros H Hx Hi. assert (In x (filter f l)) by (apply filter_In; auto). rewrite H in *. easy. Qed.
Lemma esc2_noamp t : forallb (aeq """"%char) (filter amp_or_quote t) = true -> flat_map esc2 t = subst1 """"%char (S_ "&quot;") t.
Proof.
  induction t as [|c t IH]; [reflexivity|]. cbn [filter flat_map].
  change (subst1 """"%char (S_ "&quot;") (c :: t)) with
    ((if aeq c """"%char then S_ "&quot;" else [c]) ++ subst1 """"%char (S_ "&quot;") t).
  unfold amp_or_quote at 1, esc2 at 1.
  destruct (aeq c """"%char) eqn:E2.
  - rewrite orb_true_r. cbn [forallb]. intros H. apply andb_true_iff in H as [_ H]. now rewrite IH.
  - destruct (aeq c "&"%char) eqn:E1; cbn [orb].
    + apply aeq_spec in E1. subst. cbn [forallb]. discriminate.
    + intros H. now rewrite IH.
Qed.
Lemma filter_split {A} (f : A -> bool) l c r : filter f l = c :: r -> exists u t, l = u ++ c :: t /\ filter f u = [] /\ filter f t = r.
Proof.
  induction l as [|x l IH]; simpl; [discriminate|]. destruct (f x) eqn:E; intros H.
  - inversion H; subst. exists [], l. auto.
  - destruct (IH H) as (u & t & -> & Hu & Ht). exists (x :: u), t. simpl. rewrite E. auto.
Qed.
Lemma esc_steps c : subst1 ">"%char (S_ "&gt;") (subst1 "<"%char (S_ "&lt;") (subst1 "'"%char (S_ "&apos;") (esc2 c))) = esc c.
Proof.
  unfold esc, esc2. destruct (aeq c """"%char) eqn:E1; [reflexivity|]. destruct (aeq c "&"%char) eqn:E2; [reflexivity|].
  destruct (aeq c "'"%char) eqn:E3; [apply aeq_spec in E3; subst; reflexivity|].
  destruct (aeq c "<"%char) eqn:E4; [apply aeq_spec in E4; subst; reflexivity|].
  destruct (aeq c ">"%char) eqn:E5; [apply aeq_spec in E5; subst; reflexivity|].
  unfold subst1. cbn [flat_map app]. rewrite E3. cbn [flat_map app]. rewrite E4. cbn [flat_map app]. now rewrite E5.
Qed.
Lemma entity_escape_ok v : esc_ok v = true -> entity_escape v = Ok (flat_map esc v).
Proof.
  intros H. unfold entity_escape, escape_map. cbn [create_expanded].
  assert (Hquot : expand_one [] [] v (S_ """", S_ "&quot;") = Ok (subst1 """"%char (S_ "&quot;") v)).
  { apply (expand_one_char """"%char (S_ "&quot;") v); vm_compute; intuition (try congruence; lia). }
  rewrite Hquot. cbn [bind].
  assert (Hamp : expand_one [] [] (subst1 """"%char (S_ "&quot;") v) (S_ "&", S_ "&amp;") = Ok (flat_map esc2 v)).
  { unfold esc_ok in H. destruct (filter amp_or_quote v) as [|c r] eqn:Ef.
    - rewrite subst1_id by (apply (filter_nil_notin _ _ _ Ef); reflexivity). rewrite esc2_id by auto. apply expand_one_none.
      change (S_ "&") with ["&"%char]. rewrite find_single. apply find_char_none. apply (filter_nil_notin _ _ _ Ef). reflexivity.
    - apply andb_true_iff in H as [Hc Hr]. apply aeq_spec in Hc. subst.
      apply filter_split in Ef as (u & t & -> & Hu & Ht). subst r.
      rewrite flat_map_app. cbn [flat_map]. rewrite esc2_id by auto. rewrite esc2_noamp by auto.
      rewrite subst1_app. rewrite (subst1_id _ _ u) by (apply (filter_nil_notin _ _ _ Hu); reflexivity).
      change (subst1 """"%char (S_ "&quot;") ("&"%char :: t)) with ("&"%char :: subst1 """"%char (S_ "&quot;") t).
      apply (expand_one_self "&"%char (S_ "&amp;") u).
      + apply (filter_nil_notin _ _ _ Hu). reflexivity.
      + vm_compute. discriminate. }
  rewrite Hamp. cbn [bind].
  rewrite (expand_one_char "'"%char (S_ "&apos;")) by (vm_compute; intuition (try congruence; lia)). cbn [bind].
  rewrite (expand_one_char "<"%char (S_ "&lt;")) by (vm_compute; intuition (try congruence; lia)). cbn [bind].
  rewrite (expand_one_char ">"%char (S_ "&gt;")) by (vm_compute; intuition (try congruence; lia)). cbn [bind].
  rewrite !subst1_flat_map. f_equal. apply flat_map_ext. intros c. apply esc_steps.
Qed.

(** Values the library writes correctly. *)
Definition value_ok (v : str) : bool :=
  forallb legal v &&
  match find cdata_open v with
  | Some _ => esc_ok v
  | None => match find cdata_close v with Some _ => false | None => true end
  end.
Lemma esc_frag c : legal c = true -> frag (esc c) [EChar c].
Proof.
  intros Hl. unfold esc.
  destruct (aeq c """"%char) eqn:E1; [apply aeq_spec in E1; subst; apply frag_entity; simpl; auto 6|].
  destruct (aeq c "&"%char) eqn:E2; [apply aeq_spec in E2; subst; apply frag_entity; simpl; auto 6|].
  destruct (aeq c "'"%char) eqn:E3; [apply aeq_spec in E3; subst; apply frag_entity; simpl; auto 6|].
  destruct (aeq c "<"%char) eqn:E4; [apply aeq_spec in E4; subst; apply frag_entity; simpl; auto 6|].
  destruct (aeq c ">"%char) eqn:E5; [apply aeq_spec in E5; subst; apply frag_entity; simpl; auto 6|].
  apply frag_char. unfold plain_char. now rewrite Hl, E2, E4, E5.
Qed.
Lemma quote_frag v : value_ok v = true -> frag (quote v) (map EChar v).
Proof.
  unfold value_ok. intros H. apply andb_true_iff in H as [Hl H]. unfold quote, maybe_quote. change (S_ "<![CDATA[") with cdata_open.
  destruct (find cdata_open v).
  - rewrite entity_escape_ok by auto. clear H n. induction v as [|c v IH]; [apply frag_nil|].
    simpl in Hl. apply andb_true_iff in Hl as [Hc Hl]. cbn [flat_map map]. change (EChar c :: map EChar v) with ([EChar c] ++ map EChar v).
    apply frag_app; auto using esc_frag.
  - destruct (find cdata_close v) eqn:E; [discriminate|]. apply find_none in E.
    destruct (existsb reserved v) eqn:Er.
    + apply frag_cdata; auto.
    + apply frag_plain. clear E H. induction v as [|c v IH]; [reflexivity|]. simpl in *. apply andb_true_iff in Hl as [Hc Hl].
      apply orb_false_iff in Er as [Er Ers]. unfold reserved in Er. rewrite !orb_false_iff in Er.
      destruct Er as ((((E1 & E2) & E3) & E4) & E5). rewrite IH by auto. unfold plain_char. now rewrite Hc, E1, E3, E4.
Qed.

(** * The document that is written *)
Definition chars (s : str) : list xml := map XChar s.
Lemma chars_events s : flat_map xevents (chars s) = map EChar s.
Proof. unfold chars. induction s as [|c s IH]; [auto|]. cbn [map flat_map xevents app]. now rewrite IH. Qed.

(** Forest of a raw piece of markup. *)
Definition markup (s : str) : option (list xml) :=
  match rd (length s) s with Some es => forest es [] [] | None => None end.
Definition markup_of (s : str) : list xml := match markup s with Some F => F | None => [] end.

Section Doc.
  Variables nl ind : str.
  Fixpoint doc (d : nat) (i : item) : list xml * list xml :=
    match i with
    | IElem ty a ks =>
        ([], chars (indent ind d) ++
         match map (doc (S d)) ks with
         | [] => XElem (tag_name ty) a [] :: chars nl
         | k :: ks' => fst k ++ XElem (tag_name ty) a (chars nl ++ snd k ++ flat_map (fun p => fst p ++ snd p) ks' ++
                                                      chars (indent ind d)) :: chars nl
         end)
    | IField ty v | IColor ty v => ([], chars (indent ind d) ++ XElem (tag_name ty) [] (chars v) :: chars nl)
    | IContent s => ([], chars s)
    | IVec3 a b c => ([], chars (indent ind d ++ a ++ S_ "," ++ b ++ S_ "," ++ c ++ lines_end nl))
    | IUnknown s => (chars (indent ind d), markup_of s)
    end.
End Doc.

Definition valid_type (ty : N) : bool := is_valid (Z.of_N ty).
Definition okfb (t : str) : bool := negb (aeq (hd zero t) ">"%char) && negb (prefixb (S_ "]>") t).
Fixpoint readable (i : item) : bool :=
  match i with
  | IElem ty a ks => valid_type ty && forallb att_ok a && nodupb (map fst a) && forallb readable ks
  | IField ty v | IColor ty v => valid_type ty && value_ok v
  | IContent s => value_ok s
  | IVec3 a b c => forallb plain_char a && forallb plain_char b && forallb plain_char c
  | IUnknown s => okfb s && forallb legal s && match markup s with Some _ => true | None => false end
  end.

(** Every element of the schema has a well-formed XML name. *)
Lemma names_ok_table : forallb (fun i => xml_name (tag_name (N.of_nat i))) (seq 1 (N.to_nat Type_Invalid - 1)) = true.
Proof. vm_compute. reflexivity. Qed.
Lemma tag_name_ok ty : valid_type ty = true -> xml_name (tag_name ty) = true.
Proof.
  intros H. pose proof names_ok_table as Ht. rewrite forallb_forall in Ht.
  rewrite <- (N2Nat.id ty). apply Ht. apply in_seq. unfold valid_type, is_valid in H.
  change (Z.of_N Type_Unknown) with 0%Z in H. lia.
Qed.

Lemma okfb_spec t : okfb t = true -> okf t.
Proof.
  unfold okfb. rewrite andb_true_iff, !negb_true_iff. intros [H1 H2]. split; auto. now apply aeq_neq.
Qed.

Definition wsp (c : ascii) : bool := xsp c && negb (aeq c "013"%char).
Lemma wsp_plain c : wsp c = true -> plain_char c = true.
Proof. destruct c as [[] [] [] [] [] [] [] []]; vm_compute; congruence. Qed.
Lemma ws_frag s : forallb wsp s = true -> frag s (map EChar s).
Proof.
  intros H. apply frag_plain. rewrite forallb_forall in *. intros c Hc. apply wsp_plain. auto.
Qed.
Lemma indent_wsp ind n : forallb wsp ind = true -> forallb wsp (indent ind n) = true.
Proof. intros H. induction n; simpl; auto. rewrite forallb_app, H, IHn. reflexivity. Qed.

Lemma frag_events_app s1 F1 s2 F2 : frag s1 (flat_map xevents F1) -> frag s2 (flat_map xevents F2) ->
  frag (s1 ++ s2) (flat_map xevents (F1 ++ F2)).
Proof. intros H1 H2. rewrite flat_map_app. now apply frag_app. Qed.
Lemma frag_chars_ws s : forallb wsp s = true -> frag s (flat_map xevents (chars s)).
Proof. intros H. rewrite chars_events. now apply ws_frag. Qed.
Lemma markup_frag s F : okf s -> markup s = Some F -> frag s (flat_map xevents F).
Proof.
  intros Ho H. unfold markup in H. destruct (rd (length s) s) as [es|] eqn:E; [|discriminate].
  apply forest_events in H. cbn [opened rev flat_map app] in H. rewrite <- H. now apply reads_frag.
Qed.
Lemma frag_open_false n m : xml_name n = true -> forallb att_ok m = true -> nodupb (map fst m) = true ->
  frag (S_ "<" ++ n ++ serialize m ++ S_ ">") [EStart n m].
Proof. intros. now apply (frag_open n m false). Qed.
Lemma frag_open_nil n m : xml_name n = true -> forallb att_ok m = true -> nodupb (map fst m) = true ->
  frag (S_ "<" ++ n ++ serialize m ++ S_ "/>") [EStart n m; EEnd n].
Proof. intros. now apply (frag_open n m true). Qed.
Lemma frag_element n m body F : xml_name n = true -> forallb att_ok m = true -> nodupb (map fst m) = true ->
  frag body (flat_map xevents F) ->
  frag ((S_ "<" ++ n ++ serialize m ++ S_ ">") ++ body ++ S_ "</" ++ n ++ S_ ">") (flat_map xevents [XElem n m F]).
Proof.
  intros Hn Hm Hd Hb. cbn [flat_map xevents]. rewrite app_nil_r.
  change (EStart n m :: flat_map xevents F ++ [EEnd n]) with ([EStart n m] ++ flat_map xevents F ++ [EEnd n]).
  apply frag_app; [now apply frag_open_false|]. apply frag_app; auto. now apply frag_close.
Qed.

Lemma field_frag nl ty v : forallb wsp nl = true -> valid_type ty = true -> value_ok v = true ->
  frag (field_text nl ty v) (flat_map xevents (XElem (tag_name ty) [] (chars v) :: chars nl)).
Proof.
  intros Hnl Ht Hv. pose proof (tag_name_ok ty Ht) as Hn.
  change (XElem (tag_name ty) [] (chars v) :: chars nl) with ([XElem (tag_name ty) [] (chars v)] ++ chars nl).
  destruct v as [|c v].
  - cbn [field_text]. replace (S_ "<" ++ tag_name ty ++ S_ "/" ++ S_ ">" ++ nl) with ((S_ "<" ++ tag_name ty ++ serialize [] ++ S_ "/>") ++ nl)
      by (rewrite <- !app_assoc; reflexivity).
    apply frag_events_app; [|now apply frag_chars_ws]. now apply frag_open_nil.
  - cbn [field_text]. 
    replace (S_ "<" ++ tag_name ty ++ S_ ">" ++ quote (c :: v) ++ S_ "</" ++ tag_name ty ++ S_ ">" ++ nl) with
      (((S_ "<" ++ tag_name ty ++ serialize [] ++ S_ ">") ++ quote (c :: v) ++ S_ "</" ++ tag_name ty ++ S_ ">") ++ nl)
      by (rewrite <- !app_assoc; reflexivity).
    apply frag_events_app; [|now apply frag_chars_ws]. apply frag_element; auto.
    rewrite chars_events. now apply quote_frag.
Qed.

Lemma lines_end_wsp nl : forallb wsp nl = true -> forallb wsp (lines_end nl) = true.
Proof. destruct nl; auto. Qed.

Lemma render_frag nl ind i : forallb wsp nl = true -> forallb wsp ind = true -> readable i = true -> forall d,
  frag (fst (render nl ind d i)) (flat_map xevents (fst (doc nl ind d i))) /\
  frag (snd (render nl ind d i)) (flat_map xevents (snd (doc nl ind d i))).
Proof.
  intros Hnl Hind. induction i as [ty a ks IH|ty v|ty v|t|lon lat alt|t] using item_ind2; intros Hr d; cbn [readable] in Hr.
  - rewrite !andb_true_iff in Hr. destruct Hr as (((Ht & Ha) & Hd) & Hks). pose proof (tag_name_ok ty Ht) as Hn.
    cbn [render doc fst snd]. split; [apply frag_nil|].
    apply frag_events_app; [apply frag_chars_ws; now apply indent_wsp|].
    destruct ks as [|k ks]; cbn [map].
    + replace (S_ "<" ++ tag_name ty ++ serialize a ++ S_ "/>" ++ nl) with ((S_ "<" ++ tag_name ty ++ serialize a ++ S_ "/>") ++ nl)
        by (rewrite <- !app_assoc; reflexivity).
      apply (frag_events_app _ [_] _ (chars nl)); [now apply frag_open_nil|now apply frag_chars_ws].
    + inversion IH as [|? ? Hk Hks']; subst. cbn [forallb] in Hks. apply andb_true_iff in Hks as [Hrk Hrks].
      destruct (Hk Hrk (S d)) as [Hk1 Hk2].
      apply frag_events_app; auto.
      change (XElem (tag_name ty) a ?F :: chars nl) with ([XElem (tag_name ty) a F] ++ chars nl).
      set (F := chars nl ++ _).
      set (rest := flat_map (fun p => fst p ++ snd p) (map (render nl ind (S d)) ks)).
      replace ((S_ "<" ++ tag_name ty ++ serialize a ++ S_ ">" ++ nl) ++ snd (render nl ind (S d) k) ++
               rest ++ indent ind d ++ S_ "</" ++ tag_name ty ++ S_ ">" ++ nl) with
        (((S_ "<" ++ tag_name ty ++ serialize a ++ S_ ">") ++ (nl ++ snd (render nl ind (S d) k) ++ rest ++ indent ind d) ++
          S_ "</" ++ tag_name ty ++ S_ ">") ++ nl) by (rewrite <- !app_assoc; reflexivity).
      apply frag_events_app; [|now apply frag_chars_ws]. apply frag_element; auto. unfold F.
      apply frag_events_app; [now apply frag_chars_ws|]. apply frag_events_app; auto.
      apply frag_events_app; [|apply frag_chars_ws; now apply indent_wsp]. unfold rest. clear - Hks' Hrks.
      induction Hks' as [|k ks Hk Hks IHks]; [apply frag_nil|]. cbn [forallb] in Hrks. apply andb_true_iff in Hrks as [Hrk Hrks].
      destruct (Hk Hrk (S d)) as [Hk1 Hk2]. cbn [map flat_map]. apply frag_events_app; auto using frag_events_app.
  - apply andb_true_iff in Hr as [Ht Hv]. cbn [render doc fst snd]. split; [apply frag_nil|].
    apply frag_events_app; [apply frag_chars_ws; now apply indent_wsp|]. now apply field_frag.
  - apply andb_true_iff in Hr as [Ht Hv]. cbn [render doc fst snd]. split; [apply frag_nil|].
    apply frag_events_app; [apply frag_chars_ws; now apply indent_wsp|]. now apply field_frag.
  - cbn [render doc fst snd]. split; [apply frag_nil|]. rewrite chars_events. now apply quote_frag.
  - rewrite !andb_true_iff in Hr. destruct Hr as ((H1 & H2) & H3). cbn [render doc fst snd]. split; [apply frag_nil|].
    rewrite chars_events. apply frag_plain. rewrite !forallb_app, H1, H2, H3.
    assert (Hw : forall s, forallb wsp s = true -> forallb plain_char s = true).
    { intros s Hs. rewrite forallb_forall in *. auto using wsp_plain. }
    rewrite (Hw (indent ind d)) by now apply indent_wsp. rewrite (Hw (lines_end nl)) by now apply lines_end_wsp. reflexivity.
  - rewrite !andb_true_iff in Hr. destruct Hr as ((H1 & H2) & H3). apply okfb_spec in H1. cbn [render doc fst snd].
    split; [apply frag_chars_ws; now apply indent_wsp|]. unfold markup_of. destruct (markup t) eqn:E; [|discriminate]. now apply markup_frag.
Qed.

(** * No CR in the output *)
Definition ncr (s : str) : bool := forallb (fun c => negb (aeq c "013"%char)) s.
Lemma ncr_app a b : ncr (a ++ b) = ncr a && ncr b.
Proof. apply forallb_app. Qed.
Lemma ncr_norm s : ncr s = true -> norm_eol s = s.
Proof.
  intros H. apply norm_eol_id. unfold ncr in H. rewrite forallb_forall in H. intros Hi. apply H in Hi. discriminate.
Qed.
Lemma ncr_weaken (f : ascii -> bool) s : (forall c, f c = true -> c <> "013"%char) -> forallb f s = true -> ncr s = true.
Proof.
  intros Hf H. unfold ncr. rewrite forallb_forall in *. intros c Hc. apply negb_true_iff, aeq_neq. auto.
Qed.
Lemma legal_ncr s : forallb legal s = true -> ncr s = true.
Proof. apply ncr_weaken. intros c H ->. discriminate. Qed.
Lemma wsp_ncr s : forallb wsp s = true -> ncr s = true.
Proof. apply ncr_weaken. intros c H ->. discriminate. Qed.
Lemma name_ncr s : xml_name s = true -> ncr s = true.
Proof. intros H. apply xml_name_chars in H. revert H. apply ncr_weaken. intros c H ->. discriminate. Qed.
Lemma serialize_ncr a : forallb att_ok a = true -> ncr (serialize a) = true.
Proof.
  induction a as [|[k v] a IH]; [reflexivity|]. cbn [forallb]. intros H. apply andb_true_iff in H as [Hk H].
  change (serialize ((k, v) :: a)) with (serialize1 (k, v) ++ serialize a). rewrite ncr_app, IH by auto.
  unfold serialize1. cbn [fst snd]. rewrite !ncr_app. unfold att_ok in Hk. apply andb_true_iff in Hk as [Hk Hv]. cbn [fst snd] in *.
  rewrite (name_ncr k) by auto. replace (ncr v) with true; [reflexivity|]. symmetry. revert Hv. apply ncr_weaken. intros c H1 ->. discriminate.
Qed.
Lemma quote_ncr v : value_ok v = true -> ncr (quote v) = true.
Proof.
  unfold value_ok. intros H. apply andb_true_iff in H as [Hl H]. unfold quote, maybe_quote. change (S_ "<![CDATA[") with cdata_open.
  destruct (find cdata_open v).
  - rewrite entity_escape_ok by auto. clear H n. induction v as [|c v IH]; [reflexivity|].
    cbn [forallb] in Hl. apply andb_true_iff in Hl as [Hc Hl]. cbn [flat_map]. rewrite ncr_app, IH by auto. rewrite andb_true_r.
    revert Hc. destruct c as [[] [] [] [] [] [] [] []]; vm_compute; congruence.
  - destruct (existsb reserved v); [rewrite !ncr_app|]; rewrite (legal_ncr v) by auto; reflexivity.
Qed.
Lemma field_ncr nl ty v : forallb wsp nl = true -> valid_type ty = true -> value_ok v = true -> ncr (field_text nl ty v) = true.
Proof.
  intros Hnl Ht Hv. pose proof (name_ncr _ (tag_name_ok ty Ht)) as Hn. unfold field_text.
  destruct v as [|c v]; rewrite !ncr_app, Hn, (wsp_ncr nl) by auto; [reflexivity|]. now rewrite quote_ncr.
Qed.
Lemma plain_ncr s : forallb plain_char s = true -> ncr s = true.
Proof. apply ncr_weaken. intros c H ->. discriminate. Qed.
Lemma render_ncr nl ind i : forallb wsp nl = true -> forallb wsp ind = true -> readable i = true -> forall d,
  ncr (fst (render nl ind d i)) = true /\ ncr (snd (render nl ind d i)) = true.
Proof.
  intros Hnl Hind.
  assert (Hi : forall d, ncr (indent ind d) = true) by (intros; apply wsp_ncr; now apply indent_wsp).
  assert (Hl : ncr (lines_end nl) = true) by (apply wsp_ncr; now apply lines_end_wsp).
  induction i as [ty a ks IH|ty v|ty v|t|lon lat alt|t] using item_ind2; intros Hr d; cbn [readable] in Hr.
  - rewrite !andb_true_iff in Hr. destruct Hr as (((Ht & Ha) & Hd) & Hks). pose proof (name_ncr _ (tag_name_ok ty Ht)) as Hn.
    cbn [render fst snd]. split; [reflexivity|]. rewrite ncr_app, Hi. cbn [andb].
    destruct ks as [|k ks]; cbn [map].
    + rewrite !ncr_app, Hn, serialize_ncr, (wsp_ncr nl) by auto. reflexivity.
    + inversion IH as [|? ? Hk Hks']; subst. cbn [forallb] in Hks. apply andb_true_iff in Hks as [Hrk Hrks].
      destruct (Hk Hrk (S d)) as [Hk1 Hk2]. rewrite !ncr_app, Hk1, Hk2, Hn, serialize_ncr, (wsp_ncr nl), Hi by auto.
      replace (ncr (flat_map _ _)) with true; [reflexivity|]. symmetry. clear - Hks' Hrks.
      induction Hks' as [|k ks Hk Hks IHks]; [reflexivity|]. cbn [forallb] in Hrks. apply andb_true_iff in Hrks as [Hrk Hrks].
      destruct (Hk Hrk (S d)) as [Hk1 Hk2]. cbn [map flat_map]. rewrite !ncr_app. apply andb_true_intro; split; [|now apply IHks].
      apply andb_true_intro; split; [exact Hk1|exact Hk2].
  - apply andb_true_iff in Hr as [Ht Hv]. cbn [render fst snd]. split; [reflexivity|]. now rewrite ncr_app, Hi, field_ncr.
  - apply andb_true_iff in Hr as [Ht Hv]. cbn [render fst snd]. split; [reflexivity|]. now rewrite ncr_app, Hi, field_ncr.
  - cbn [render fst snd]. split; [reflexivity|]. now apply quote_ncr.
  - rewrite !andb_true_iff in Hr. destruct Hr as ((H1 & H2) & H3). cbn [render fst snd]. split; [reflexivity|].
    now rewrite !ncr_app, Hi, Hl, (plain_ncr lon), (plain_ncr lat), (plain_ncr alt).
  - rewrite !andb_true_iff in Hr. destruct Hr as ((H1 & H2) & H3). cbn [render fst snd]. split; auto. now apply legal_ncr.
Qed.

(** * Reading back *)
Definition content nl ind (d : nat) (ks : list item) : list xml :=
  match map (doc nl ind (S d)) ks with
  | [] => []
  | k :: ks' => chars nl ++ snd k ++ flat_map (fun p => fst p ++ snd p) ks' ++ chars (indent ind d)
  end.

Lemma wsp_xsp s : forallb wsp s = true -> forallb xsp s = true.
Proof.
  intros H. rewrite forallb_forall in *. intros c Hc. apply H in Hc. unfold wsp in Hc. apply andb_true_iff in Hc. tauto.
Qed.
Lemma doc_pre_chars nl ind d k : forallb wsp ind = true -> exists ws, fst (doc nl ind d k) = chars ws /\ forallb wsp ws = true.
Proof.
  intros H. destruct k; cbn [doc fst]; try (exists []; split; reflexivity). exists (indent ind d). split; auto. now apply indent_wsp.
Qed.
Lemma serialize_reads nl ind ty a ks : forallb wsp nl = true -> forallb wsp ind = true -> readable (IElem ty a ks) = true ->
  exists s, serialize_with nl ind (IElem ty a ks) = Ok s /\
    xml_tree s = Some (XElem (tag_name ty) a (content nl ind 0 ks)).
Proof.
  intros Hnl Hind Hr. rewrite serialize_ok. eexists. split; [reflexivity|]. unfold text.
  destruct (render_frag nl ind _ Hnl Hind Hr 0) as [_ Hf]. destruct (render_ncr nl ind _ Hnl Hind Hr 0) as [_ Hc].
  change (fst (render nl ind 0 (IElem ty a ks))) with (@nil ascii). cbn [app].
  apply frag_reads in Hf.
  assert (Hd : exists ws0, forallb wsp ws0 = true /\
     flat_map xevents (snd (doc nl ind 0 (IElem ty a ks))) =
     map EChar ws0 ++ xevents (XElem (tag_name ty) a (content nl ind 0 ks)) ++ map EChar nl).
  { cbn [doc snd indent]. unfold content. destruct ks as [|k ks]; cbn [map].
    - exists []. split; auto. cbn [chars map app flat_map]. now rewrite chars_events.
    - destruct (doc_pre_chars nl ind 1 k Hind) as (ws & Hws & Hw). exists ws. split; auto. rewrite Hws.
      cbn [chars map app]. rewrite flat_map_app, chars_events. cbn [flat_map]. rewrite chars_events. reflexivity. }
  destruct Hd as (ws0 & Hw0 & Hd). rewrite Hd in Hf.
  eapply xml_tree_doc; [now apply ncr_norm|apply wsp_xsp; exact Hw0|apply wsp_xsp; exact Hnl|exact Hf].
Qed.

(** Without line breaks and indentation, nothing is added. *)
Fixpoint plain (i : item) : list xml :=
  match i with
  | IElem ty a ks => [XElem (tag_name ty) a (flat_map plain ks)]
  | IField ty v | IColor ty v => [XElem (tag_name ty) [] (chars v)]
  | IContent s => chars s
  | IVec3 a b c => chars (a ++ S_ "," ++ b ++ S_ "," ++ c ++ ["010"%char])
  | IUnknown s => markup_of s
  end.
Lemma indent_nil d : indent [] d = [].
Proof. induction d; simpl; auto. Qed.
Lemma doc_raw i : forall d, doc [] [] d i = ([], plain i).
Proof.
  induction i as [ty a ks IH|ty v|ty v|t|lon lat alt|t] using item_ind2; intros d; cbn [doc plain]; rewrite ?indent_nil; try reflexivity.
  assert (Hm : forall d, map (doc [] [] d) ks = map (fun i => ([], plain i)) ks).
  { intros d'. clear - IH. induction IH as [|k ks Hk Hks IHks]; [reflexivity|]. cbn [map]. now rewrite Hk, IHks. }
  rewrite Hm. destruct ks as [|k ks]; [reflexivity|]. cbn [map fst snd app chars flat_map]. f_equal. f_equal. f_equal.
  rewrite app_nil_r. f_equal. clear. induction ks as [|k ks IH]; [reflexivity|]. cbn [map flat_map fst snd app]. now rewrite IH.
Qed.
Lemma content_raw d ks : content [] [] d ks = flat_map plain ks.
Proof.
  unfold content. destruct ks as [|k ks]; [reflexivity|]. cbn [map]. rewrite doc_raw, indent_nil. cbn [chars map app fst snd flat_map].
  rewrite app_nil_r. f_equal. clear. induction ks as [|k ks IH]; [reflexivity|]. cbn [map flat_map]. rewrite doc_raw. cbn [fst snd app]. now rewrite IH.
Qed.

(** Element structure: names and attributes, without character data. *)
Inductive etree := ENode (name : str) (atts : list (str * str)) (kids : list etree).
Fixpoint elems1 (x : xml) : list etree :=
  match x with
  | XElem n a ks => [ENode n a (flat_map elems1 ks)]
  | XChar _ => []
  end.
Definition elems (F : list xml) : list etree := flat_map elems1 F.
Lemma elems_app F G : elems (F ++ G) = elems F ++ elems G.
Proof. apply flat_map_app. Qed.
Lemma elems_chars s : elems (chars s) = [].
Proof. unfold elems, chars. induction s as [|c s IH]; [auto|]. cbn [map flat_map elems1 app]. auto. Qed.
Lemma doc_elems nl ind i : forall d, elems (fst (doc nl ind d i)) = [] /\ elems (snd (doc nl ind d i)) = elems (plain i).
Proof.
  induction i as [ty a ks IH|ty v|ty v|t|lon lat alt|t] using item_ind2; intros d; cbn [doc plain fst snd];
    rewrite ?elems_app, ?elems_chars; try (split; reflexivity).
  - split; [reflexivity|]. cbn [app].
    assert (Hfl : forall d l, Forall (fun i => forall d, elems (fst (doc nl ind d i)) = [] /\ elems (snd (doc nl ind d i)) = elems (plain i)) l ->
      elems (flat_map (fun p => fst p ++ snd p) (map (doc nl ind d) l)) = elems (flat_map plain l)).
    { clear. intros d l H. induction H as [|k l Hk Hl IH]; [reflexivity|]. cbn [map flat_map]. rewrite !elems_app, IH.
      destruct (Hk d) as [-> ->]. reflexivity. }
    destruct ks as [|k ks]; cbn [map].
    + unfold elems at 1. cbn [flat_map elems1]. fold (elems (chars nl)). now rewrite elems_chars.
    + inversion IH as [|? ? Hk Hks]; subst. rewrite elems_app. destruct (Hk (S d)) as [-> H2]. cbn [app].
      unfold elems at 1. cbn [flat_map elems1 app]. fold (elems (chars nl)). rewrite elems_chars.
      unfold elems at 1. cbn [flat_map elems1 app]. f_equal. f_equal. fold (elems (chars nl ++ snd (doc nl ind (S d) k) ++ flat_map (fun p => fst p ++ snd p) (map (doc nl ind (S d)) ks) ++ chars (indent ind d))).
      rewrite !elems_app, !elems_chars, H2, Hfl by auto. rewrite app_nil_r. reflexivity.
  - split; [reflexivity|]. cbn [app]. change (elems1 (XElem (tag_name ty) [] (chars v)) ++ elems (chars nl) = elems [XElem (tag_name ty) [] (chars v)]). now rewrite elems_chars.
  - split; [reflexivity|]. cbn [app]. change (elems1 (XElem (tag_name ty) [] (chars v)) ++ elems (chars nl) = elems [XElem (tag_name ty) [] (chars v)]). now rewrite elems_chars.
Qed.
Lemma content_elems nl ind d ks : elems (content nl ind d ks) = elems (flat_map plain ks).
Proof.
  unfold content. destruct ks as [|k ks]; [reflexivity|]. cbn [map flat_map]. rewrite !elems_app, !elems_chars.
  destruct (doc_elems nl ind k (S d)) as [_ ->]. cbn [app]. rewrite app_nil_r. f_equal.
  induction ks as [|k' ks IH]; [reflexivity|]. cbn [map flat_map]. rewrite !elems_app, IH.
  destruct (doc_elems nl ind k' (S d)) as [-> ->]. reflexivity.
Qed.

(** Witnesses for values that are not written correctly. *)
Definition name_item (v : str) : item := IElem Type_Placemark [] [IField Type_name v].
Definition reads_name (s : str) : option str :=
  match xml_tree s with
  | Some (XElem _ _ [XElem _ _ ks]) => Some (flat_map (fun x => match x with XChar c => [c] | _ => [] end) ks)
  | _ => None
  end.
Lemma value_cdata_end_wit : exists v s, forallb legal v = true /\ serialize_raw (name_item v) = Ok s /\ xml_tree s = None.
Proof. exists (S_ "a]]>b"). eexists. split; [reflexivity|]. split; [vm_compute; reflexivity|]. vm_compute. reflexivity. Qed.
Lemma value_cdata_amp_wit : exists v s, forallb legal v = true /\ serialize_raw (name_item v) = Ok s /\ xml_tree s = None.
Proof. exists (S_ "<![CDATA[a & b & c]]>"). eexists. split; [reflexivity|]. split; [vm_compute; reflexivity|]. vm_compute. reflexivity. Qed.
Lemma value_cdata_quote_wit : exists v s w, forallb legal v = true /\ serialize_raw (name_item v) = Ok s /\
  reads_name s = Some w /\ w <> v.
Proof.
  exists (S_ "<![CDATA[a ""b]]>"). eexists. eexists. split; [reflexivity|]. split; [vm_compute; reflexivity|].
  split; [vm_compute; reflexivity|]. vm_compute. discriminate.
Qed.
Lemma value_cr_wit : exists v s w, serialize_raw (name_item v) = Ok s /\ reads_name s = Some w /\ w <> v.
Proof.
  exists ["a"%char; "013"%char; "b"%char]. eexists. eexists. split; [vm_compute; reflexivity|].
  split; [vm_compute; reflexivity|]. vm_compute. discriminate.
Qed.
Lemma value_control_wit : exists v s, serialize_raw (name_item v) = Ok s /\ xml_tree s = None.
Proof. exists ["007"%char]. eexists. split; vm_compute; reflexivity. Qed.
(** Pretty printing changes the text of Snippet and SimpleData. *)
Definition snippet_item (t : str) : item := IElem Type_Placemark [] [IElem Type_Snippet [] [IContent t]].
Definition snippet_text (s : str) : option str :=
  match xml_tree s with
  | Some (XElem _ _ ks) =>
      match List.find (fun x => match x with XElem _ _ _ => true | _ => false end) ks with
      | Some (XElem _ _ ks') => Some (flat_map (fun x => match x with XChar c => [c] | _ => [] end) ks')
      | _ => None
      end
  | _ => None
  end.
Lemma snippet_pretty_wit : exists s, serialize_pretty (snippet_item (S_ "hi")) = Ok s /\
  snippet_text s = Some (["010"%char] ++ S_ "hi" ++ S_ "  ").
Proof. eexists. split; vm_compute; reflexivity. Qed.
Lemma snippet_pretty_all t : value_ok t = true -> exists s, serialize_pretty (snippet_item t) = Ok s /\
  snippet_text s = Some (["010"%char] ++ t ++ S_ "  ") /\ ["010"%char] ++ t ++ S_ "  " <> t.
Proof.
  intros Ht. destruct (serialize_reads ["010"%char] (S_ "  ") Type_Placemark [] [IElem Type_Snippet [] [IContent t]]) as (s & Hs & Hx).
  - reflexivity.
  - reflexivity.
  - cbn [readable forallb map nodupb]. rewrite Ht. reflexivity.
  - exists s. split; [exact Hs|]. unfold snippet_text. rewrite Hx. split.
    + assert (Hf : forall u, flat_map (fun x => match x with XChar c => [c] | _ => [] end) (chars u) = u)
        by (clear; unfold chars; induction u as [|c u IH]; [reflexivity|cbn [map flat_map app]; now rewrite IH]).
      transitivity (Some (flat_map (fun x => match x with XChar c => [c] | _ => [] end)
                      (chars ["010"%char] ++ chars t ++ chars (S_ "  ")))); [reflexivity|].
      now rewrite !flat_map_app, !Hf.
    + intros E. apply (f_equal (@length ascii)) in E. rewrite !app_length in E. simpl in E. lia.
Qed.

(** The writer only fails on unbalanced calls. *)
Lemma end_without_begin nl ind : step nl ind ser0 CEnd = UB.
Proof. reflexivity. Qed.
Lemma field_survives nl ind d ty v : forallb wsp nl = true -> forallb wsp ind = true ->
  valid_type ty = true -> value_ok v = true ->
  frag (snd (render nl ind d (IField ty v)))
    (map EChar (indent ind d) ++ [EStart (tag_name ty) []] ++ map EChar v ++ [EEnd (tag_name ty)] ++ map EChar nl).
Proof.
  intros Hnl Hind Ht Hv. destruct (render_frag nl ind (IField ty v) Hnl Hind (andb_true_intro (conj Ht Hv)) d) as [_ H].
  cbn [doc snd] in H. rewrite flat_map_app, chars_events in H. cbn [flat_map xevents] in H. rewrite !chars_events in H.
  rewrite <- app_comm_cons, <- app_assoc in H. exact H.
Qed.

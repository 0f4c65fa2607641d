(** Properties of the values of simple children: what an element keeps of the text it was given and writes again. *)
From Verif Require Import Common StrMap StringsModel StringsProofs StringsProps ColorModel ColorProofs ColorProps AttributesModel XsdTables XsdModel XsdProofs XsdProps XmlSpec XmlSpecProofs.
From Verif Require Import SerializerModel SerializerProofs CoordModel CoordProofs HandlerModel HandlerSpec HandlerProps.
From Verif Require Import DomTables DomModel DomSpec DomProofs DomProofs2 DomParsed DomVisit DomProps.
Local Open Scope N_scope.

(** C94. A boolean child is kept as 1 or 0: as 1 exactly if its text begins, after spaces, with true or 1. *)
Theorem boolean_child : forall E p ty prev s, exists v, norm E p FBool ty prev s = Ok (Some v) /\ (v = S_ "1" \/ v = S_ "0") /\
  (v = S_ "1" <-> exists ws t, forallb isspace ws = true /\ (s = ws ++ S_ "true" ++ t \/ s = ws ++ S_ "1" ++ t)).
Proof.
  intros E p ty prev s. cbn [norm]. eexists. split; [reflexivity|]. rewrite <- bool_text_accepts. destruct (from_string_bool s).
  - split; [left; reflexivity|]. split; reflexivity.
  - split; [right; reflexivity|]. split; discriminate.
Qed.
Print Assumptions boolean_child.
(** C94. A colour child is kept as the canonical text of the colour (C01, C02). *)
Theorem colour_child : forall E p ty prev s v, color_text_spec s = Some v ->
  (let s' := drop_while isspace s in
   let s' := match s' with x :: t => if aeq x "#"%char then t else s' | [] => s' end in
   (8 <= length s')%nat \/ s' = s) ->
  norm E p FColor ty prev s = Ok (Some (to_string_abgr v)).
Proof. intros E p ty prev s v Hs Hl. cbn [norm]. rewrite (color_parse_correct 0 s v) by (assumption || reflexivity). reflexivity. Qed.
Print Assumptions colour_child.
Example colour_child_sample : color_text_spec (S_ "#FF00aa12") = Some 4278233618 /\ norm E0 Type_LineStyle FColor Type_color None (S_ "#FF00aa12") = Ok (Some (S_ "ff00aa12")).
Proof. vm_compute. split; reflexivity. Qed.
(** C94. An enumeration child is kept exactly if its text is one of the values of the schema. *)
Theorem enum_child : forall E p ty prev s vals, enum_values ty = Some vals ->
  (In s vals -> norm E p FEnum ty prev s = Ok (Some s)) /\ (~ In s vals -> norm E p FEnum ty prev s = Ok None).
Proof.
  intros E p ty prev s vals Hv. cbn [norm]. unfold valid_enum. destruct (enum_accepted_text ty s) as [_ H]. split; intros Hi.
  - destruct (Z.eqb_spec (enum_id ty s) (-1)) as [e|_]; [|reflexivity]. exfalso. exact (proj1 H e vals Hv Hi).
  - destruct (Z.eqb_spec (enum_id ty s) (-1)) as [_|n]; [reflexivity|]. exfalso. apply n, (proj2 H). intros v Hv'. congruence.
Qed.
Print Assumptions enum_child.
(** C94. Of the states of an icon, words separated by single spaces, exactly those of the schema are kept, in order. *)
Definition is_state (w : str) : Prop := In w [S_ "open"; S_ "closed"; S_ "error"; S_ "fetching0"; S_ "fetching1"; S_ "fetching2"].
Lemma valid_state w : valid_enum Type_state w = true <-> is_state w.
Proof.
  unfold valid_enum. destruct (enum_accepted_text Type_state w) as [_ H]. rewrite negb_true_iff, Z.eqb_neq, H. unfold is_state. split.
  - intros G. destruct (in_dec (list_eq_dec ascii_dec) w [S_ "open"; S_ "closed"; S_ "error"; S_ "fetching0"; S_ "fetching1"; S_ "fetching2"]) as [Hi|Hi]; [exact Hi|].
    exfalso. apply G. intros vals Hv. vm_compute in Hv. injection Hv as <-. exact Hi.
  - intros Hi G. exact (G _ eq_refl Hi).
Qed.
Inductive states_of : list str -> list str -> Prop :=
| st_nil : states_of [] []
| st_keep w l k : is_state w -> states_of l k -> states_of (w :: l) (w :: k)
| st_drop w l k : ~ is_state w -> states_of l k -> states_of (w :: l) k.
Lemma join_same sep l : DomModel.join sep l = Common.join sep l.
Proof. induction l as [|x [|y l] IH]; [reflexivity|reflexivity|]. cbn [DomModel.join Common.join] in *. now rewrite IH. Qed.
Theorem states_child : forall E p ty prev ws, ws <> [] -> Forall (fun w => ~ In " "%char w) ws ->
  exists ks, states_of ws ks /\ norm E p FStates ty prev (Common.join [" "%char] ws) = Ok (Some (Common.join [" "%char] ks)).
Proof.
  intros E p ty prev ws Hn Hw. exists (filter (valid_enum Type_state) ws). split.
  - clear. induction ws as [|w l IH]; [constructor|]. cbn [filter]. destruct (valid_enum Type_state w) eqn:V.
    + constructor; [now apply valid_state|exact IH].
    + constructor; [|exact IH]. intros H. apply valid_state in H. congruence.
  - cbn [norm]. unfold states. change (S_ " ") with [" "%char]. rewrite (split_single_of_join " "%char ws Hn Hw). cbn [bind]. now rewrite join_same.
Qed.
Print Assumptions states_child.
Example states_child_sample : norm E0 Type_ItemIcon FStates Type_state None (S_ "open foo error") = Ok (Some (S_ "open error")).
Proof. vm_compute. reflexivity. Qed.
(** C94. Violated: words separated by other white space are all lost. *)
Theorem states_newline_refuted : norm E0 Type_ItemIcon FStates Type_state None (S_ "open" ++ ["010"%char] ++ S_ "error") = Ok (Some []).
Proof. vm_compute. reflexivity. Qed.
Print Assumptions states_newline_refuted.
(** C94. Marks of a CDATA section at the start of a link are taken off even if those at its end are missing; then the last three characters are
    lost, unless the rest is shorter than that. *)
Theorem link_open_marks : forall E p ty prev s t, length t = 3%nat -> norm E p FHref ty prev (S_ "<![CDATA[" ++ s ++ t) = Ok (Some s).
Proof.
  intros E p ty prev s t Ht. cbn [norm]. unfold inside_cdata. rewrite prefixb_app.
  rewrite !app_length, Ht. change (length (S_ "<![CDATA[")) with 9%nat.
  destruct (12 <=? 9 + (length s + 3))%nat eqn:El; [|apply Nat.leb_gt in El; lia].
  replace (9 + (length s + 3) - 12)%nat with (length s) by lia.
  change (skipn 9 (S_ "<![CDATA[" ++ s ++ t)) with (s ++ t). now rewrite firstn_app, firstn_all, Nat.sub_diag, firstn_O, app_nil_r.
Qed.
Print Assumptions link_open_marks.
Theorem link_short_marks : forall E p ty prev s, (length s < 3)%nat -> norm E p FHref ty prev (S_ "<![CDATA[" ++ s) = Ok (Some s).
Proof.
  intros E p ty prev s Hs. cbn [norm]. unfold inside_cdata. rewrite prefixb_app. rewrite app_length. change (length (S_ "<![CDATA[")) with 9%nat.
  destruct (12 <=? 9 + length s)%nat eqn:El; [apply Nat.leb_le in El; lia|]. reflexivity.
Qed.
Print Assumptions link_short_marks.
(** C94. Violated: an address that begins with such marks loses its end. *)
Theorem link_end_lost_refuted : norm E0 Type_Icon FHref Type_href None (S_ "<![CDATA[a]]>b.png") = Ok (Some (S_ "a]]>b.")).
Proof. vm_compute. reflexivity. Qed.
Print Assumptions link_end_lost_refuted.
(** C94. A text child is kept as it is. *)
Theorem text_child : forall E p ty prev s, norm E p FString ty prev s = Ok (Some s).
Proof. reflexivity. Qed.
Print Assumptions text_child.
(** C94. A number child is kept as the printed value of the number at its start, white space before it and anything after it is ignored; blank text
    keeps the value before, or the default. *)
Theorem number_child : forall E p ty prev ws n rest, forallb isspace ws = true -> n <> [] -> forallb numchar n = true ->
  match rest with c :: _ => numchar c = false | [] => True end -> norm E p FDouble ty prev (ws ++ n ++ rest) = Ok (Some (e_dbl E n)).
Proof.
  intros E p ty prev ws n rest Hw Hn Hc Hr. cbn [norm]. unfold from_string_double.
  assert (D : drop_while isspace (ws ++ n ++ rest) = n ++ rest).
  { induction ws as [|c ws IH]; cbn [app drop_while].
    - destruct n as [|c n]; [contradiction|]. cbn [app drop_while forallb] in *. apply andb_true_iff in Hc as [Hc _]. destruct (isspace c) eqn:Q; [|reflexivity].
      exfalso. revert Hc Q. clear. destruct c as [[] [] [] [] [] [] [] []]; vm_compute; discriminate.
    - cbn [forallb] in Hw. apply andb_true_iff in Hw as [-> Hw]. exact (IH Hw). }
  rewrite D. assert (T : take_while numchar (n ++ rest) = n).
  { clear - Hc Hr. induction n as [|c n IH]; cbn [app take_while forallb] in *.
    - destruct rest; [reflexivity|]. cbn [take_while]. now rewrite Hr.
    - apply andb_true_iff in Hc as [-> Hc]. now rewrite (IH Hc). }
  destruct (n ++ rest) eqn:Q; [apply app_eq_nil in Q as [-> _]; contradiction|]. now rewrite T.
Qed.
Print Assumptions number_child.
Theorem blank_number_child : forall E p ty prev ws, forallb isspace ws = true ->
  norm E p FDouble ty prev ws = Ok (Some (match prev with Some v => v | None => e_dflt E p ty end)).
Proof.
  intros E p ty prev ws Hw. cbn [norm]. unfold from_string_double. assert (D : drop_while isspace ws = []).
  { induction ws as [|c ws IH]; [reflexivity|]. cbn [drop_while forallb] in *. apply andb_true_iff in Hw as [-> Hw]. exact (IH Hw). }
  now rewrite D.
Qed.
Print Assumptions blank_number_child.
Example number_child_sample : norm E0 Type_LookAt FDouble Type_range None (S_ "  1.5 m") = Ok (Some (S_ "1.5")).
Proof. vm_compute. reflexivity. Qed.

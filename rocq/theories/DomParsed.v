(** Elements that come from the parser: what always holds of them ([wf]) and what remains to be asked for a
    round trip ([intact]). *)
From Verif Require Import Common StrMap StringsModel StringsProofs ColorModel ColorProofs AttributesModel AttributesProofs XsdTables XsdModel XsdProofs XmlSpec XmlSpecProofs.
From Verif Require Import SerializerModel SerializerProofs CoordModel CoordProofs HandlerModel HandlerSpec HandlerProofs HandlerProofs2 HandlerProofs3 HandlerProps.
From Verif Require Import DomTables DomModel DomSpec DomProofs DomProofs2.
Local Open Scope N_scope.

(** Printed numbers are numbers and print as themselves once they are read (true of IEEE doubles printed
    with 15 digits and read correctly rounded, and of ints: numbers_are_stable in NumberDomProps.v). *)
Record numbers_stable (E : env) : Prop := {
  ns_dbl : forall t, number (e_dbl E t) = true /\ e_dbl E (e_dbl E t) = e_dbl E t /\ (length (e_dbl E t) <= 100)%nat;
  ns_int : forall s v, e_int E s = Some v -> e_int E v = Some v;
  ns_dflt : forall p ty, exists t, e_dflt E p ty = e_dbl E t;
  ns_idflt : forall p ty, e_int E (e_idflt E p ty) = Some (e_idflt E p ty);
  ns_adflt : forall p k, exists t, e_adflt E p k = e_dbl E t;
  ns_aidflt : forall p k, e_int E (e_aidflt E p k) = Some (e_aidflt E p k) }.

(** Kinds of values for which reading what was written always gives the same value. *)
Definition auto_kind (f : fkind) : bool := match f with FHref => false | _ => true end.
Section Wf.
  Variable E : env.
  Definition attrs_same (ty : N) (o : obj) : bool :=
    let o' := parse_attributes E (create ty) (out_attributes o) in attrs_eqb (oka o') (oka o) && ea_eqb (oea o') (oea o).
  Definition values_wf (p : N) (f : fkind) (l : list obj) : bool :=
    forallb (fun c => is_simple (oty c) && (negb (auto_kind f) || reads_same E p f (oty c) (char_data c))) l.
  Definition slot_wf (p : N) (i : nat) (s : slot) (l : list obj) : bool :=
    forallb (fun c => match find_slot (oty c) (c_slots (cls p)) 0 with Some (j, _) => (j =? i)%nat | None => false end) l &&
    match s_kind s with
    | KField f => (length l <=? 1)%nat && values_wf p f l
    | KFields f => values_wf p f l
    | KChild => (length l <=? 1)%nat
    | KChildren => true
    end.
  Fixpoint slots_wf (p : N) (i : nat) (ss : list slot) (sl : list (list obj)) : bool :=
    match ss, sl with
    | [], [] => true
    | s :: ss', l :: sl' => slot_wf p i s l && slots_wf p (S i) ss' sl'
    | _, _ => false
    end.
  Definition printed (s : str) : bool := eqs (e_dbl E s) s && number s && (length s <=? 100)%nat.
  Definition printed3 (v : str * str * str) : bool := let '(a, b, c) := v in printed a && printed b && printed c.
  (** Structure of an element that was read. *)
  Fixpoint wf (o : obj) : bool :=
    let 'Obj ty ka ea tx vec sl mis unk := o in
    if is_simple ty then
      match tx with Some _ => true | None => false end && nilb ka && ea_eqb ea no_attrs && nilb vec && nilb sl && forallb wf mis
    else
      creatable ty && attrs_same ty o &&
      (if ty =? Type_coordinates then nilb mis && opt_str_eqb tx None && forallb printed3 vec
       else nilb vec && (if no_own_text ty then opt_str_eqb tx None else true) && (if snippet_type ty then nilb mis else true)) &&
      slots_wf ty 0 (c_slots (cls ty)) sl &&
      forallb (fun c => match find_slot (oty c) (c_slots (cls ty)) 0 with None => true | Some _ => false end &&
                        negb ((ty =? Type_SimpleData) && (oty c =? Type_SimpleData))) mis &&
      forallb (forallb wf) sl && forallb wf mis.

  Variables nl ind : str.
  Definition href_values (p : N) (s : slot) (l : list obj) : bool :=
    match s_kind s with
    | KField f | KFields f => auto_kind f || forallb (fun c => reads_same E p f (oty c) (char_data c)) l
    | _ => true
    end.
  (** What else is needed: the name leads to the same class; nothing but text in simple elements and
      coordinates; own text is read as written; no value of a link starts with a CDATA mark; no value that is
      not written (the name of an xal:Locality); unknown markup is read as written. *)
  Fixpoint intact (d : nat) (p : N) (o : obj) : bool :=
    let 'Obj ty ka ea tx vec sl mis unk := o in
    match known_type p (tag_name ty) with Some t => t =? ty | None => false end &&
    if is_simple ty then nilb mis && nilb unk
    else if ty =? Type_coordinates then
      ea_eqb ea no_attrs && nilb unk && same_tuples E (coordinates_parse (inner_text nl ind d (map vec_item vec))) vec
    else
      (if no_own_text ty then true else opt_str_eqb tx (Some (inner_text nl ind d (item_kids (ser o))))) &&
      forallb (fun p' => href_values ty (fst p') (snd p')) (combine (c_slots (cls ty)) sl) &&
      forallb (fun kl => match kl with
                         | (k, []) => true
                         | (k, _) => existsb (N.eqb k) (c_ser (cls ty))
                         end) (combine (keys (c_slots (cls ty))) sl) &&
      forallb (unknown_same ty) unk &&
      forallb (forallb (intact (S d) ty)) sl && forallb (intact (S d) ty) mis.

  Lemma slots_wf_fit p ss : forall i sl, slots_wf p i ss sl = true ->
    forallb (fun p' => href_values p (fst p') (snd p')) (combine ss sl) = true -> slots_fit E p i ss sl = true.
  Proof.
    induction ss as [|s ss IH]; intros i [|l sl] H Hh; cbn [slots_wf slots_fit] in *; try discriminate; auto.
    cbn [combine forallb fst snd] in Hh. apply andb_true_iff in Hh as [Hh Hhs]. apply andb_true_iff in H as [H Hs].
    rewrite (IH (S i) sl Hs Hhs), andb_true_r. unfold slot_wf in H. unfold slot_fits. apply andb_true_iff in H as [H1 H2].
    rewrite H1. cbn [andb]. unfold href_values in Hh.
    assert (Hv : forall f, values_wf p f l = true -> auto_kind f || forallb (fun c => reads_same E p f (oty c) (char_data c)) l = true ->
      forallb (fun c => is_simple (oty c) && reads_same E p f (oty c) (char_data c)) l = true).
    { intros f Ha Hb. apply forallb_forall. intros c Hc. unfold values_wf in Ha. rewrite forallb_forall in Ha. specialize (Ha c Hc).
      apply andb_true_iff in Ha as [Ha1 Ha2]. rewrite Ha1. cbn [andb]. destruct (auto_kind f); cbn [negb orb] in *; auto.
      rewrite forallb_forall in Hb. auto. }
    destruct (s_kind s) as [f|f| |]; auto. apply andb_true_iff in H2 as [H2 H3]. now rewrite H2, Hv.
  Qed.
  Lemma wf_intact_keeps o : forall d p, wf o = true -> intact d p o = true -> keeps E nl ind d p o = true.
  Proof.
    induction o as [ty ka ea tx vec sl mis unk IHsl IHmis] using obj_ind2. intros d p Hw Hi. cbn [wf intact keeps] in *.
    apply andb_true_iff in Hi as [Hn Hi]. rewrite Hn. cbn [andb]. destruct (is_simple ty) eqn:Es.
    { apply andb_true_iff in Hi as [H1 H2]. apply andb_true_iff in Hw as [Hw _]. now rewrite Hw, H1, H2. }
    rewrite !andb_true_iff in Hw. destruct Hw as ((((((Hc & Ha) & Hx) & Hs) & Hm) & Hws) & Hwm).
    destruct (ty =? Type_coordinates) eqn:Ec.
    { rewrite !andb_true_iff in Hi. destruct Hi as ((He & Hu) & Ht). rewrite !andb_true_iff in Hx. destruct Hx as ((Hx1 & Hx2) & _).
      apply N.eqb_eq in Ec. subst ty. rewrite Hx1, Hx2, He, Hu, Ht. unfold attrs_same in Ha. apply andb_true_iff in Ha as [Ha _].
      destruct sl; [|exfalso; revert Hs; vm_compute; congruence]. cbn [nilb].
      assert (nilb ka = true) as ->; [|reflexivity]. revert Ha. unfold parse_attributes. change (c_atts (cls (oty (create Type_coordinates)))) with (@nil (str * akind)).
      cbn [cut_known oty create oka set_ea set_ka]. destruct ka; [auto|]. cbn. discriminate. }
    rewrite !andb_true_iff in Hx. destruct Hx as ((Hx1 & Hx2) & Hx3).
    rewrite !andb_true_iff in Hi. destruct Hi as (((((Ht & Hh) & Hall) & Hu) & His) & Him).
    rewrite Hx1, Hx3, Hc, Hall, Hm, Hu, (slots_wf_fit _ _ _ _ Hs Hh).
    unfold attrs_same in Ha. cbn [oka oea] in Ha. cbv zeta in Ha. rewrite Ha. cbn [andb].
    assert ((if no_own_text ty then opt_str_eqb tx None else opt_str_eqb tx (Some (inner_text nl ind d (item_kids (ser (Obj ty ka ea tx vec sl mis unk)))))) = true) as ->.
    { destruct (no_own_text ty); auto. }
    cbn [andb]. apply andb_true_iff. split.
    - apply forallb_forall. intros l Hl. apply forallb_forall. intros c Hcl. rewrite Forall_forall in IHsl. specialize (IHsl l Hl).
      rewrite Forall_forall in IHsl. apply IHsl; auto.
      + rewrite forallb_forall in Hws. specialize (Hws l Hl). rewrite forallb_forall in Hws. auto.
      + rewrite forallb_forall in His. specialize (His l Hl). rewrite forallb_forall in His. auto.
    - apply forallb_forall. intros c Hcm. rewrite Forall_forall in IHmis. apply IHmis; auto.
      + rewrite forallb_forall in Hwm. auto.
      + rewrite forallb_forall in Him. auto.
  Qed.
End Wf.

(** * Values *)
Section Values.
  Variable E : env.
  Hypothesis HE : numbers_stable E.
  Lemma dbl_stable t : from_string_double (e_dbl E t) = Some (e_dbl E t) /\ e_dbl E (e_dbl E t) = e_dbl E t.
  Proof. destruct (ns_dbl E HE t) as (H1 & H2 & H3). split; auto. now apply number_gx. Qed.
  Lemma digit_step_bound out c : digit_step out c < 2 ^ 32.
  Proof.
    unfold digit_step, ColorModel.u32. change (2 ^ 32) with 4294967296.
    repeat match goal with |- context [if ?b then _ else _] => destruct b end; apply N.mod_lt; discriminate.
  Qed.
  Lemma digit_loop_bound s i n out v : out < 2 ^ 32 -> digit_loop s i n out = Ok v -> v < 2 ^ 32.
  Proof.
    revert i out. induction n as [|n IH]; intros i out Ho; cbn [digit_loop].
    - intros H. inversion H. now subst.
    - destruct (at_ s i); cbn [bind]; try discriminate. apply IH. apply digit_step_bound.
  Qed.
  Lemma set_color_bound c s v : c < 2 ^ 32 -> set_color_abgr_str c s = Ok v -> v < 2 ^ 32.
  Proof.
    intros Hc. unfold set_color_abgr_str. match goal with |- context [bind ?x _] => destruct x; cbn [bind]; try discriminate end.
    match goal with |- context [bind ?x _] => destruct x as [out| | |] eqn:El; cbn [bind]; try discriminate end.
    apply digit_loop_bound in El; [|reflexivity]. intros H. rewrite (assemble c out Hc El) in H. inversion H. now subst.
  Qed.
  Lemma valid_state_chars s : valid_enum Type_state s = true -> ~ In " "%char s /\ s <> [].
  Proof.
    unfold valid_enum. rewrite negb_true_iff, Z.eqb_neq. rewrite enum_id_unfold.
    destruct (enum_values Type_state) as [vals|] eqn:Ev; [|congruence].
    destruct (index_of s vals 0) as [z|] eqn:Ei; [|congruence]. intros _. apply index_of_some in Ei as [_ Ei]. apply nth_error_In in Ei.
    assert (Hall : forallb (fun v => negb (existsb (fun c => aeq c " "%char) v) && negb (nilb v)) vals = true).
    { revert Ev. vm_compute. intros Ev. inversion Ev. reflexivity. }
    rewrite forallb_forall in Hall. specialize (Hall s Ei). apply andb_true_iff in Hall as [H1 H2]. rewrite negb_true_iff in *.
    split; [|intros ->; discriminate]. intros Hin. assert (existsb (fun c => aeq c " "%char) s = true); [|congruence].
    apply existsb_exists. exists " "%char. split; auto.
  Qed.
  Lemma join_eq sep l : DomModel.join sep l = Common.join sep l.
  Proof. reflexivity. Qed.
  Lemma states_stable s v : states s = Ok v -> states v = Ok v.
  Proof.
    unfold states. change (S_ " ") with [" "%char]. rewrite split_string_ok. cbn [bind]. intros H. inversion H; clear H.
    set (ts := filter (valid_enum Type_state) (split_spec " "%char s)).
    assert (Ht : forall t, In t ts -> valid_enum Type_state t = true) by (intros t Hi; apply filter_In in Hi; tauto).
    rewrite split_string_ok. cbn [bind]. f_equal. clearbody ts. rewrite !join_eq. destruct ts as [|t ts].
    { vm_compute. reflexivity. }
    rewrite split_of_join; [|discriminate|].
    - assert (Hf : forall l, (forall x, In x l -> valid_enum Type_state x = true) -> filter (valid_enum Type_state) l = l).
      { induction l as [|x l IH]; intros Hx; [reflexivity|]. cbn [filter]. rewrite Hx by now left. f_equal. apply IH. intros y Hy. apply Hx. now right. }
      rewrite Hf by exact Ht. reflexivity.
    - apply Forall_forall. intros x Hx. now apply valid_state_chars, Ht.
  Qed.
  Lemma num_or_zero_printed o : exists t, num_or_zero E o = e_dbl E t.
  Proof. destruct o; cbn [num_or_zero]; eauto. Qed.
  Lemma gx_stable s v : gx_value E s = Ok v -> gx_value E v = Ok v.
  Proof.
    unfold gx_value. destruct (gx_parse s) as [g| | |]; cbn [bind]; try discriminate. intros H. inversion H; clear H.
    destruct (num_or_zero_printed (g_lon g)) as [a ->], (num_or_zero_printed (g_lat g)) as [b ->], (num_or_zero_printed (g_alt g)) as [c ->].
    rewrite gx_round_trip by apply (ns_dbl E HE). cbn [bind num_or_zero g_lon g_lat g_alt].
    now rewrite (proj2 (dbl_stable a)), (proj2 (dbl_stable b)), (proj2 (dbl_stable c)).
  Qed.
  (** The value kept before, if any, is a printed one. *)
  Definition prev_ok (p : N) (f : fkind) (ty : N) (prev : option str) : Prop :=
    auto_kind f = true -> forall v, prev = Some v -> norm E p f ty None v = Ok (Some v).
  Lemma norm_stable p f ty prev s v : auto_kind f = true -> prev_ok p f ty prev -> norm E p f ty prev s = Ok (Some v) ->
    norm E p f ty None v = Ok (Some v).
  Proof.
    intros Ha Hp H. destruct f; try discriminate; cbn [norm] in *.
    - inversion H; subst. reflexivity.
    - inversion H. now destruct (from_string_bool s).
    - destruct (from_string_double s) as [t|].
      + inversion H; subst. rewrite (proj1 (dbl_stable t)), (proj2 (dbl_stable t)). reflexivity.
      + destruct prev as [w|].
        * inversion H; subst. exact (Hp eq_refl v eq_refl).
        * inversion H; subst. destruct (ns_dflt E HE p ty) as [t ->]. rewrite (proj1 (dbl_stable t)), (proj2 (dbl_stable t)). reflexivity.
    - destruct (e_int E s) as [t|] eqn:Et.
      + inversion H; subst. now rewrite (ns_int E HE s v Et).
      + destruct prev as [w|].
        * inversion H; subst. exact (Hp eq_refl v eq_refl).
        * inversion H; subst. now rewrite (ns_idflt E HE p ty).
    - destruct (valid_enum ty s) eqn:Ev; inversion H; subst. now rewrite Ev.
    - destruct (set_color_abgr_str 0 s) as [c| | |] eqn:Ecol; cbn [bind] in H; try discriminate. inversion H; subst.
      apply set_color_bound in Ecol; [|reflexivity]. rewrite color_round_trip; [reflexivity|reflexivity|exact Ecol].
    - destruct (states s) as [w| | |] eqn:Ew; cbn [bind] in H; try discriminate. inversion H; subst. now rewrite (states_stable s v Ew).
    - destruct (gx_value E s) as [w| | |] eqn:Ew; cbn [bind] in H; try discriminate. inversion H; subst. now rewrite (gx_stable s v Ew).
  Qed.
  Lemma norm_att_stable ty k kd s v : norm_att E ty k kd s = Some v -> norm_att E ty k kd v = Some v.
  Proof.
    destruct kd; cbn [norm_att]; intros H.
    - inversion H; now subst.
    - destruct (e_int E s) as [t|] eqn:Et; inversion H; subst; [now rewrite (ns_int E HE s v Et)|]. now rewrite (ns_aidflt E HE ty k).
    - destruct (from_string_double s) as [t|]; inversion H; subst.
      + rewrite (proj1 (dbl_stable t)), (proj2 (dbl_stable t)). reflexivity.
      + destruct (ns_adflt E HE ty k) as [t ->]. rewrite (proj1 (dbl_stable t)), (proj2 (dbl_stable t)). reflexivity.
    - destruct (valid_enum ty0 s) eqn:Ev; inversion H; subst. now rewrite Ev.
  Qed.
End Values.

(** * Attributes *)
Section Atts.
  Variable E : env.
  Hypothesis HE : numbers_stable E.
  Fixpoint att_kind (ks : list (str * akind)) (k : str) : option akind :=
    match ks with [] => None | (k', kd) :: r => if eqs k k' then Some kd else att_kind r k end.
  Definition kept (ty : N) (ks : list (str * akind)) (a : attrs) (k : str) : option str :=
    match att_kind ks k, view a k with Some kd, Some s => norm_att E ty k kd s | _, _ => None end.
  Lemma cut_known_spec ty ks : forall a ka, msorted a -> msorted ka ->
    msorted (fst (cut_known E ty ks a ka)) /\ msorted (snd (cut_known E ty ks a ka)) /\
    (forall k, view (fst (cut_known E ty ks a ka)) k = match att_kind ks k with Some _ => None | None => view a k end) /\
    (forall k, view (snd (cut_known E ty ks a ka)) k = match kept ty ks a k with Some v => Some v | None => view ka k end).
  Proof.
    induction ks as [|[k0 kd] ks IH]; intros a ka Ha Hk; cbn [cut_known].
    { cbn [fst snd]. repeat split; auto. }
    pose proof (cut_value_view k0 a) as (V1 & V2 & V3). pose proof (cut_value_sorted k0 a Ha) as Hs.
    destruct (cut_value k0 a) as [v a']. cbn [fst snd] in *. subst v.
    set (ka' := match view a k0 with Some s => match norm_att E ty k0 kd s with Some w => mset k0 w ka | None => ka end | None => ka end).
    assert (Hka' : msorted ka').
    { unfold ka'. destruct (view a k0); auto. destruct (norm_att E ty k0 kd s); auto. now apply mset_sorted. }
    assert (Hvk : forall k, view ka' k = if eqs k k0 then match view a k0 with Some s => match norm_att E ty k0 kd s with Some w => Some w | None => view ka k end | None => view ka k end else view ka k).
    { intros k. unfold ka'. destruct (view a k0) as [s|]; [|now destruct (eqs k k0)].
      destruct (norm_att E ty k0 kd s) as [w|]; [|now destruct (eqs k k0)].
      unfold view, find_value. rewrite mget_mset by auto. reflexivity. }
    destruct (IH a' ka' Hs Hka') as (I1 & I2 & I3 & I4). split; [exact I1|]. split; [exact I2|]. split.
    - intros k. rewrite I3. cbn [att_kind]. destruct (eqs k k0) eqn:Ek.
      + apply eqs_spec in Ek. subst k. destruct (att_kind ks k0); auto.
      + destruct (att_kind ks k); auto. apply V3. intros ->. rewrite eqs_refl in Ek. discriminate.
    - intros k. rewrite I4, Hvk. unfold kept. cbn [att_kind]. destruct (eqs k k0) eqn:Ek.
      + apply eqs_spec in Ek. subst k. rewrite V1. destruct (att_kind ks k0); destruct (view a k0); auto; destruct (norm_att E ty k0 kd s); auto.
      + rewrite V3; [reflexivity|]. intros ->. rewrite eqs_refl in Ek. discriminate.
  Qed.
  Lemma parse_attributes_create ty a : parse_attributes E (create ty) a =
    set_ea (set_ka (create ty) (snd (cut_known E ty (c_atts (cls ty)) a []))) (add_unknown_attributes no_attrs (fst (cut_known E ty (c_atts (cls ty)) a []))).
  Proof. unfold parse_attributes. cbn [oty create oka oea]. destruct (cut_known E ty (c_atts (cls ty)) a []) as [x y]. reflexivity. Qed.
  Lemma ea_eqb_refl x : ea_eqb x x = true.
  Proof. unfold ea_eqb. assert (H : forall y, opt_attrs_eqb y y = true) by (intros [y|]; cbn; auto using attrs_eqb_refl). now rewrite !H. Qed.
  Lemma parse_attrs_same ty a : msorted a -> view a (S_ "xmlns:xmlns") = None -> attrs_same E ty (parse_attributes E (create ty) a) = true.
  Proof.
    intros Ha Hx. unfold attrs_same.
    destruct (cut_known_spec ty (c_atts (cls ty)) a [] Ha msorted_nil) as (C1 & C2 & C3 & C4). rewrite (parse_attributes_create ty a).
    set (r := fst (cut_known E ty (c_atts (cls ty)) a [])) in *. set (k := snd (cut_known E ty (c_atts (cls ty)) a [])) in *.
    assert (Hr : serialize_attributes (add_unknown_attributes no_attrs r) [] = r).
    { apply attrs_survive; auto. rewrite C3. now destruct (att_kind (c_atts (cls ty)) (S_ "xmlns:xmlns")). }
    assert (Ho : out_attributes (set_ea (set_ka (create ty) k) (add_unknown_attributes no_attrs r)) = merge_attributes r k).
    { unfold out_attributes, create. cbn [set_ea set_ka oea oka]. now rewrite Hr. }
    rewrite Ho, parse_attributes_create. set (m := merge_attributes r k).
    assert (Hm : msorted m) by now apply merge_sorted.
    destruct (cut_known_spec ty (c_atts (cls ty)) m [] Hm msorted_nil) as (D1 & D2 & D3 & D4).
    assert (Vm : forall x, view m x = match view k x with Some v => Some v | None => view r x end) by (intros x; now apply merge_view).
    assert (R : fst (cut_known E ty (c_atts (cls ty)) m []) = r).
    { apply msorted_ext; auto. intros x. change (view (fst (cut_known E ty (c_atts (cls ty)) m [])) x = view r x).
      rewrite D3, C3. destruct (att_kind (c_atts (cls ty)) x) eqn:Ek; auto. rewrite Vm, C4, C3. unfold kept. rewrite Ek. reflexivity. }
    assert (K : snd (cut_known E ty (c_atts (cls ty)) m []) = k).
    { apply msorted_ext; auto. intros x. change (view (snd (cut_known E ty (c_atts (cls ty)) m [])) x = view k x).
      rewrite D4. unfold kept. destruct (att_kind (c_atts (cls ty)) x) as [kd|] eqn:Ek.
      - rewrite Vm. destruct (view k x) as [v|] eqn:Ev.
        + rewrite C4 in Ev. unfold kept in Ev. rewrite Ek in Ev. destruct (view a x) as [s|]; [|discriminate].
          destruct (norm_att E ty x kd s) eqn:En; inversion Ev; subst. now rewrite (norm_att_stable E HE _ _ _ _ _ En).
        + rewrite C3, Ek. reflexivity.
      - rewrite C4. unfold kept. rewrite Ek. reflexivity. }
    rewrite R, K. cbn [set_ea set_ka create oka oea]. now rewrite attrs_eqb_refl, ea_eqb_refl.
  Qed.
End Atts.

(** * Parsed elements *)
Lemma slots_wf_length E p ss : forall i sl, slots_wf E p i ss sl = true -> length ss = length sl.
Proof. induction ss as [|s ss IH]; intros i [|l sl] H; cbn [slots_wf] in H; try discriminate; auto. apply andb_true_iff in H as [_ H]. cbn [length]. f_equal. eauto. Qed.
Lemma slots_wf_nth E p ss : forall i sl j s, slots_wf E p i ss sl = true -> nth_error ss j = Some s -> slot_wf E p (i + j) s (nth j sl []) = true.
Proof.
  induction ss as [|s0 ss IH]; intros i [|l sl] j s H Hn; cbn [slots_wf] in H; try discriminate; [now destruct j|].
  apply andb_true_iff in H as [H1 H2]. destruct j as [|j]; cbn [nth_error nth] in *.
  - inversion Hn; subst. now rewrite Nat.add_0_r.
  - replace (i + S j)%nat with (S i + j)%nat by lia. eauto.
Qed.
Lemma slots_wf_update E p ss : forall i sl j s v, slots_wf E p i ss sl = true -> nth_error ss j = Some s -> slot_wf E p (i + j) s v = true ->
  slots_wf E p i ss (update j v sl) = true.
Proof.
  induction ss as [|s0 ss IH]; intros i [|l sl] j s v H Hn Hv; cbn [slots_wf] in H; try discriminate; [now destruct j|].
  apply andb_true_iff in H as [H1 H2]. destruct j as [|j]; cbn [nth_error update slots_wf] in *.
  - inversion Hn; subst. rewrite Nat.add_0_r in Hv. now rewrite Hv, H2.
  - rewrite H1. cbn [andb]. apply (IH (S i) sl j s v H2 Hn). now replace (S i + j)%nat with (i + S j)%nat by lia.
Qed.
Lemma update_forallb (f : list obj -> bool) j v sl : forallb f sl = true -> f v = true -> forallb f (update j v sl) = true.
Proof.
  revert j. induction sl as [|l sl IH]; intros j H Hv; [now destruct j|]. cbn [forallb] in H. apply andb_true_iff in H as [H1 H2].
  destruct j; cbn [update forallb]; [now rewrite Hv, H2|]. rewrite H1. cbn [andb]. auto.
Qed.
Lemma create_slots_wf E ty : slots_wf E ty 0 (c_slots (cls ty)) (map (fun _ => []) (c_slots (cls ty))) = true.
Proof.
  generalize 0%nat. induction (c_slots (cls ty)) as [|s ss IH]; intros i; [reflexivity|]. cbn [map slots_wf]. rewrite IH, andb_true_r.
  unfold slot_wf. cbn [forallb andb]. now destruct (s_kind s).
Qed.

(** Value slots accept simple elements of one type. *)
Definition field_slot_ok (s : slot) : bool :=
  match s_kind s with
  | KField _ | KFields _ => match s_tests s with [TType t] => is_simple t | _ => false end
  | _ => true
  end.
Lemma field_slots ty : forallb field_slot_ok (c_slots (cls ty)) = true.
Proof. apply (class_forall (fun c => forallb field_slot_ok (c_slots c))); vm_compute; reflexivity. Qed.
Lemma field_slot_simple ty i s t : find_slot t (c_slots (cls ty)) 0 = Some (i, s) -> (exists f, s_kind s = KField f \/ s_kind s = KFields f) ->
  is_simple t = true /\ s_tests s = [TType t].
Proof.
  intros Hf (f & Hk). pose proof (field_slots ty) as H. rewrite forallb_forall in H.
  assert (Ht : takes t s = true).
  { revert Hf. generalize 0%nat. induction (c_slots (cls ty)) as [|s' ss IH]; intros j; cbn [find_slot]; [discriminate|].
    destruct (takes t s') eqn:E; [|apply IH; intros x Hx; apply H; now right]. intros Hf. inversion Hf. now subst. }
  apply find_slot_spec in Hf as [_ Hf]. apply nth_error_In in Hf. specialize (H s Hf). unfold field_slot_ok in H.
  assert (Hc : match s_tests s with [TType t] => is_simple t | _ => false end = true) by (destruct Hk as [Hk|Hk]; rewrite Hk in H; exact H).
  unfold takes in Ht. destruct (s_tests s) as [|[t'|t'] [|]]; try discriminate. cbn [existsb accepts] in Ht. rewrite orb_false_r in Ht.
  apply N.eqb_eq in Ht. now subst.
Qed.
Lemma find_slot_other ss i t : forall j s, find_slot t ss i = Some (j, s) -> s_tests s = [TType t] ->
  forall t', find_slot t' ss i = Some (j, s) -> t' = t.
Proof.
  revert i. induction ss as [|s0 ss IH]; intros i j s H Hs t' H'; cbn [find_slot] in *; [discriminate|].
  destruct (takes t s0) eqn:E1.
  - inversion H; subst. destruct (takes t' s) eqn:E2.
    + unfold takes in E2. rewrite Hs in E2. cbn in E2. rewrite orb_false_r in E2. now apply N.eqb_eq in E2.
    + apply find_slot_spec in H' as [H' _]. lia.
  - destruct (takes t' s0) eqn:E2.
    + inversion H'; subst. apply find_slot_spec in H as [H _]. lia.
    + eauto.
Qed.

Section Built.
  Variable E : env.
  Hypothesis HE : numbers_stable E.
  Lemma reads_same_eq p f ty v : reads_same E p f ty v = true <-> norm E p f ty None v = Ok (Some v).
  Proof.
    unfold reads_same. split.
    - destruct (norm E p f ty None v) as [[w|]| | |]; try discriminate. intros H. apply eqs_spec in H. now subst.
    - intros ->. apply eqs_refl.
  Qed.
  Lemma printed_dbl t : printed E (e_dbl E t) = true.
  Proof. unfold printed. destruct (ns_dbl E HE t) as (H1 & H2 & H3). rewrite H1, H2, eqs_refl. cbn [andb]. now apply Nat.leb_le. Qed.
  Lemma vec_text_printed v : printed3 E (vec_text E v) = true.
  Proof.
    unfold vec_text, printed3. rewrite printed_dbl. destruct (num_or_zero_printed E (v_lat v)) as [a ->], (num_or_zero_printed E (v_alt v)) as [b ->].
    now rewrite !printed_dbl.
  Qed.
  Lemma field_wf ty v : is_simple ty = true -> wf E (field ty v) = true.
  Proof. intros H. cbn [wf field]. rewrite H. reflexivity. Qed.
  Lemma slot_step p i s c cur v : wf E c = true ->
    find_slot (oty c) (c_slots (cls p)) 0 = Some (i, s) -> slot_wf E p i s cur = true -> forallb (wf E) cur = true ->
    match s_kind s with
    | KField f => do w <- norm E p f (oty c) (match cur with v :: _ => otext v | [] => None end) (char_data c);
                  Ok (match w with Some v => [field (oty c) v] | None => [] end)
    | KFields f => do w <- norm E p f (oty c) None (char_data c); Ok (cur ++ match w with Some v => [field (oty c) v] | None => [] end)
    | KChild => Ok [c]
    | KChildren => Ok (cur ++ [c])
    end = Ok v -> slot_wf E p i s v = true /\ forallb (wf E) v = true.
  Proof.
    intros Hc Hf Hs Hw Hv. unfold slot_wf in *. apply andb_true_iff in Hs as [Hr Hs].
    assert (Hroute : forall t, oty t = oty c -> match find_slot (oty t) (c_slots (cls p)) 0 with Some (j, _) => (j =? i)%nat | None => false end = true).
    { intros t ->. rewrite Hf. apply Nat.eqb_refl. }
    assert (Hval : forall f prev w, prev_ok E p f (oty c) prev -> norm E p f (oty c) prev (char_data c) = Ok (Some w) ->
      negb (auto_kind f) || reads_same E p f (oty c) w = true).
    { intros f prev w Hp Hn. destruct (auto_kind f) eqn:Ea; [|reflexivity]. cbn [negb orb]. apply reads_same_eq. eapply norm_stable; eauto. }
    destruct (s_kind s) as [f|f| |] eqn:Ek.
    - assert (Hsim : is_simple (oty c) = true) by (eapply field_slot_simple; eauto).
      assert (Hp : prev_ok E p f (oty c) (match cur with v :: _ => otext v | [] => None end)).
      { intros Ea w Hw'. destruct cur as [|x cur]; [discriminate|]. cbn [forallb] in Hr, Hw. apply andb_true_iff in Hs as [_ Hs].
        unfold values_wf in Hs. cbn [forallb] in Hs. rewrite !andb_true_iff in Hs. destruct Hs as ((Hx1 & Hx2) & _).
        assert (oty x = oty c) as Hx.
        { apply andb_true_iff in Hr as [Hr _]. destruct (find_slot (oty x) (c_slots (cls p)) 0) as [[j s']|] eqn:Ex; [|discriminate].
          apply Nat.eqb_eq in Hr. subst j. destruct (field_slot_simple p i s (oty c) Hf) as [_ Ht]; [eauto|].
          apply (find_slot_other (c_slots (cls p)) 0 (oty c) i s Hf Ht). rewrite Ex. f_equal. f_equal.
          apply find_slot_spec in Ex as [_ Ex]. apply find_slot_spec in Hf as [_ Hf]. congruence. }
        rewrite Hx in Hx2. unfold char_data in Hx2. rewrite Hw' in Hx2. rewrite Ea in Hx2. now apply reads_same_eq. }
      destruct (norm E p f (oty c) _ (char_data c)) as [w| | |] eqn:En; cbn [bind] in Hv; try discriminate. inversion Hv; subst v; clear Hv.
      destruct w as [w|]; cbn [forallb length Nat.leb values_wf]; [|auto]. rewrite (Hroute (field (oty c) w)) by reflexivity.
      rewrite (field_wf _ w Hsim). cbn [oty field char_data otext]. rewrite Hsim. cbn [andb]. rewrite (Hval f _ w Hp En). auto.
    - assert (Hsim : is_simple (oty c) = true) by (eapply field_slot_simple; eauto).
      destruct (norm E p f (oty c) None (char_data c)) as [w| | |] eqn:En; cbn [bind] in Hv; try discriminate. inversion Hv; subst v; clear Hv.
      destruct w as [w|]; [|now rewrite app_nil_r, Hr, Hs, Hw].
      unfold values_wf in *. rewrite !forallb_app, Hr, Hs, Hw. cbn [forallb andb]. rewrite (Hroute (field (oty c) w)) by reflexivity.
      rewrite (field_wf _ w Hsim). cbn [oty field char_data otext]. rewrite Hsim. cbn [andb]. rewrite (Hval f None w); auto. intros _ x Hx. discriminate.
    - inversion Hv; subst v. cbn [forallb length Nat.leb]. rewrite (Hroute c) by reflexivity. now rewrite Hc.
    - inversion Hv; subst v. rewrite !forallb_app, Hr, Hw. cbn [forallb andb]. rewrite (Hroute c) by reflexivity. now rewrite Hc.
  Qed.
  Lemma attrs_same_ext t ty ka ea tx vec sl mis unk : attrs_same E t (Obj ty ka ea tx vec sl mis unk) = attrs_same E t (Obj ty ka ea None [] [] [] []).
  Proof. reflexivity. Qed.
  Lemma add_element_wf o c o' : wf E o = true -> wf E c = true -> add_element E o c = Ok o' -> wf E o' = true /\ oty o' = oty o.
  Proof.
    destruct o as [ty ka ea tx vec sl mis unk]. intros Ho Hc. unfold add_element. cbn [oty set_text set_slots set_mis oslots omis].
    destruct (snippet_type ty) eqn:Esn.
    { intros H. inversion H; subst o'; clear H. split; [|reflexivity]. cbn [wf] in *.
      assert (is_simple ty = false) as Es by (unfold snippet_type in Esn; apply orb_true_iff in Esn as [Esn|Esn]; apply N.eqb_eq in Esn; subst; reflexivity).
      assert ((ty =? Type_coordinates) = false) as Ec by (unfold snippet_type in Esn; apply orb_true_iff in Esn as [Esn|Esn]; apply N.eqb_eq in Esn; subst; reflexivity).
      rewrite Es, Ec in *. unfold no_own_text in *. rewrite Esn in *. cbn [orb negb] in *. exact Ho. }
    destruct (ty =? Type_coordinates) eqn:Ec.
    { intros H. inversion H; subst o'. auto. }
    destruct ((ty =? Type_SimpleData) && (oty c =? Type_SimpleData)) eqn:Esd.
    { intros H. inversion H; subst o'; clear H. split; [|reflexivity]. cbn [wf] in *. apply andb_true_iff in Esd as [Esd _].
      apply N.eqb_eq in Esd. subst ty. exact Ho. }
    destruct (find_slot (oty c) (c_slots (cls ty)) 0) as [[i s]|] eqn:Ef.
    2:{ intros H. inversion H; subst o'; clear H. split; [|reflexivity]. cbn [wf] in *. destruct (is_simple ty); [rewrite forallb_app; cbn [forallb]; now rewrite Hc, !andb_true_r in *|]. rewrite Ec in *. rewrite Esn in *.
        rewrite attrs_same_ext in *. rewrite !forallb_app. cbn [forallb]. rewrite Ef, Esd, Hc. cbn [negb andb].
        rewrite !andb_true_r in *. exact Ho. }
    assert (Es : is_simple ty = false).
    { destruct (is_simple ty) eqn:Es; [|reflexivity]. exfalso. assert (Hn : c_slots (cls ty) = []).
      { unfold cls, class_of. destruct (lookup ty classes) as [c0|] eqn:El; [|reflexivity]. apply lookup_in in El.
        assert (Hall : forallb (fun p => negb (is_simple (fst p))) classes = true) by (vm_compute; reflexivity).
        rewrite forallb_forall in Hall. specialize (Hall _ El). cbn [fst] in Hall. rewrite Es in Hall. discriminate. }
      rewrite Hn in Ef. discriminate. }
    assert (Hsf : slots_wf E ty 0 (c_slots (cls ty)) sl = true /\ forallb (forallb (wf E)) sl = true).
    { cbn [wf] in Ho. rewrite Es in Ho. rewrite !andb_true_iff in Ho. tauto. }
    destruct Hsf as [Hsl Hws].
    pose proof (find_slot_spec _ _ _ _ _ Ef) as [_ Hn]. rewrite Nat.sub_0_r in Hn.
    assert (Hnw : forallb (wf E) (nth i sl []) = true).
    { destruct (nth_in_or_default i sl []) as [Hi|Hi]; [rewrite forallb_forall in Hws; now apply Hws|now rewrite Hi]. }
    pose proof (slot_step ty i s c (nth i sl []) ) as Hstep.
    assert (Hfin : forall v, slot_wf E ty i s v = true -> forallb (wf E) v = true -> wf E (Obj ty ka ea tx vec (update i v sl) mis unk) = true).
    { intros v Hv1 Hv2. cbn [wf] in *. rewrite Es in *. rewrite Ec, Esn in *.
      rewrite attrs_same_ext in *. rewrite !andb_true_iff in *.
      assert (slots_wf E ty 0 (c_slots (cls ty)) (update i v sl) = true) by (eapply slots_wf_update; eauto).
      assert (forallb (forallb (wf E)) (update i v sl) = true) by now apply update_forallb. tauto. }
    pose proof (slots_wf_nth E ty _ 0 sl i s Hsl Hn) as Hsn. cbn [Nat.add] in Hsn.
    destruct (s_kind s) as [f|f| |].
    - destruct (norm E ty f (oty c) (match nth i sl [] with v :: _ => otext v | [] => None end) (char_data c)) as [w| | |] eqn:En; cbn [bind]; try discriminate.
      intros H. inversion H; subst o'; clear H. split; [|reflexivity]. destruct (Hstep _ Hc Ef Hsn Hnw eq_refl). now apply Hfin.
    - destruct (norm E ty f (oty c) None (char_data c)) as [w| | |] eqn:En; cbn [bind]; try discriminate.
      intros H. inversion H; subst o'; clear H. split; [|reflexivity]. destruct (Hstep _ Hc Ef Hsn Hnw eq_refl). now apply Hfin.
    - intros H. inversion H; subst o'; clear H. split; [|reflexivity]. destruct (Hstep _ Hc Ef Hsn Hnw eq_refl). now apply Hfin.
    - intros H. inversion H; subst o'; clear H. split; [|reflexivity]. destruct (Hstep _ Hc Ef Hsn Hnw eq_refl). now apply Hfin.
  Qed.
  Lemma add_unknown_wf o u : wf E o = true -> wf E (set_unk o u) = true.
  Proof. destruct o as [ty ka ea tx vec sl mis unk]. cbn [wf set_unk]. intros H. exact H. Qed.
  Lemma add_self_wf o s o' : wf E o = true -> is_simple (oty o) = false -> add_self E o s = Ok o' -> wf E o' = true /\ oty o' = oty o.
  Proof.
    destruct o as [ty ka ea tx vec sl mis unk]. intros Ho Es. unfold add_self. cbn [oty set_vec set_text ovec] in *.
    destruct (ty =? Type_coordinates) eqn:Ec.
    - destruct (coordinates_parse s) as [vs| | |]; cbn [bind]; try discriminate. intros H. inversion H; subst o'; clear H. split; [|reflexivity].
      cbn [wf] in *. rewrite Es, Ec in *. rewrite attrs_same_ext in *. rewrite !andb_true_iff in *.
      rewrite forallb_app. assert (forallb (printed3 E) (map (vec_text E) vs) = true) as ->; [|rewrite andb_true_r; tauto].
      apply forallb_forall. intros x Hx. apply in_map_iff in Hx as (v & <- & _). apply vec_text_printed.
    - destruct (snippet_type ty || (ty =? Type_SimpleData)) eqn:En; intros H; inversion H; subst o'; [|auto]. split; [|reflexivity].
      cbn [wf] in *. rewrite Es, Ec in *. rewrite attrs_same_ext in *. unfold no_own_text in *. rewrite En in *. cbn [negb] in *. exact Ho.
  Qed.
  Lemma attrs_of_spec a : msorted (attrs_of a) /\ forall k, view (attrs_of a) k = last_value a k.
  Proof. exact (of_pairs_spec a). Qed.
  (** No attribute named xmlns:xmlns. *)
  Fixpoint no_xmlns_xmlns (t : xml) : bool :=
    match t with
    | XElem _ a ks => negb (existsb (fun kv => eqs (fst kv) (S_ "xmlns:xmlns")) a) && forallb no_xmlns_xmlns ks
    | XChar _ => true
    end.
  Lemma last_value_none a k : existsb (fun kv => eqs (fst kv) k) a = false -> last_value a k = None.
  Proof.
    induction a as [|[k' v] a IH]; [reflexivity|]. cbn [existsb fst]. intros H. apply orb_false_iff in H as [H1 H2]. cbn [last_value].
    rewrite (IH H2). destruct (str_dec k k') as [->|Hn]; [rewrite eqs_refl in H1; discriminate|]. apply eqs_neq in Hn. now rewrite Hn.
  Qed.
  Lemma start_wf ty n a cd : (creatable ty = true \/ is_simple ty = true) -> is_simple (element_id n) = is_simple ty ->
    existsb (fun kv => eqs (fst kv) (S_ "xmlns:xmlns")) a = false ->
    wf E (start E ty (node_atts n a) cd) = true /\ oty (start E ty (node_atts n a) cd) = ty.
  Proof.
    intros Hty Hn Ha. unfold start. destruct (is_simple ty) eqn:Es; [split; [now apply field_wf|reflexivity]|].
    destruct Hty as [Hc|]; [|discriminate].
    assert (Hs : forall m, msorted m -> view m (S_ "xmlns:xmlns") = None -> wf E (parse_attributes E (create ty) m) = true /\ oty (parse_attributes E (create ty) m) = ty).
    { intros m Hm Hv. pose proof (parse_attrs_same E HE ty m Hm Hv) as Hsame. rewrite parse_attributes_create in *.
      split; [|reflexivity]. unfold create in *. cbn [set_ea set_ka wf] in *. rewrite Es, Hc, Hsame. cbn [andb nilb forallb opt_str_eqb].
      rewrite create_slots_wf. cbn [andb].
      assert (forallb (forallb (wf E)) (map (fun _ : slot => []) (c_slots (cls ty))) = true) as ->.
      { apply forallb_forall. intros x Hx. apply in_map_iff in Hx as (y & <- & _). reflexivity. }
      destruct (ty =? Type_coordinates); [reflexivity|]. destruct (no_own_text ty), (snippet_type ty); reflexivity. }
    unfold node_atts. rewrite Hn. destruct a as [|kv a].
    - specialize (Hs [] msorted_nil eq_refl). rewrite parse_no_attributes in Hs by reflexivity. exact Hs.
    - destruct (attrs_of_spec (kv :: a)) as [H1 H2]. apply Hs; auto. rewrite H2. now apply last_value_none.
  Qed.
  Lemma known_type_cases p n ty : known_type p n = Some ty -> (creatable ty = true \/ is_simple ty = true).
  Proof.
    unfold known_type. intros H. destruct (creatable (element_id n)) eqn:Ec.
    - destruct ((element_id n =? Type_Icon) && (p =? Type_IconStyle)); inversion H; subst; auto.
    - destruct (is_simple (element_id n)) eqn:Es; inversion H; subst; auto.
  Qed.
  Lemma node_wf t : forall p n a ks ty o, t = XElem n a ks -> known_type p n = Some ty -> no_xmlns_xmlns t = true ->
    build E (reader_node ty n a ks) = Ok o -> wf E o = true /\ oty o = ty.
  Proof.
    induction t as [n0 a0 ks0 IH|c] using xml_ind2; [|intros; discriminate].
    intros p n a ks ty o Ht Hk Hx Hb. inversion Ht; subst n0 a0 ks0; clear Ht. cbn [no_xmlns_xmlns] in Hx. apply andb_true_iff in Hx as [Hx Hxs].
    apply negb_true_iff in Hx. pose proof (known_type_cases p n ty Hk) as Hty. pose proof (known_simple p n ty Hk) as Hsi.
    unfold reader_node in Hb. destruct (ty =? Type_description) eqn:Ed.
    { rewrite build_eq in Hb. cbn [steps] in Hb. inversion Hb; subst o. now apply start_wf. }
    rewrite build_eq, steps_app in Hb.
    destruct (start_wf ty n a (direct_text ks) Hty Hsi Hx) as [Hs1 Hs2].
    revert Hb. generalize dependent (start E ty (node_atts n a) (direct_text ks)). intros o0 Hs1 Hs2 Hb.
    assert (Hkids : forall l o1 o2, (forall k, In k l -> In k ks) -> wf E o1 = true -> oty o1 = ty -> steps E (flat_map (received keep_all ty) l) o1 = Ok o2 -> wf E o2 = true /\ oty o2 = ty).
    { induction l as [|k l IHl]; intros o1 o2 Hin H1 H2 H3.
      - cbn [flat_map steps] in H3. inversion H3; subst. auto.
      - cbn [flat_map] in H3. rewrite steps_app in H3. destruct (steps E (received keep_all ty k) o1) as [o3| | |] eqn:E3; cbn [bind] in H3; try discriminate.
        assert (H4 : wf E o3 = true /\ oty o3 = ty).
        { destruct k as [n' a' ks'|ch].
          - destruct (known_type ty n') as [ty'|] eqn:Ek'.
            + rewrite (rec_elem ty n' a' ks' ty' Ek') in E3. cbn [steps entry_step] in E3.
              destruct (build E (reader_node ty' n' a' ks')) as [c'| | |] eqn:Eb; cbn [bind] in E3; try discriminate.
              assert (Hc' : wf E c' = true /\ oty c' = ty').
              { rewrite Forall_forall in IH. rewrite forallb_forall in Hxs. eapply (IH (XElem n' a' ks')); eauto; [apply Hin; now left|apply Hxs, Hin; now left]. }
              destruct (add_element E o1 c') as [o4| | |] eqn:Ea; cbn [bind] in E3; try discriminate. inversion E3; subst o4.
              destruct (add_element_wf o1 c' o3 H1 (proj1 Hc') Ea). split; congruence.
            + cbn [received] in E3. rewrite Ek' in E3. cbn [steps entry_step bind] in E3. inversion E3; subst o3.
              split; [now apply add_unknown_wf|]. now destruct o1.
          - cbn [received steps] in E3. inversion E3; subst. auto. }
        destruct H4. eapply IHl; eauto. intros k' Hk'. apply Hin. now right. }
    destruct (steps E (flat_map (received keep_all ty) ks) o0) as [o1| | |] eqn:E1; cbn [bind] in Hb; try discriminate.
    destruct (Hkids ks o0 o1 (fun k H => H) Hs1 Hs2 E1) as [H1 H2].
    unfold self_entry in Hb. destruct (self_parsed ty) eqn:Esp.
    - cbn [steps entry_step] in Hb. destruct (add_self E o1 (direct_text ks)) as [o2| | |] eqn:E2; cbn [bind] in Hb; try discriminate.
      inversion Hb; subst o2. assert (Hns : is_simple (oty o1) = false).
      { rewrite H2. destruct (is_simple ty) eqn:Es; auto. rewrite (simple_not_self ty Es) in Esp. discriminate. }
      destruct (add_self_wf o1 _ o H1 Hns E2). split; congruence.
    - cbn [steps] in Hb. inversion Hb; subst. auto.
  Qed.
  Theorem parsed_wf s t o : xml_tree s = Some t -> regular t -> no_xmlns_xmlns t = true -> read_kml E s = Ok (Some o) -> wf E o = true.
  Proof.
    intros Ht Hr Hx. unfold read_kml. rewrite (parse_text_builds_tree s t Ht Hr). cbn [bind]. destruct t as [n a ks|c]; [|discriminate].
    destruct (known_type Type_Unknown n) as [ty|] eqn:Ek; [|cbn [tree]; rewrite Ek; discriminate].
    rewrite (tree_elem _ _ _ _ Ek). destruct (build E (reader_node ty n a ks)) as [o'| | |] eqn:Eb; cbn [bind]; try discriminate.
    intros H. inversion H; subst. eapply node_wf; eauto.
  Qed.
  (** A document read, written and read again gives the same elements if it is intact. *)
  Theorem parsed_round_trip nl ind s t o ty a ks : forallb wsp nl = true -> forallb wsp ind = true ->
    xml_tree s = Some t -> regular t -> no_xmlns_xmlns t = true -> read_kml E s = Ok (Some o) ->
    intact E nl ind 0 Type_Unknown o = true -> ser o = IElem ty a ks -> readable (ser o) = true ->
    regular (XElem (tag_name ty) a (content nl ind 0 ks)) ->
    exists s', write nl ind o = Ok s' /\ read_kml E s' = Ok (Some o).
  Proof.
    intros Hnl Hind Ht Hr Hx Hrd Hi Hs Hre Hreg. eapply keeps_document; eauto. apply wf_intact_keeps; auto. eapply parsed_wf; eauto.
  Qed.
End Built.

(** * Pretty printing *)
Fixpoint odepth (o : obj) : nat :=
  let 'Obj _ _ _ _ _ sl mis _ := o in S (list_max (map (fun l => list_max (map odepth l)) sl ++ map odepth mis)).
(** [intact] for pretty printing: coordinates need no condition on their tuples, and elements that keep
    their own text (Snippet, linkSnippet, SimpleData) must not occur. *)
Section Pretty.
  Variable E : env.
  Fixpoint plain (p : N) (o : obj) : bool :=
    let 'Obj ty ka ea tx vec sl mis unk := o in
    match known_type p (tag_name ty) with Some t => t =? ty | None => false end &&
    if is_simple ty then nilb mis && nilb unk
    else if ty =? Type_coordinates then ea_eqb ea no_attrs && nilb unk
    else
      no_own_text ty &&
      forallb (fun p' => href_values E ty (fst p') (snd p')) (combine (c_slots (cls ty)) sl) &&
      forallb (fun kl => match kl with
                         | (k, []) => true
                         | (k, _) => existsb (N.eqb k) (c_ser (cls ty))
                         end) (combine (keys (c_slots (cls ty))) sl) &&
      forallb (unknown_same ty) unk &&
      forallb (forallb (plain ty)) sl && forallb (plain ty) mis.
  Lemma tuples_eqb_refl l : tuples_eqb l l = true.
  Proof.
    unfold tuples_eqb. rewrite Nat.eqb_refl. cbn [andb]. induction l as [|[[a b] c] l IH]; [reflexivity|]. cbn [combine forallb]. now rewrite !eqs_refl, IH.
  Qed.
  Lemma printed3_vec_ok v : printed3 E v = true -> vec_ok v = true.
  Proof.
    destruct v as [[a b] c]. unfold printed3, printed, vec_ok. rewrite !andb_true_iff, !Nat.leb_le, N.leb_le. intros H.
    decompose [and] H. repeat split; auto. lia.
  Qed.
  Lemma printed3_text v : printed3 E v = true -> vec_text E (vec_of v) = v.
  Proof.
    destruct v as [[a b] c]. unfold printed3, printed. rewrite !andb_true_iff. intros H. decompose [and] H. unfold vec_text, vec_of.
    cbn [v_lon v_lat v_alt num_or_zero]. repeat match goal with K : eqs _ _ = true |- _ => apply eqs_spec in K; rewrite K end. reflexivity.
  Qed.
  Lemma pretty_tuples d vec : (d <= 140)%nat -> forallb (printed3 E) vec = true ->
    same_tuples E (coordinates_parse (inner_text lf (S_ "  ") d (map vec_item vec))) vec = true.
  Proof.
    intros Hd Hv. rewrite forallb_forall in Hv. unfold inner_text. destruct vec as [|v vec]; [reflexivity|].
    change DomModel.vec_item with CoordProofs.vec_item.
    rewrite (pretty_round_trip d (v :: vec)); [|exact Hd|apply forallb_forall; intros x Hx; now apply printed3_vec_ok, Hv|discriminate].
    unfold same_tuples. rewrite map_map.
    assert (map (fun x => vec_text E (vec_of x)) (v :: vec) = v :: vec) as ->; [|apply tuples_eqb_refl].
    rewrite <- (map_id (v :: vec)) at 2. apply map_ext_in. intros x Hx. now apply printed3_text, Hv.
  Qed.
  Lemma list_max_in l x : In x l -> (x <= list_max l)%nat.
  Proof. intros H. pose proof (proj1 (list_max_le l (list_max l)) (Nat.le_refl _)) as F. rewrite Forall_forall in F. auto. Qed.
  Lemma plain_intact o : forall d p, wf E o = true -> plain p o = true -> (d + odepth o <= 140)%nat -> intact E lf (S_ "  ") d p o = true.
  Proof.
    induction o as [ty ka ea tx vec sl mis unk IHsl IHmis] using obj_ind2. intros d p Hw Hp Hd. cbn [wf plain intact odepth] in *.
    apply andb_true_iff in Hp as [Hn Hp]. rewrite Hn. cbn [andb]. destruct (is_simple ty); [exact Hp|].
    rewrite !andb_true_iff in Hw. destruct Hw as ((((((Hc & Ha) & Hx) & Hs) & Hm) & Hws) & Hwm).
    destruct (ty =? Type_coordinates).
    { rewrite Hp. cbn [andb]. rewrite !andb_true_iff in Hx. apply pretty_tuples; [lia|tauto]. }
    rewrite !andb_true_iff in Hp. destruct Hp as (((((Ht & Hh) & Hall) & Hu) & His) & Him). rewrite Ht, Hh, Hall, Hu. cbn [andb].
    apply andb_true_iff. split.
    - apply forallb_forall. intros l Hl. apply forallb_forall. intros c Hcl. rewrite Forall_forall in IHsl. specialize (IHsl l Hl).
      rewrite Forall_forall in IHsl. apply IHsl; auto.
      + rewrite forallb_forall in Hws. specialize (Hws l Hl). rewrite forallb_forall in Hws. auto.
      + rewrite forallb_forall in His. specialize (His l Hl). rewrite forallb_forall in His. auto.
      + assert (odepth c <= list_max (map (fun l => list_max (map odepth l)) sl ++ map odepth mis))%nat; [|lia].
        etransitivity; [apply (list_max_in (map odepth l)), in_map, Hcl|]. apply list_max_in, in_or_app. left.
        now apply (in_map (fun l => list_max (map odepth l))).
    - apply forallb_forall. intros c Hcm. rewrite Forall_forall in IHmis. apply IHmis; auto.
      + rewrite forallb_forall in Hwm. auto.
      + rewrite forallb_forall in Him. auto.
      + assert (odepth c <= list_max (map (fun l => list_max (map odepth l)) sl ++ map odepth mis))%nat; [|lia].
        apply list_max_in, in_or_app. right. now apply in_map.
  Qed.
End Pretty.

Section Depth.
  Variable E : env.
  Let within (d : nat) (o : obj) : Prop := (odepth o <= S d)%nat.
  Lemma within_eq d o : within d o <-> (forall l c, In l (oslots o) -> In c l -> (odepth c <= d)%nat) /\ (forall c, In c (omis o) -> (odepth c <= d)%nat).
  Proof.
    unfold within. destruct o as [ty ka ea tx vec sl mis unk]. cbn [odepth oslots omis]. split.
    - intros H. assert (H' : (list_max (map (fun l => list_max (map odepth l)) sl ++ map odepth mis) <= d)%nat) by lia. split.
      + intros l c Hl Hc. etransitivity; [|exact H']. etransitivity; [apply (list_max_in (map odepth l)), in_map, Hc|].
        apply list_max_in, in_or_app. left. now apply (in_map (fun l => list_max (map odepth l))).
      + intros c Hc. etransitivity; [|exact H']. apply list_max_in, in_or_app. right. now apply in_map.
    - intros [H1 H2]. apply le_n_S. apply list_max_bound. intros x Hx. apply in_app_or in Hx as [Hx|Hx]; apply in_map_iff in Hx as (y & <- & Hy); auto.
      apply list_max_bound. intros z Hz. apply in_map_iff in Hz as (c & <- & Hc). eauto.
  Qed.
  Lemma in_update c l i v sl : In l (update i v sl) -> In c l -> In c v \/ exists l', In l' sl /\ In c l'.
  Proof.
    revert i. induction sl as [|x sl IH]; intros i Hl Hc; [destruct i; destruct Hl|]. destruct i as [|i]; cbn [update] in Hl; destruct Hl as [Hl|Hl].
    - subst. auto.
    - right. exists l. split; [now right|auto].
    - subst. right. exists l. split; [now left|auto].
    - destruct (IH i Hl Hc) as [H|(l' & H1 & H2)]; auto. right. exists l'. split; [now right|auto].
  Qed.
  Lemma set_depth o tx : odepth (set_text o tx) = odepth o. Proof. now destruct o. Qed.
  Lemma set_unk_depth o u : odepth (set_unk o u) = odepth o. Proof. now destruct o. Qed.
  Lemma set_vec_depth o v : odepth (set_vec o v) = odepth o. Proof. now destruct o. Qed.
  Lemma add_element_depth d o c o' : (1 <= d)%nat -> within d o -> (odepth c <= d)%nat -> add_element E o c = Ok o' -> within d o'.
  Proof.
    intros Hd Ho Hc. unfold add_element.
    destruct (snippet_type (oty o)); [intros H; inversion H; unfold within; now rewrite set_depth|].
    destruct (oty o =? Type_coordinates); [intros H; inversion H; now subst|].
    destruct ((oty o =? Type_SimpleData) && (oty c =? Type_SimpleData)); [intros H; inversion H; unfold within; now rewrite set_depth|].
    pose proof (proj1 (within_eq d o) Ho) as [H1 H2].
    assert (Hf : forall v, (odepth (field (oty c) v) <= d)%nat) by (intros v; cbn [odepth field map app list_max fold_right]; exact Hd).
    assert (Hst : forall i v, (forall x, In x v -> (odepth x <= d)%nat) -> within d (set_slots o (update i v (oslots o)))).
    { intros i v Hv. apply within_eq. rewrite set_slots_slots. split.
      - intros l x Hl Hx. destruct (in_update x l i v (oslots o) Hl Hx) as [K|(l' & K1 & K2)]; eauto.
      - destruct o; cbn [set_slots omis] in *; auto. }
    destruct (find_slot (oty c) (c_slots (cls (oty o))) 0) as [[i s]|].
    2:{ intros H. inversion H. apply within_eq. destruct o as [ty ka ea tx vec sl mis unk]. cbn [set_mis oslots omis] in *. split; [exact H1|].
        intros x Hx. apply in_app_or in Hx as [Hx|[<-|[]]]; auto. }
    assert (Hcur : forall x, In x (nth i (oslots o) []) -> (odepth x <= d)%nat).
    { intros x Hx. destruct (nth_in_or_default i (oslots o) []) as [K|K]; [eauto|rewrite K in Hx; destruct Hx]. }
    destruct (s_kind s) as [f|f| |].
    - destruct (norm E (oty o) f (oty c) _ (char_data c)) as [[w|]| | |]; cbn [bind]; try discriminate; intros H; inversion H; apply Hst.
      + intros x [<-|[]]; auto.
      + intros x [].
    - destruct (norm E (oty o) f (oty c) None (char_data c)) as [[w|]| | |]; cbn [bind]; try discriminate; intros H; inversion H; apply Hst.
      + intros x Hx. apply in_app_or in Hx as [Hx|[<-|[]]]; auto.
      + intros x Hx. apply in_app_or in Hx as [Hx|[]]; auto.
    - intros H. inversion H. apply Hst. intros x [<-|[]]; auto.
    - intros H. inversion H. apply Hst. intros x Hx. apply in_app_or in Hx as [Hx|[<-|[]]]; auto.
  Qed.
  Lemma start_depth d ty a cd : within d (start E ty a cd).
  Proof.
    unfold start. destruct (is_simple ty); [unfold within; cbn; lia|].
    assert (H : within d (create ty)).
    { apply within_eq. unfold create. cbn [oslots omis]. split; [|intros c []]. intros l c Hl. apply in_map_iff in Hl as (x & <- & _). intros []. }
    destruct a as [a|]; [|exact H]. rewrite parse_attributes_create. destruct (create ty) eqn:Ecr. exact H.
  Qed.
  Lemma node_depth t : forall p n a ks ty o, t = XElem n a ks -> known_type p n = Some ty ->
    build E (reader_node ty n a ks) = Ok o -> (odepth o <= xdepth t)%nat.
  Proof.
    induction t as [n0 a0 ks0 IH|c] using xml_ind2; [|intros; discriminate].
    intros p n a ks ty o Ht Hk Hb. inversion Ht; subst n0 a0 ks0; clear Ht. cbn [xdepth].
    unfold reader_node in Hb. destruct (ty =? Type_description) eqn:Ed.
    { rewrite build_eq in Hb. cbn [steps] in Hb. inversion Hb; subst o. apply start_depth. }
    rewrite build_eq, steps_app in Hb.
    set (d := list_max (map xdepth ks)) in *.
    pose proof (start_depth d ty (node_atts n a) (direct_text ks)) as Hs.
    revert Hb. generalize dependent (start E ty (node_atts n a) (direct_text ks)). intros o0 Hs Hb.
    assert (Hkids : forall l o1 o2, (forall k, In k l -> In k ks) -> within d o1 -> steps E (flat_map (received keep_all ty) l) o1 = Ok o2 -> within d o2).
    { induction l as [|k l IHl]; intros o1 o2 Hin H1 H3.
      - cbn [flat_map steps] in H3. inversion H3; subst. auto.
      - cbn [flat_map] in H3. rewrite steps_app in H3. destruct (steps E (received keep_all ty k) o1) as [o3| | |] eqn:E3; cbn [bind] in H3; try discriminate.
        assert (H4 : within d o3).
        { destruct k as [n' a' ks'|ch].
          - destruct (known_type ty n') as [ty'|] eqn:Ek'.
            + rewrite (rec_elem ty n' a' ks' ty' Ek') in E3. cbn [steps entry_step] in E3.
              destruct (build E (reader_node ty' n' a' ks')) as [c'| | |] eqn:Eb; cbn [bind] in E3; try discriminate.
              assert (Hx : (xdepth (XElem n' a' ks') <= d)%nat) by (apply list_max_in, in_map, Hin; now left).
              assert (Hc' : (odepth c' <= xdepth (XElem n' a' ks'))%nat).
              { rewrite Forall_forall in IH. eapply (IH (XElem n' a' ks')); eauto. apply Hin; now left. }
              destruct (add_element E o1 c') as [o4| | |] eqn:Ea; cbn [bind] in E3; try discriminate. inversion E3; subst o4.
              eapply add_element_depth; [|exact H1| |exact Ea]; [cbn [xdepth] in Hx; lia|lia].
            + cbn [received] in E3. rewrite Ek' in E3. cbn [steps entry_step bind] in E3. inversion E3; subst o3.
              unfold within. now rewrite set_unk_depth.
          - cbn [received steps] in E3. inversion E3; subst. auto. }
        eapply IHl; eauto. intros k' Hk'. apply Hin. now right. }
    destruct (steps E (flat_map (received keep_all ty) ks) o0) as [o1| | |] eqn:E1; cbn [bind] in Hb; try discriminate.
    pose proof (Hkids ks o0 o1 (fun k H => H) Hs E1) as H1.
    unfold self_entry in Hb. destruct (self_parsed ty) eqn:Esp.
    - cbn [steps entry_step] in Hb. destruct (add_self E o1 (direct_text ks)) as [o2| | |] eqn:E2; cbn [bind] in Hb; try discriminate.
      inversion Hb; subst o2. unfold add_self in E2. destruct (oty o1 =? Type_coordinates).
      + destruct (coordinates_parse (direct_text ks)); cbn [bind] in E2; try discriminate. inversion E2. rewrite set_vec_depth. exact H1.
      + destruct (snippet_type (oty o1) || (oty o1 =? Type_SimpleData)); inversion E2; rewrite ?set_depth; subst; exact H1.
    - cbn [steps] in Hb. inversion Hb; subst. exact H1.
  Qed.
  Theorem parsed_depth s t o : xml_tree s = Some t -> regular t -> read_kml E s = Ok (Some o) -> (odepth o <= 100)%nat.
  Proof.
    intros Ht Hr. unfold read_kml. rewrite (parse_text_builds_tree s t Ht Hr). cbn [bind]. destruct t as [n a ks|c]; [|discriminate].
    destruct (known_type Type_Unknown n) as [ty|] eqn:Ek; [|cbn [tree]; rewrite Ek; discriminate].
    rewrite (tree_elem _ _ _ _ Ek). destruct (build E (reader_node ty n a ks)) as [o'| | |] eqn:Eb; cbn [bind]; try discriminate.
    intros H. inversion H; subst. destruct Hr as (_ & _ & _ & Hd). etransitivity; [|exact Hd]. eapply node_depth; eauto.
  Qed.
End Depth.
(** Reading, pretty printing and reading again. *)
Theorem pretty_again E s t o ty a ks : numbers_stable E ->
  xml_tree s = Some t -> regular t -> no_xmlns_xmlns t = true -> read_kml E s = Ok (Some o) ->
  plain E Type_Unknown o = true -> ser o = IElem ty a ks -> readable (ser o) = true ->
  regular (XElem (tag_name ty) a (content lf (S_ "  ") 0 ks)) ->
  exists s', write_pretty o = Ok s' /\ read_kml E s' = Ok (Some o).
Proof.
  intros HE Ht Hr Hx Hrd Hp Hs Hre Hreg.
  refine (parsed_round_trip E HE lf (S_ "  ") s t o ty a ks eq_refl eq_refl Ht Hr Hx Hrd _ Hs Hre Hreg).
  apply plain_intact; auto; [eapply parsed_wf; eauto|]. pose proof (parsed_depth E s t o Ht Hr Hrd). lia.
Qed.

(** The members of an element and the text it writes: after any simple children, an element writes exactly the fields whose has
    function is true, with the text of the value the get function gives. *)
From Coq Require Import ZArith Lia.
From Verif Require Import Common Doubles StringsModel StringsProofs ColorModel XsdTables XsdModel XsdProofs XsdProps SerializerModel CoordModel HandlerModel HandlerProofs.
From Verif Require Import DomTables DomModel DomProofs DomParsed CastModel AccessModel AccessProps.
Local Open Scope N_scope.

Section Written.
  Variable E : env.
  Variable rd : str -> option double.
  Variable ri : str -> option Z.
  (** ToString of numbers. *)
  Variable pd : double -> str.
  Variable pi : Z -> str.
  (** The readers and writers of numbers in DomModel.v are these. *)
  Definition numbers_agree (c : N) : Prop :=
    (forall s, match from_string_double s with Some t => exists d, rd s = Some d /\ e_dbl E t = pd d | None => rd s = None end) /\
    (forall s, e_int E s = option_map pi (ri s)) /\
    (forall df ty h m, In df (fields c) -> f_add (snd df) = Some (ty, h, m) ->
       (forall d, f_kind (snd df) = FDouble -> read (fresh c) (fst df) (f_get (snd df)) = Some (VDouble d) -> e_dflt E c ty = pd d) /\
       (forall z, f_kind (snd df) = FInt -> read (fresh c) (fst df) (f_get (snd df)) = Some (VInt z) -> e_idflt E c ty = pi z)).
  (** The text of a value. *)
  Definition text_of (k : fkind) (ty : N) (v : val) (t : str) : Prop :=
    match v with
    | VBool b => t = to_string_bool b
    | VInt z => match k with FEnum => enum_value ty z = Ok t | _ => t = pi z end
    | VDouble d => t = pd d
    | VColor x => t = to_string_abgr x
    | VText s => t = s
    end.
  (** The values of a field have its type. *)
  Definition kind_val (k : fkind) (v : val) : bool :=
    match k, v with
    | FBool, VBool _ | FDouble, VDouble _ | FInt, VInt _ | FEnum, VInt _ | FColor, VColor _ | FString, VText _ | FHref, VText _ => true
    | _, _ => false
    end.
  Definition field_state (o : obj) (st : members) (df : N * fld) (ty : N) (dflt : val) : Prop :=
    exists i s h v, find_slot ty (c_slots (cls (oty o))) 0 = Some (i, s) /\ cell st df h v /\ kind_val (f_kind (snd df)) v = true /\
      (h = false -> f_kind (snd df) <> FEnum -> v = dflt) /\
      if h then exists t, nth i (oslots o) [] = [field ty t] /\ text_of (f_kind (snd df)) ty v t else nth i (oslots o) [] = [].
  Definition agree (c : N) (o : obj) (st : members) : Prop :=
    oty o = c /\ length (oslots o) = length (c_slots (cls c)) /\
    forall df ty h m dflt, In df (fields c) -> f_add (snd df) = Some (ty, h, m) -> read (fresh c) (fst df) (f_get (snd df)) = Some dflt -> field_state o st df ty dflt.

  (** What is checked of every class: the slot of a field takes its child only; defaults have the type of the field. *)
  Definition slot_plain (c : N) (df : N * fld) : bool :=
    match f_add (snd df) with
    | Some (ty, _, _) =>
        match find_slot ty (c_slots (cls c)) 0 with
        | Some (_, s) => match s_tests s with [TType t] => t =? ty | _ => false end
        | None => false
        end && match read (fresh c) (fst df) (f_get (snd df)) with Some v => kind_val (f_kind (snd df)) v | None => false end &&
        negb (snippet_type c || (c =? Type_coordinates) || ((c =? Type_SimpleData) && (ty =? Type_SimpleData)))
    | None => true
    end.
  Lemma slots_plain : forallb (fun c => negb (creatable c) || forallb (slot_plain c) (fields c)) element_classes = true.
  Proof. vm_compute. reflexivity. Qed.
  Lemma slot_plain_in c df ty h m : In c element_classes -> creatable c = true -> In df (fields c) -> f_add (snd df) = Some (ty, h, m) ->
    exists i s v, find_slot ty (c_slots (cls c)) 0 = Some (i, s) /\ s_tests s = [TType ty] /\ s_kind s = KField (f_kind (snd df)) /\
      read (fresh c) (fst df) (f_get (snd df)) = Some v /\ kind_val (f_kind (snd df)) v = true /\
      snippet_type c = false /\ (c =? Type_coordinates) = false /\ (c =? Type_SimpleData) && (ty =? Type_SimpleData) = false.
  Proof.
    intros Hc Hk Hi Ha. pose proof slots_plain as G. rewrite forallb_forall in G. specialize (G c Hc). cbv beta in G. rewrite Hk in G. cbn [negb orb] in G.
    rewrite forallb_forall in G. specialize (G df Hi). unfold slot_plain in G. rewrite Ha in G. apply andb_prop in G as [G G3]. apply andb_prop in G as [G1 G2].
    destruct (fields_are_simple_children c df ty h m Hc Hk Hi Ha) as (i & s & F & K). rewrite F in G1. exists i, s.
    destruct (read (fresh c) (fst df) (f_get (snd df))) as [v|]; [|discriminate]. exists v. apply negb_true_iff, orb_false_iff in G3 as [G3 G4]. apply orb_false_iff in G3 as [G3 G5].
    repeat split; try assumption. destruct (s_tests s) as [|[t|t] [|]]; try discriminate. apply N.eqb_eq in G1. now subst.
  Qed.
  Lemma state_other o st st' df ty dflt i v ty' s' : field_state o st df ty dflt -> (forall s i, find_slot ty (c_slots (cls (oty o))) 0 = Some (i, s) -> s_tests s = [TType ty]) ->
    find_slot ty' (c_slots (cls (oty o))) 0 = Some (i, s') -> ty' <> ty -> (forall h w, cell st df h w -> cell st' df h w) ->
    field_state (set_slots o (update i v (oslots o))) st' df ty dflt.
  Proof.
    intros (j & s & h & w & F & C & K & D & V) Ht F' Hn Hc. exists j, s, h, w. destruct o as [t0 a0 e0 x0 c0 sl m0 u0]. cbn [set_slots oty oslots] in *.
    split; [exact F|]. split; [exact (Hc h w C)|]. split; [exact K|]. split; [exact D|].
    rewrite update_nth_ne; [exact V|]. intros ->. apply Hn. apply find_slot_spec in F as F1. apply find_slot_spec in F' as F2. destruct F1 as [_ F1], F2 as [_ F2].
    rewrite F1 in F2. injection F2 as <-. exact (find_slot_other _ _ _ _ _ F (Ht s j F) ty' F').
  Qed.
  Lemma add_agrees c o st ty s o' st' : In c element_classes -> creatable c = true -> numbers_agree c -> agree c o st ->
    add_element E o (field ty s) = Ok o' -> step rd ri c st (OChild ty s) = Ok st' -> agree c o' st'.
  Proof.
    intros Hc Hk (Nd & Ni & Nf) (Ho & Hl & Hf) Ha Hs. pose proof (class_is_ok c Hc) as Hok.
    assert (Tests : forall df t h m, In df (fields c) -> f_add (snd df) = Some (t, h, m) -> forall s i, find_slot t (c_slots (cls (oty o))) 0 = Some (i, s) -> s_tests s = [TType t]).
    { intros df t h m Hi Hd s0 i F. rewrite Ho in F. destruct (slot_plain_in c df t h m Hc Hk Hi Hd) as (i' & s' & v & F' & T & _). rewrite F in F'. injection F' as <- <-. exact T. }
    destruct (field_of_child c ty) as [df|] eqn:Ec.
    - destruct (child_in c _ _ Ec) as (Hi & h & m & Hd). destruct (slot_plain_in c df ty h m Hc Hk Hi Hd) as (i & s0 & v0 & F & T & Kd & Rd & Kv & S1 & S2 & S3).
      destruct (Hf df ty h m v0 Hi Hd Rd) as (i1 & s1 & hb & w & F1 & C & Kw & Dw & V). rewrite Ho, F in F1. injection F1 as <- <-.
      unfold add_element in Ha. cbv zeta in Ha. rewrite Ho, S1, S2 in Ha. cbn [oty field] in Ha. rewrite S3, F in Ha. cbv zeta in Ha. rewrite Kd in Ha. cbn [char_data otext field] in Ha.
      destruct (child_cell c Hok rd ri st ty s st' df hb w Hs Ec C) as (x & r & Hx & C').
      set (prev := match nth i (oslots o) [] with v :: _ => otext v | [] => None end) in *.
      assert (B : forall t', o' = set_slots o (update i t' (oslots o)) -> kind_val (f_kind (snd df)) (match x with Some v => v | None => w end) = true ->
        (r = false -> f_kind (snd df) <> FEnum -> match x with Some v => v | None => w end = v0) ->
        (if r then exists t, t' = [field ty t] /\ text_of (f_kind (snd df)) ty (match x with Some v => v | None => w end) t else t' = []) -> agree c o' st').
      { intros t' -> B1 B2 B3. assert (Hlt : (i < length (oslots o))%nat).
        { rewrite Hl. apply find_slot_spec in F as [_ F]. rewrite Nat.sub_0_r in F. apply nth_error_Some. congruence. }
        split; [destruct o; exact Ho|]. split; [destruct o; cbn [set_slots oslots] in *; now rewrite update_length|].
        intros dg tg hg mg dflt Hig Hdg Rg. destruct (N.eq_dec tg ty) as [->|Hn].
        - assert (dg = df) as -> by (apply (c_types c Hok dg df ty Hig Hi); unfold child_type; [rewrite Hdg|rewrite Hd]; reflexivity).
          rewrite Rd in Rg. injection Rg as <-. exists i, s0, r, (match x with Some v => v | None => w end). split; [destruct o; cbn [set_slots oty] in *; now rewrite Ho|].
          split; [exact C'|]. split; [exact B1|]. split; [exact B2|].
          replace (nth i (oslots (set_slots o (update i t' (oslots o)))) []) with t'; [destruct r; exact B3|].
          destruct o; cbn [set_slots oslots] in *. now rewrite update_nth.
        - apply (state_other o st st' dg tg dflt i t' ty s0 (Hf dg tg hg mg dflt Hig Hdg Rg)).
          + exact (Tests dg tg hg mg Hig Hdg).
          + now rewrite Ho.
          + congruence.
          + intros h' w'. apply (step_other c Hok rd ri st (OChild ty s) st' dg h' w' Hs Hig). cbn [about]. rewrite Ec. intros Q. injection Q as ->. congruence. }
      unfold read_child in Hx. unfold norm in Ha. cbv zeta in Ha, Hx. destruct (f_kind (snd df)) eqn:Kf; try discriminate Kv.
      + injection Hx as <- <-. cbn [bind] in Ha. injection Ha as <-. eapply B; [reflexivity|reflexivity|discriminate|]. exists s. split; reflexivity.
      + injection Hx as <- <-. cbn [bind] in Ha. injection Ha as <-. eapply B; [reflexivity|reflexivity|discriminate|]. eexists. split; reflexivity.
      + injection Hx as <- <-. cbn [bind] in Ha. injection Ha as <-. eapply B; [reflexivity|reflexivity|discriminate|]. eexists. split; reflexivity.
      + injection Hx as <- <-. cbn [bind] in Ha. injection Ha as <-. eapply B; [reflexivity| |discriminate|].
        * destruct (rd s); [reflexivity|exact Kw].
        * eexists. split; [reflexivity|]. specialize (Nd s). destruct (from_string_double s) as [t|].
          -- destruct Nd as (d & -> & Ed). exact Ed.
          -- rewrite Nd. cbn [option_map]. destruct w as [|z|d|x|x]; try discriminate Kw. cbn [text_of]. destruct hb.
             ++ destruct V as (t & Vn & Vt). unfold prev. rewrite Vn. cbn [otext field]. exact Vt.
             ++ unfold prev. rewrite V. pose proof (Dw eq_refl ltac:(discriminate)) as Q. subst v0. exact (proj1 (Nf df ty h m Hi Hd) d Kf Rd).
      + injection Hx as <- <-. cbn [bind] in Ha. injection Ha as <-. eapply B; [reflexivity| |discriminate|].
        * destruct (ri s); [reflexivity|exact Kw].
        * eexists. split; [reflexivity|]. rewrite Ni. destruct (ri s) as [z|]; cbn [option_map].
          -- reflexivity.
          -- destruct w as [|z|d|x|x]; try discriminate Kw. cbn [text_of]. destruct hb.
             ++ destruct V as (t & Vn & Vt). unfold prev. rewrite Vn. cbn [otext field]. exact Vt.
             ++ unfold prev. rewrite V. pose proof (Dw eq_refl ltac:(discriminate)) as Q. subst v0. exact (proj2 (Nf df ty h m Hi Hd) z Kf Rd).
      + unfold valid_enum in Ha. destruct (Z.eqb_spec (enum_id ty s) (-1)) as [e|ne]; injection Hx as <- <-; cbn [negb bind] in Ha; injection Ha as <-.
        * eapply B; [reflexivity|exact Kw|congruence|reflexivity].
        * eapply B; [reflexivity|reflexivity|discriminate|]. exists s. split; [reflexivity|]. exact (enum_text_round_trip ty s ne).
      + destruct (set_color_abgr_str 0 s) as [y| | |]; cbn [bind] in Hx, Ha; try discriminate. injection Hx as <- <-. injection Ha as <-.
        eapply B; [reflexivity|reflexivity|discriminate|]. eexists. split; reflexivity.
    - cbn [step] in Hs. rewrite Ec in Hs. injection Hs as <-.
      assert (Ne : forall dg tg hg mg, In dg (fields c) -> f_add (snd dg) = Some (tg, hg, mg) -> ty <> tg).
      { intros dg tg hg mg Hig Hdg ->. unfold field_of_child in Ec. pose proof (List.find_none _ _ Ec dg Hig) as Q. unfold takes_child in Q. rewrite Hdg, N.eqb_refl in Q. discriminate. }
      assert (Same : forall o2, oty o2 = oty o -> oslots o2 = oslots o -> agree c o2 st).
      { intros o2 T S. split; [congruence|]. split; [congruence|]. intros dg tg hg mg dflt Hig Hdg Rg.
        destruct (Hf dg tg hg mg dflt Hig Hdg Rg) as (j & sj & hb & w & Q). exists j, sj, hb, w. rewrite T, S. exact Q. }
      assert (Upd : forall i s0 v, find_slot ty (c_slots (cls (oty o))) 0 = Some (i, s0) -> agree c (set_slots o (update i v (oslots o))) st).
      { intros i s0 v F. split; [destruct o; exact Ho|]. split; [destruct o; cbn [set_slots oslots] in *; now rewrite update_length|].
        intros dg tg hg mg dflt Hig Hdg Rg. apply (state_other o st st dg tg dflt i v ty s0 (Hf dg tg hg mg dflt Hig Hdg Rg)); auto.
        - exact (Tests dg tg hg mg Hig Hdg).
        - exact (Ne dg tg hg mg Hig Hdg). }
      unfold add_element in Ha. cbv zeta in Ha.
      destruct (snippet_type (oty o)); [injection Ha as <-; apply Same; destruct o; reflexivity|].
      destruct (oty o =? Type_coordinates); [injection Ha as <-; apply Same; destruct o; reflexivity|].
      destruct ((oty o =? Type_SimpleData) && (oty (field ty s) =? Type_SimpleData)); [injection Ha as <-; apply Same; destruct o; reflexivity|].
      cbn [oty field] in Ha. fold (oty o) in Ha. change (oty (field ty s)) with ty in Ha.
      destruct (find_slot ty (c_slots (cls (oty o))) 0) as [[i s0]|] eqn:F; [|injection Ha as <-; apply Same; destruct o; reflexivity].
      cbv zeta in Ha. destruct (s_kind s0).
      + match type of Ha with bind ?n _ = _ => destruct n as [v| | |]; cbn [bind] in Ha; try discriminate end. injection Ha as <-. exact (Upd i s0 _ eq_refl).
      + match type of Ha with bind ?n _ = _ => destruct n as [v| | |]; cbn [bind] in Ha; try discriminate end. injection Ha as <-. exact (Upd i s0 _ eq_refl).
      + injection Ha as <-. exact (Upd i s0 _ eq_refl).
      + injection Ha as <-. exact (Upd i s0 _ eq_refl).
  Qed.
  Lemma start_agrees c : In c element_classes -> creatable c = true -> agree c (create c) (fresh c).
  Proof.
    intros Hc Hk. pose proof (class_is_ok c Hc) as Hok. split; [reflexivity|]. split; [cbn [create oslots]; now rewrite map_length|].
      intros df ty h m dflt Hi Hd Rd. destruct (slot_plain_in c df ty h m Hc Hk Hi Hd) as (i & s0 & v0 & F & T & Kd & Rd' & Kv & _).
      rewrite Rd in Rd'. injection Rd' as <-. destruct (c_plain c Hok df Hi) as (u & Hp). pose proof (fresh_cell c Hok df u Hi Hp) as C.
      exists i, s0, false, u. destruct C as [C1 C2]. rewrite Rd in C1. injection C1 as <-. split; [exact F|]. split; [split; assumption|]. split; [exact Kv|]. split; [reflexivity|].
      cbn [create oslots]. clear. generalize (c_slots (cls c)). intros l. revert i. induction l as [|x l IH]; intros [|i]; cbn [map nth]; auto.
  Qed.
  (** The element goes through its simple children (xml_element.h AddElement). *)
  Fixpoint add_fields (o : obj) (l : list (N * str)) : res obj :=
    match l with
    | [] => Ok o
    | (ty, s) :: r => do o <- add_element E o (field ty s); add_fields o r
    end.
  Lemma add_ok c o st ty s o' : In c element_classes -> creatable c = true -> oty o = c -> add_element E o (field ty s) = Ok o' -> exists st', step rd ri c st (OChild ty s) = Ok st'.
  Proof.
    intros Hc Hk Ho Ha. cbn [step]. destruct (field_of_child c ty) as [df|] eqn:Ec; [|eauto].
    destruct (child_in c _ _ Ec) as (Hi & h & m & Hd). destruct (slot_plain_in c df ty h m Hc Hk Hi Hd) as (i & s0 & v0 & F & T & Kd & Rd & Kv & S1 & S2 & S3).
    destruct df as [d f]. cbn [snd] in *. rewrite Hd.
    unfold add_element in Ha. cbv zeta in Ha. rewrite Ho, S1, S2 in Ha. cbn [oty field] in Ha. rewrite S3, F in Ha. cbv zeta in Ha. rewrite Kd in Ha. cbn [char_data otext field] in Ha.
    unfold norm in Ha. cbv zeta in Ha. unfold read_child. destruct (f_kind f); try (eexists; reflexivity).
    - cbv zeta. destruct (enum_id ty s =? -1)%Z; eexists; reflexivity.
    - destruct (set_color_abgr_str 0 s); cbn [bind] in Ha |- *; try discriminate. eexists; reflexivity.
  Qed.
  Lemma run_agrees c : In c element_classes -> creatable c = true -> numbers_agree c -> forall l o st o', agree c o st ->
    add_fields o l = Ok o' -> exists st', run rd ri c st (map (fun x => OChild (fst x) (snd x)) l) = Ok st' /\ agree c o' st'.
  Proof.
    intros Hc Hk Hn. induction l as [|[ty s] l IH]; intros o st o' Ha H; cbn [add_fields map run fst snd] in *.
    - injection H as <-. eauto.
    - destruct (add_element E o (field ty s)) as [o1| | |] eqn:A; cbn [bind] in H; try discriminate.
      destruct (add_ok c o st ty s o1 Hc Hk (proj1 Ha) A) as (s1 & S1). rewrite S1. cbn [bind].
      exact (IH o1 s1 o' (add_agrees c o st ty s o1 s1 Hc Hk Hn Ha A S1) H).
  Qed.
End Written.

(** C112, C114. Whatever simple children an element was given: what it keeps to be written for a field is nothing if its has function is false,
    and otherwise one simple child with the text of the value of the get function. *)
Theorem fields_written : forall E rd ri pd pi c l o, In c element_classes -> creatable c = true -> numbers_agree E rd ri pd pi c ->
  add_fields E (create c) l = Ok o ->
  exists st, run rd ri c (fresh c) (map (fun x => OChild (fst x) (snd x)) l) = Ok st /\
  forall n f ty, field_named c n = Some f -> child_type (snd f) = Some ty ->
    exists v h, get_field c n st = Some v /\ has_field c n st = Some (VBool h) /\
      if h then exists t, get o ty = [field ty t] /\ text_of pd pi (f_kind (snd f)) ty v t else get o ty = [].
Proof.
  intros E rd ri pd pi c l o Hc Hk Hn Ha. destruct (run_agrees E rd ri pd pi c Hc Hk Hn l _ _ o (start_agrees pd pi c Hc Hk) Ha) as (st & R & A). exists st. split; [exact R|].
  intros n f ty Fn Ct. destruct (named_in c _ _ Fn) as [Hi _]. unfold child_type in Ct. destruct (f_add (snd f)) as [[[t0 h0] m0]|] eqn:Hd; [|discriminate]. injection Ct as ->.
  destruct (slot_plain_in c f ty h0 m0 Hc Hk Hi Hd) as (i & s & v0 & F & _ & _ & Rd & _). destruct A as (Ho & _ & A).
  destruct (A f ty h0 m0 v0 Hi Hd Rd) as (i1 & s1 & h & v & F1 & C & _ & _ & V). exists v, h. destruct (cell_get c n f st h v Fn C) as [G1 G2]. split; [exact G1|]. split; [exact G2|].
  assert (G : get o ty = nth i1 (oslots o) []).
  { unfold get. rewrite Ho in *.
    assert (K : forallb (fun c => negb (creatable c) || forallb (fun df => match f_add (snd df) with
       | Some (ty, _, _) => match find_slot ty (c_slots (cls c)) 0, index_of_key ty (c_slots (cls c)) 0 with Some (i, _), Some j => Nat.eqb i j | _, _ => false end
       | None => true end) (fields c)) element_classes = true) by (vm_compute; reflexivity).
    rewrite forallb_forall in K. specialize (K c Hc). cbv beta in K. rewrite Hk in K. cbn [negb orb] in K. rewrite forallb_forall in K. specialize (K f Hi). rewrite Hd, F1 in K.
    destruct (index_of_key ty (c_slots (cls c)) 0); [|discriminate]. apply Nat.eqb_eq in K. now subst. }
  rewrite G. exact V.
Qed.
Print Assumptions fields_written.
(** Number formats that agree exist: here every number is written as 0. *)
Definition E1 : env := {| e_dbl := fun _ => S_ "0"; e_int := fun s => option_map (fun _ => S_ "0") (decimal s); e_dflt := fun _ _ => S_ "0"; e_idflt := fun _ _ => S_ "0";
                          e_adflt := fun _ _ => S_ "0"; e_aidflt := fun _ _ => S_ "0" |}.
Definition rd1 (s : str) : option double := match from_string_double s with Some _ => Some (S754_zero false) | None => None end.
Example numbers_agree_sample : forall c, numbers_agree E1 rd1 decimal (fun _ => S_ "0") (fun _ => S_ "0") c.
Proof.
  intros c. split; [|split].
  - intros s. unfold rd1. destruct (from_string_double s); [|reflexivity]. eexists. split; reflexivity.
  - reflexivity.
  - intros. split; reflexivity.
Qed.
Example fields_written_sample : match add_fields E1 (create Type_LineString) [(Type_altitudeMode, S_ "absolute"); (Type_tessellate, S_ "true"); (Type_extrude, S_ "0"); (Type_name, S_ "x")] with
  | Ok o => get o Type_altitudeMode = [field Type_altitudeMode (S_ "absolute")] /\ get o Type_tessellate = [field Type_tessellate (S_ "1")] /\ get o Type_extrude = [field Type_extrude (S_ "0")]
  | _ => False
  end.
Proof. vm_compute. repeat split; reflexivity. Qed.

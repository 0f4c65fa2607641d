(** Properties of the simple fields of elements: what the get and has functions give after any sequence of calls, and the
    values of fields that are absent. *)
From Coq Require Import ZArith Lia.
From Verif Require Import Common Doubles StringsModel ColorModel XsdTables XsdModel XsdProofs XsdProps DomTables DomModel CastModel AccessModel.
Local Open Scope N_scope.

(** Decidable equality of values. *)
Definition double_eqb (a b : double) : bool :=
  match a, b with
  | S754_zero s, S754_zero t => Bool.eqb s t
  | S754_infinity s, S754_infinity t => Bool.eqb s t
  | S754_nan, S754_nan => true
  | S754_finite s m e, S754_finite t n f => Bool.eqb s t && Pos.eqb m n && Z.eqb e f
  | _, _ => false
  end.
Lemma double_eqb_spec a b : double_eqb a b = true -> a = b.
Proof.
  destruct a, b; cbn; intros H; try discriminate; try reflexivity; try (apply Bool.eqb_prop in H; now subst).
  apply andb_prop in H as [H H2]. apply andb_prop in H as [H0 H1]. apply Bool.eqb_prop in H0. apply Pos.eqb_eq in H1. apply Z.eqb_eq in H2. now subst.
Qed.
Definition val_eqb (a b : val) : bool :=
  match a, b with
  | VBool x, VBool y => Bool.eqb x y
  | VInt x, VInt y => Z.eqb x y
  | VDouble x, VDouble y => double_eqb x y
  | VColor x, VColor y => N.eqb x y
  | VText x, VText y => eqs x y
  | _, _ => false
  end.
Lemma val_eqb_spec a b : val_eqb a b = true -> a = b.
Proof.
  destruct a, b; cbn; intros H; try discriminate.
  - apply Bool.eqb_prop in H. now subst.
  - apply Z.eqb_eq in H. now subst.
  - apply double_eqb_spec in H. now subst.
  - apply N.eqb_eq in H. now subst.
  - apply eqs_spec in H. now subst.
Qed.

(** What is checked of every class. *)
Definition key := (N * str)%type.
Definition key_eqb (a b : key) : bool := (fst a =? fst b) && eqs (snd a) (snd b).
Definition keys_of (df : N * fld) : list key := [(fst df, f_get (snd df)); (fst df, f_has (snd df))].
Definition disjointb (a b : list key) : bool := forallb (fun x => negb (existsb (key_eqb x) b)) a.
Definition is_rhs (x : str * rhs) (m : str) (r : rhs) : bool :=
  eqs (fst x) m && match snd x, r with Arg, Arg => true | Const v, Const w => val_eqb v w | _, _ => false end.
Definition fld_ok (f : fld) : bool :=
  negb (eqs (f_get f) (f_has f)) &&
  match f_set f, f_clear f, f_init f with
  | [s1; s2], [c1; c2], [(i1, v); (i2, w)] =>
      is_rhs s1 (f_get f) Arg && is_rhs s2 (f_has f) (Const (VBool true)) &&
      is_rhs c1 (f_get f) (Const v) && is_rhs c2 (f_has f) (Const (VBool false)) &&
      eqs i1 (f_get f) && eqs i2 (f_has f) && val_eqb w (VBool false)
  | _, _, _ => false
  end &&
  match f_add f with Some (_, h, m) => eqs h (f_has f) && eqs m (f_get f) | None => true end.
Fixpoint nodupb {A} (e : A -> A -> bool) (l : list A) : bool :=
  match l with [] => true | x :: r => negb (existsb (e x) r) && nodupb e r end.
Definition opt_eqb (a b : option N) : bool := match a, b with Some x, Some y => x =? y | _, _ => false end.
Definition child_type (f : fld) : option N := option_map (fun t => fst (fst t)) (f_add f).
Definition class_ok (c : N) : bool :=
  forallb (fun df => fld_ok (snd df)) (fields c) &&
  nodupb (fun a b => eqs (f_name (snd a)) (f_name (snd b))) (fields c) &&
  nodupb (fun a b => opt_eqb (child_type (snd a)) (child_type (snd b))) (fields c) &&
  nodupb (fun a b => negb (disjointb (keys_of a) (keys_of b) && disjointb (keys_of b) (keys_of a))) (fields c).
(** Every class of the library. *)
Definition element_classes : list N := map fst base_class.
Lemma classes_ok : forallb class_ok element_classes = true.
Proof. vm_compute. reflexivity. Qed.
Lemma nodupb_in {A} (e : A -> A -> bool) l x y : nodupb e l = true -> In x l -> In y l -> x = y \/ e x y = false \/ e y x = false.
Proof.
  induction l as [|a l IH]; cbn [nodupb In]; [contradiction|]. intros H Hx Hy. apply andb_prop in H as [H1 H2]. apply negb_true_iff in H1.
  assert (G : forall z, In z l -> e a z = false).
  { intros z Hz. destruct (e a z) eqn:E; [|reflexivity]. rewrite <- H1. symmetry. apply existsb_exists. now exists z. }
  destruct Hx as [<-|Hx], Hy as [<-|Hy]; auto.
Qed.
Lemma key_eqb_spec a b : key_eqb a b = true <-> a = b.
Proof.
  unfold key_eqb. destruct a as [x s], b as [y t]; cbn. rewrite andb_true_iff, N.eqb_eq, eqs_spec. split; [intros [-> ->]; reflexivity|intros H; injection H; auto].
Qed.
Lemma disjointb_spec a b k : disjointb a b = true -> In k a -> In k b -> False.
Proof.
  unfold disjointb. intros H Ha Hb. rewrite forallb_forall in H. specialize (H k Ha). apply negb_true_iff in H.
  assert (G : existsb (key_eqb k) b = true) by (apply existsb_exists; exists k; split; [exact Hb|now apply key_eqb_spec]). congruence.
Qed.
Lemma same_spec d m d' m' v : same d m (d', m', v) = true <-> d = d' /\ m = m'.
Proof. cbn. rewrite andb_true_iff, N.eqb_eq, eqs_spec. reflexivity. Qed.
Lemma read_write_same st d m v : read st d m <> None -> read (write st d m v) d m = Some v.
Proof.
  unfold read, write. induction st as [|[[d' m'] w] st IH]; [cbn; congruence|]. intros H. cbn [map List.find].
  destruct (same d m (d', m', w)) eqn:E.
  - cbn [fst]. replace (same d m (d', m', v)) with true by (symmetry; now apply same_spec, (same_spec d m d' m' w)). reflexivity.
  - rewrite E. apply IH. cbn [List.find] in H. now rewrite E in H.
Qed.
Lemma read_write_other st d m v d' m' : (d, m) <> (d', m') -> read (write st d m v) d' m' = read st d' m'.
Proof.
  intros Hn. unfold read, write. induction st as [|[[d1 m1] w] st IH]; [reflexivity|]. cbn [map List.find].
  destruct (same d m (d1, m1, w)) eqn:E.
  - cbn [fst]. apply same_spec in E as [<- <-]. assert (G : forall u, same d' m' (d, m, u) = false).
    { intros u. destruct (same d' m' (d, m, u)) eqn:E; [|reflexivity]. apply same_spec in E as [-> ->]. congruence. }
    rewrite !G. exact IH.
  - destruct (same d' m' (d1, m1, w)); [reflexivity|exact IH].
Qed.

(** The form of the functions of a field with the default value [v]. *)
Definition plain (f : fld) (v : val) : Prop :=
  f_get f <> f_has f /\
  f_set f = [(f_get f, Arg); (f_has f, Const (VBool true))] /\
  f_clear f = [(f_get f, Const v); (f_has f, Const (VBool false))] /\
  f_init f = [(f_get f, v); (f_has f, VBool false)] /\
  (forall ty h m, f_add f = Some (ty, h, m) -> h = f_has f /\ m = f_get f).
Lemma is_rhs_spec x m r : is_rhs x m r = true -> x = (m, r).
Proof.
  unfold is_rhs. destruct x as [n q]. cbn. intros H. apply andb_prop in H as [H1 H2]. apply eqs_spec in H1. subst.
  destruct q, r; try discriminate; [reflexivity|]. apply val_eqb_spec in H2. now subst.
Qed.
Lemma fld_plain f : fld_ok f = true -> exists v, plain f v.
Proof.
  unfold fld_ok, plain. intros H. apply andb_prop in H as [H H3]. apply andb_prop in H as [H1 H2].
  destruct (f_set f) as [|s1 [|s2 [|]]]; try discriminate. destruct (f_clear f) as [|c1 [|c2 [|]]]; try discriminate.
  destruct (f_init f) as [|[i1 v] [|[i2 w] [|]]]; try discriminate. exists v.
  do 6 (apply andb_prop in H2 as [H2 ?]).
  repeat match goal with H : is_rhs _ _ _ = true |- _ => apply is_rhs_spec in H; subst end.
  repeat match goal with H : eqs _ _ = true |- _ => apply eqs_spec in H; subst end.
  match goal with H : val_eqb _ _ = true |- _ => apply val_eqb_spec in H; subst end.
  split; [intros E; rewrite E, eqs_refl in H1; discriminate|]. split; [reflexivity|]. split; [reflexivity|]. split; [reflexivity|].
  intros ty h m Ha. rewrite Ha in H3. apply andb_prop in H3 as [G1 G2]. now apply eqs_spec in G1, G2.
Qed.

Section OneClass.
  Variable c : N.
  Hypothesis Hc : class_ok c = true.
  Lemma c_plain df : In df (fields c) -> exists v, plain (snd df) v.
  Proof.
    intros Hi. apply fld_plain. unfold class_ok in Hc. apply andb_prop in Hc as [H _]. apply andb_prop in H as [H _]. apply andb_prop in H as [H _].
    rewrite forallb_forall in H. exact (H df Hi).
  Qed.
  Lemma c_names x y : In x (fields c) -> In y (fields c) -> f_name (snd x) = f_name (snd y) -> x = y.
  Proof.
    intros Hx Hy E. unfold class_ok in Hc. apply andb_prop in Hc as [H _]. apply andb_prop in H as [H _]. apply andb_prop in H as [_ H].
    destruct (nodupb_in _ _ x y H Hx Hy) as [G|[G|G]]; [exact G| |]; cbv beta in G; rewrite E, eqs_refl in G; discriminate.
  Qed.
  Lemma c_types x y t : In x (fields c) -> In y (fields c) -> child_type (snd x) = Some t -> child_type (snd y) = Some t -> x = y.
  Proof.
    intros Hx Hy Ex Ey. unfold class_ok in Hc. apply andb_prop in Hc as [H _]. apply andb_prop in H as [_ H].
    destruct (nodupb_in _ _ x y H Hx Hy) as [G|[G|G]]; [exact G| |]; cbv beta in G; rewrite Ex, Ey in G; cbn in G; rewrite N.eqb_refl in G; discriminate.
  Qed.
  Lemma c_keys x y k : In x (fields c) -> In y (fields c) -> In k (keys_of x) -> In k (keys_of y) -> x = y.
  Proof.
    intros Hx Hy Kx Ky. unfold class_ok in Hc. apply andb_prop in Hc as [_ H].
    destruct (nodupb_in _ _ x y H Hx Hy) as [G|[G|G]]; [exact G| |]; cbv beta in G; apply negb_false_iff, andb_prop in G as [G1 G2]; exfalso;
      [exact (disjointb_spec _ _ k G1 Kx Ky)|exact (disjointb_spec _ _ k G2 Kx Ky)].
  Qed.

  (** The cell of a field. *)
  Definition cell (st : members) (df : N * fld) (h : bool) (v : val) : Prop :=
    read st (fst df) (f_get (snd df)) = Some v /\ read st (fst df) (f_has (snd df)) = Some (VBool h).
  Lemma fresh_cell df v : In df (fields c) -> plain (snd df) v -> cell (fresh c) df false v.
  Proof.
    intros Hi Hp. destruct Hp as (Hne & _ & _ & Hin & _).
    assert (G : forall m w, In (m, w) (f_init (snd df)) -> read (fresh c) (fst df) m = Some w).
    { intros m w Hm. unfold read, fresh.
      destruct (List.find (same (fst df) m) (flat_map (fun df => map (fun mv => (fst df, fst mv, snd mv)) (f_init (snd df))) (fields c))) as [[[d' m'] u]|] eqn:E.
      - apply List.find_some in E as [E1 E2]. apply same_spec in E2 as [<- <-]. cbn [option_map snd]. f_equal.
        apply in_flat_map in E1 as (dg & Hg & E1). apply in_map_iff in E1 as ([m1 w1] & E1 & E3). cbn [fst snd] in E1. injection E1 as E1 -> ->.
        destruct (c_plain dg Hg) as (v' & Hne' & _ & _ & Hin' & _).
        assert (K : df = dg).
        { apply (c_keys df dg (fst df, m) Hi Hg).
          - rewrite Hin in Hm. unfold keys_of. cbn in Hm |- *. destruct Hm as [Hm|[Hm|[]]]; injection Hm as <- <-; auto.
          - rewrite Hin' in E3. unfold keys_of. cbn in E3 |- *. rewrite <- E1. destruct E3 as [E3|[E3|[]]]; injection E3 as <- <-; auto. }
        subst dg. rewrite Hin in Hm, E3. cbn in Hm, E3.
        destruct Hm as [Hm|[Hm|[]]], E3 as [E3|[E3|[]]]; injection Hm as H1 H2; injection E3 as H3 H4; congruence.
      - exfalso. assert (K : same (fst df) m (fst df, m, w) = true) by now apply same_spec.
        rewrite (List.find_none _ _ E (fst df, m, w)) in K; [discriminate|].
        apply in_flat_map. exists df. split; [exact Hi|]. apply in_map_iff. now exists (m, w). }
    split; apply G; rewrite Hin; cbn; auto.
  Qed.
  Lemma write_cell st df v h w : In df (fields c) -> plain (snd df) v -> (exists h0 w0, cell st df h0 w0) ->
    cell (write (write st (fst df) (f_get (snd df)) w) (fst df) (f_has (snd df)) (VBool h)) df h w.
  Proof.
    intros Hi (Hne & _) (h0 & w0 & [H1 H2]). split.
    - rewrite read_write_other by congruence. apply read_write_same. congruence.
    - apply read_write_same. rewrite read_write_other by congruence. congruence.
  Qed.
  Lemma write_flag_cell st df v h w h0 : In df (fields c) -> plain (snd df) v -> cell st df h0 w ->
    cell (write st (fst df) (f_has (snd df)) (VBool h)) df h w.
  Proof.
    intros Hi (Hne & _) [H1 H2]. split.
    - rewrite read_write_other by congruence. exact H1.
    - apply read_write_same. congruence.
  Qed.
  Lemma write_other_cell st df dg m u h w : In df (fields c) -> In dg (fields c) -> df <> dg -> In (fst dg, m) (keys_of dg) ->
    cell st df h w -> cell (write st (fst dg) m u) df h w.
  Proof.
    intros Hi Hg Hn Hm [H1 H2].
    split; (rewrite read_write_other; [assumption|]; intros E; apply Hn; apply (c_keys df dg (fst dg, m) Hi Hg); [|exact Hm]; rewrite E; unfold keys_of; cbn; auto).
  Qed.

  Lemma named_in n df : field_named c n = Some df -> In df (fields c) /\ f_name (snd df) = n.
  Proof. unfold field_named. intros H. apply List.find_some in H as [H1 H2]. split; [exact H1|now apply eqs_spec in H2]. Qed.
  Lemma child_in ty df : field_of_child c ty = Some df -> In df (fields c) /\ exists h m, f_add (snd df) = Some (ty, h, m).
  Proof.
    unfold field_of_child. intros H. apply List.find_some in H as [H1 H2]. split; [exact H1|]. unfold takes_child in H2.
    destruct (f_add (snd df)) as [[[t h] m]|]; [|discriminate]. apply N.eqb_eq in H2. subst. eauto.
  Qed.
  Lemma key_get df : In (fst df, f_get (snd df)) (keys_of df).
  Proof. cbn. auto. Qed.
  Lemma key_has df : In (fst df, f_has (snd df)) (keys_of df).
  Proof. cbn. auto. Qed.

  Variable read_double : str -> option double.
  Variable read_int : str -> option Z.
  Notation step := (step read_double read_int c).
  Notation run := (run read_double read_int c).
  (** The field an operation is about. *)
  Definition about (o : op) : option (N * fld) :=
    match o with OSet n _ => field_named c n | OClear n => field_named c n | OChild ty _ => field_of_child c ty end.
  Lemma step_other st o st' df h w : step st o = Ok st' -> In df (fields c) -> about o <> Some df -> cell st df h w -> cell st' df h w.
  Proof.
    intros Hs Hi Ha Hcell.
    assert (G : forall n dg arg l, field_named c n = Some dg -> Some dg <> Some df -> (forall m r, In (m, r) l -> In (fst dg, m) (keys_of dg)) ->
       cell (fold_left (assign (fst dg) arg) l st) df h w).
    { intros n dg arg l Hn Hd Hl. destruct (named_in n dg Hn) as [Hg _]. clear Hs. revert st Hcell.
      induction l as [|[m r] l IH]; intros st Hcell; [exact Hcell|]. cbn [fold_left]. apply IH; [intros m' r' H; exact (Hl m' r' (or_intror H))|].
      unfold assign. cbn [fst snd]. apply write_other_cell; auto; [congruence|]. exact (Hl m r (or_introl eq_refl)). }
    destruct o as [n v|n|ty s]; cbn [AccessModel.step about] in Hs, Ha.
    - injection Hs as <-. destruct (field_named c n) as [[d f]|] eqn:E; [|exact Hcell].
      destruct (named_in _ _ E) as [Hg _]. destruct (c_plain (d, f) Hg) as (u & Hp). cbn [snd] in Hp. destruct Hp as (_ & Hp & _).
      apply (G n (d, f) v); auto. intros m r. rewrite Hp. intros [H|[H|[]]]; injection H as <- <-; [apply (key_get (d, f))|apply (key_has (d, f))].
    - injection Hs as <-. destruct (field_named c n) as [[d f]|] eqn:E; [|exact Hcell].
      destruct (named_in _ _ E) as [Hg _]. destruct (c_plain (d, f) Hg) as (u & Hp). cbn [snd] in Hp. destruct Hp as (_ & _ & Hp & _).
      apply (G n (d, f) (VBool false)); auto. intros m r. rewrite Hp. intros [H|[H|[]]]; injection H as <- <-; [apply (key_get (d, f))|apply (key_has (d, f))].
    - destruct (field_of_child c ty) as [[d f]|] eqn:E; [|injection Hs as <-; exact Hcell].
      destruct (child_in _ _ E) as (Hg & h' & m' & Hadd). cbn [snd] in Hadd. rewrite Hadd in Hs.
      destruct (c_plain (d, f) Hg) as (u & Hp). cbn [snd] in Hp. destruct Hp as (_ & _ & _ & _ & Hp). destruct (Hp _ _ _ Hadd) as [-> ->].
      destruct (read_child read_double read_int (f_kind f) ty s) as [[x r]| | |]; cbn [bind] in Hs; try discriminate. injection Hs as <-.
      assert (Hd : df <> (d, f)) by congruence.
      apply (write_other_cell _ df (d, f)); auto; [apply (key_has (d, f))|].
      destruct x as [x|]; [|exact Hcell]. apply (write_other_cell _ df (d, f)); auto. apply (key_get (d, f)).
  Qed.
  Lemma set_cell st n v st' df h w : step st (OSet n v) = Ok st' -> field_named c n = Some df -> cell st df h w -> cell st' df true v.
  Proof.
    intros Hs Hn Hcell. cbn [AccessModel.step] in Hs. rewrite Hn in Hs. destruct df as [d f]. injection Hs as <-. destruct (named_in _ _ Hn) as [Hg _].
    destruct (c_plain (d, f) Hg) as (u & Hp). pose proof Hp as (_ & H & _). cbn [snd] in H. rewrite H. cbn [fold_left]. unfold assign. cbn [fst snd].
    apply (write_cell st (d, f) u true v); eauto.
  Qed.
  Lemma clear_cell st n st' df h w u : step st (OClear n) = Ok st' -> field_named c n = Some df -> plain (snd df) u -> cell st df h w -> cell st' df false u.
  Proof.
    intros Hs Hn Hp Hcell. cbn [AccessModel.step] in Hs. rewrite Hn in Hs. destruct df as [d f]. injection Hs as <-. destruct (named_in _ _ Hn) as [Hg _].
    pose proof Hp as (_ & _ & H & _). cbn [snd] in H. rewrite H. cbn [fold_left]. unfold assign. cbn [fst snd].
    apply (write_cell st (d, f) u false u); eauto.
  Qed.
  Lemma child_cell st ty s st' df h w : step st (OChild ty s) = Ok st' -> field_of_child c ty = Some df -> cell st df h w ->
    exists x r, read_child read_double read_int (f_kind (snd df)) ty s = Ok (x, r) /\ cell st' df r (match x with Some v => v | None => w end).
  Proof.
    intros Hs Hn Hcell. cbn [AccessModel.step] in Hs. rewrite Hn in Hs. destruct df as [d f].
    destruct (child_in _ _ Hn) as (Hg & h' & m' & Hadd). cbn [snd] in Hadd. rewrite Hadd in Hs.
    destruct (c_plain (d, f) Hg) as (u & Hp). pose proof Hp as (_ & _ & _ & _ & Hq). cbn [snd] in Hq. destruct (Hq _ _ _ Hadd) as [-> ->].
    cbn [snd]. destruct (read_child read_double read_int (f_kind f) ty s) as [[x r]| | |]; cbn [bind] in Hs; try discriminate. injection Hs as <-.
    exists x, r. split; [reflexivity|]. destruct x as [x|]; [apply (write_cell st (d, f) u r x); eauto|exact (write_flag_cell st (d, f) u r w h Hg Hp Hcell)].
  Qed.
  Lemma run_cells l : forall st st', run st l = Ok st' -> (forall df, In df (fields c) -> exists h w, cell st df h w) ->
    forall df, In df (fields c) -> exists h w, cell st' df h w.
  Proof.
    induction l as [|o l IH]; intros st st' Hr Hst df Hi; cbn [AccessModel.run] in Hr; [injection Hr as <-; auto|].
    destruct (step st o) as [st1| | |] eqn:E; cbn [bind] in Hr; try discriminate. apply (IH st1 st' Hr); [|exact Hi].
    intros dg Hg. destruct (Hst dg Hg) as (h & w & Hcell).
    assert (D : about o = Some dg \/ about o <> Some dg).
    { destruct (about o) as [dh|] eqn:A; [|right; discriminate].
      assert (Hh : In dh (fields c)).
      { destruct o; cbn [about] in A; [apply named_in in A|apply named_in in A|apply child_in in A]; tauto. }
      destruct (list_eq_dec ascii_dec (f_name (snd dh)) (f_name (snd dg))) as [e|n]; [left; f_equal; now apply c_names|right; congruence]. }
    destruct D as [D|D]; [|exists h, w; exact (step_other _ _ _ _ _ _ E Hg D Hcell)].
    destruct o as [n v|n|ty s]; cbn [about] in D.
    - exists true, v. exact (set_cell _ _ _ _ _ _ _ E D Hcell).
    - destruct (c_plain dg Hg) as (u & Hp). exists false, u. exact (clear_cell _ _ _ _ _ _ _ E D Hp Hcell).
    - destruct (child_cell _ _ _ _ _ _ _ E D Hcell) as (x & r & _ & K). eauto.
  Qed.
  Lemma run_app l1 : forall st l2, run st (l1 ++ l2) = (do st <- run st l1; run st l2).
  Proof.
    induction l1 as [|o l1 IH]; intros st l2; [reflexivity|]. cbn [app AccessModel.run]. destruct (step st o); cbn [bind]; auto.
  Qed.
  Lemma run_other l : forall st st' df h w, run st l = Ok st' -> In df (fields c) -> Forall (fun o => about o <> Some df) l -> cell st df h w -> cell st' df h w.
  Proof.
    induction l as [|o l IH]; intros st st' df h w Hr Hi Ha Hcell; cbn [AccessModel.run] in Hr; [injection Hr as <-; auto|].
    destruct (step st o) as [st1| | |] eqn:E; cbn [bind] in Hr; try discriminate. inversion Ha; subst.
    apply (IH st1 st' df h w Hr Hi); [assumption|]. exact (step_other _ _ _ _ _ _ E Hi H1 Hcell).
  Qed.
End OneClass.

Lemma class_is_ok c : In c element_classes -> class_ok c = true.
Proof. intros H. pose proof classes_ok as G. rewrite forallb_forall in G. exact (G c H). Qed.
Lemma fresh_cells c : class_ok c = true -> forall df, In df (fields c) -> exists h w, cell (fresh c) df h w.
Proof. intros Hc df Hi. destruct (c_plain c Hc df Hi) as (u & Hp). exists false, u. exact (fresh_cell c Hc df u Hi Hp). Qed.
Lemma cell_get c n df st h v : field_named c n = Some df -> cell st df h v -> get_field c n st = Some v /\ has_field c n st = Some (VBool h).
Proof. intros H [H1 H2]. unfold get_field, has_field. rewrite H. destruct df. split; assumption. Qed.
Definition untouched (c : N) (n : str) (l : list op) : Prop := Forall (fun o => about c o <> field_named c n) l.
Lemma about_in_decomp rd ri c st l1 o l2 st' : class_ok c = true -> (forall df, In df (fields c) -> exists h w, cell st df h w) ->
  run rd ri c st (l1 ++ o :: l2) = Ok st' ->
  exists s1 s2, run rd ri c st l1 = Ok s1 /\ step rd ri c s1 o = Ok s2 /\ run rd ri c s2 l2 = Ok st' /\ (forall df, In df (fields c) -> exists h w, cell s1 df h w).
Proof.
  intros Hc Hst Hr. rewrite run_app in Hr. destruct (run rd ri c st l1) as [s1| | |] eqn:E1; cbn [bind] in Hr; try discriminate.
  cbn [run] in Hr. destruct (step rd ri c s1 o) as [s2| | |] eqn:E2; cbn [bind] in Hr; try discriminate. exists s1, s2.
  repeat split; auto. exact (run_cells c Hc rd ri l1 st s1 E1 Hst).
Qed.

(** C114. The value given last is the value a field has, whatever was done to it before and to other fields afterwards. *)
Theorem set_then_get : forall rd ri c n l1 v l2 st, In c element_classes -> field_named c n <> None ->
  run rd ri c (fresh c) (l1 ++ OSet n v :: l2) = Ok st -> untouched c n l2 ->
  get_field c n st = Some v /\ has_field c n st = Some (VBool true).
Proof.
  intros rd ri c n l1 v l2 st Hc Hn Hr Hu. apply class_is_ok in Hc. destruct (field_named c n) as [df|] eqn:E; [|congruence].
  destruct (named_in c _ _ E) as [Hi _].
  destruct (about_in_decomp rd ri c _ l1 _ l2 st Hc (fresh_cells c Hc) Hr) as (s1 & s2 & _ & R2 & R3 & C1). destruct (C1 df Hi) as (h & w & K).
  apply (cell_get c n df); [exact E|]. unfold untouched in Hu. rewrite E in Hu. apply (run_other c Hc rd ri l2 s2 st df true v R3 Hi Hu).
  exact (set_cell c Hc rd ri s1 n v s2 df h w R2 E K).
Qed.
Print Assumptions set_then_get.
(** C114. A field that was cleared is not set, and has the value it has in a new element. *)
Theorem clear_then_get : forall rd ri c n l1 l2 st, In c element_classes -> field_named c n <> None ->
  run rd ri c (fresh c) (l1 ++ OClear n :: l2) = Ok st -> untouched c n l2 ->
  get_field c n st = get_field c n (fresh c) /\ has_field c n st = Some (VBool false).
Proof.
  intros rd ri c n l1 l2 st Hc Hn Hr Hu. apply class_is_ok in Hc. destruct (field_named c n) as [df|] eqn:E; [|congruence].
  destruct (named_in c _ _ E) as [Hi _]. destruct (c_plain c Hc df Hi) as (u & Hp).
  destruct (about_in_decomp rd ri c _ l1 _ l2 st Hc (fresh_cells c Hc) Hr) as (s1 & s2 & _ & R2 & R3 & C1). destruct (C1 df Hi) as (h & w & K).
  rewrite (proj1 (cell_get c n df _ _ _ E (fresh_cell c Hc df u Hi Hp))).
  apply (cell_get c n df); [exact E|]. unfold untouched in Hu. rewrite E in Hu. apply (run_other c Hc rd ri l2 s2 st df false u R3 Hi Hu).
  exact (clear_cell c rd ri s1 n s2 df h w u R2 E Hp K).
Qed.
Print Assumptions clear_then_get.
(** C114. What is done to other fields does not change a field; in a new element no field is set. *)
Theorem other_fields_kept : forall rd ri c n l1 l2 s1 st, In c element_classes -> field_named c n <> None ->
  run rd ri c (fresh c) l1 = Ok s1 -> run rd ri c s1 l2 = Ok st -> untouched c n l2 ->
  get_field c n st = get_field c n s1 /\ has_field c n st = has_field c n s1.
Proof.
  intros rd ri c n l1 l2 s1 st Hc Hn R1 R2 Hu. apply class_is_ok in Hc. destruct (field_named c n) as [df|] eqn:E; [|congruence].
  destruct (named_in c _ _ E) as [Hi _]. destruct (run_cells c Hc rd ri l1 _ _ R1 (fresh_cells c Hc) df Hi) as (h & w & K).
  unfold untouched in Hu. rewrite E in Hu. pose proof (run_other c Hc rd ri l2 s1 st df h w R2 Hi Hu K) as K2.
  destruct (cell_get c n df _ _ _ E K) as [-> ->]. exact (cell_get c n df _ _ _ E K2).
Qed.
Print Assumptions other_fields_kept.
Theorem new_element_unset : forall c n, In c element_classes -> field_named c n <> None -> has_field c n (fresh c) = Some (VBool false).
Proof.
  intros c n Hc Hn. apply class_is_ok in Hc. destruct (field_named c n) as [df|] eqn:E; [|congruence].
  destruct (named_in c _ _ E) as [Hi _]. destruct (c_plain c Hc df Hi) as (u & Hp). exact (proj2 (cell_get c n df _ _ _ E (fresh_cell c Hc df u Hi Hp))).
Qed.
Print Assumptions new_element_unset.
(** C114. A child gives its field the value of its text and nothing else: the text of a string, the truth value, the number or colour,
    the enumerator; a number that cannot be read leaves the value and sets the field, a word that is none of the enumeration
    leaves the value and the field is not set. *)
Definition child_value (rd : str -> option double) (ri : str -> option Z) (k : fkind) (ty : N) (s : str) (before : option val) (after : option val) (h : bool) : Prop :=
  match k with
  | FBool => h = true /\ after = Some (VBool (from_string_bool s))
  | FDouble => h = true /\ after = match rd s with Some d => Some (VDouble d) | None => before end
  | FInt => h = true /\ after = match ri s with Some z => Some (VInt z) | None => before end
  | FEnum => forall vals, enum_values ty = Some vals ->
      (In s vals -> h = true /\ exists i, after = Some (VInt i) /\ enum_value ty i = Ok s) /\ (~ In s vals -> h = false /\ after = before)
  | FColor => h = true /\ exists x, set_color_abgr_str 0 s = Ok x /\ after = Some (VColor x)
  | FHref => h = true /\ after = Some (VText (inside_cdata s))
  | _ => h = true /\ after = Some (VText s)
  end.
Theorem child_then_get : forall rd ri c n f ty s l1 l2 st, In c element_classes -> field_named c n = Some f -> field_of_child c ty = Some f ->
  run rd ri c (fresh c) (l1 ++ OChild ty s :: l2) = Ok st -> untouched c n l2 ->
  exists s1 h, run rd ri c (fresh c) l1 = Ok s1 /\ has_field c n st = Some (VBool h) /\
    child_value rd ri (f_kind (snd f)) ty s (get_field c n s1) (get_field c n st) h.
Proof.
  intros rd ri c n f ty s l1 l2 st Hc E Ef Hr Hu. apply class_is_ok in Hc. destruct (named_in c _ _ E) as [Hi _].
  destruct (about_in_decomp rd ri c _ l1 _ l2 st Hc (fresh_cells c Hc) Hr) as (s1 & s2 & R1 & R2 & R3 & C1). destruct (C1 f Hi) as (h & w & K).
  destruct (child_cell c Hc rd ri s1 ty s s2 f h w R2 Ef K) as (x & r & Hx & K2).
  unfold untouched in Hu. rewrite E in Hu. pose proof (run_other c Hc rd ri l2 s2 st f r _ R3 Hi Hu K2) as K3.
  exists s1, r. split; [exact R1|]. destruct (cell_get c n f _ _ _ E K3) as [G1 G2]. split; [exact G2|].
  rewrite G1, (proj1 (cell_get c n f _ _ _ E K)). unfold read_child in Hx. unfold child_value.
  destruct (f_kind (snd f)); cbv zeta in Hx.
  - injection Hx as <- <-. auto.
  - injection Hx as <- <-. auto.
  - injection Hx as <- <-. auto.
  - injection Hx as <- <-. split; [reflexivity|]. now destruct (rd s).
  - injection Hx as <- <-. split; [reflexivity|]. now destruct (ri s).
  - intros vals Hv. destruct (enum_accepted_text ty s) as [T1 T2]. destruct (Z.eqb_spec (enum_id ty s) (-1)) as [e|ne].
    + injection Hx as <- <-. split; [intros Hin; exfalso; exact (proj1 T2 e vals Hv Hin)|auto].
    + injection Hx as <- <-. split; [intros _; split; [reflexivity|]; exists (enum_id ty s); split; [reflexivity|exact (T1 ne)]|].
      intros Hin. exfalso. apply ne, T2. intros v Hv'. congruence.
  - destruct (set_color_abgr_str 0 s) as [y| | |]; cbn [bind] in Hx; try discriminate. injection Hx as <- <-. eauto.
  - injection Hx as <- <-. auto.
  - injection Hx as <- <-. auto.
Qed.
Print Assumptions child_then_get.
(** Readers used in examples: an integer in decimal or with one zero after the point. *)
Definition decimals : list (str * Z) :=
  [(S_ "0", 0); (S_ "0.0", 0); (S_ "1", 1); (S_ "1.0", 1); (S_ "2", 2); (S_ "4", 4); (S_ "-1", -1); (S_ "180.0", 180); (S_ "-180.0", -180)]%Z.
Definition decimal (s : str) : option Z := option_map snd (List.find (fun e => eqs (fst e) s) decimals).
Definition rd0 (s : str) : option double := option_map d_of_Z (decimal s).
Example fields_sample :
  let c := Type_LineString in
  match run rd0 decimal c (fresh c) [OSet (S_ "tessellate") (VBool true); OSet (S_ "extrude") (VBool true); OChild Type_altitudeMode (S_ "absolute"); OClear (S_ "extrude")] with
  | Ok st => get_field c (S_ "tessellate") st = Some (VBool true) /\ has_field c (S_ "tessellate") st = Some (VBool true) /\
             has_field c (S_ "extrude") st = Some (VBool false) /\ get_field c (S_ "altitudemode") st = Some (VInt 2) /\
             get_field c (S_ "id") st = Some (VText []) /\ untouched c (S_ "tessellate") [OClear (S_ "extrude")]
  | _ => False
  end.
Proof.
  vm_compute. repeat split; auto. constructor; [discriminate|constructor].
Qed.
(** C114. A field that is not set has the value of a new element, unless an enumeration was given a word that is not one of its values ... *)
Theorem unset_default : forall rd ri c n l st, In c element_classes -> field_named c n <> None -> run rd ri c (fresh c) l = Ok st ->
  (forall ty s, In (OChild ty s) l -> field_of_child c ty = field_named c n -> (forall f, field_named c n = Some f -> f_kind (snd f) = FEnum -> enum_id ty s <> (-1)%Z)) ->
  has_field c n st = Some (VBool false) -> get_field c n st = get_field c n (fresh c).
Proof.
  intros rd ri c n l st Hc Hn Hr Hg Hh. apply class_is_ok in Hc. destruct (field_named c n) as [df|] eqn:E; [|congruence].
  destruct (named_in c _ _ E) as [Hi _]. destruct (c_plain c Hc df Hi) as (u & Hp).
  pose proof (fresh_cell c Hc df u Hi Hp) as K0. rewrite (proj1 (cell_get c n df _ _ _ E K0)).
  assert (G : forall l s0 h w, run rd ri c s0 l = Ok st -> cell s0 df h w -> (h = false -> w = u) ->
      (forall ty s, In (OChild ty s) l -> field_of_child c ty = Some df -> f_kind (snd df) = FEnum -> enum_id ty s <> (-1)%Z) ->
      get_field c n st = Some u).
  { clear l Hr Hg. induction l as [|o l IH]; intros s0 h w Hr K Hw Hg; cbn [run] in Hr.
    - injection Hr as ->. destruct (cell_get c n df _ _ _ E K) as [G1 G2]. rewrite Hh in G2. injection G2 as <-. rewrite G1, Hw by reflexivity. reflexivity.
    - destruct (step rd ri c s0 o) as [s1| | |] eqn:E1; cbn [bind] in Hr; try discriminate.
      assert (Hg' : forall ty s, In (OChild ty s) l -> field_of_child c ty = Some df -> f_kind (snd df) = FEnum -> enum_id ty s <> (-1)%Z)
        by (intros ty s Ho; apply Hg; right; exact Ho).
      assert (D : about c o = Some df \/ about c o <> Some df).
      { destruct (about c o) as [dh|] eqn:A; [|right; discriminate].
        assert (Hh' : In dh (fields c)).
        { destruct o; cbn [about] in A; [apply named_in in A|apply named_in in A|apply child_in in A]; tauto. }
        destruct (list_eq_dec ascii_dec (f_name (snd dh)) (f_name (snd df))) as [e|ne]; [left; f_equal; now apply (c_names c Hc)|right; congruence]. }
      destruct D as [D|D]; [|exact (IH s1 h w Hr (step_other c Hc rd ri s0 o s1 df h w E1 Hi D K) Hw Hg')].
      destruct o as [m v|m|ty s]; cbn [about] in D.
      + apply (IH s1 true v Hr); [exact (set_cell c Hc rd ri s0 m v s1 df h w E1 D K)|discriminate|exact Hg'].
      + apply (IH s1 false u Hr); [exact (clear_cell c rd ri s0 m s1 df h w u E1 D Hp K)|reflexivity|exact Hg'].
      + destruct (child_cell c Hc rd ri s0 ty s s1 df h w E1 D K) as (x & r & Hx & K2). apply (IH s1 r _ Hr K2); [|exact Hg'].
        intros ->. exfalso. unfold read_child in Hx. destruct (f_kind (snd df)) eqn:Kd; cbv zeta in Hx; try discriminate.
        * destruct (Z.eqb_spec (enum_id ty s) (-1)) as [e|ne]; [|discriminate]. exact (Hg ty s (or_introl eq_refl) D eq_refl e).
        * destruct (set_color_abgr_str 0 s); cbn [bind] in Hx; discriminate. }
  apply (G l (fresh c) false u Hr K0); [reflexivity|]. intros ty s Ho Ef Ek. exact (Hg ty s Ho Ef df eq_refl Ek).
Qed.
Print Assumptions unset_default.
(** C114 ... : after two altitudeMode children, the second of them misspelt, the field is not set but keeps the value of the first. *)
Theorem unset_default_refuted : exists st, run rd0 decimal Type_Point (fresh Type_Point) [OChild Type_altitudeMode (S_ "absolute"); OChild Type_altitudeMode (S_ "Absolute")] = Ok st /\
  has_field Type_Point (S_ "altitudemode") st = Some (VBool false) /\ get_field Type_Point (S_ "altitudemode") st = Some (VInt 2) /\
  get_field Type_Point (S_ "altitudemode") (fresh Type_Point) = Some (VInt 0).
Proof. eexists. vm_compute. repeat split; reflexivity. Qed.
Print Assumptions unset_default_refuted.

(** The values the schema of KML 2.1 (testdata/xsd/kml21.xsd: 157, 189-200, 244-246, 296-298, 386-387, 425-428, 440-443, 452, 522-530, 559-562,
    663, 681-684, 698-702, 714-716, 731-733, 753-761, 779, 844-845, 871, 885, 899-900, 923-926, 942-944) gives to simple elements that are absent:
    class, field, element, text.  The one of open is below. *)
Definition schema_defaults : list (N * str * N * str) :=
  [(Type_Placemark, S_ "visibility", Type_visibility, S_ "1"); (Type_Folder, S_ "visibility", Type_visibility, S_ "1");
   (Type_Document, S_ "visibility", Type_visibility, S_ "1"); (Type_NetworkLink, S_ "visibility", Type_visibility, S_ "1");
   (Type_GroundOverlay, S_ "visibility", Type_visibility, S_ "1"); (Type_ScreenOverlay, S_ "visibility", Type_visibility, S_ "1");
   (Type_PhotoOverlay, S_ "visibility", Type_visibility, S_ "1"); (Type_LookAt, S_ "longitude", Type_longitude, S_ "0");
   (Type_LookAt, S_ "latitude", Type_latitude, S_ "0"); (Type_LookAt, S_ "altitude", Type_altitude, S_ "0");
   (Type_LookAt, S_ "tilt", Type_tilt, S_ "0"); (Type_LookAt, S_ "heading", Type_heading, S_ "0");
   (Type_LookAt, S_ "altitudemode", Type_altitudeMode, S_ "clampToGround"); (Type_GroundOverlay, S_ "color", Type_color, S_ "ffffffff");
   (Type_GroundOverlay, S_ "draworder", Type_drawOrder, S_ "0"); (Type_ScreenOverlay, S_ "color", Type_color, S_ "ffffffff");
   (Type_ScreenOverlay, S_ "draworder", Type_drawOrder, S_ "0"); (Type_PhotoOverlay, S_ "color", Type_color, S_ "ffffffff");
   (Type_PhotoOverlay, S_ "draworder", Type_drawOrder, S_ "0"); (Type_IconStyle, S_ "color", Type_color, S_ "ffffffff");
   (Type_IconStyle, S_ "colormode", Type_colorMode, S_ "normal"); (Type_LabelStyle, S_ "color", Type_color, S_ "ffffffff");
   (Type_LabelStyle, S_ "colormode", Type_colorMode, S_ "normal"); (Type_LineStyle, S_ "color", Type_color, S_ "ffffffff");
   (Type_LineStyle, S_ "colormode", Type_colorMode, S_ "normal"); (Type_PolyStyle, S_ "color", Type_color, S_ "ffffffff");
   (Type_PolyStyle, S_ "colormode", Type_colorMode, S_ "normal"); (Type_NetworkLink, S_ "refreshvisibility", Type_refreshVisibility, S_ "0");
   (Type_NetworkLink, S_ "flytoview", Type_flyToView, S_ "0"); (Type_LatLonAltBox, S_ "north", Type_north, S_ "180.0");
   (Type_LatLonAltBox, S_ "south", Type_south, S_ "-180.0"); (Type_LatLonAltBox, S_ "east", Type_east, S_ "180.0");
   (Type_LatLonAltBox, S_ "west", Type_west, S_ "-180.0"); (Type_LatLonAltBox, S_ "minaltitude", Type_minAltitude, S_ "0");
   (Type_LatLonAltBox, S_ "maxaltitude", Type_maxAltitude, S_ "0"); (Type_LatLonAltBox, S_ "altitudemode", Type_altitudeMode, S_ "clampToGround");
   (Type_Lod, S_ "minlodpixels", Type_minLodPixels, S_ "0"); (Type_Lod, S_ "maxlodpixels", Type_maxLodPixels, S_ "-1");
   (Type_Lod, S_ "minfadeextent", Type_minFadeExtent, S_ "0"); (Type_Lod, S_ "maxfadeextent", Type_maxFadeExtent, S_ "0");
   (Type_NetworkLinkControl, S_ "minrefreshperiod", Type_minRefreshPeriod, S_ "0"); (Type_Link, S_ "refreshmode", Type_refreshMode, S_ "onChange");
   (Type_Link, S_ "refreshinterval", Type_refreshInterval, S_ "4"); (Type_Link, S_ "viewrefreshmode", Type_viewRefreshMode, S_ "never");
   (Type_Link, S_ "viewrefreshtime", Type_viewRefreshTime, S_ "4"); (Type_Link, S_ "viewboundscale", Type_viewBoundScale, S_ "1");
   (Type_Icon, S_ "refreshmode", Type_refreshMode, S_ "onChange"); (Type_Icon, S_ "refreshinterval", Type_refreshInterval, S_ "4");
   (Type_Icon, S_ "viewrefreshmode", Type_viewRefreshMode, S_ "never"); (Type_Icon, S_ "viewrefreshtime", Type_viewRefreshTime, S_ "4");
   (Type_Icon, S_ "viewboundscale", Type_viewBoundScale, S_ "1"); (Type_Point, S_ "extrude", Type_extrude, S_ "0");
   (Type_Point, S_ "altitudemode", Type_altitudeMode, S_ "clampToGround"); (Type_LineString, S_ "extrude", Type_extrude, S_ "0");
   (Type_LineString, S_ "tessellate", Type_tessellate, S_ "0"); (Type_LineString, S_ "altitudemode", Type_altitudeMode, S_ "clampToGround");
   (Type_LinearRing, S_ "extrude", Type_extrude, S_ "0"); (Type_LinearRing, S_ "tessellate", Type_tessellate, S_ "0");
   (Type_LinearRing, S_ "altitudemode", Type_altitudeMode, S_ "clampToGround"); (Type_Polygon, S_ "extrude", Type_extrude, S_ "0");
   (Type_Polygon, S_ "tessellate", Type_tessellate, S_ "0"); (Type_Polygon, S_ "altitudemode", Type_altitudeMode, S_ "clampToGround");
   (Type_Model, S_ "altitudemode", Type_altitudeMode, S_ "clampToGround"); (Type_Location, S_ "longitude", Type_longitude, S_ "0");
   (Type_Location, S_ "latitude", Type_latitude, S_ "0"); (Type_Location, S_ "altitude", Type_altitude, S_ "0");
   (Type_Orientation, S_ "heading", Type_heading, S_ "0.0"); (Type_Orientation, S_ "tilt", Type_tilt, S_ "0.0");
   (Type_Orientation, S_ "roll", Type_roll, S_ "0.0"); (Type_Scale, S_ "x", Type_x, S_ "1.0");
   (Type_Scale, S_ "y", Type_y, S_ "1.0"); (Type_Scale, S_ "z", Type_z, S_ "1.0");
   (Type_GroundOverlay, S_ "altitude", Type_altitude, S_ "0"); (Type_GroundOverlay, S_ "altitudemode", Type_altitudeMode, S_ "clampToGround");
   (Type_LatLonBox, S_ "north", Type_north, S_ "180.0"); (Type_LatLonBox, S_ "south", Type_south, S_ "-180.0");
   (Type_LatLonBox, S_ "east", Type_east, S_ "180.0"); (Type_LatLonBox, S_ "west", Type_west, S_ "-180.0");
   (Type_LatLonBox, S_ "rotation", Type_rotation, S_ "0"); (Type_ScreenOverlay, S_ "rotation", Type_rotation, S_ "0");
   (Type_IconStyle, S_ "scale", Type_scale, S_ "1"); (Type_IconStyle, S_ "heading", Type_heading, S_ "0");
   (Type_LabelStyle, S_ "scale", Type_scale, S_ "1"); (Type_LineStyle, S_ "width", Type_width, S_ "1");
   (Type_PolyStyle, S_ "fill", Type_fill, S_ "1"); (Type_PolyStyle, S_ "outline", Type_outline, S_ "1");
   (Type_BalloonStyle, S_ "bgcolor", Type_bgColor, S_ "ffffffff"); (Type_BalloonStyle, S_ "textcolor", Type_textColor, S_ "ff000000");
   (Type_ListStyle, S_ "listitemtype", Type_listItemType, S_ "check"); (Type_ListStyle, S_ "bgcolor", Type_bgColor, S_ "ffffffff")].
Definition readers (rd : str -> option double) (ri : str -> option Z) : Prop :=
  forall t z, decimal t = Some z -> rd t = Some (d_of_Z z) /\ ri t = Some z.
Definition number_kind (k : fkind) : bool := match k with FDouble | FInt => true | _ => false end.
Lemma read_child_same rd ri k ty t : readers rd ri -> (number_kind k = true -> decimal t <> None) -> read_child rd ri k ty t = read_child rd0 decimal k ty t.
Proof.
  intros Hr Hn. destruct k; cbn [read_child]; try reflexivity; unfold rd0; destruct (decimal t) as [z|] eqn:E;
    try (exfalso; apply Hn; reflexivity); destruct (Hr t z E) as [R1 R2]; rewrite ?R1, ?R2; reflexivity.
Qed.
Definition row_ok (r : N * str * N * str) : bool :=
  let '(c, n, ty, t) := r in
  match field_of_child c ty with
  | Some (_, f) => eqs (f_name f) n && (negb (number_kind (f_kind f)) || match decimal t with Some _ => true | None => false end)
  | None => false
  end &&
  match run rd0 decimal c (fresh c) [OChild ty t] with
  | Ok st => match get_field c n st, get_field c n (fresh c), has_field c n st with Some v, Some w, Some x => val_eqb v w && val_eqb x (VBool true) | _, _, _ => false end
  | _ => false
  end.
Lemma rows_ok : forallb row_ok schema_defaults = true.
Proof. vm_compute. reflexivity. Qed.
(** C114. An element without the child and an element with the default of the schema written out give the same value. *)
Theorem absent_is_schema_default : forall rd ri c n ty t, readers rd ri -> In (c, n, ty, t) schema_defaults ->
  exists st, run rd ri c (fresh c) [OChild ty t] = Ok st /\ get_field c n st = get_field c n (fresh c) /\ get_field c n (fresh c) <> None /\ has_field c n st = Some (VBool true).
Proof.
  intros rd ri c n ty t Hr Hi. pose proof rows_ok as G. rewrite forallb_forall in G. specialize (G _ Hi). unfold row_ok in G. apply andb_prop in G as [G1 G2].
  assert (E : run rd ri c (fresh c) [OChild ty t] = run rd0 decimal c (fresh c) [OChild ty t]).
  { cbn [run step]. destruct (field_of_child c ty) as [[d f]|] eqn:F; [|reflexivity]. destruct (f_add f) as [[[t' h] m]|]; [|reflexivity].
    rewrite (read_child_same rd ri (f_kind f) ty t Hr); [reflexivity|]. intros K. apply andb_prop in G1 as [_ G1]. rewrite K in G1. cbn [negb orb] in G1. now destruct (decimal t). }
  rewrite E. destruct (run rd0 decimal c (fresh c) [OChild ty t]) as [st| | |]; try discriminate. exists st. split; [reflexivity|].
  destruct (get_field c n st) as [v|]; [|discriminate]. destruct (get_field c n (fresh c)) as [w|]; [|discriminate]. destruct (has_field c n st) as [x|]; [|discriminate].
  apply andb_prop in G2 as [G2 G3]. apply val_eqb_spec in G2, G3. subst. repeat split; congruence.
Qed.
Print Assumptions absent_is_schema_default.
Example readers_exist : readers rd0 decimal.
Proof. intros t z H. unfold rd0. rewrite H. auto. Qed.
(** C114. The schema of KML 2.1 gives open the default 1 (kml21.xsd:158); an element without it is not open. *)
Theorem open_default_refuted : Forall (fun c => exists st, run rd0 decimal c (fresh c) [OChild Type_open (S_ "1")] = Ok st /\
  get_field c (S_ "open") st = Some (VBool true) /\ get_field c (S_ "open") (fresh c) = Some (VBool false)) [Type_Placemark; Type_Folder; Type_Document; Type_NetworkLink].
Proof. repeat constructor; eexists; vm_compute; repeat split; reflexivity. Qed.
Print Assumptions open_default_refuted.
(** C114. A point on the screen or an icon is by default at (1, 1) in fractions, a snippet has two lines (kml21.xsd:102-107, 177; these are attributes). *)
Theorem attribute_defaults :
  Forall (fun c => get_field c (S_ "x") (fresh c) = Some (VDouble (d_of_Z 1)) /\ get_field c (S_ "y") (fresh c) = Some (VDouble (d_of_Z 1)) /\
    get_field c (S_ "xunits") (fresh c) = Some (VInt (enum_id Type_units (S_ "fraction"))) /\ get_field c (S_ "yunits") (fresh c) = Some (VInt (enum_id Type_units (S_ "fraction"))))
    [Type_hotSpot; Type_overlayXY; Type_screenXY; Type_rotationXY; Type_size] /\
  Forall (fun c => get_field c (S_ "maxlines") (fresh c) = Some (VInt 2)) [Type_Snippet; Type_linkSnippet] /\ (0 <= enum_id Type_units (S_ "fraction"))%Z.
Proof. split; [|split]; [repeat constructor| |]; try (repeat constructor; vm_compute; reflexivity); try (vm_compute; discriminate). Qed.
Print Assumptions attribute_defaults.
(** C114. The texts of a new element are empty, and its numbers are the ones given here or 0. *)
Definition starts_with (v : val) : bool := match v with VText s => eqs s [] | VInt z => (z =? 0)%Z | VDouble d => double_eqb d (S754_zero false) | _ => true end.
Definition other_numbers : list str :=
  map (fun s => s) [S_ "north"; S_ "south"; S_ "east"; S_ "west"; S_ "x"; S_ "y"; S_ "z"; S_ "scale"; S_ "width"; S_ "refreshinterval"; S_ "viewrefreshtime"; S_ "viewboundscale";
    S_ "maxsnippetlines"; S_ "maxlines"; S_ "tilesize"; S_ "maxlodpixels"].
Theorem other_defaults : forall c n v, In c element_classes -> get_field c n (fresh c) = Some v -> ~ In n other_numbers -> starts_with v = true.
Proof.
  intros c n v Hc Hg Hn.
  assert (G : forallb (fun c => forallb (fun df => existsb (eqs (f_name (snd df))) other_numbers ||
     match read (fresh c) (fst df) (f_get (snd df)) with Some v => starts_with v | None => true end) (fields c)) element_classes = true) by (vm_compute; reflexivity).
  rewrite forallb_forall in G. specialize (G c Hc). rewrite forallb_forall in G. unfold get_field in Hg.
  destruct (field_named c n) as [[d f]|] eqn:E; [|discriminate]. destruct (named_in c _ _ E) as [Hi Hm]. specialize (G _ Hi). cbn [fst snd] in G, Hm.
  rewrite Hg in G. apply orb_prop in G as [G|G]; [|exact G]. exfalso. apply Hn. apply existsb_exists in G as (x & Hx & Ex). apply eqs_spec in Ex. congruence.
Qed.
Print Assumptions other_defaults.
Example other_defaults_sample : get_field Type_Camera (S_ "roll") (fresh Type_Camera) = Some (VDouble (S754_zero false)) /\ ~ In (S_ "roll") other_numbers.
Proof. split; [vm_compute; reflexivity|]. vm_compute. intuition discriminate. Qed.
(** C114. The children the fields are read from are the ones that the element keeps and writes as simple fields of that kind. *)
Definition agrees (c : N) (df : N * fld) : bool :=
  match f_add (snd df) with
  | Some (ty, _, _) => match find_slot ty (c_slots (cls c)) 0 with
                       | Some (_, s) => match s_kind s, f_kind (snd df) with
                                        | KField FString, FString | KField FHref, FHref | KField FBool, FBool | KField FDouble, FDouble
                                        | KField FInt, FInt | KField FEnum, FEnum | KField FColor, FColor => true
                                        | _, _ => false
                                        end
                       | None => false
                       end
  | None => true
  end.
Theorem fields_are_simple_children : forall c df ty h m, In c element_classes -> HandlerModel.creatable c = true -> In df (fields c) -> f_add (snd df) = Some (ty, h, m) ->
  exists i s, find_slot ty (c_slots (cls c)) 0 = Some (i, s) /\ s_kind s = KField (f_kind (snd df)).
Proof.
  intros c df ty h m Hc Hk Hi Ha.
  assert (G : forallb (fun c => negb (HandlerModel.creatable c) || forallb (agrees c) (fields c)) element_classes = true) by (vm_compute; reflexivity).
  rewrite forallb_forall in G. specialize (G c Hc). cbv beta in G. rewrite Hk in G. cbn [negb orb] in G. rewrite forallb_forall in G. specialize (G df Hi).
  unfold agrees in G. rewrite Ha in G. destruct (find_slot ty (c_slots (cls c)) 0) as [[i s]|]; [|discriminate]. exists i, s. split; [reflexivity|].
  destruct (s_kind s) as [f|f| |], (f_kind (snd df)); try discriminate; try (destruct f; try discriminate; reflexivity).
Qed.
Print Assumptions fields_are_simple_children.
Example fields_are_simple_children_sample : exists df, In df (fields Type_LookAt) /\ child_type (snd df) = Some Type_range /\ HandlerModel.creatable Type_LookAt = true /\ In Type_LookAt element_classes.
Proof.
  destruct (field_of_child Type_LookAt Type_range) as [df|] eqn:E; [|vm_compute in E; discriminate]. exists df. destruct (child_in _ _ _ E) as (H & h & m & G).
  split; [exact H|]. unfold child_type. rewrite G. split; [reflexivity|]. split; [vm_compute; reflexivity|]. vm_compute. tauto.
Qed.

(** C114. Conversely every simple child that an element keeps has its functions: the value is read into a field of the element.
    The exception is the listItemType of a ListStyle, whose states are kept in another way. *)
Definition read_in_field (c ty : N) : bool :=
  match find_slot ty (c_slots (cls c)) 0 with
  | Some (_, s) => match s_kind s with
                   | KField FStates => true
                   | KField _ => match field_of_child c ty with Some _ => true | None => false end
                   | _ => true
                   end
  | None => true
  end.
Theorem simple_children_have_fields : forall c ty i s k, In c element_classes -> HandlerModel.creatable c = true -> (ty <= Type_Invalid) ->
  find_slot ty (c_slots (cls c)) 0 = Some (i, s) -> s_kind s = KField k -> k <> FStates ->
  exists d f, field_of_child c ty = Some (d, f) /\ In (d, f) (fields c) /\ child_type f = Some ty /\ f_kind f = k.
Proof.
  intros c ty i s k Hc Hk Hty Hs Hkd Hn.
  assert (G : forallb (fun c => negb (HandlerModel.creatable c) || forallb (fun n => read_in_field c (N.of_nat n)) (seq 0 (S (N.to_nat Type_Invalid)))) element_classes = true) by (vm_compute; reflexivity).
  rewrite forallb_forall in G. specialize (G c Hc). cbv beta in G. rewrite Hk in G. cbn [negb orb] in G. rewrite forallb_forall in G.
  assert (Hi : In (N.to_nat ty) (seq 0 (S (N.to_nat Type_Invalid)))) by (apply in_seq; lia).
  specialize (G _ Hi). rewrite N2Nat.id in G. unfold read_in_field in G. rewrite Hs, Hkd in G.
  assert (Hf : match field_of_child c ty with Some _ => true | None => false end = true) by (destruct k; try exact G; congruence).
  destruct (field_of_child c ty) as [[d f]|] eqn:E; [|discriminate]. destruct (child_in _ _ _ E) as (H & h & m & Ha). cbn [snd] in Ha.
  exists d, f. split; [reflexivity|]. split; [exact H|]. split; [unfold child_type; now rewrite Ha|].
  destruct (fields_are_simple_children c (d, f) ty h m Hc Hk H Ha) as (i' & s' & E1 & E2). rewrite Hs in E1. injection E1 as _ <-. rewrite Hkd in E2. cbn [snd] in E2. congruence.
Qed.
Print Assumptions simple_children_have_fields.
Example simple_children_have_fields_sample : exists i s, In Type_GxTourControl element_classes /\ HandlerModel.creatable Type_GxTourControl = true /\
  find_slot Type_GxPlayMode (c_slots (cls Type_GxTourControl)) 0 = Some (i, s) /\ s_kind s = KField FEnum.
Proof. do 2 eexists. split; [vm_compute; tauto|]. split; [vm_compute; reflexivity|]. split; [vm_compute; reflexivity|reflexivity]. Qed.

(** Lemmas about the XSD reader: type hierarchies. *)
From Coq Require Import Relations ListDec.
From Verif Require Import Common StrMap AttributesModel XmlSpec StringsModel XsdFileModel XmlTree.

(** Specification: b is the base type of t when the file has a target namespace prefix p, t extends
    p:n, and n names a complex type of the file. *)
Definition base (f : xsd) (t b : xtype) : Prop :=
  exists tns p n, x_schema f = Some (tns, p) /\ t_base t = p ++ S_ ":" ++ n /\ n <> [] /\
    mget n (x_types f) = Some b /\ (exists m c s, b = Complex m c s).
(** The finite chain of base types of t; the flag tells whether it ends in a type without extension
    base (true) or in one whose base is not found (false). *)
Inductive chain (f : xsd) : xtype -> list xtype -> bool -> Prop :=
| chain_root t : t_base t = [] -> chain f t [] true
| chain_broken t : t_base t <> [] -> (forall b, ~ base f t b) -> chain f t [] false
| chain_step t b l ok : base f t b -> chain f b l ok -> chain f t (b :: l) ok.
Definition ancestor (f : xsd) : xtype -> xtype -> Prop := clos_trans _ (base f).
Definition cyclic (f : xsd) (t : xtype) : Prop := exists u, (u = t \/ ancestor f t u) /\ ancestor f u u.

Lemma split_ns_spec tns p s n : split_ns_name (tns, p) s = Some n <-> s = p ++ S_ ":" ++ n /\ n <> [].
Proof.
  unfold split_ns_name. change (snd (tns, p)) with p. remember (p ++ S_ ":") as q eqn:Eq.
  assert (L : forall n, p ++ S_ ":" ++ n = q ++ n) by (intros; rewrite Eq, <- app_assoc; reflexivity).
  rewrite L. split.
  - destruct (length q <? length s)%nat eqn:El; [|discriminate]. destruct (prefixb q s) eqn:Ep; [|discriminate].
    apply prefixb_spec in Ep as [r ->]. cbn [andb]. rewrite skipn_app, skipn_all, Nat.sub_diag. cbn.
    intros [= ->]. split; auto. apply Nat.ltb_lt in El. rewrite app_length in El. destruct n; cbn in El; [lia|discriminate].
  - intros [-> Hn]. assert (E1 : (length q <? length (q ++ n))%nat = true).
    { apply Nat.ltb_lt. rewrite app_length. destruct n; [congruence|cbn; lia]. }
    rewrite E1, prefixb_app. cbn [andb]. rewrite skipn_app, skipn_all, Nat.sub_diag. reflexivity.
Qed.

Lemma base_get f tns p t b : x_schema f = Some (tns, p) -> (get_base_type f (tns, p) t = Some b <-> base f t b).
Proof.
  intros Hs. unfold get_base_type, base. split.
  - destruct (split_ns_name (tns, p) (t_base t)) as [n|] eqn:E; [|discriminate].
    apply split_ns_spec in E as [E1 E2]. unfold find_type. destruct (mget n (x_types f)) as [c|] eqn:Em; [|discriminate].
    destruct c as [m c s|m c s|m]; cbn; try discriminate. intros [= <-].
    exists tns, p, n. repeat (split; [assumption|]). eauto.
  - intros (tns' & p' & n & H1 & H2 & H3 & H4 & m & c & s & H5).
    rewrite Hs in H1. inversion H1; subst tns' p'.
    replace (split_ns_name (tns, p) (t_base t)) with (Some n) by (symmetry; apply split_ns_spec; auto).
    unfold find_type. rewrite H4, H5. reflexivity.
Qed.
Lemma base_nonempty f t b : base f t b -> t_base t <> [].
Proof. intros (tns & p & n & _ & H2 & H3 & _). rewrite H2. destruct p; discriminate. Qed.
Lemma base_fun f t b c : base f t b -> base f t c -> b = c.
Proof.
  intros Hb Hc. pose proof Hb as (tns & p & n & H & _). apply (base_get f tns p t) in Hb; auto.
  apply (base_get f tns p t) in Hc; auto. congruence.
Qed.
Lemma base_in f t b : base f t b -> In b (map snd (x_types f)).
Proof.
  intros (_ & _ & n & _ & _ & _ & H & _). revert H. generalize (x_types f).
  intros m. induction m as [|[k v] m IH]; cbn; [discriminate|]. destruct (eqs n k); [intros [= ->]; auto|auto].
Qed.

Lemma hierarchy_sound f tns p : x_schema f = Some (tns, p) -> forall fuel t ok l,
  hierarchy fuel f (tns, p) t = Ok (ok, l) -> chain f t l ok.
Proof.
  intros Hs. induction fuel as [|fuel IH]; intros t ok l; cbn [hierarchy]; [discriminate|].
  destruct (t_base t) as [|c0 c] eqn:Eb.
  - intros [= <- <-]. now apply chain_root.
  - destruct (get_base_type f (tns, p) t) as [b|] eqn:E.
    + destruct (hierarchy fuel f (tns, p) b) as [[ok' l']| | |] eqn:E2; cbn; try discriminate.
      intros [= <- <-]. apply (chain_step f t b); auto. now apply (base_get f tns p t b Hs).
    + intros [= <- <-]. apply chain_broken; [congruence|]. intros b Hb.
      apply (base_get f tns p t b Hs) in Hb. congruence.
Qed.
Lemma hierarchy_complete f tns p : x_schema f = Some (tns, p) -> forall t l ok, chain f t l ok ->
  forall fuel, (length l < fuel)%nat -> hierarchy fuel f (tns, p) t = Ok (ok, l).
Proof.
  intros Hs t l ok H. induction H as [t H|t H Hb|t b l ok Hb H IH]; intros [|fuel] L; cbn [length] in L; try lia; cbn [hierarchy].
  - now rewrite H.
  - destruct (t_base t) as [|c0 c]; [congruence|]. destruct (get_base_type f (tns, p) t) as [b|] eqn:E; auto.
    apply (base_get f tns p t b Hs) in E. now elim (Hb b).
  - pose proof (base_nonempty f t b Hb). destruct (t_base t) as [|c0 c]; [congruence|].
    rewrite (proj2 (base_get f tns p t b Hs) Hb). rewrite IH by lia. reflexivity.
Qed.
Lemma chain_fun f t l ok l' ok' : chain f t l ok -> chain f t l' ok' -> l = l' /\ ok = ok'.
Proof.
  intros H. revert l' ok'. induction H as [t H|t H Hb|t b l ok Hb H IH]; intros l' ok' H'; inversion H'; subst; auto; try congruence.
  - exfalso. now apply (base_nonempty f t b H0).
  - exfalso. now apply (Hb b).
  - exfalso. now apply (base_nonempty f t b Hb).
  - exfalso. now apply (H1 b).
  - assert (b0 = b) by (eapply base_fun; eauto). subst. destruct (IH l0 ok' H1). now subst.
Qed.
(** Every suffix of a chain is a chain. *)
Lemma chain_suffix f t l ok : chain f t l ok -> forall u, In u l -> exists k, chain f u k ok /\ (length k < length l)%nat.
Proof.
  intros H. induction H as [t H|t H Hb|t b l ok Hb H IH]; intros u Hu; try easy.
  destruct Hu as [<-|Hu]; [exists l; split; [auto|cbn; lia]|].
  destruct (IH u Hu) as (k & Hk & L). exists k. split; auto. cbn. lia.
Qed.
Lemma chain_nodup f t l ok : chain f t l ok -> NoDup l.
Proof.
  intros H. induction H as [t H|t H Hb|t b l ok Hb H IH]; try constructor; auto.
  intros Hi. destruct (chain_suffix f b l ok H b Hi) as (k & Hk & L).
  destruct (chain_fun f b _ _ _ _ H Hk) as [-> _]. lia.
Qed.
Lemma chain_bound f t l ok : chain f t l ok -> (length l <= length (x_types f))%nat.
Proof.
  intros H. rewrite <- (map_length snd (x_types f)). apply NoDup_incl_length; [eapply chain_nodup; eauto|].
  induction H as [t H|t H Hb|t b l ok Hb H IH]; intros u Hu; try easy.
  destruct Hu as [<-|Hu]; [eapply base_in; eauto|auto].
Qed.

Lemma xelem_eq_dec (a b : xelem) : {a = b} + {a <> b}.
Proof. repeat decide equality. Qed.
Lemma xtype_eq_dec (a b : xtype) : {a = b} + {a <> b}.
Proof. repeat decide equality. Qed.

Lemma cyclic_step f t : cyclic f t -> exists b, base f t b /\ cyclic f b.
Proof.
  intros (u & Hu & Hc).
  assert (A : ancestor f t u) by (destruct Hu as [->|]; auto).
  apply clos_trans_t1n in A. inversion A as [y Hy|y z Hy Hyz]; subst.
  - exists u. split; auto. exists u. auto.
  - exists y. split; auto. exists u. split; auto. right. now apply clos_t1n_trans.
Qed.
Lemma cyclic_diverges f tns p : x_schema f = Some (tns, p) -> forall fuel t, cyclic f t -> hierarchy fuel f (tns, p) t = Fuel.
Proof.
  intros Hs. induction fuel as [|fuel IH]; intros t H; cbn [hierarchy]; auto.
  destruct (cyclic_step f t H) as (b & Hb & Hc). pose proof (base_nonempty f t b Hb).
  destruct (t_base t); [congruence|]. rewrite (proj2 (base_get f tns p t b Hs) Hb), IH; auto.
Qed.
(** A path of base steps. *)
Inductive path (f : xsd) : xtype -> list xtype -> Prop :=
| path_nil t : path f t []
| path_cons t b l : base f t b -> path f b l -> path f t (b :: l).
Lemma fuel_path f tns p : x_schema f = Some (tns, p) -> forall fuel t, hierarchy fuel f (tns, p) t = Fuel ->
  exists l, path f t l /\ length l = fuel.
Proof.
  intros Hs. induction fuel as [|fuel IH]; intros t H; [exists []; split; [constructor|auto]|].
  cbn [hierarchy] in H. destruct (t_base t); [discriminate|].
  destruct (get_base_type f (tns, p) t) as [b|] eqn:E; [|discriminate].
  destruct (hierarchy fuel f (tns, p) b) as [r| | |] eqn:E2; try discriminate.
  destruct (IH b E2) as (l & Hl & L). exists (b :: l). split; [|cbn; lia].
  constructor; auto. now apply (base_get f tns p t b Hs).
Qed.
Lemma path_anc f t l : path f t l -> forall u, In u l -> ancestor f t u.
Proof.
  intros H. induction H as [t|t b l Hb H IH]; intros u Hu; [easy|].
  destruct Hu as [<-|Hu]; [now apply t_step|]. eapply t_trans; [apply t_step; eauto|now apply IH].
Qed.
Lemma path_incl f t l : path f t l -> incl l (map snd (x_types f)).
Proof. intros H. induction H; intros u Hu; [easy|]. destruct Hu as [<-|Hu]; [eapply base_in; eauto|auto]. Qed.
Lemma path_dup f t l : path f t l -> ~ NoDup l -> exists u, In u l /\ ancestor f u u.
Proof.
  intros H. induction H as [t|t b l Hb H IH]; intros N; [elim N; constructor|].
  destruct (in_dec xtype_eq_dec b l) as [Hi|Hi].
  - exists b. split; [now left|]. now apply (path_anc f b l).
  - destruct IH as (u & Hu & Ha); [intros D; apply N; now constructor|]. exists u. split; [now right|auto].
Qed.
Lemma diverges_cyclic f tns p t : x_schema f = Some (tns, p) ->
  hierarchy (S (length (x_types f))) f (tns, p) t = Fuel -> cyclic f t.
Proof.
  intros Hs H. destruct (fuel_path f tns p Hs _ _ H) as (l & Hl & L).
  destruct (path_dup f t l Hl) as (u & Hu & Ha).
  - intros N. pose proof (NoDup_incl_length N (path_incl f t l Hl)) as B. rewrite map_length in B. lia.
  - exists u. split; auto. right. now apply (path_anc f t l).
Qed.

(** * SearchTypeHierarchy *)
Lemma search_sound f tns p : x_schema f = Some (tns, p) -> forall fuel t u,
  search fuel f (tns, p) t u = Ok true -> exists v, (v = t \/ ancestor f t v) /\ t_name v = t_name u.
Proof.
  intros Hs. induction fuel as [|fuel IH]; intros t u; cbn [search]; [discriminate|].
  destruct (eqs (t_name u) (t_name t)) eqn:E; [intros _; apply eqs_spec in E; exists t; auto|].
  destruct (get_base_type f (tns, p) t) as [b|] eqn:Eb; [|discriminate]. intros H.
  apply (base_get f tns p t b Hs) in Eb.
  destruct (IH b u H) as (v & Hv & N). exists v. split; auto. right.
  destruct Hv as [->|Hv]; [now apply t_step|]. eapply t_trans; [apply t_step; eauto|auto].
Qed.
Lemma search_path f tns p : x_schema f = Some (tns, p) -> forall t l, path f t l -> forall u v,
  In v (t :: l) -> t_name v = t_name u -> forall fuel, (length l < fuel)%nat -> search fuel f (tns, p) t u = Ok true.
Proof.
  intros Hs t l H. induction H as [t|t b l Hb H IH]; intros u v Hi N [|fuel] L; cbn [length] in L; try lia; cbn [search].
  - destruct Hi as [<-|[]]. now rewrite N, eqs_refl.
  - destruct (eqs (t_name u) (t_name t)) eqn:E; auto.
    rewrite (proj2 (base_get f tns p t b Hs) Hb). apply (IH u v); auto; [|lia].
    destruct Hi as [<-|Hi]; auto. rewrite N, eqs_refl in E. discriminate.
Qed.
Lemma chain_search f tns p : x_schema f = Some (tns, p) -> forall t l ok, chain f t l ok -> forall u fuel, (length l < fuel)%nat ->
  search fuel f (tns, p) t u = Ok (existsb (fun v => eqs (t_name u) (t_name v)) (t :: l)).
Proof.
  intros Hs t l ok H.
  assert (Z : forall t, t_base t = [] -> get_base_type f (tns, p) t = None).
  { intros t0 H0. destruct (get_base_type f (tns, p) t0) eqn:E; auto. apply (base_get f tns p t0 x Hs) in E.
    apply base_nonempty in E. congruence. }
  induction H as [t H|t H Hb|t b l ok Hb H IH]; intros u [|fuel] L; cbn [length] in L; try lia; cbn [search existsb].
  - rewrite Z by auto. destruct (eqs _ _); auto.
  - destruct (get_base_type f (tns, p) t) as [b|] eqn:E; [apply (base_get f tns p t b Hs) in E; now elim (Hb b)|].
    destruct (eqs _ _); auto.
  - rewrite (proj2 (base_get f tns p t b Hs) Hb). destruct (eqs (t_name u) (t_name t)); auto. rewrite IH by lia. reflexivity.
Qed.
Lemma search_diverges f tns p : x_schema f = Some (tns, p) -> forall fuel t u, cyclic f t ->
  (forall v, v = t \/ ancestor f t v -> t_name v <> t_name u) -> search fuel f (tns, p) t u = Fuel.
Proof.
  intros Hs. induction fuel as [|fuel IH]; intros t u H N; cbn [search]; auto.
  destruct (eqs (t_name u) (t_name t)) eqn:E; [apply eqs_spec in E; elim (N t); auto|].
  destruct (cyclic_step f t H) as (b & Hb & Hc). rewrite (proj2 (base_get f tns p t b Hs) Hb).
  apply IH; auto. intros v Hv. apply N. right. destruct Hv as [->|Hv]; [now apply t_step|].
  eapply t_trans; [apply t_step; eauto|auto].
Qed.

(** * Reading a document.  A document as a tree, and what it declares. *)
Definition is_type_tag (n : str) : bool := eqs n (S_ "complexType") || eqs n (S_ "simpleType").
(** Type definitions are named and not nested. *)
Fixpoint plain (inside : bool) (t : xt) : bool :=
  match t with
  | XChar _ => true
  | XT n a k =>
      if is_type_tag n then negb inside && (match mget (S_ "name") (attrs_of a) with Some _ => true | None => false end)
                            && forallb (plain true) k
      else forallb (plain inside) k
  end.
(** The schema elements, in document order. *)
Fixpoint schemas (t : xt) : list attrs :=
  match t with
  | XChar _ => []
  | XT n a k => (if eqs n (S_ "schema") then [attrs_of a] else []) ++ flat_map schemas k
  end.
Definition opt {A} (o : option A) : list A := match o with Some x => [x] | None => [] end.
(** The global elements: element tags whose parent is a schema tag. *)
Fixpoint globals (parent : str) (t : xt) : list xelem :=
  match t with
  | XChar _ => []
  | XT n a k => (if eqs n (S_ "element") && eqs parent (S_ "schema") then opt (element_create (attrs_of a)) else [])
                ++ flat_map (globals n) k
  end.
(** The other element tags, the extension bases, the restriction bases, the enumeration values. *)
Fixpoint locals (parent : str) (t : xt) : list xelem :=
  match t with
  | XChar _ => []
  | XT n a k => (if eqs n (S_ "element") && negb (eqs parent (S_ "schema")) then opt (element_create (attrs_of a)) else [])
                ++ flat_map (locals n) k
  end.
Fixpoint tagged (tag key : str) (t : xt) : list str :=
  match t with
  | XChar _ => []
  | XT n a k => (if eqs n tag then opt (mget key (attrs_of a)) else []) ++ flat_map (tagged tag key) k
  end.
(** The types: a complex type has the last extension base and all local elements below it. *)
Definition type_of (n : str) (a : list (str * str)) (k : list xt) : xtype :=
  let name := attr (S_ "name") (attrs_of a) in
  if eqs n (S_ "complexType")
  then Complex name (last (flat_map (tagged (S_ "extension") (S_ "base")) k) []) (flat_map (locals n) k)
  else Simple name (last (flat_map (tagged (S_ "restriction") (S_ "base")) k) [])
         (flat_map (tagged (S_ "enumeration") (S_ "value")) k).
Fixpoint types (t : xt) : list xtype :=
  match t with
  | XChar _ => []
  | XT n a k => if is_type_tag n then [type_of n a k] else flat_map types k
  end.
Definition declares (f : xsd) (sc : list attrs) (el : list xelem) (ty : list xtype) : xsd :=
  {| x_schema := fold_left (fun _ a => schema_create a) sc (x_schema f);
     x_elements := fold_left (fun m e => mset (x_name e) e m) el (x_elements f);
     x_types := fold_left (fun m t => mset (t_name t) t m) ty (x_types f) |}.
(** The effect of a tree on the type it is inside of. *)
Definition extend (ty : xtype) (el : list xelem) (ext res_ en : list str) : xtype :=
  match ty with
  | Complex n b s => Complex n (last ext b) (s ++ el)
  | Simple n b s => Simple n (last res_ b) (s ++ en)
  | Primitive n => Primitive n
  end.

Lemma declares_app f s1 e1 t1 s2 e2 t2 : declares (declares f s1 e1 t1) s2 e2 t2 = declares f (s1 ++ s2) (e1 ++ e2) (t1 ++ t2).
Proof. unfold declares. cbn. now rewrite !fold_left_app. Qed.
Lemma declares_nil f : declares f [] [] [] = f.
Proof. now destruct f. Qed.
Lemma last_cons {A} (x : A) l d : last (x :: l) d = last l x.
Proof. revert x d. induction l as [|y l IH]; intros x d; auto. change (last (y :: l) d = last (y :: l) x). rewrite !IH. reflexivity. Qed.
Lemma last_app {A} (l k : list A) d : last (l ++ k) d = last k (last l d).
Proof. revert d. induction l as [|x l IH]; intros d; auto. rewrite <- app_comm_cons, !last_cons. apply IH. Qed.
Lemma extend_app ty e1 x1 r1 n1 e2 x2 r2 n2 :
  extend (extend ty e1 x1 r1 n1) e2 x2 r2 n2 = extend ty (e1 ++ e2) (x1 ++ x2) (r1 ++ r2) (n1 ++ n2).
Proof. destruct ty; cbn; rewrite ?last_app, ?app_assoc; reflexivity. Qed.
Lemma extend_nil ty : extend ty [] [] [] [] = ty.
Proof. destruct ty; cbn; rewrite ?app_nil_r; reflexivity. Qed.

Definition hs f c p : xh := {| h_file := f; h_cur := c; h_parse := p |}.
Definition eff_in (p : str) (t : xt) (f : xsd) (ty : xtype) : xsd * xtype :=
  (declares f (schemas t) (globals p t) [],
   extend ty (locals p t) (tagged (S_ "extension") (S_ "base") t) (tagged (S_ "restriction") (S_ "base") t)
     (tagged (S_ "enumeration") (S_ "value") t)).
Definition eff_in_l (p : str) (k : list xt) (f : xsd) (ty : xtype) : xsd * xtype :=
  (declares f (flat_map schemas k) (flat_map (globals p) k) [],
   extend ty (flat_map (locals p) k) (flat_map (tagged (S_ "extension") (S_ "base")) k)
     (flat_map (tagged (S_ "restriction") (S_ "base")) k) (flat_map (tagged (S_ "enumeration") (S_ "value")) k)).
Lemma run_app h l r : xs_run h (l ++ r) = (do h1 <- xs_run h l; xs_run h1 r).
Proof.
  revert h. induction l as [|e l IH]; intros h; cbn; auto. destruct e as [n a|n|c]; auto.
  - destruct (xs_start h n a); cbn; auto.
  - destruct (xs_end h n); cbn; auto.
Qed.
Lemma run_kids_in p s k : Forall (fun t => plain true t = true -> forall p s f ty,
    xs_run (hs f (Some ty) (p :: s)) (xevents t) = Ok (hs (fst (eff_in p t f ty)) (Some (snd (eff_in p t f ty))) (p :: s))) k ->
  forallb (plain true) k = true -> forall f ty,
  xs_run (hs f (Some ty) (p :: s)) (flat_map xevents k) = Ok (hs (fst (eff_in_l p k f ty)) (Some (snd (eff_in_l p k f ty))) (p :: s)).
Proof.
  intros H. induction H as [|t k Ht H IH]; intros P f ty.
  - unfold eff_in_l. cbn. now rewrite declares_nil, extend_nil.
  - cbn [forallb] in P. apply andb_prop in P as [P1 P2]. cbn [flat_map]. rewrite run_app, (Ht P1). cbn [bind].
    rewrite (IH P2). unfold eff_in_l, eff_in. cbn [fst snd flat_map]. now rewrite declares_app, extend_app.
Qed.

Ltac lit := repeat match goal with |- context [eqs (list_ascii_of_string ?a) (list_ascii_of_string ?b)] =>
  let v := eval vm_compute in (eqs (list_ascii_of_string a) (list_ascii_of_string b)) in
  change (eqs (list_ascii_of_string a) (list_ascii_of_string b)) with v end; cbn [andb orb negb].
Definition own_schema (n : str) (a : list (str * str)) : list attrs := if eqs n (S_ "schema") then [attrs_of a] else [].
Definition own_global (p n : str) (a : list (str * str)) : list xelem :=
  if eqs n (S_ "element") && eqs p (S_ "schema") then opt (element_create (attrs_of a)) else [].
Definition own_local (p n : str) (a : list (str * str)) : list xelem :=
  if eqs n (S_ "element") && negb (eqs p (S_ "schema")) then opt (element_create (attrs_of a)) else [].
Definition own_tag (tag key n : str) (a : list (str * str)) : list str := if eqs n tag then opt (mget key (attrs_of a)) else [].
Lemma start_in f ty p s n a : is_type_tag n = false ->
  xs_start (hs f (Some ty) (p :: s)) n a =
  Ok (hs (declares f (own_schema n a) (own_global p n a) [])
         (Some (extend ty (own_local p n a) (own_tag (S_ "extension") (S_ "base") n a)
                  (own_tag (S_ "restriction") (S_ "base") n a) (own_tag (S_ "enumeration") (S_ "value") n a)))
         (n :: p :: s)).
Proof.
  unfold is_type_tag. intros T. apply orb_false_iff in T as [T1 T2].
  unfold xs_start, own_schema, own_global, own_local, own_tag. cbv zeta. remember (attrs_of a) as m.
  destruct (eqs n (S_ "schema")) eqn:E1.
  { apply eqs_spec in E1. subst n. lit. rewrite extend_nil. reflexivity. }
  destruct (eqs n (S_ "element")) eqn:E2.
  { apply eqs_spec in E2. subst n. lit. unfold start_xs_element, hs. cbn [h_parse h_cur h_file].
    destruct (element_create m) as [e|]; cbn [opt].
    - destruct (eqs p (S_ "schema")); cbn [negb].
      + rewrite extend_nil. reflexivity.
      + rewrite declares_nil. destruct ty; cbn; rewrite ?app_nil_r; reflexivity.
    - destruct (eqs p (S_ "schema")); cbn [negb]; rewrite declares_nil, extend_nil; reflexivity. }
  rewrite T1. cbn [andb]. rewrite declares_nil.
  destruct (eqs n (S_ "extension")) eqn:E3.
  { apply eqs_spec in E3. subst n. lit. unfold start_extension, hs. cbn [h_parse h_cur h_file].
    destruct ty; destruct (mget (S_ "base") m); cbn; rewrite ?app_nil_r; reflexivity. }
  rewrite T2.
  destruct (eqs n (S_ "restriction")) eqn:E4.
  { apply eqs_spec in E4. subst n. lit. unfold start_restriction, hs. cbn [h_parse h_cur h_file].
    destruct ty; destruct (mget (S_ "base") m); cbn; rewrite ?app_nil_r; reflexivity. }
  destruct (eqs n (S_ "enumeration")) eqn:E5.
  { apply eqs_spec in E5. subst n. lit. unfold start_enumeration, hs. cbn [h_parse h_cur h_file].
    destruct ty; destruct (mget (S_ "value") m); cbn; rewrite ?app_nil_r; reflexivity. }
  rewrite extend_nil. reflexivity.
Qed.
Lemma run_in t : plain true t = true -> forall p s f ty,
  xs_run (hs f (Some ty) (p :: s)) (xevents t) = Ok (hs (fst (eff_in p t f ty)) (Some (snd (eff_in p t f ty))) (p :: s)).
Proof.
  induction t as [c|n a k IH] using xt_ind'; intros P p s f ty.
  - unfold eff_in. cbn. now rewrite declares_nil, extend_nil.
  - cbn [plain] in P. destruct (is_type_tag n) eqn:T; [discriminate|]. cbn [xevents xs_run].
    rewrite start_in by auto. cbn [bind]. rewrite run_app, (run_kids_in n (p :: s) k IH P). cbn [bind xs_run].
    unfold xs_end, hs. cbn [h_parse h_file h_cur]. unfold is_type_tag in T. rewrite T. cbn [bind].
    unfold eff_in_l, eff_in. cbn [fst snd schemas globals locals tagged].
    rewrite declares_app, extend_app. reflexivity.
Qed.
Lemma start_out f p s n a : is_type_tag n = false ->
  xs_start (hs f None (p :: s)) n a =
  Ok (hs (declares f (own_schema n a) (own_global p n a) []) None (n :: p :: s)).
Proof.
  unfold is_type_tag. intros T. apply orb_false_iff in T as [T1 T2].
  unfold xs_start, own_schema, own_global. cbv zeta. remember (attrs_of a) as m.
  destruct (eqs n (S_ "schema")) eqn:E1.
  { apply eqs_spec in E1. subst n. lit. reflexivity. }
  destruct (eqs n (S_ "element")) eqn:E2.
  { apply eqs_spec in E2. subst n. lit. unfold start_xs_element, hs. cbn [h_parse h_cur h_file].
    destruct (element_create m) as [e|]; cbn [opt].
    - destruct (eqs p (S_ "schema")); cbn [negb]; rewrite ?declares_nil; reflexivity.
    - destruct (eqs p (S_ "schema")); cbn [negb]; rewrite declares_nil; reflexivity. }
  rewrite T1. cbn [andb]. rewrite declares_nil.
  destruct (eqs n (S_ "extension")); [reflexivity|]. rewrite T2.
  destruct (eqs n (S_ "restriction")); [reflexivity|].
  destruct (eqs n (S_ "enumeration")); reflexivity.
Qed.
Definition out (p : str) (t : xt) (f : xsd) : xsd := declares f (schemas t) (globals p t) (types t).
Lemma declares_types f s e t : declares f s e t = declares (declares f s e []) [] [] t.
Proof. now rewrite declares_app, !app_nil_r. Qed.
Lemma run_out t : plain false t = true -> forall p s f,
  xs_run (hs f None (p :: s)) (xevents t) = Ok (hs (out p t f) None (p :: s)).
Proof.
  induction t as [c|n a k IH] using xt_ind'; intros P p s f.
  - unfold out. cbn. now rewrite declares_nil.
  - cbn [plain] in P. destruct (is_type_tag n) eqn:T.
    + apply andb_prop in P as [P Pk]. cbn [negb andb] in P.
      destruct (mget (S_ "name") (attrs_of a)) as [nm|] eqn:En; [|discriminate]. cbn [xevents xs_run].
      assert (St : xs_start (hs f None (p :: s)) n a =
        Ok (hs f (Some (if eqs n (S_ "complexType") then Complex nm [] [] else Simple nm [] [])) (n :: p :: s))).
      { unfold is_type_tag in T. unfold xs_start. cbv zeta.
        destruct (eqs n (S_ "complexType")) eqn:E1.
        - apply eqs_spec in E1. subst n. lit. unfold start_type. cbn [h_cur hs]. rewrite En. reflexivity.
        - cbn [orb] in T. apply eqs_spec in T. subst n. lit. unfold start_type. cbn [h_cur hs]. rewrite En. reflexivity. }
      rewrite St. cbn [bind]. rewrite run_app.
      rewrite (run_kids_in n (p :: s) k) by first [exact Pk | apply Forall_forall; intros t _ Pt; now apply run_in].
      cbn [bind xs_run]. unfold xs_end. cbn [h_parse h_file h_cur hs]. unfold is_type_tag in T. rewrite T. cbn [orb end_type h_cur bind].
      unfold eff_in_l, out. cbn [fst snd schemas globals types]. unfold is_type_tag. rewrite T.
      assert (Z : eqs n (S_ "schema") = false /\ eqs n (S_ "element") = false).
      { destruct (eqs n (S_ "complexType")) eqn:E1; [apply eqs_spec in E1; subst n; split; reflexivity|].
        cbn [orb] in T. apply eqs_spec in T; subst n; split; reflexivity. }
      destruct Z as [-> ->]. cbn [andb app]. rewrite declares_types. unfold with_cur, with_file, hs. cbn [h_file h_cur h_parse].
      f_equal. f_equal. unfold declares at 2. cbn [x_schema x_elements x_types fold_left add_type].
      unfold add_type, type_of, attr. rewrite En.
      destruct (eqs n (S_ "complexType")); cbn [extend app t_name]; reflexivity.
    + cbn [xevents xs_run]. rewrite start_out by auto. cbn [bind]. rewrite run_app.
      assert (K : forall s f, xs_run (hs f None (n :: s)) (flat_map xevents k) =
        Ok (hs (declares f (flat_map schemas k) (flat_map (globals n) k) (flat_map types k)) None (n :: s))).
      { clear T. intros s0. induction IH as [|t k Ht IH IHk]; intros f0; [cbn; now rewrite declares_nil|].
        cbn [forallb] in P. apply andb_prop in P as [P1 P2]. cbn [flat_map]. rewrite run_app, (Ht P1). cbn [bind].
        rewrite (IHk P2). unfold out. now rewrite declares_app. }
      rewrite K. cbn [bind xs_run]. unfold xs_end. cbn [h_parse h_file h_cur hs]. unfold is_type_tag in T. rewrite T.
      unfold out. cbn [schemas globals types bind]. unfold is_type_tag. rewrite T, declares_app. reflexivity.
Qed.

Lemma run_kids_out p s k : forallb (plain false) k = true -> forall f,
  xs_run (hs f None (p :: s)) (flat_map xevents k) =
  Ok (hs (declares f (flat_map schemas k) (flat_map (globals p) k) (flat_map types k)) None (p :: s)).
Proof.
  induction k as [|t k IH]; intros P f; [cbn; now rewrite declares_nil|].
  cbn [forallb] in P. apply andb_prop in P as [P1 P2]. cbn [flat_map]. rewrite run_app, (run_out t P1). cbn [bind].
  rewrite (IH P2). unfold out. now rewrite declares_app.
Qed.
Lemma parse_schema a k : forallb (plain false) k = true ->
  xsd_parse (xevents (XT (S_ "schema") a k)) =
  Ok (declares empty_xsd (attrs_of a :: flat_map schemas k) (flat_map (globals (S_ "schema")) k) (flat_map types k)).
Proof.
  intros P. unfold xsd_parse. cbn [xevents xs_run]. unfold xs_start. lit. cbv zeta. cbn [bind].
  change {| h_file := _; h_cur := _; h_parse := _ |} with
    (hs (declares empty_xsd [attrs_of a] [] []) None [S_ "schema"]).
  rewrite run_app, run_kids_out by exact P. cbn [bind xs_run]. unfold xs_end. cbn [h_parse hs]. lit. cbn [bind h_file].
  rewrite declares_app. reflexivity.
Qed.

From Verif Require Import Common StrMap AttributesModel.
From Coq Require Import Sorted.

(** * Specification: an attribute set as a function from names to optional values. *)
Definition upd (f : str -> option str) (k v : str) : str -> option str :=
  fun k2 => if eqs k2 k then Some v else f k2.

Definition view (m : attrs) : str -> option str := fun k => find_value k m.

Lemma set_value_view k v m k2 : msorted m -> view (set_value k v m) k2 = upd (view m) k v k2.
Proof. intros H. unfold view, find_value, set_value, upd. now apply mget_mset. Qed.

Lemma cut_value_view k m : view (snd (cut_value k m)) k = None /\ fst (cut_value k m) = view m k /\
  forall k2, k2 <> k -> view (snd (cut_value k m)) k2 = view m k2.
Proof.
  unfold cut_value, view, find_value. destruct (mget k m) eqn:E; simpl.
  - repeat split; auto.
    + rewrite mget_mdel. now rewrite eqs_refl.
    + intros k2 H. rewrite mget_mdel. apply eqs_neq in H. now rewrite H.
  - auto.
Qed.
Lemma cut_value_sorted k m : msorted m -> msorted (snd (cut_value k m)).
Proof. intros H. unfold cut_value. destruct (mget k m); simpl; auto. now apply mdel_sorted. Qed.

Lemma merge_sorted m i : msorted m -> msorted (merge_attributes m i).
Proof.
  unfold merge_attributes. revert m; induction i as [|[k v] i IH]; simpl; auto. intros m H. apply IH. now apply mset_sorted.
Qed.
Lemma merge_view m i k : msorted m -> msorted i ->
  view (merge_attributes m i) k = match view i k with Some v => Some v | None => view m k end.
Proof.
  unfold merge_attributes, view, find_value. intros Hm Hi. revert m Hm.
  induction Hi as [|[k' v'] i Hi IH Hall]; intros m Hm; simpl; auto.
  rewrite IH by now apply mset_sorted. rewrite mget_mset by auto.
  destruct (eqs k k') eqn:E; auto. apply eqs_spec in E; subst.
  destruct (mget k' i) eqn:E2; auto. apply mget_in in E2. rewrite Forall_forall in Hall.
  now elim (slt_irrefl k' (Hall _ E2)).
Qed.

(** * Split by prefix *)
Lemma has_prefix_spec p k : has_prefix p k = true <-> exists t, k = p ++ S_ ":" ++ t.
Proof. unfold has_prefix. rewrite prefixb_spec. split; intros [t ->]; exists t; now rewrite <- app_assoc. Qed.

Lemma skipn_prefix p t : skipn (length p + 1) (p ++ S_ ":" ++ t) = t.
Proof.
  replace (length p + 1) with (length (p ++ S_ ":")) by (rewrite app_length; reflexivity).
  rewrite app_assoc, skipn_app, skipn_all, Nat.sub_diag. reflexivity.
Qed.

Definition split_fold (prefix : str) (m acc : attrs) : attrs :=
  fold_left (fun acc kv => if has_prefix prefix (fst kv)
             then mset (skipn (length prefix + 1) (fst kv)) (snd kv) acc else acc) m acc.
Lemma split_fold_sorted p m acc : msorted acc -> msorted (split_fold p m acc).
Proof.
  unfold split_fold. revert acc; induction m as [|[k v] m IH]; simpl; auto. intros acc H. apply IH.
  destruct (has_prefix p k); auto. now apply mset_sorted.
Qed.
Lemma split_fold_view p m acc t : msorted m -> msorted acc ->
  mget t (split_fold p m acc) = match mget (p ++ S_ ":" ++ t) m with Some v => Some v | None => mget t acc end.
Proof.
  intros Hm. revert acc. induction Hm as [|[k v] m Hm IH Hall]; intros acc Hacc; [reflexivity|].
  change (split_fold p ((k, v) :: m) acc) with
    (split_fold p m (if has_prefix p k then mset (skipn (length p + 1) k) v acc else acc)).
  rewrite IH by (destruct (has_prefix p k); auto using mset_sorted).
  cbn [mget]. destruct (eqs (p ++ S_ ":" ++ t) k) eqn:E.
  - apply eqs_spec in E. subst k.
    assert (has_prefix p (p ++ S_ ":" ++ t) = true) as -> by (apply has_prefix_spec; eauto).
    rewrite skipn_prefix, mget_mset, eqs_refl by auto.
    destruct (mget (p ++ S_ ":" ++ t) m) eqn:E2; auto.
    apply mget_in in E2. rewrite Forall_forall in Hall. now elim (slt_irrefl _ (Hall _ E2)).
  - destruct (mget (p ++ S_ ":" ++ t) m); auto.
    destruct (has_prefix p k) eqn:Ep; auto. apply has_prefix_spec in Ep as [t' ->].
    rewrite skipn_prefix, mget_mset by auto. destruct (eqs t t') eqn:Et; auto.
    apply eqs_spec in Et; subst. now rewrite eqs_refl in E.
Qed.

Lemma erase_view ks (m : attrs) k : mget k (fold_left (fun acc k => mdel k acc) ks m) =
  if existsb (eqs k) ks then None else mget k m.
Proof.
  revert m; induction ks as [|x ks IH]; intros m; simpl; auto.
  rewrite IH, mget_mdel. destruct (eqs k x); simpl; auto. now destruct (existsb (eqs k) ks).
Qed.
Lemma erase_sorted ks (m : attrs) : msorted m -> msorted (fold_left (fun acc k => mdel k acc) ks m).
Proof. revert m; induction ks as [|x ks IH]; simpl; auto. intros m H. apply IH. now apply mdel_sorted. Qed.

Definition sp_view (o : option attrs) (k : str) : option str := match o with Some m => view m k | None => None end.

Lemma split_sorted p m : msorted m ->
  msorted (snd (split_by_prefix p m)) /\ (forall s, fst (split_by_prefix p m) = Some s -> msorted s).
Proof.
  intros H. unfold split_by_prefix. fold (split_fold p m []).
  pose proof (split_fold_sorted p m [] msorted_nil) as Hs.
  destruct (split_fold p m []) as [|x s] eqn:E; simpl.
  - split; auto. discriminate.
  - split; [now apply erase_sorted|]. intros s' Es; inversion Es; subst. auto.
Qed.

Lemma split_view p m : msorted m ->
  (forall k, sp_view (fst (split_by_prefix p m)) k = view m (p ++ S_ ":" ++ k)) /\
  (forall k, view (snd (split_by_prefix p m)) k = if has_prefix p k then None else view m k).
Proof.
  intros H. unfold split_by_prefix. fold (split_fold p m []).
  assert (Hv : forall t, mget t (split_fold p m []) = mget (p ++ S_ ":" ++ t) m).
  { intros t. rewrite split_fold_view; auto using msorted_nil. now destruct (mget (p ++ S_ ":" ++ t) m). }
  destruct (split_fold p m []) as [|x s] eqn:E; cbn [fst snd sp_view].
  - split; [intros k; unfold view, find_value; rewrite <- Hv; reflexivity|].
    intros k. destruct (has_prefix p k) eqn:Ep; auto. apply has_prefix_spec in Ep as [t ->].
    unfold view, find_value. rewrite <- Hv; reflexivity.
  - split.
    + intros k. unfold view, find_value. now rewrite Hv.
    + intros k. unfold view, find_value. rewrite erase_view.
      destruct (has_prefix p k) eqn:Ep.
      * destruct (existsb _ _) eqn:Ex; auto.
        destruct (mget k m) as [v|] eqn:Eg; auto. exfalso. apply mget_in in Eg.
        assert (existsb (eqs k) (map fst (filter (fun kv => has_prefix p (fst kv)) m)) = true); [|congruence].
        apply existsb_exists. exists k. split; [|apply eqs_refl]. apply in_map_iff. exists (k, v). split; auto.
        apply filter_In. auto.
      * destruct (existsb _ _) eqn:Ex; auto. apply existsb_exists in Ex as (k' & Hin & Ek). apply eqs_spec in Ek; subst.
        apply in_map_iff in Hin as (kv & <- & Hin). apply filter_In in Hin as [_ Hp]. congruence.
Qed.

(** Split is NULL exactly when no key has the prefix. *)
Lemma split_null p m : msorted m -> fst (split_by_prefix p m) = None <-> forall k, has_prefix p k = true -> view m k = None.
Proof.
  intros H. destruct (split_view p m H) as [Hv _]. split.
  - intros E k Hk. apply has_prefix_spec in Hk as [t ->]. rewrite <- Hv, E. reflexivity.
  - intros Hn. unfold split_by_prefix in *. fold (split_fold p m []) in *.
    pose proof (fun t => split_fold_view p m [] t H msorted_nil) as Hf.
    destruct (split_fold p m []) as [|[k v] s] eqn:E; auto. exfalso.
    specialize (Hf k). cbn [mget] in Hf. rewrite eqs_refl in Hf.
    specialize (Hn (p ++ S_ ":" ++ k)). unfold view, find_value in Hn.
    rewrite Hn in Hf; [discriminate|]. apply has_prefix_spec. eauto.
Qed.

(** * FindKey *)
Lemma find_key_spec v m k : msorted m -> find_key v m = Some k -> view m k = Some v.
Proof.
  intros H E. unfold view, find_value. apply in_mget; auto. clear H.
  induction m as [|[k' v'] m IH]; simpl in *; [discriminate|].
  destruct (eqs v v') eqn:Ev; auto. apply eqs_spec in Ev. inversion E; subst. auto.
Qed.
Lemma find_key_none v m : find_key v m = None -> forall k, view m k <> Some v.
Proof.
  intros E k Hk. unfold view, find_value in Hk. apply mget_in in Hk.
  induction m as [|[k' v'] m IH]; simpl in *; [tauto|].
  destruct (eqs v v') eqn:Ev; [discriminate|]. destruct Hk as [Hk|Hk]; auto. inversion Hk; subst. rewrite eqs_refl in Ev. discriminate.
Qed.

(** * Parsing attribute vectors *)
Fixpoint last_value (l : list (str * str)) (k : str) : option str :=
  match l with
  | [] => None
  | (k', v) :: l' => match last_value l' k with Some x => Some x | None => if eqs k k' then Some v else None end
  end.
Definition flatten (l : list (str * str)) : list str := flat_map (fun kv => [fst kv; snd kv]) l.

Lemma parse_vector_pairs l m : msorted m -> exists m', parse_vector (flatten l) m = Ok m' /\ msorted m' /\
  parse_cstrings (flatten l) m = m' /\
  forall k, view m' k = match last_value l k with Some v => Some v | None => view m k end.
Proof.
  revert m; induction l as [|[k v] l IH]; intros m Hm; simpl; [eauto 6|].
  destruct (IH (mset k v m) (mset_sorted _ _ _ Hm)) as (m' & -> & Hs & Hc & Hv). exists m'. repeat split; auto.
  intros k2. rewrite Hv. destruct (last_value l k2); auto. unfold view, find_value. rewrite mget_mset by auto. now destruct (eqs k2 k).
Qed.
Lemma parse_vector_odd l x m : parse_vector (flatten l ++ [x]) m = Throw.
Proof. revert m; induction l as [|[k v] l IH]; intros m; simpl; auto. Qed.

(** * Element attributes survive *)
Definition xkey := S_ "xmlns".
Lemma xmlns_key_inj k1 k2 : xmlns_key k1 = xmlns_key k2 -> k1 = k2.
Proof.
  unfold xmlns_key. destruct (eqs k1 (S_ "xmlns")) eqn:E1, (eqs k2 (S_ "xmlns")) eqn:E2; intros H.
  - auto.
  - apply eqs_spec in E1. subst. discriminate.
  - apply eqs_spec in E2. subst. discriminate.
  - now apply app_inv_head in H.
Qed.

Definition xfold (x out : attrs) : attrs := fold_left (fun acc kv => mset (xmlns_key (fst kv)) (snd kv) acc) x out.
Lemma xfold_sorted x out : msorted out -> msorted (xfold x out).
Proof. unfold xfold. revert out; induction x as [|[k v] x IH]; simpl; auto. intros out H. apply IH. now apply mset_sorted. Qed.
Lemma xfold_view_in x out k : msorted x -> msorted out ->
  mget (xmlns_key k) (xfold x out) = match mget k x with Some v => Some v | None => mget (xmlns_key k) out end.
Proof.
  intros Hx. revert out; induction Hx as [|[k' v'] x Hx IH Hall]; intros out Ho; [reflexivity|].
  change (xfold ((k', v') :: x) out) with (xfold x (mset (xmlns_key k') v' out)).
  rewrite IH by now apply mset_sorted. cbn [mget]. rewrite mget_mset by auto.
  destruct (eqs k k') eqn:E.
  - apply eqs_spec in E; subst. rewrite eqs_refl. destruct (mget k' x) eqn:E2; auto.
    apply mget_in in E2. rewrite Forall_forall in Hall. now elim (slt_irrefl _ (Hall _ E2)).
  - destruct (eqs (xmlns_key k) (xmlns_key k')) eqn:E2; auto. apply eqs_spec, xmlns_key_inj in E2; subst.
    now rewrite eqs_refl in E.
Qed.
Lemma xfold_view_out x out k : msorted out -> (forall k', xmlns_key k' <> k) ->
  mget k (xfold x out) = mget k out.
Proof.
  intros Ho Hk. revert out Ho; induction x as [|[k' v'] x IH]; intros out Ho; [reflexivity|].
  change (xfold ((k', v') :: x) out) with (xfold x (mset (xmlns_key k') v' out)).
  rewrite IH by now apply mset_sorted. rewrite mget_mset by auto.
  destruct (eqs k (xmlns_key k')) eqn:E; auto. apply eqs_spec in E. subst. now elim (Hk k').
Qed.

Lemma cases_key k : k = S_ "xmlns" \/ has_prefix (S_ "xmlns") k = true \/
  (k <> S_ "xmlns" /\ has_prefix (S_ "xmlns") k = false).
Proof.
  destruct (str_dec k (S_ "xmlns")); auto. destruct (has_prefix (S_ "xmlns") k); auto.
Qed.

Lemma attrs_survive a : msorted a -> view a (S_ "xmlns:xmlns") = None ->
  serialize_attributes (add_unknown_attributes no_attrs a) [] = a.
Proof.
  intros Ha Hxx. unfold add_unknown_attributes.
  pose proof (split_view (S_ "xmlns") a Ha) as [Hv1 Hv2].
  pose proof (split_sorted (S_ "xmlns") a Ha) as [Hs1 Hs2].
  destruct (split_by_prefix (S_ "xmlns") a) as [sp a1]. cbn [fst snd] in *.
  pose proof (cut_value_view (S_ "xmlns") a1) as (Hc1 & Hc2 & Hc3).
  pose proof (cut_value_sorted (S_ "xmlns") a1 Hs1) as Hcs.
  destruct (cut_value (S_ "xmlns") a1) as [dflt a2]. cbn [fst snd] in *.
  change (xmlns no_attrs) with (@None attrs). change (unknown no_attrs) with (@None attrs).
  set (x := match dflt with
            | Some v => Some (set_value (S_ "xmlns") v match match sp with Some s => Some s | None => None end with Some x0 => x0 | None => [] end)
            | None => match sp with Some s => Some s | None => None end end).
  assert (Hxs : forall m, x = Some m -> msorted m).
  { intros m. subst x. destruct dflt, sp; intros E; try discriminate E; injection E as <-; auto.
    - apply mset_sorted. auto.
    - repeat constructor. }
  assert (Hxv : forall k, sp_view x k = if eqs k (S_ "xmlns") then match dflt with Some v => Some v | None => sp_view sp k end else sp_view sp k).
  { intros k. subst x. destruct dflt, sp; unfold sp_view, view, find_value, set_value.
    - rewrite mget_mset by auto. now destruct (eqs k (S_ "xmlns")).
    - rewrite mget_mset by apply msorted_nil. now destruct (eqs k (S_ "xmlns")).
    - now destruct (eqs k (S_ "xmlns")).
    - now destruct (eqs k (S_ "xmlns")). }
  set (e := match a2 with [] => {| unknown := None; xmlns := x |} | _ => {| unknown := Some a2; xmlns := x |} end).
  assert (He : xmlns e = x /\ (match unknown e with Some u => merge_attributes [] u | None => [] end) = a2).
  { subst e. destruct a2 as [|p a2]; auto. split; auto. cbn [unknown].
    apply msorted_ext; auto; [apply merge_sorted, msorted_nil|].
    intros k. change (mget k) with (find_value k). fold (view (merge_attributes [] (p :: a2)) k). fold (view (p :: a2) k).
    rewrite merge_view; auto using msorted_nil. now destruct (view (p :: a2) k). }
  destruct He as [He1 He2]. unfold serialize_attributes. rewrite He1, He2.
  clearbody e x. apply msorted_ext; auto.
  { destruct x; auto. now apply xfold_sorted. }
  intros k. change (mget k a) with (view a k).
  assert (Hxfold : forall k, mget (xmlns_key k) (match x with Some x => xfold x a2 | None => a2 end) =
     match sp_view x k with Some v => Some v | None => mget (xmlns_key k) a2 end).
  { intros k'. destruct x; [apply xfold_view_in; auto|reflexivity]. }
  change (match x with Some x0 => fold_left (fun acc kv => mset (xmlns_key (fst kv)) (snd kv) acc) x0 a2 | None => a2 end)
    with (match x with Some x0 => xfold x0 a2 | None => a2 end).
  destruct (cases_key k) as [->|[Hk|[Hk1 Hk2]]].
  - change (S_ "xmlns") with (xmlns_key (S_ "xmlns")) at 1. rewrite Hxfold, Hxv, eqs_refl.
    rewrite Hc2, Hv2. change (has_prefix (S_ "xmlns") (S_ "xmlns")) with false. cbn [negb].
    destruct (view a (S_ "xmlns")) as [v|] eqn:Ev; auto.
    rewrite Hv1. change (S_ "xmlns" ++ S_ ":" ++ S_ "xmlns") with (S_ "xmlns:xmlns"). rewrite Hxx.
    change (xmlns_key (S_ "xmlns")) with (S_ "xmlns"). exact Hc1.
  - apply has_prefix_spec in Hk as [t ->].
    destruct (str_dec t (S_ "xmlns")) as [->|Ht].
    + change (S_ "xmlns" ++ S_ ":" ++ S_ "xmlns") with (S_ "xmlns:xmlns"). rewrite Hxx.
      assert (Ho : mget (S_ "xmlns:xmlns") (match x with Some x0 => xfold x0 a2 | None => a2 end) = mget (S_ "xmlns:xmlns") a2).
      { destruct x; auto. apply xfold_view_out; auto. intros k'. unfold xmlns_key.
        destruct (eqs k' (S_ "xmlns")) eqn:E; [apply eqs_spec in E; subst k'; discriminate|].
        intros E2. change (S_ "xmlns:xmlns") with (S_ "xmlns:" ++ S_ "xmlns") in E2. apply app_inv_head in E2. subst k'. now rewrite eqs_refl in E. }
      etransitivity; [exact Ho|]. change (mget (S_ "xmlns:xmlns") a2) with (view a2 (S_ "xmlns:xmlns")).
      rewrite Hc3 by discriminate. rewrite Hv2. reflexivity.
    + assert (Hkey : S_ "xmlns" ++ S_ ":" ++ t = xmlns_key t).
      { unfold xmlns_key. apply eqs_neq in Ht. now rewrite Ht. }
      rewrite Hkey, Hxfold, Hxv. apply eqs_neq in Ht. rewrite Ht. rewrite Hv1, Hkey.
      destruct (view a (xmlns_key t)) eqn:Ev; auto.
      change (mget (xmlns_key t) a2) with (view a2 (xmlns_key t)). rewrite <- Hkey. rewrite Hc3 by discriminate.
      rewrite Hv2. assert (has_prefix (S_ "xmlns") (S_ "xmlns" ++ S_ ":" ++ t) = true) as -> by (apply has_prefix_spec; eauto). reflexivity.
  - assert (Ho : mget k (match x with Some x0 => xfold x0 a2 | None => a2 end) = mget k a2).
    { destruct x; auto. apply xfold_view_out; auto. intros k' E. unfold xmlns_key in E.
      destruct (eqs k' (S_ "xmlns")) eqn:E2; [apply eqs_spec in E2; congruence|].
      subst k. change (S_ "xmlns:" ++ k') with (S_ "xmlns" ++ S_ ":" ++ k') in Hk2.
      assert (has_prefix (S_ "xmlns") (S_ "xmlns" ++ S_ ":" ++ k') = true) by (apply has_prefix_spec; eauto). congruence. }
    etransitivity; [exact Ho|]. change (mget k a2) with (view a2 k). rewrite Hc3 by auto. rewrite Hv2, Hk2. reflexivity.
Qed.

(** * Reading serialized attributes (specification of an XML attribute reader, XML 1.0 §3.3.3:
    '<' is not allowed, '&' starts a reference, CR, LF and TAB are normalised to a space). *)
Definition entities : list (str * ascii) :=
  [(S_ "&amp;", "&"%char); (S_ "&lt;", "<"%char); (S_ "&gt;", ">"%char); (S_ "&apos;", "'"%char); (S_ "&quot;", """"%char)].
Fixpoint read_entity (es : list (str * ascii)) (s : str) : option (ascii * nat) :=
  match es with
  | [] => None
  | (e, c) :: es' => if prefixb e s then Some (c, length e) else read_entity es' s
  end.
(** Value up to the closing quote; [skip] bytes belong to an entity already read. *)
Fixpoint read_value (skip : nat) (s : str) : option (str * str) :=
  match s with
  | [] => None
  | c :: t =>
      match skip with
      | S n => read_value n t
      | O =>
        if aeq c """"%char then Some ([], t)
        else if aeq c "<"%char then None
        else if aeq c "&"%char then
          match read_entity entities s with
          | None => None
          | Some (e, n) => match read_value (pred n) t with Some (v, r) => Some (e :: v, r) | None => None end
          end
        else
          let c' := if aeq c "009"%char || aeq c "010"%char || aeq c "013"%char then " "%char else c in
          match read_value 0 t with Some (v, r) => Some (c' :: v, r) | None => None end
      end
  end.
Definition name_char (c : ascii) : bool :=
  negb (isspace c || aeq c "="%char || aeq c """"%char || aeq c "<"%char || aeq c ">"%char || aeq c "/"%char || aeq c "&"%char || aeq c "'"%char).
Fixpoint read_attrs (fuel : nat) (s : str) : option (list (str * str)) :=
  match s with
  | [] => Some []
  | c :: t =>
      match fuel with
      | O => None
      | S f =>
          if negb (isspace c) then None else
          let name := take_while name_char t in
          match name, drop_while name_char t with
          | _ :: _, e :: q :: r =>
              if aeq e "="%char && aeq q """"%char then
                match read_value 0 r with
                | Some (v, r') => match read_attrs f r' with Some l => Some ((name, v) :: l) | None => None end
                | None => None
                end
              else None
          | _, _ => None
          end
      end
  end.
Definition read_attributes (s : str) := read_attrs (length s) s.

Definition clean_char (c : ascii) : bool :=
  negb (aeq c """"%char || aeq c "<"%char || aeq c "&"%char || aeq c "009"%char || aeq c "010"%char || aeq c "013"%char).
Definition clean (kv : str * str) : bool :=
  negb (eqs (fst kv) []) && forallb name_char (fst kv) && forallb clean_char (snd kv).

Lemma read_value_clean v r : forallb clean_char v = true -> read_value 0 (v ++ """"%char :: r) = Some (v, r).
Proof.
  induction v as [|c v IH]; intros H; [reflexivity|]. simpl in H. apply andb_true_iff in H as [Hc H].
  unfold clean_char in Hc. apply negb_true_iff in Hc. rewrite !orb_false_iff in Hc.
  destruct Hc as (((((E1 & E2) & E3) & E4) & E5) & E6).
  cbn [app read_value]. rewrite E1, E2, E3, E4, E5, E6. simpl. now rewrite IH.
Qed.
Lemma take_drop_name n c t : forallb name_char n = true -> name_char c = false ->
  take_while name_char (n ++ c :: t) = n /\ drop_while name_char (n ++ c :: t) = c :: t.
Proof.
  induction n as [|x n IH]; intros H Hc; simpl.
  - now rewrite Hc.
  - simpl in H. apply andb_true_iff in H as [-> H]. destruct (IH H Hc) as [-> ->]. auto.
Qed.
Lemma read_attrs_serialize m fuel : forallb clean m = true -> length (serialize m) <= fuel -> read_attrs fuel (serialize m) = Some m.
Proof.
  revert fuel; induction m as [|[k v] m IH]; intros fuel H Hl; [destruct fuel; reflexivity|].
  simpl in H. apply andb_true_iff in H as [Hkv H]. unfold clean in Hkv. simpl in Hkv.
  apply andb_true_iff in Hkv as [Hk Hv]. apply andb_true_iff in Hk as [Hne Hk].
  change (serialize ((k, v) :: m)) with ((S_ " " ++ k ++ S_ "=""" ++ v ++ S_ """") ++ serialize m) in *.
  rewrite <- !app_assoc in *. 
  change (S_ " " ++ k ++ S_ "=""" ++ v ++ S_ """" ++ serialize m) with (" "%char :: k ++ "="%char :: """"%char :: v ++ """"%char :: serialize m) in *.
  destruct fuel as [|f]; [simpl in Hl; lia|].
  cbn [read_attrs]. change (negb (isspace " "%char)) with false. cbn iota.
  destruct (take_drop_name k "="%char (""""%char :: v ++ """"%char :: serialize m) Hk eq_refl) as [-> ->].
  destruct k as [|k0 k]; [discriminate|].
  change (aeq "="%char "="%char && aeq """"%char """"%char) with true. cbn iota.
  rewrite read_value_clean by auto. rewrite IH; auto.
  cbn [length] in Hl. rewrite !app_length in Hl. cbn [length] in Hl. rewrite app_length in Hl. cbn [length] in Hl. lia.
Qed.
Lemma read_serialize m : forallb clean m = true -> read_attributes (serialize m) = Some m.
Proof. intros H. now apply read_attrs_serialize. Qed.

Lemma serialize_quote_wit : exists m, msorted m /\ read_attributes (serialize m) <> Some m /\
  exists l, read_attributes (serialize m) = Some l /\ length l = 2 /\ length m = 1.
Proof.
  exists [(S_ "id", S_ "a"" onload=""x")]. split; [repeat constructor|]. split; [vm_compute; discriminate|].
  exists [(S_ "id", S_ "a"); (S_ "onload", S_ "x")]. repeat split.
Qed.
Lemma serialize_amp_wit : exists m, msorted m /\ read_attributes (serialize m) = None.
Proof. exists [(S_ "id", S_ "a&b")]. split; [repeat constructor|reflexivity]. Qed.

(** xmlns:xmlns is the one name that does not survive. *)
Lemma attrs_survive_wit : exists a, msorted a /\ serialize_attributes (add_unknown_attributes no_attrs a) [] <> a.
Proof. exists [(S_ "xmlns:xmlns", S_ "u")]. split; [repeat constructor|vm_compute; discriminate]. Qed.

(** A second batch of unknown attributes replaces the first. *)
Lemma attrs_second_wit : exists a b, msorted a /\ msorted b /\
  view (serialize_attributes (add_unknown_attributes (add_unknown_attributes no_attrs a) b) []) (S_ "foo") = None /\
  view a (S_ "foo") <> None /\ view b (S_ "foo") = None.
Proof.
  exists [(S_ "foo", S_ "1")], [(S_ "bar", S_ "2")]. repeat split; try (repeat constructor); vm_compute; try discriminate; reflexivity.
Qed.

(** * Every sequence of operations *)
Inductive op := OSet (k v : str) | OCut (k : str) | OMerge (l : list (str * str)) | OSplit (p : str) | OParse (l : list (str * str)).
Definition of_pairs (l : list (str * str)) : attrs := parse_cstrings (flatten l) [].
Definition step (m : attrs) (o : op) : attrs :=
  match o with
  | OSet k v => set_value k v m
  | OCut k => snd (cut_value k m)
  | OMerge l => merge_attributes m (of_pairs l)
  | OSplit p => snd (split_by_prefix p m)
  | OParse l => parse_cstrings (flatten l) m
  end.
(** The same on functions, without any model definition. *)
Definition sstep (f : str -> option str) (o : op) : str -> option str :=
  match o with
  | OSet k v => fun x => if str_dec x k then Some v else f x
  | OCut k => fun x => if str_dec x k then None else f x
  | OMerge l | OParse l => fun x => match last_value l x with Some v => Some v | None => f x end
  | OSplit p => fun x => if str_dec (firstn (length p + 1) x) (p ++ S_ ":") then None else f x
  end.
Lemma has_prefix_firstn p k : has_prefix p k = if str_dec (firstn (length p + 1) k) (p ++ S_ ":") then true else false.
Proof.
  destruct (str_dec _ _) as [E|E].
  - apply has_prefix_spec. exists (skipn (length p + 1) k). rewrite app_assoc, <- E. symmetry; apply firstn_skipn.
  - destruct (has_prefix p k) eqn:Ep; auto. elim E. apply has_prefix_spec in Ep as [t ->].
    replace (length p + 1) with (length (p ++ S_ ":")) by (rewrite app_length; reflexivity).
    rewrite app_assoc, firstn_app, Nat.sub_diag, firstn_all. simpl. now rewrite app_nil_r.
Qed.
Lemma of_pairs_spec l : msorted (of_pairs l) /\ forall k, view (of_pairs l) k = last_value l k.
Proof.
  destruct (parse_vector_pairs l [] msorted_nil) as (m' & _ & Hs & Hc & Hv). unfold of_pairs. rewrite Hc.
  split; auto. intros k. rewrite Hv. now destruct (last_value l k).
Qed.
Lemma step_spec m o : msorted m -> msorted (step m o) /\ forall k, view (step m o) k = sstep (view m) o k.
Proof.
  intros H. destruct o; simpl.
  - split; [now apply mset_sorted|]. intros k2. rewrite set_value_view by auto. unfold upd.
    destruct (str_dec k2 k) as [->|E]; [now rewrite eqs_refl|]. apply eqs_neq in E. now rewrite E.
  - split; [now apply cut_value_sorted|]. intros k2. destruct (cut_value_view k m) as (H1 & _ & H2).
    destruct (str_dec k2 k) as [->|E]; auto.
  - destruct (of_pairs_spec l) as [Hs Hv]. split; [now apply merge_sorted|].
    intros k. rewrite merge_view by auto. now rewrite Hv.
  - split; [now apply split_sorted|]. intros k. destruct (split_view p m H) as [_ Hv]. rewrite Hv, has_prefix_firstn.
    now destruct (str_dec _ _).
  - destruct (parse_vector_pairs l m H) as (m' & _ & Hs & Hc & Hv). rewrite Hc. auto.
Qed.
Lemma sstep_ext f g o : (forall k, f k = g k) -> forall k, sstep f o k = sstep g o k.
Proof. intros H k. destruct o; simpl; try (destruct (str_dec _ _)); auto; now rewrite H. Qed.
Lemma steps_ext os f g : (forall k, f k = g k) -> forall k, fold_left sstep os f k = fold_left sstep os g k.
Proof. revert f g; induction os as [|o os IH]; simpl; auto. intros f g H. apply IH. now apply sstep_ext. Qed.
Lemma steps_spec os m : msorted m -> forall k, view (fold_left step os m) k = fold_left sstep os (view m) k.
Proof.
  revert m; induction os as [|o os IH]; intros m H k; simpl; auto.
  destruct (step_spec m o H) as [Hs Hv]. rewrite IH by auto. apply steps_ext. auto.
Qed.
Lemma steps_sorted os m : msorted m -> msorted (fold_left step os m).
Proof. revert m; induction os as [|o os IH]; intros m H; simpl; auto. apply IH. now apply step_spec. Qed.

Lemma split_returns p m : msorted m ->
  (forall k, sp_view (fst (split_by_prefix p m)) k = find_value (p ++ S_ ":" ++ k) m) /\
  (fst (split_by_prefix p m) = None <-> forall t, find_value (p ++ S_ ":" ++ t) m = None).
Proof.
  intros H. split; [now apply split_view|]. rewrite split_null by auto. split.
  - intros Hn t. apply Hn. apply has_prefix_spec. eauto.
  - intros Hn k Hk. apply has_prefix_spec in Hk as [t ->]. apply Hn.
Qed.
Lemma from_vector l : exists m, parse_vector (flatten l) [] = Ok m /\
  (forall k, find_value k m = last_value l k) /\ forall x, parse_vector (flatten l ++ [x]) [] = Throw.
Proof.
  destruct (parse_vector_pairs l [] msorted_nil) as (m & E & _ & _ & Hv). exists m. repeat split; auto.
  - intros k. etransitivity; [exact (Hv k)|]. now destruct (last_value l k).
  - intros x. apply parse_vector_odd.
Qed.

(** What the entity map, the labels and the balloon should be, and proofs that they are. *)
From Verif Require Import Common StrMap StringsModel StringsProofs EntityModel.

(** * Specification *)
(** The entities of a feature in the order they are read; of several entries of one name the last counts. *)
Definition entry (k : str) (o : option str) : list (str * str) := match o with Some v => [(k, v)] | None => [] end.
Definition own_entities (f : feat) : list (str * str) :=
  entry (S_ "id") (e_id f) ++ entry (S_ "targetId") (e_target f) ++ entry (S_ "name") (e_name f) ++
  entry (S_ "address") (e_address f) ++ entry (S_ "Snippet") (e_snippet f) ++ entry (S_ "description") (e_desc f).
Definition data_entities (d : data) : list (str * str) :=
  match d_name d with Some n => (n, d_value d) :: entry (n ++ S_ "/displayName") (d_display d) | None => [] end.
Definition field_entities (sc : schema) (f : simple_field) : list (str * str) :=
  match sf_name f with Some n => entry (sc_name sc ++ S_ "/" ++ n ++ S_ "/displayName") (sf_display f) | None => [] end.
Definition simple_entities (prefix : str) (d : simple_data) : list (str * str) :=
  match sd_name d with Some n => [(prefix ++ n, sd_text d)] | None => [] end.
Section Spec.
  Variable frag : str -> option str.
  Variable by_id : str -> option schema.
  Definition schema_of (x : schema_data) : option schema :=
    match sx_url x with Some u => match frag u with Some i => by_id i | None => None end | None => None end.
  Definition schema_entities (x : schema_data) : list (str * str) :=
    match schema_of x with
    | Some sc => flat_map (field_entities sc) (sc_fields sc) ++ flat_map (simple_entities (sc_name sc ++ S_ "/")) (sx_data x)
    | None => flat_map (simple_entities (S_ "/")) (sx_data x)
    end.
  Definition entities (f : feat) : list (str * str) :=
    own_entities f ++ match e_ext f with Some x => flat_map data_entities (x_data x) ++ flat_map schema_entities (x_schema x) | None => [] end.
  (** How a value should be labelled for display: a Data by its display name or name; a SimpleData by the
      name of its schema and the display name or name of its field (the last of that name), and by its own
      name if there is no schema. *)
  Definition field_label (sc : schema) (n : str) : option str :=
    match List.find (fun f => match sf_name f with Some m => eqs m n | None => false end) (rev (sc_fields sc)) with
    | Some f => Some (sc_name sc ++ S_ ":" ++ match sf_display f with Some d => d | None => n end)
    | None => None
    end.
  Definition data_rows (d : data) : list (str * str) :=
    match d_name d with Some n => [(match d_display d with Some x => x | None => n end, d_value d)] | None => [] end.
  Definition simple_row (x : schema_data) (d : simple_data) : str * str :=
    (match schema_of x with
     | Some sc => match field_label sc (getd (sd_name d)) with Some l => l | None => getd (sd_name d) end
     | None => getd (sd_name d) end, sd_text d).
  Definition rows (f : feat) : list (str * str) :=
    match e_ext f with
    | Some x => flat_map data_rows (x_data x) ++ flat_map (fun s => map (simple_row s) (sx_data s)) (x_schema x)
    | None => [] end.
End Spec.
(** The value of the last entry of a name. *)
Fixpoint last_val (k : str) (l : list (str * str)) : option str :=
  match l with
  | [] => None
  | (k', v) :: l' => match last_val k l' with Some w => Some w | None => if eqs k k' then Some v else None end
  end.

(** * The map *)
Definition msets (l : list (str * str)) (m : @smap str) : @smap str := fold_left (fun m kv => mset (fst kv) (snd kv) m) l m.
Lemma msets_app a b m : msets (a ++ b) m = msets b (msets a m).
Proof. apply fold_left_app. Qed.
Lemma msets_sorted l : forall m, msorted m -> msorted (msets l m).
Proof. induction l as [|[k v] l IH]; intros m H; auto. cbn. apply IH. now apply mset_sorted. Qed.
Lemma mget_msets k l : forall m, msorted m -> mget k (msets l m) = match last_val k l with Some v => Some v | None => mget k m end.
Proof.
  induction l as [|[k' v] l IH]; intros m H; auto. cbn [last_val].
  change (msets ((k', v) :: l) m) with (msets l (mset k' v m)). rewrite IH by now apply mset_sorted.
  destruct (last_val k l); auto. rewrite mget_mset by auto. now destruct (eqs k k').
Qed.
Lemma fold_map_of A (step : est -> A -> est) (spec : A -> list (str * str)) :
  (forall s a, st_map (step s a) = msets (spec a) (st_map s)) ->
  forall l s, st_map (fold_left step l s) = msets (flat_map spec l) (st_map s).
Proof. intros H. induction l as [|a l IH]; intros s; auto. cbn [fold_left flat_map]. now rewrite IH, H, msets_app. Qed.
Lemma put_opt_map k o s : st_map (put_opt k o s) = msets (entry k o) (st_map s).
Proof. destruct o; reflexivity. Qed.
Lemma gather_data_map s d : st_map (gather_data s d) = msets (data_entities d) (st_map s).
Proof. unfold gather_data, data_entities. destruct (d_name d); auto. destruct (d_display d); reflexivity. Qed.
Lemma gather_field_map sc s f : st_map (gather_field sc s f) = msets (field_entities sc f) (st_map s).
Proof. unfold gather_field, field_entities. destruct (sf_name f), (sf_display f); reflexivity. Qed.
Lemma name_fields_map sc l : forall s, st_map (fold_left (name_field sc) l s) = st_map s.
Proof. induction l as [|f l IH]; intros s; auto. cbn [fold_left]. rewrite IH. unfold name_field. destruct (sf_name f); reflexivity. Qed.
Lemma gather_simple_map p s d : st_map (gather_simple p s d) = msets (simple_entities p d) (st_map s).
Proof.
  unfold gather_simple, simple_entities. destruct (sd_name d) as [n|]; cbv zeta;
    (destruct (st_alt _); [destruct (st_names _); [|destruct (mget _ _)]|]); reflexivity.
Qed.
Section P.
  Variable frag : str -> option str.
  Variable by_id : str -> option schema.
  Lemma gather_schema_map s x : st_map (gather_schema frag by_id s x) = msets (schema_entities frag by_id x) (st_map s).
  Proof.
    unfold gather_schema, schema_entities, schema_of. cbv zeta. destruct (match sx_url x with Some _ => _ | None => _ end) as [sc|].
    - rewrite (fold_map_of _ _ _ (gather_simple_map _)), msets_app. f_equal.
      rewrite <- (fold_map_of _ _ _ (gather_field_map sc)). destruct (st_alt _); auto. apply name_fields_map.
    - apply (fold_map_of _ _ _ (gather_simple_map _)).
  Qed.
  Lemma entities_map f s : st_map (get_entity_fields frag by_id s f) = msets (entities frag by_id f) (st_map s).
  Proof.
    unfold get_entity_fields, entities, own_entities. cbv zeta. rewrite <- !app_assoc, !msets_app.
    rewrite <- !put_opt_map. destruct (e_ext f) as [x|]; [|reflexivity]. rewrite msets_app.
    rewrite (fold_map_of _ _ _ gather_schema_map), (fold_map_of _ _ _ gather_data_map). reflexivity.
  Qed.

  (** * The labels *)
  Definition alts (s : est) : list (str * str) := match st_alt s with Some l => l | None => [] end.
  Lemma gather_data_alt s d : st_alt s <> None -> st_names (gather_data s d) = st_names s /\ st_alt (gather_data s d) = Some (alts s ++ data_rows d).
  Proof.
    intros H. unfold gather_data, data_rows, alts. destruct (d_name d) as [n|].
    - destruct (d_display d); cbn; destruct (st_alt s); try congruence; auto.
    - destruct (st_alt s); try congruence. now rewrite app_nil_r.
  Qed.
  Lemma gather_datas_alt l : forall s, st_alt s <> None ->
    st_names (fold_left gather_data l s) = st_names s /\ st_alt (fold_left gather_data l s) = Some (alts s ++ flat_map data_rows l).
  Proof.
    induction l as [|d l IH]; intros s H; cbn [fold_left flat_map].
    - split; auto. unfold alts. destruct (st_alt s); try congruence. now rewrite app_nil_r.
    - destruct (gather_data_alt s d H) as [N A]. destruct (IH (gather_data s d)) as [N' A']; [congruence|].
      rewrite N', N. split; auto. rewrite A'. unfold alts at 1. rewrite A. now rewrite <- app_assoc.
  Qed.
  Lemma gather_fields_alt sc l : forall s, st_names (fold_left (gather_field sc) l s) = st_names s /\ st_alt (fold_left (gather_field sc) l s) = st_alt s.
  Proof.
    induction l as [|d l IH]; intros s; cbn [fold_left]; auto. destruct (IH (gather_field sc s d)) as [-> ->].
    unfold gather_field. destruct (sf_name d), (sf_display d); auto.
  Qed.
  Lemma name_fields_alt sc l : forall s, msorted (st_names s) -> st_alt (fold_left (name_field sc) l s) = st_alt s /\
    msorted (st_names (fold_left (name_field sc) l s)) /\
    forall n, mget n (st_names (fold_left (name_field sc) l s)) =
      match field_label {| sc_name := sc_name sc; sc_fields := l |} n with Some x => Some x | None => mget n (st_names s) end.
  Proof.
    induction l as [|f l IH]; intros s H; cbn [fold_left]; auto.
    assert (H' : msorted (st_names (name_field sc s f))).
    { unfold name_field. destruct (sf_name f); auto. cbn. now apply mset_sorted. }
    destruct (IH _ H') as (A & S & G). rewrite A. split; [|split; auto].
    - unfold name_field. destruct (sf_name f); auto.
    - intros n. rewrite G. unfold field_label. cbn [sc_fields sc_name rev].
      assert (F : forall P (a b : list simple_field), List.find P (a ++ b) = match List.find P a with Some x => Some x | None => List.find P b end).
      { intros P a b. induction a as [|y a IHa]; auto. cbn. destruct (P y); auto. }
      rewrite F. destruct (List.find _ (rev l)); auto. cbn [List.find].
      unfold name_field. destruct (sf_name f) as [m|]; auto. cbn [st_names put_name]. rewrite mget_mset by auto.
      destruct (eqs m n) eqn:E.
      + apply eqs_spec in E. subst. rewrite eqs_refl. reflexivity.
      + destruct (eqs n m) eqn:E2; auto. apply eqs_spec in E2. subst. now rewrite eqs_refl in E.
  Qed.
  (** Values whose names are in the map of field names. *)
  Lemma gather_simples_alt p l : forall s, st_alt s <> None -> Forall (fun d => mget (getd (sd_name d)) (st_names s) <> None) l ->
    st_names (fold_left (gather_simple p) l s) = st_names s /\
    st_alt (fold_left (gather_simple p) l s) = Some (alts s ++ map (fun d => (getd (mget (getd (sd_name d)) (st_names s)), sd_text d)) l).
  Proof.
    induction l as [|d l IH]; intros s H F; cbn [fold_left map].
    - split; auto. unfold alts. destruct (st_alt s); try congruence. now rewrite app_nil_r.
    - inversion F as [|? ? Hd F']; subst.
      assert (E : st_names (gather_simple p s d) = st_names s /\
                  st_alt (gather_simple p s d) = Some (alts s ++ [(getd (mget (getd (sd_name d)) (st_names s)), sd_text d)])).
      { unfold gather_simple. cbv zeta.
        set (s1 := match sd_name d with Some n => put_map (p ++ n) (sd_text d) s | None => s end).
        assert (E1 : st_alt s1 = st_alt s /\ st_names s1 = st_names s) by (unfold s1; destruct (sd_name d); auto).
        destruct E1 as [Ea En]. rewrite Ea, En. unfold alts. destruct (st_alt s) as [a|] eqn:Es; [|congruence].
        destruct (st_names s) as [|x xs] eqn:Ex; [now destruct Hd|]. rewrite <- Ex in *. clear Ex.
        destruct (mget (getd (sd_name d)) (st_names s)) as [v|]; [|congruence].
        unfold push_alt. cbn [st_names st_alt]. rewrite Ea, En. auto. }
      destruct E as [En Ea]. destruct (IH (gather_simple p s d)) as [N' A']; [congruence|now rewrite En|].
      rewrite N', A', En. split; auto. unfold alts at 1. rewrite Ea. rewrite <- app_assoc. reflexivity.
  Qed.
  (** No field names known. *)
  Lemma gather_simples_plain p l : forall s, st_alt s <> None -> st_names s = [] ->
    st_names (fold_left (gather_simple p) l s) = [] /\
    st_alt (fold_left (gather_simple p) l s) = Some (alts s ++ map (fun d => (getd (sd_name d), sd_text d)) l).
  Proof.
    induction l as [|d l IH]; intros s H N; cbn [fold_left map].
    - split; auto. unfold alts. destruct (st_alt s); try congruence. now rewrite app_nil_r.
    - assert (E : st_names (gather_simple p s d) = [] /\ st_alt (gather_simple p s d) = Some (alts s ++ [(getd (sd_name d), sd_text d)])).
      { unfold gather_simple. cbv zeta.
        set (s1 := match sd_name d with Some n => put_map (p ++ n) (sd_text d) s | None => s end).
        assert (E1 : st_alt s1 = st_alt s /\ st_names s1 = st_names s) by (unfold s1; destruct (sd_name d); auto).
        destruct E1 as [Ea En]. rewrite Ea, En, N. unfold alts. destruct (st_alt s) as [a|] eqn:Es; [|congruence].
        unfold push_alt. cbn [st_names st_alt]. rewrite Ea, En. auto. }
      destruct E as [En Ea]. destruct (IH (gather_simple p s d)) as [N' A']; [congruence|auto|].
      rewrite N', A'. split; auto. unfold alts at 1. rewrite Ea. rewrite <- app_assoc. reflexivity.
  Qed.
  (** All schemas known and all values declared. *)
  Definition declared (x : schema_data) : Prop :=
    exists sc, schema_of frag by_id x = Some sc /\ Forall (fun d => field_label sc (getd (sd_name d)) <> None) (sx_data x).
  Lemma gather_schemas_alt l : forall s, st_alt s <> None -> msorted (st_names s) -> Forall declared l ->
    st_alt (fold_left (gather_schema frag by_id) l s) = Some (alts s ++ flat_map (fun x => map (simple_row frag by_id x) (sx_data x)) l).
  Proof.
    induction l as [|x l IH]; intros s H Hs F; cbn [fold_left flat_map].
    - unfold alts. destruct (st_alt s); try congruence. now rewrite app_nil_r.
    - inversion F as [|? ? (sc & Hsc & Hd) F']; subst.
      assert (E : msorted (st_names (gather_schema frag by_id s x)) /\
        st_alt (gather_schema frag by_id s x) = Some (alts s ++ map (simple_row frag by_id x) (sx_data x))).
      { unfold gather_schema. cbv zeta. unfold schema_of in Hsc. rewrite Hsc.
        destruct (gather_fields_alt sc (sc_fields sc) s) as [N1 A1].
        set (s1 := fold_left (gather_field sc) (sc_fields sc) s) in *.
        assert (Hs1 : msorted (st_names s1)) by now rewrite N1.
        destruct (name_fields_alt sc (sc_fields sc) s1 Hs1) as (A2 & S2 & G2).
        set (s2 := fold_left (name_field sc) (sc_fields sc) s1) in *.
        rewrite A1. destruct (st_alt s) as [a|] eqn:Es; [|congruence].
        destruct (gather_simples_alt (sc_name sc ++ S_ "/") (sx_data x) s2) as [N3 A3].
        - congruence.
        - eapply Forall_impl; [|exact Hd]. intros d E. cbv beta in E |- *. rewrite G2.
          change (field_label {| sc_name := sc_name sc; sc_fields := sc_fields sc |}) with (field_label {| sc_name := sc_name sc; sc_fields := sc_fields sc |}).
          destruct sc as [n fs]. cbn [sc_name sc_fields] in *. destruct (field_label _ _); [discriminate|congruence].
        - rewrite N3, A3. split; auto. unfold alts. rewrite A2, A1, Es. do 2 f_equal. apply map_ext_in.
          intros d Hin. pose proof (proj1 (Forall_forall _ _) Hd d Hin) as E. cbv beta in E. rewrite G2. unfold simple_row, schema_of. rewrite Hsc.
          destruct sc as [n fs]. cbn [sc_name sc_fields] in *. destruct (field_label _ _); [reflexivity|congruence]. }
      destruct E as [E1 E2]. rewrite IH; [|congruence|auto|auto]. unfold alts at 1. rewrite E2. now rewrite <- app_assoc.
  Qed.
  (** No schemas. *)
  Lemma gather_schemas_plain l : forall s, st_alt s <> None -> st_names s = [] -> Forall (fun x => schema_of frag by_id x = None) l ->
    st_alt (fold_left (gather_schema frag by_id) l s) = Some (alts s ++ flat_map (fun x => map (simple_row frag by_id x) (sx_data x)) l).
  Proof.
    induction l as [|x l IH]; intros s H Hs F; cbn [fold_left flat_map].
    - unfold alts. destruct (st_alt s); try congruence. now rewrite app_nil_r.
    - inversion F as [|? ? Hsc F']; subst.
      assert (E : st_names (gather_schema frag by_id s x) = [] /\
        st_alt (gather_schema frag by_id s x) = Some (alts s ++ map (simple_row frag by_id x) (sx_data x))).
      { unfold gather_schema. cbv zeta. pose proof Hsc as Hsc'. unfold schema_of in Hsc'. rewrite Hsc'.
        destruct (gather_simples_plain (S_ "/") (sx_data x) s H Hs) as [-> ->]. split; auto. do 2 f_equal. apply map_ext.
        intros d. unfold simple_row. now rewrite Hsc. }
      destruct E as [E1 E2]. rewrite IH; [|congruence|auto|auto]. unfold alts at 1. rewrite E2. now rewrite <- app_assoc.
  Qed.
  Lemma put_opt_alt k o s : st_alt (put_opt k o s) = st_alt s /\ st_names (put_opt k o s) = st_names s.
  Proof. destruct o; auto. Qed.
  Definition start : est := {| st_map := []; st_alt := Some []; st_names := [] |}.
  Lemma rows_correct f : (forall x, e_ext f = Some x -> Forall declared (x_schema x) \/ Forall (fun y => schema_of frag by_id y = None) (x_schema x)) ->
    st_alt (get_entity_fields frag by_id start f) = Some (rows frag by_id f).
  Proof.
    intros H. unfold get_entity_fields, rows. cbv zeta.
    match goal with |- context [fold_left gather_data _ ?s] => set (s0 := s) end.
    assert (E : st_alt s0 = Some [] /\ st_names s0 = []).
    { unfold s0. destruct (e_id f), (e_target f), (e_name f), (e_address f), (e_snippet f), (e_desc f); split; reflexivity. }
    destruct E as [Ea En]. destruct (e_ext f) as [x|]; auto.
    destruct (gather_datas_alt (x_data x) s0) as [N A]; [congruence|].
    assert (R : alts (fold_left gather_data (x_data x) s0) = flat_map data_rows (x_data x)).
    { unfold alts at 1. rewrite A. unfold alts. now rewrite Ea. }
    destruct (H x eq_refl) as [D|D].
    - rewrite gather_schemas_alt; auto; [now rewrite R|congruence|]. rewrite N, En. constructor.
    - rewrite gather_schemas_plain; auto; [now rewrite R|congruence|congruence].
  Qed.
End P.

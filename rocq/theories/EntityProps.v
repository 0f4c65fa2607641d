(** Properties of the entity map, the labels of extended data and the balloon text. *)
From Verif Require Import Common StrMap StringsModel StringsProofs EntityModel EntityProofs.

(** C76. The entities of a feature: its own attributes and fields, its Data, the SimpleData of its
    SchemaData and the display names; of several entries of one name the last one read counts. *)
Theorem entity_map_correct : forall frag by_id f k,
  mget k (st_map (get_entity_fields frag by_id start f)) = last_val k (entities frag by_id f).
Proof.
  intros. rewrite entities_map, mget_msets by constructor. now destruct (last_val k _).
Qed.
Print Assumptions entity_map_correct.
(** In particular with distinct names every entry can be used, and nothing else. *)
Theorem entity_map_distinct : forall frag by_id f, NoDup (map fst (entities frag by_id f)) ->
  forall k v, mget k (st_map (get_entity_fields frag by_id start f)) = Some v <-> In (k, v) (entities frag by_id f).
Proof.
  intros frag by_id f N k v. rewrite entity_map_correct. induction (entities frag by_id f) as [|[k' v'] l IH]; cbn.
  - split; [discriminate|tauto].
  - cbn in N. inversion N as [|? ? Hn N']; subst. specialize (IH N').
    destruct (last_val k l) as [w|] eqn:E.
    + split; [intros [= <-]; right; apply IH; reflexivity|]. intros [H|H].
      * exfalso. apply Hn. inversion H; subst. assert (In (k, w) l).
        { clear -E. revert E. induction l as [|[a b] l IH]; cbn; [discriminate|]. destruct (last_val k l) as [z|].
          - intros [= <-]. right. now apply IH.
          - destruct (eqs k a) eqn:Ek; [|discriminate]. apply eqs_spec in Ek. intros [= <-]. left. now subst. }
        apply (in_map fst) in H0. exact H0.
      * apply IH in H. congruence.
    + destruct (eqs k k') eqn:Ek; apply eqs_spec in Ek || idtac.
      * split; [intros [= <-]; left; now subst|]. intros [H|H]; [now inversion H|]. apply IH in H. discriminate.
      * split; [discriminate|]. intros [H|H]; [|apply IH in H; discriminate]. inversion H; subst. now rewrite eqs_refl in Ek.
Qed.
Print Assumptions entity_map_distinct.
(** The feature's own name is hidden by a Data of the name name. *)
Theorem entity_own_name_refuted : exists f, e_name f = Some (S_ "Paris") /\
  mget (S_ "name") (st_map (get_entity_fields (fun _ => None) (fun _ => None) start f)) = Some (S_ "other").
Proof.
  exists {| e_id := None; e_target := None; e_name := Some (S_ "Paris"); e_address := None; e_snippet := None; e_desc := None;
    e_ext := Some {| x_data := [{| d_name := Some (S_ "name"); d_display := None; d_value := S_ "other" |}]; x_schema := [] |} |}.
  split; reflexivity.
Qed.
Print Assumptions entity_own_name_refuted.

(** C42. If all schemas are known and declare the fields used, or no schema is known, every value gets the
    label of its own schema. *)
Theorem labels_correct : forall frag by_id f,
  (forall x, e_ext f = Some x -> Forall (declared frag by_id) (x_schema x) \/ Forall (fun y => schema_of frag by_id y = None) (x_schema x)) ->
  st_alt (get_entity_fields frag by_id start f) = Some (rows frag by_id f).
Proof. exact rows_correct. Qed.
Print Assumptions labels_correct.
(** A SchemaData of no schema after one with a schema gets the labels of the first; a field the schema does
    not declare gets an empty label. *)
Definition example_schema : schema :=
  {| sc_name := S_ "S"; sc_fields := [{| sf_name := Some (S_ "a"); sf_display := Some (S_ "A!") |}; {| sf_name := Some (S_ "b"); sf_display := None |}] |}.
Definition example_find (i : str) : option schema := if eqs i (S_ "s") then Some example_schema else None.
Definition example_frag (u : str) : option str := match u with "#"%char :: r => Some r | _ => None end.
Definition example_feat (l : list schema_data) : feat :=
  {| e_id := None; e_target := None; e_name := None; e_address := None; e_snippet := None; e_desc := None; e_ext := Some {| x_data := []; x_schema := l |} |}.
Definition sdat (u : option str) (l : list (str * str)) : schema_data :=
  {| sx_url := u; sx_data := map (fun p => {| sd_name := Some (fst p); sd_text := snd p |}) l |}.
Example labels_example : st_alt (get_entity_fields example_frag example_find start
    (example_feat [sdat (Some (S_ "#s")) [(S_ "b", S_ "1"); (S_ "a", S_ "2")]])) = Some [(S_ "S:b", S_ "1"); (S_ "S:A!", S_ "2")].
Proof. reflexivity. Qed.
Theorem labels_leak_refuted : exists l r r', (st_alt (get_entity_fields example_frag example_find start (example_feat l)) = Some r /\
  rows example_frag example_find (example_feat l) = r' /\ nth_error r 1 = Some (S_ "S:A!", S_ "2") /\ nth_error r' 1 = Some (S_ "a", S_ "2"))%type.
Proof.
  exists [sdat (Some (S_ "#s")) [(S_ "a", S_ "1")]; sdat None [(S_ "a", S_ "2")]].
  eexists. eexists. split; [reflexivity|]. split; [reflexivity|]. split; reflexivity.
Qed.
Print Assumptions labels_leak_refuted.
Theorem labels_undeclared_refuted : exists l, st_alt (get_entity_fields example_frag example_find start (example_feat l)) = Some [([], S_ "1")] /\
  rows example_frag example_find (example_feat l) = [(S_ "zz", S_ "1")].
Proof. exists [sdat (Some (S_ "#s")) [(S_ "zz", S_ "1")]]. split; reflexivity. Qed.
Print Assumptions labels_undeclared_refuted.

(** C77. The balloon of a feature without balloon style: the name as a heading, the description with its
    entities replaced, and a table of the labelled values. *)
Theorem balloon_total : forall frag by_id t f, exists r, balloon frag by_id t f = Ok r.
Proof.
  intros. unfold balloon, expand_entities. cbv zeta. destruct t; [apply create_expanded_total|].
  destruct (e_desc f) as [d|]; cbn [bind]; eauto.
  destruct (create_expanded_total d (st_map (get_entity_fields frag by_id {| st_map := []; st_alt := Some []; st_names := [] |} f)) (S_ "$[") (S_ "]")) as [r ->].
  cbn. eauto.
Qed.
Print Assumptions balloon_total.
(** A template: literal text and entity references. *)
Inductive piece := Lit (s : str) | Ent (k : str).
Definition piece_text (p : piece) : str := match p with Lit s => s | Ent k => S_ "$[" ++ k ++ S_ "]" end.
Definition tpl_text (l : list piece) : str := flat_map piece_text l.
(** Each known entity replaced by its value, unknown ones left alone. *)
Definition tpl_fill (m : str -> option str) (l : list piece) : str :=
  flat_map (fun p => match p with Lit s => s | Ent k => match m k with Some v => v | None => piece_text p end end) l.
Definition plain_piece (p : piece) : Prop := match p with Lit s => ~ In "$"%char s | Ent k => ~ In "$"%char k /\ ~ In "]"%char k end.
Definition subst1 (k v : str) (p : piece) : piece := match p with Ent k' => if eqs k' k then Lit v else p | _ => p end.
Lemma ra_cons c v x s r : prefixb c (x :: s) = false -> ReplaceAll c v s r -> ReplaceAll c v (x :: s) (x :: r).
Proof.
  intros P H. inversion H as [s0 N|u t t' F R]; subst.
  - apply RA_done. apply find_none. apply find_none in N. cbn [find]. now rewrite P, N.
  - apply (RA_step c v (x :: u) t t'); auto. intros [|j] Hj; cbn [skipn app]; [exact P|]. apply F. cbn in Hj. lia.
Qed.
Lemma ra_lit c0 c v w s r : ~ In c0 w -> ReplaceAll (c0 :: c) v s r -> ReplaceAll (c0 :: c) v (w ++ s) (w ++ r).
Proof.
  intros H R. induction w as [|x w IH]; auto. cbn [app]. apply ra_cons; [|apply IH; intros Hi; apply H; now right].
  cbn [prefixb]. destruct (aeq c0 x) eqn:E; auto. apply aeq_spec in E. subst. exfalso. apply H. now left.
Qed.
Lemma key_end k k' s : ~ In "]"%char k -> ~ In "]"%char k' -> prefixb (k ++ ["]"%char]) (k' ++ "]"%char :: s) = true -> k = k'.
Proof.
  revert k'. induction k as [|x k IH]; intros [|y k'] H H'; cbn [app prefixb].
  - auto.
  - rewrite andb_true_iff. intros [E _]. apply aeq_spec in E. subst. exfalso. apply H'. now left.
  - rewrite andb_true_iff. intros [E _]. apply aeq_spec in E. subst. exfalso. apply H. now left.
  - rewrite andb_true_iff. intros [E P]. apply aeq_spec in E. subst. f_equal. apply IH; auto; intros Hi; [apply H|apply H']; now right.
Qed.
Lemma ra_tpl k v l : ~ In "]"%char k -> Forall plain_piece l ->
  ReplaceAll (S_ "$[" ++ k ++ S_ "]") v (tpl_text l) (tpl_text (map (subst1 k v) l)).
Proof.
  intros Hk F. induction F as [|p l Hp F IH].
  - apply RA_done. intros (a & b & E). apply (f_equal (@length _)) in E. rewrite !app_length in E. cbn in E. lia.
  - cbn [map tpl_text flat_map]. fold (tpl_text l). fold (tpl_text (map (subst1 k v) l)). destruct p as [s|k']; cbn [subst1 piece_text plain_piece] in *.
    + apply (ra_lit "$"%char (S_ "[" ++ k ++ S_ "]")); auto.
    + destruct (eqs k' k) eqn:E.
      * apply eqs_spec in E. subst k'. cbn [piece_text]. rewrite <- (app_nil_l (v ++ _)).
        apply (RA_step (S_ "$[" ++ k ++ S_ "]") v [] (tpl_text l) (tpl_text (map (subst1 k v) l))); auto. intros j Hj. cbn in Hj. lia.
      * cbn [piece_text]. change (S_ "$[" ++ k' ++ S_ "]") with ("$"%char :: S_ "[" ++ k' ++ S_ "]"). cbn [app].
        apply ra_cons.
        -- destruct (prefixb _ _) eqn:P; auto. exfalso. change (S_ "$[" ++ k ++ S_ "]") with ("$"%char :: "["%char :: k ++ ["]"%char]) in P.
           change (S_ "[" ++ k' ++ S_ "]") with ("["%char :: k' ++ ["]"%char]) in P. cbn [app prefixb] in P. rewrite !aeq_refl in P. cbn [andb] in P.
           rewrite <- app_assoc in P. cbn [app] in P. apply key_end in P; [|auto|tauto]. subst. now rewrite eqs_refl in E.
        -- apply (ra_lit "$"%char (S_ "[" ++ k ++ S_ "]")); auto. intros Hi. apply in_app_or in Hi as [Hi|Hi].
           ++ destruct Hi as [Hi|[]]. discriminate.
           ++ apply in_app_or in Hi as [Hi|Hi]; [tauto|]. destruct Hi as [Hi|[]]. discriminate.
Qed.
Lemma subst_plain k v l : ~ In "$"%char v -> Forall plain_piece l -> Forall plain_piece (map (subst1 k v) l).
Proof. intros Hv F. apply Forall_map. eapply Forall_impl; [|exact F]. intros [s|k'] H; auto. cbn. destruct (eqs k' k); auto. Qed.
(** The entries the template refers to have values that are not shorter than the reference and do not
    contain $ or the name; nothing is asked of other entries but that their names have no bracket. *)
Definition fillable (l : list piece) (kv : str * str) : Prop :=
  ~ In "]"%char (fst kv) /\ (In (Ent (fst kv)) l -> safe_entry (S_ "$[") (S_ "]") kv /\ ~ In "$"%char (snd kv)).
Lemma ent_dec k (l : list piece) : {In (Ent k) l} + {~ In (Ent k) l}.
Proof. apply in_dec. intros [a|a] [b|b]; try (right; discriminate); destruct (list_eq_dec ascii_dec a b); subst; auto; right; congruence. Qed.
Lemma subst_absent k v l : ~ In (Ent k) l -> map (subst1 k v) l = l.
Proof.
  induction l as [|p l IH]; auto. intros H. cbn [map]. rewrite IH by (intros Hi; apply H; now right). f_equal.
  destruct p as [s|k']; auto. cbn. destruct (eqs k' k) eqn:E; auto. apply eqs_spec in E. subst. exfalso. apply H. now left.
Qed.
Lemma expand_absent k v l : ~ In "]"%char k -> Forall plain_piece l -> ~ In (Ent k) l -> expand_one (S_ "$[") (S_ "]") (tpl_text l) (k, v) = Ok (tpl_text l).
Proof.
  intros Hk P N. unfold expand_one. cbn [fst snd].
  assert (F : find (S_ "$[" ++ k ++ S_ "]") (tpl_text l) = None).
  { apply find_none. intros O. pose proof (ra_tpl k (S_ "x") l Hk P) as R. rewrite subst_absent in R by auto.
    pose proof (ra_tpl k (S_ "y") l Hk P) as R2. rewrite subst_absent in R2 by auto. clear -R O. remember (tpl_text l) as t eqn:E. clear E.
    assert (G : forall a b, ReplaceAll (S_ "$[" ++ k ++ S_ "]") (S_ "x") a b -> length b <= length a /\ (occurs (S_ "$[" ++ k ++ S_ "]") a -> length b < length a)).
    { intros a b H. induction H as [s N|u w w' F H [IH1 IH2]]; [split; [lia|tauto]|]. rewrite !app_length in *. cbn [length list_ascii_of_string] in *. split; intros; lia. }
    destruct (G _ _ R) as [_ G2]. specialize (G2 O). lia. }
  rewrite F. reflexivity.
Qed.
Lemma expand_template m : forall l, Forall (fillable l) m ->
  msorted m -> Forall plain_piece l -> create_expanded (tpl_text l) m (S_ "$[") (S_ "]") = Ok (tpl_fill (fun k => mget k m) l).
Proof.
  induction m as [|[k v] m IH]; intros l F Hm P.
  - cbn [create_expanded mget]. f_equal. unfold tpl_text, tpl_fill. clear. induction l as [|[s|k] l IH]; cbn; congruence.
  - inversion F as [|? ? [K SV] F']; subst. cbn [fst snd] in *. inversion Hm as [|? ? Hm' Hall]; subst.
    assert (E : expand_one (S_ "$[") (S_ "]") (tpl_text l) (k, v) = Ok (tpl_text (map (subst1 k v) l)) /\ Forall plain_piece (map (subst1 k v) l)).
    { destruct (ent_dec k l) as [Hi|Hn].
      - destruct (SV Hi) as [S V]. destruct (expand_one_correct _ _ (tpl_text l) _ S) as (r & E & R). cbn [fst snd] in R.
        assert (r = tpl_text (map (subst1 k v) l)).
        { eapply replace_all_fun; [|exact R|now apply ra_tpl]. discriminate. }
        subst r. split; auto. now apply subst_plain.
      - rewrite subst_absent by auto. split; auto. now apply expand_absent. }
    destruct E as [E P']. cbn [create_expanded]. rewrite E. cbn [bind]. rewrite IH; auto.
    + f_equal. unfold tpl_fill. clear. induction l as [|p l IHl]; auto.
      cbn [map flat_map]. rewrite IHl. f_equal. destruct p as [s|k']; auto. cbn [subst1 mget]. destruct (eqs k' k) eqn:Ek; auto.
    + eapply Forall_impl; [|exact F']. intros kv [H1 H2]. split; auto. intros Hi. apply H2. apply in_map_iff in Hi as (p & Hp & Hi).
      destruct p as [s|k']; [discriminate|]. cbn in Hp. destruct (eqs k' k); [discriminate|]. congruence.
Qed.
Theorem balloon_style_text : forall frag by_id f l,
  Forall (fillable l) (st_map (get_entity_fields frag by_id start f)) -> Forall plain_piece l ->
  balloon frag by_id (Some (tpl_text l)) f = Ok (tpl_fill (fun k => last_val k (entities frag by_id f)) l).
Proof.
  intros frag by_id f l F P. unfold balloon, expand_entities. cbv zeta. change {| st_map := []; st_alt := Some []; st_names := [] |} with start.
  rewrite expand_template; auto.
  - f_equal. unfold tpl_fill. clear. induction l as [|p l IH]; auto. cbn [flat_map]. rewrite IH. f_equal.
    destruct p; auto. now rewrite entity_map_correct.
  - rewrite entities_map. apply msets_sorted. constructor.
Qed.
Print Assumptions balloon_style_text.
Theorem balloon_default : forall frag by_id f l,
  (forall x, e_ext f = Some x -> Forall (declared frag by_id) (x_schema x) \/ Forall (fun y => schema_of frag by_id y = None) (x_schema x)) ->
  Forall (fillable l) (st_map (get_entity_fields frag by_id start f)) ->
  e_desc f = Some (tpl_text l) -> Forall plain_piece l ->
  balloon frag by_id None f = Ok (match e_name f with Some n => S_ "<h3>" ++ n ++ S_ "</h3><br/><br/>" | None => [] end ++
    tpl_fill (fun k => last_val k (entities frag by_id f)) l ++
    match e_ext f with Some _ => S_ "
<table border=""1"">
" ++ flat_map (fun kv => S_ "<tr><td>" ++ fst kv ++ S_ "</td><td>" ++ snd kv ++ S_ "</tr>
") (rows frag by_id f) ++ S_ "</table>
" | None => [] end).
Proof.
  intros frag by_id f l D F Hd P. pose proof (balloon_style_text frag by_id f l F P) as E. unfold balloon in *. cbv zeta in *.
  change {| st_map := []; st_alt := Some []; st_names := [] |} with start in *. rewrite Hd, E. cbn [bind].
  now rewrite (labels_correct frag by_id f D).
Qed.
Print Assumptions balloon_default.
Definition balloon_feat : feat :=
  {| e_id := None; e_target := None; e_name := Some (S_ "Ipanema Beach"); e_address := None; e_snippet := None; e_desc := Some (S_ "at $[name]!");
     e_ext := Some {| x_data := [{| d_name := Some (S_ "h"); d_display := None; d_value := S_ "9 metres" |}]; x_schema := [] |} |}.
Example balloon_example : balloon (fun _ => None) (fun _ => None) None balloon_feat = Ok (S_ "<h3>Ipanema Beach</h3><br/><br/>at Ipanema Beach!
<table border=""1"">
<tr><td>h</td><td>9 metres</tr>
</table>
").
Proof. reflexivity. Qed.
Example balloon_example_fillable : let l := [Lit (S_ "at "); Ent (S_ "name"); Lit (S_ "!")] in
  e_desc balloon_feat = Some (tpl_text l) /\ Forall plain_piece l /\
  Forall (fillable l) (st_map (get_entity_fields (fun _ => None) (fun _ => None) start balloon_feat)).
Proof.
  cbv zeta. split; [reflexivity|]. split.
  - repeat constructor; cbn; intuition discriminate.
  - assert (B : forall c (s : str), existsb (aeq c) s = false -> ~ In c s).
    { intros c s E Hi. assert (existsb (aeq c) s = true) by (apply existsb_exists; exists c; split; [auto|apply aeq_refl]). congruence. }
    assert (T : forall k v, (k, v) = (S_ "description", S_ "at $[name]!") \/ (k, v) = (S_ "h", S_ "9 metres") \/ (k, v) = (S_ "name", S_ "Ipanema Beach") ->
      fillable [Lit (S_ "at "); Ent (S_ "name"); Lit (S_ "!")] (k, v)).
    { intros k v [E|[E|E]]; inversion E; subst; (split; [apply B; reflexivity|]); intros Hi; try (cbn in Hi; exfalso; intuition discriminate).
      split; [|apply B; reflexivity]. exists "$"%char. eexists. split; [reflexivity|]. split; [|split].
      - apply find_none. reflexivity.
      - cbn. lia.
      - apply B. reflexivity. }
    assert (M : st_map (get_entity_fields (fun _ => None) (fun _ => None) start balloon_feat) =
      [(S_ "description", S_ "at $[name]!"); (S_ "h", S_ "9 metres"); (S_ "name", S_ "Ipanema Beach")]) by reflexivity.
    rewrite M. repeat constructor; apply T; auto.
Qed.
(** The cells of the table are not closed: every row opens two and closes one. *)
Fixpoint count_of (p s : str) : nat := match s with [] => 0 | _ :: s' => (if prefixb p s then 1 else 0) + count_of p s' end.
Theorem balloon_cells_refuted : exists r, balloon (fun _ => None) (fun _ => None) None balloon_feat = Ok r /\
  count_of (S_ "<td>") r = 2 /\ count_of (S_ "</td>") r = 1.
Proof. eexists. split; [reflexivity|]. split; reflexivity. Qed.
Print Assumptions balloon_cells_refuted.

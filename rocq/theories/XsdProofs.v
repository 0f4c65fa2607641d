From Verif Require Import Common StrMap XsdTables XsdModel.
Local Open Scope N_scope.

Lemma tag_to_id_eval : tag_map = tag_to_id.
Proof. vm_compute. reflexivity. Qed.

(** Number of entries. *)
Lemma elements_length : length kml22_elements = S (N.to_nat Type_Invalid).
Proof. vm_compute. reflexivity. Qed.
Lemma types_length : length dom_types = S (N.to_nat Type_Invalid).
Proof. vm_compute. reflexivity. Qed.

Fixpoint sortedb (m : smap N) : bool :=
  match m with
  | (k, _) :: (((k2, _) :: _) as t) => match scmp k k2 with Lt => sortedb t | _ => false end
  | _ => true
  end.
Lemma sortedb_sorted m : sortedb m = true -> msorted m.
Proof.
  intros H. apply Sorted.Sorted_StronglySorted; [intros x y z; apply slt_trans|].
  induction m as [|[k v] m IH]; [constructor|]. destruct m as [|[k2 v2] m]; [repeat constructor|].
  cbn [sortedb] in H. destruct (scmp k k2) eqn:E; try discriminate. constructor; auto.
Qed.
Lemma tag_map_sorted : msorted tag_map.
Proof. apply sortedb_sorted. vm_compute. reflexivity. Qed.

(** The name of table entry [i]. *)
Definition entry_name (i : N) : str := fst (nth (N.to_nat i) kml22_elements ([], XSD_UNKNOWN)).
Definition ids : list N := map N.of_nat (seq 0 (N.to_nat Type_Invalid)).
Lemma in_ids i : In i ids <-> i < Type_Invalid.
Proof.
  unfold ids. rewrite in_map_iff. split.
  - intros (n & <- & H). apply in_seq in H. lia.
  - intros H. exists (N.to_nat i). split; [lia|]. apply in_seq. lia.
Qed.
Lemma ids_forall (P : N -> bool) : forallb P ids = true -> forall i, i < Type_Invalid -> P i = true.
Proof. intros H i Hi. rewrite forallb_forall in H. apply H. now apply in_ids. Qed.

Lemma id_of_entry i : i < Type_Invalid -> element_id (entry_name i) = i.
Proof.
  intros H. apply N.eqb_eq. revert i H. apply (ids_forall (fun i => element_id (entry_name i) =? i)). vm_compute. reflexivity.
Qed.
Lemma tag_map_sound_b : forallb (fun kv : str * N => (snd kv <? Type_Invalid) && eqs (entry_name (snd kv)) (fst kv)) tag_map = true.
Proof. vm_compute. reflexivity. Qed.
Lemma tag_map_sound s i : mget s tag_map = Some i -> i < Type_Invalid /\ entry_name i = s.
Proof.
  intros H. apply mget_in in H. pose proof tag_map_sound_b as Hb. rewrite forallb_forall in Hb.
  specialize (Hb _ H). cbn [fst snd] in Hb. apply andb_true_iff in Hb as [H1 H2]. apply eqs_spec in H2. split; [lia|auto].
Qed.
(** ElementId is the inverse of the table, for every string. *)
Lemma element_id_spec s : (exists i, 0 < i < Type_Invalid /\ entry_name i = s /\ element_id s = i) \/
  (element_id s = Type_Unknown /\ forall i, 0 < i < Type_Invalid -> entry_name i <> s).
Proof.
  destruct (N.eq_dec (element_id s) Type_Unknown) as [E|E].
  - right. split; auto. intros i Hi <-. rewrite id_of_entry in E by lia. change Type_Unknown with 0 in E. lia.
  - left. exists (element_id s). unfold element_id in *. destruct (mget s tag_map) as [i|] eqn:Eg; [|congruence].
    apply tag_map_sound in Eg as [H1 H2]. change Type_Unknown with 0 in E. repeat split; auto. lia.
Qed.

Lemma entry_name_inj i j : i < Type_Invalid -> j < Type_Invalid -> entry_name i = entry_name j -> i = j.
Proof. intros Hi Hj H. rewrite <- (id_of_entry i Hi), <- (id_of_entry j Hj). now rewrite H. Qed.

Lemma element_name_entry i : 0 < i < Type_Invalid -> i <> Type_IconStyleIcon -> element_name (Z.of_N i) = entry_name i.
Proof.
  intros H Hne. unfold element_name, is_valid. change Type_Unknown with 0.
  replace (Z.of_N 0 <? Z.of_N i)%Z with true by lia. replace (Z.of_N i <? Z.of_N Type_Invalid)%Z with true by lia. cbn [andb].
  replace (Z.of_N i =? Z.of_N Type_IconStyleIcon)%Z with false by lia. unfold entry_name. f_equal. f_equal. lia.
Qed.
Lemma name_id_round_trip i : 0 < i < Type_Invalid -> i <> Type_IconStyleIcon -> element_id (element_name (Z.of_N i)) = i.
Proof. intros H Hne. rewrite element_name_entry by auto. apply id_of_entry. lia. Qed.
Lemma id_name_round_trip s : element_id s <> Type_Unknown -> s <> S_ "IconStyleIcon" -> element_name (Z.of_N (element_id s)) = s.
Proof.
  intros H Hne. destruct (element_id_spec s) as [(i & Hi & Hn & He)|[He _]]; [|congruence].
  rewrite He. rewrite element_name_entry; auto. intros ->. elim Hne. rewrite <- Hn. vm_compute. reflexivity.
Qed.
Lemma icon_wart : element_name (Z.of_N Type_IconStyleIcon) = S_ "Icon" /\ element_id (S_ "Icon") = Type_Icon /\
  Type_Icon <> Type_IconStyleIcon /\ element_id (S_ "IconStyleIcon") = Type_IconStyleIcon.
Proof. vm_compute. repeat split; discriminate. Qed.

Lemma nonempty_entries i : 0 < i < Type_Invalid -> entry_name i <> [].
Proof.
  intros H E. assert (Hb : negb (eqs (entry_name i) []) = true); [|rewrite E in Hb; discriminate].
  assert (Hi : i < Type_Invalid) by lia. clear H E. revert i Hi.
  apply (ids_forall (fun i => negb (eqs (entry_name i) []))). vm_compute. reflexivity.
Qed.
Lemma element_name_empty id : element_name id = [] <-> ~ (0 < id < Z.of_N Type_Invalid)%Z.
Proof.
  unfold element_name, is_valid. change (Z.of_N Type_Unknown) with 0%Z.
  destruct ((0 <? id)%Z && (id <? Z.of_N Type_Invalid)%Z) eqn:E.
  - apply andb_true_iff in E as [E1 E2]. split.
    + intros H. exfalso. destruct (id =? _)%Z; [discriminate|].
      apply (nonempty_entries (Z.to_N id)); [lia|]. unfold entry_name. now rewrite Z_N_nat in *.
    + lia.
  - split; auto. intros _. apply andb_false_iff in E. lia.
Qed.

Definition kind_ok (i : N) : bool :=
  match snd (nth (N.to_nat i) kml22_elements ([], XSD_UNKNOWN)) with XSD_UNKNOWN => i =? 0 | _ => negb (i =? 0) end.
Lemma element_type_total id : element_type id = XSD_UNKNOWN <-> ~ (0 < id < Z.of_N Type_Invalid)%Z.
Proof.
  unfold element_type, is_valid. change (Z.of_N Type_Unknown) with 0%Z.
  destruct ((0 <? id)%Z && (id <? Z.of_N Type_Invalid)%Z) eqn:E.
  - apply andb_true_iff in E as [E1 E2].
    assert (Hk : kind_ok (Z.to_N id) = true).
    { apply ids_forall; [vm_compute; reflexivity|lia]. }
    unfold kind_ok in Hk. rewrite Z_N_nat in Hk. destruct (snd _); split; try discriminate; lia.
  - split; auto. intros _. apply andb_false_iff in E. lia.
Qed.

(** * Enumerations *)
Lemma index_of_none s l i : index_of s l i = None <-> ~ In s l.
Proof.
  revert i; induction l as [|x l IH]; intros i; simpl; [tauto|]. destruct (eqs x s) eqn:E.
  - apply eqs_spec in E. split; [discriminate|tauto].
  - rewrite IH. split; [|tauto]. intros H [->|H2]; auto. now rewrite eqs_refl in E.
Qed.
Lemma index_of_nth l n s i : NoDup l -> nth_error l n = Some s -> index_of s l i = Some (i + Z.of_nat n)%Z.
Proof.
  revert n i; induction l as [|x l IH]; intros n i Hn H; [destruct n; discriminate|].
  inversion Hn; subst. simpl. destruct n as [|n].
  - inversion H; subst. rewrite eqs_refl. f_equal; lia.
  - simpl in H. destruct (eqs x s) eqn:E.
    + apply eqs_spec in E; subst. elim H2. eapply nth_error_In; eauto.
    + rewrite (IH n) by auto. f_equal; lia.
Qed.
Lemma index_of_some l s i j : index_of s l i = Some j -> (i <= j)%Z /\ nth_error l (Z.to_nat (j - i)) = Some s.
Proof.
  revert i; induction l as [|x l IH]; intros i H; [discriminate|]. simpl in H. destruct (eqs x s) eqn:E.
  - apply eqs_spec in E; subst. inversion H; subst. split; [lia|]. now rewrite Z.sub_diag.
  - apply IH in H as [H1 H2]. split; [lia|]. replace (Z.to_nat (j - i)) with (S (Z.to_nat (j - (i + 1)))) by lia. exact H2.
Qed.

Definition enum_values (t : N) : option (list str) :=
  match List.find (fun x => fst x =? t) kml22_enums with Some (_, v) => Some v | None => None end.
Lemma enums_nodup_ids : NoDup (map fst kml22_enums).
Proof.
  assert (H : map fst kml22_enums = nodup N.eq_dec (map fst kml22_enums)) by (vm_compute; reflexivity).
  rewrite H. apply NoDup_nodup.
Qed.
Lemma enums_nodup_vals : Forall (fun x => NoDup (snd x)) kml22_enums.
Proof.
  assert (H : forallb (fun x => if list_eq_dec str_dec (snd x) (nodup str_dec (snd x)) then true else false) kml22_enums = true)
    by (vm_compute; reflexivity).
  rewrite forallb_forall in H. apply Forall_forall. intros x Hx. specialize (H _ Hx).
  destruct (list_eq_dec _ _ _) as [E|]; [|discriminate]. rewrite E. apply NoDup_nodup.
Qed.

Lemma enum_in_tables tables t v : NoDup (map fst tables) ->
  enum_id_in tables t v = match List.find (fun x => fst x =? t) tables with
                          | Some (_, vals) => match index_of v vals 0%Z with Some i => i | None => (-1)%Z end
                          | None => (-1)%Z end.
Proof.
  induction tables as [|[t' vals] r IH]; intros Hn; auto. simpl in Hn. inversion Hn; subst. simpl.
  destruct (t' =? t) eqn:E; auto. destruct (index_of v vals 0%Z); auto.
  rewrite IH by auto. apply N.eqb_eq in E; subst.
  destruct (List.find _ r) as [[t2 v2]|] eqn:Ef; auto. apply List.find_some in Ef as [Hin Ht]. cbn in Ht. apply N.eqb_eq in Ht; subst.
  elim H1. apply in_map_iff. now exists (t, v2).
Qed.
Lemma enum_id_unfold t v : enum_id t v = match enum_values t with
  | Some vals => match index_of v vals 0%Z with Some i => i | None => (-1)%Z end | None => (-1)%Z end.
Proof.
  unfold enum_id, enum_values. rewrite enum_in_tables by apply enums_nodup_ids. now destruct (List.find _ _) as [[? ?]|].
Qed.
Lemma enum_value_unfold t i : (0 <= i)%Z -> enum_value t i = match enum_values t with
  | Some vals => match nth_error vals (Z.to_nat i) with Some s => Ok s | None => UB end | None => Ok [] end.
Proof.
  intros H. unfold enum_value, enum_values. replace (i <? 0)%Z with false by lia.
  generalize kml22_enums. induction l as [|[t' vals] r IH]; auto. simpl. now destruct (t' =? t).
Qed.
Lemma enum_values_nodup t vals : enum_values t = Some vals -> NoDup vals.
Proof.
  unfold enum_values. destruct (List.find _ _) as [[t' v]|] eqn:E; [|discriminate]. intros H; inversion H; subst.
  apply List.find_some in E as [Hin _]. pose proof enums_nodup_vals as Hf. rewrite Forall_forall in Hf. apply (Hf _ Hin).
Qed.

Lemma enum_round_trip t vals i : enum_values t = Some vals -> (0 <= i < Z.of_nat (length vals))%Z ->
  exists s, enum_value t i = Ok s /\ enum_id t s = i.
Proof.
  intros Hv Hi. rewrite enum_value_unfold by lia. rewrite Hv.
  destruct (nth_error vals (Z.to_nat i)) as [s|] eqn:E; [|apply nth_error_None in E; lia].
  exists s. split; auto. rewrite enum_id_unfold, Hv. rewrite (index_of_nth _ _ _ 0%Z (enum_values_nodup _ _ Hv) E). lia.
Qed.
Lemma enum_text_round_trip t s : enum_id t s <> (-1)%Z -> enum_value t (enum_id t s) = Ok s.
Proof.
  rewrite enum_id_unfold. destruct (enum_values t) as [vals|] eqn:Hv; [|congruence].
  destruct (index_of s vals 0%Z) as [i|] eqn:E; [|congruence]. intros _. apply index_of_some in E as [H1 H2].
  rewrite enum_value_unfold, Hv by lia. rewrite Z.sub_0_r in H2. now rewrite H2.
Qed.
Lemma enum_rejects t s : enum_id t s = (-1)%Z <-> forall vals, enum_values t = Some vals -> ~ In s vals.
Proof.
  rewrite enum_id_unfold. destruct (enum_values t) as [vals|].
  - destruct (index_of s vals 0%Z) as [i|] eqn:E.
    + split; [intros ->; apply index_of_some in E; lia|]. intros H. specialize (H _ eq_refl).
      apply index_of_none with (i := 0%Z) in H. congruence.
    + split; auto. intros _ v Hv. inversion Hv; subst. now apply index_of_none in E.
  - split; auto. intros _ v Hv. discriminate.
Qed.
Lemma enum_value_oob t vals i : enum_values t = Some vals -> (Z.of_nat (length vals) <= i)%Z -> enum_value t i = UB.
Proof.
  intros Hv Hi. rewrite enum_value_unfold, Hv by lia. assert (E : nth_error vals (Z.to_nat i) = None) by (apply nth_error_None; lia).
  now rewrite E.
Qed.

(** * kmlDomTypeToString *)
Lemma type_string_ok t : t < 197 -> dom_type_to_string t = Ok (nth (N.to_nat t) dom_types []).
Proof.
  intros H. unfold dom_type_to_string.
  assert (Hb : forallb (fun n => match nth_error dom_type_strings n with Some s => eqs s (nth n dom_types []) | None => false end) (seq 0 197) = true)
    by (vm_compute; reflexivity).
  rewrite forallb_forall in Hb. specialize (Hb (N.to_nat t)). rewrite in_seq in Hb.
  specialize (Hb ltac:(lia)). destruct (nth_error _ _); [|discriminate]. apply eqs_spec in Hb. now subst.
Qed.
Lemma type_string_wrong t : 197 <= t <= Type_Invalid -> dom_type_to_string t <> Ok (nth (N.to_nat t) dom_types []).
Proof.
  intros H. unfold dom_type_to_string.
  assert (Hb : forallb (fun n => match nth_error dom_type_strings n with Some s => negb (eqs s (nth n dom_types [])) | None => true end) (seq 197 25) = true)
    by (vm_compute; reflexivity).
  rewrite forallb_forall in Hb. specialize (Hb (N.to_nat t)). rewrite in_seq in Hb. change Type_Invalid with 221 in H.
  specialize (Hb ltac:(lia)). destruct (nth_error _ _); [|discriminate]. intros E. inversion E; subst.
  rewrite eqs_refl in Hb. discriminate.
Qed.
Lemma type_string_oob t : 210 <= t -> dom_type_to_string t = UB.
Proof.
  intros H. unfold dom_type_to_string. assert (E : nth_error dom_type_strings (N.to_nat t) = None).
  { apply nth_error_None. change (length dom_type_strings) with 210%nat. lia. }
  now rewrite E.
Qed.

(** Proofs about feature lists and the regionator. *)
From Coq Require Import Permutation Sorted DecimalString DecimalNat.
From Verif Require Import Common StrMap Doubles DoublesMore Rounding BboxModel BboxProps FeatureListModel.

Lemma show_nat_inj n m : show_nat n = show_nat m -> n = m.
Proof.
  unfold show_nat. intros H. apply (f_equal String.string_of_list_ascii) in H.
  rewrite !String.string_of_list_ascii_of_string in H.
  apply (f_equal NilEmpty.uint_of_string) in H. rewrite !NilEmpty.usu in H.
  apply Unsigned.to_uint_inj. congruence.
Qed.

(** Splitting. *)
Lemma split_spec b max : 0 < max -> forall l, fst (split_loop b max l) = firstn max (filter (inside b) l) /\
  filter (inside b) (snd (split_loop b max l)) = skipn max (filter (inside b) l) /\
  filter (fun f => negb (inside b f)) (snd (split_loop b max l)) = filter (fun f => negb (inside b f)) l.
Proof.
  intros Hm l. revert max Hm. induction l as [|f l IH]; intros max Hm; cbn [split_loop].
  - cbn. rewrite firstn_nil, skipn_nil. auto.
  - cbn [filter]. destruct (inside b f) eqn:E; cbn [negb].
    + destruct max as [|max]; [lia|]. cbn [Nat.sub]. rewrite Nat.sub_0_r. destruct max as [|max].
      * cbn [fst snd firstn skipn]. auto.
      * specialize (IH (S max) ltac:(lia)). destruct (split_loop b (S max) l) as [o s]. cbn [fst snd] in *.
        destruct IH as (A & B & C). rewrite A. auto.
    + specialize (IH max Hm). destruct (split_loop b max l) as [o s]. cbn [fst snd] in *.
      destruct IH as (A & B & C). cbn [filter]. rewrite E. cbn [negb]. rewrite C. auto.
Qed.
(** [o] and [r] interleave to [l]: every element of l goes to exactly one of them, in order. *)
Inductive interleave {A} : list A -> list A -> list A -> Prop :=
| il_nil : interleave [] [] []
| il_left x o r l : interleave o r l -> interleave (x :: o) r (x :: l)
| il_right x o r l : interleave o r l -> interleave o (x :: r) (x :: l).
Lemma interleave_right {A} (l : list A) : interleave [] l l.
Proof. induction l; constructor; auto. Qed.
Lemma interleave_perm {A} (o r l : list A) : interleave o r l -> Permutation l (o ++ r).
Proof.
  induction 1; cbn [app]; auto. rewrite IHinterleave. apply Permutation_middle.
Qed.
Lemma split_interleave b max : forall l, interleave (fst (split_loop b max l)) (snd (split_loop b max l)) l.
Proof.
  intros l. revert max. induction l as [|f l IH]; intros max; cbn [split_loop]; [constructor|].
  destruct (inside b f).
  - destruct (max - 1) as [|m].
    + constructor. apply interleave_right.
    + specialize (IH (S m)). destruct (split_loop b (S m) l) as [o s]. now constructor.
  - specialize (IH max). destruct (split_loop b max l) as [o s]. now constructor.
Qed.
Lemma ss_interleave {A} (R : A -> A -> Prop) o r l : interleave o r l -> StronglySorted R l -> StronglySorted R r.
Proof.
  intros H. pose proof (interleave_perm _ _ _ H) as _. induction H; intros HS; auto; inversion HS; subst; auto.
  constructor; auto. rewrite Forall_forall in *. intros y Hy. apply H3.
  apply (Permutation_in _ (Permutation_sym (interleave_perm _ _ _ H))). apply in_or_app. auto.
Qed.

(** Sorting. *)
Lemma insert_perm f l : Permutation (f :: l) (insert f l).
Proof.
  induction l as [|g l IH]; cbn [insert]; auto. destruct (fscore f <? fscore g)%Z; auto.
  rewrite perm_swap. auto.
Qed.
Lemma sort_perm l : Permutation l (sort l).
Proof. induction l as [|f l IH]; cbn; auto. rewrite IH at 1. apply insert_perm. Qed.
Definition desc (f g : feat) : Prop := (fscore g <= fscore f)%Z.
Lemma insert_sorted f l : StronglySorted desc l -> StronglySorted desc (insert f l).
Proof.
  induction 1 as [|g l HS IH HF]; cbn [insert]; [repeat constructor|].
  destruct (Z.ltb_spec (fscore f) (fscore g)).
  - constructor; auto. rewrite Forall_forall in *. intros y Hy.
    apply (Permutation_in _ (Permutation_sym (insert_perm f l))) in Hy. destruct Hy as [<-|Hy]; [unfold desc; lia|auto].
  - constructor; [constructor; auto|]. constructor; [unfold desc; lia|].
    rewrite Forall_forall in *. intros y Hy. specialize (HF _ Hy). unfold desc in *. lia.
Qed.
Lemma sort_sorted l : StronglySorted desc (sort l).
Proof. induction l; cbn; [constructor|]. now apply insert_sorted. Qed.
Lemma insert_stable k f l : filter (fun g => (fscore g =? k)%Z) (insert f l) = filter (fun g => (fscore g =? k)%Z) (f :: l).
Proof.
  induction l as [|g l IH]; auto. cbn [insert]. destruct (Z.ltb_spec (fscore f) (fscore g)); auto.
  cbn [filter] in *. rewrite IH. destruct (Z.eqb_spec (fscore f) k), (Z.eqb_spec (fscore g) k); auto. lia.
Qed.
Lemma sort_stable k l : filter (fun g => (fscore g =? k)%Z) (sort l) = filter (fun g => (fscore g =? k)%Z) l.
Proof.
  induction l as [|f l IH]; auto. change (sort (f :: l)) with (insert f (sort l)). rewrite insert_stable.
  cbn [filter]. now rewrite IH.
Qed.
Lemma sorted_unique l1 l2 : StronglySorted desc l1 -> StronglySorted desc l2 ->
  (forall k, filter (fun g => (fscore g =? k)%Z) l1 = filter (fun g => (fscore g =? k)%Z) l2) -> l1 = l2.
Proof.
  revert l2. induction l1 as [|f l1 IH]; intros [|g l2] S1 S2 H; auto.
  - specialize (H (fscore g)). cbn in H. rewrite Z.eqb_refl in H. discriminate.
  - specialize (H (fscore f)). cbn in H. rewrite Z.eqb_refl in H. discriminate.
  - inversion S1 as [|? ? S1' F1]; inversion S2 as [|? ? S2' F2]; subst. rewrite Forall_forall in *.
    assert (E : f = g).
    { assert (Hin : forall k x, In x (f :: l1) /\ (fscore x =? k)%Z = true <-> In x (g :: l2) /\ (fscore x =? k)%Z = true).
      { intros k x. rewrite <- (filter_In (fun g => (fscore g =? k)%Z) x (f :: l1)), <- (filter_In (fun g => (fscore g =? k)%Z) x (g :: l2)), (H k). tauto. }
      assert (Efg : fscore f = fscore g).
      { assert (A : In f (g :: l2)) by (apply (Hin (fscore f)); split; [now left | apply Z.eqb_refl]).
        assert (B : In g (f :: l1)) by (apply (Hin (fscore g)); split; [now left | apply Z.eqb_refl]).
        assert (fscore f <= fscore g)%Z by (destruct A as [->|A]; [lia | apply F2; auto]).
        assert (fscore g <= fscore f)%Z by (destruct B as [->|B]; [lia | apply F1; auto]). lia. }
      specialize (H (fscore f)). cbn [filter] in H. rewrite Efg, Z.eqb_refl in H. congruence. }
    subst g. f_equal. apply IH; auto. intros k. specialize (H k). cbn [filter] in H.
    destruct (fscore f =? k)%Z; congruence.
Qed.

(** Boxes whose bounds double without overflow. *)
Definition okbox (b : bbox) : bool :=
  doubles_ok (north b) && doubles_ok (south b) && doubles_ok (east b) && doubles_ok (west b) && proper b.
Lemma abs_cond s m e : (-1074 <= e)%Z -> Z.abs (cond_Zopp s (Zpos m * 2 ^ (e + 1074))) = (Zpos m * 2 ^ (e + 1074))%Z.
Proof.
  intros He. pose proof (pow2_pos (e + 1074) ltac:(lia)) as H. generalize dependent (2 ^ (e + 1074))%Z. intros P H.
  assert (0 <= Zpos m * P)%Z by nia. destruct s; cbn [cond_Zopp]; [rewrite Z.abs_opp|]; now apply Z.abs_eq.
Qed.
Lemma doubles_ok_iff x : doubles_ok x = true <-> finite x = true /\ valid x = true /\ (Z.abs (V x) < 2 ^ 2097)%Z.
Proof.
  unfold doubles_ok. rewrite !andb_true_iff. destruct x as [s|s| |s m e]; cbn [finite]; try (split; [intros [[? ?] ?]; discriminate | intros (? & ?); discriminate]).
  - split; [intros _; repeat split | intros _; auto].
  - split.
    + intros [[_ Hv] He]. split; auto. split; auto. apply Z.ltb_lt in He. pose proof (valid_finite _ _ _ Hv) as (A & B & C).
      cbn [V]. assert (E : Z.abs (cond_Zopp s (Zpos m * 2 ^ (e + 1074))) = (Zpos m * 2 ^ (e + 1074))%Z).
      { apply abs_cond. lia. }
      rewrite E. change 2097%Z with (53 + 2044)%Z. rewrite (Z.pow_add_r 2 53 2044) by lia.
      assert (2 ^ (e + 1074) <= 2 ^ 2044)%Z by (apply Z.pow_le_mono_r; lia).
      pose proof (pow2_pos (e + 1074) ltac:(lia)). remember (2 ^ (e + 1074))%Z as P. remember (2 ^ 2044)%Z as Q.
      assert (Zpos m < 2 ^ 53)%Z by lia. nia.
    + intros (_ & Hv & Hl). split; auto. apply Z.ltb_lt. pose proof (valid_finite _ _ _ Hv) as (A & B & C).
      destruct (Z.lt_ge_cases e 971) as [|H]; auto. exfalso. revert Hl. apply Z.le_ngt.
      cbn [V]. assert (E : Z.abs (cond_Zopp s (Zpos m * 2 ^ (e + 1074))) = (Zpos m * 2 ^ (e + 1074))%Z).
      { apply abs_cond. lia. }
      rewrite E. change 2097%Z with (52 + 2045)%Z. rewrite (Z.pow_add_r 2 52 2045) by lia.
      assert (2 ^ 2045 <= 2 ^ (e + 1074))%Z by (apply Z.pow_le_mono_r; lia).
      pose proof (pow2_pos 2045 ltac:(lia)). remember (2 ^ (e + 1074))%Z as P. remember (2 ^ 2045)%Z as Q.
      assert (2 ^ 52 <= Zpos m)%Z by lia. nia.
Qed.
Lemma mid_ok n s : doubles_ok n = true -> doubles_ok s = true -> dle s n = true ->
  doubles_ok (mid n s) = true /\ dle s (mid n s) = true /\ dle (mid n s) n = true.
Proof.
  intros Hn Hs Hle. destruct (half_sum_between s n Hs Hn Hle) as (F & Vm & A & B). fold (mid n s) in *.
  split; [|auto]. rewrite doubles_ok_iff in *. destruct Hn as (F1 & V1 & L1), Hs as (F2 & V2 & L2).
  apply dle_V in A; auto. apply dle_V in B; auto. split; auto. split; auto. lia.
Qed.
Lemma okbox_iff b : okbox b = true <-> doubles_ok (north b) = true /\ doubles_ok (south b) = true /\ doubles_ok (east b) = true /\
  doubles_ok (west b) = true /\ dle (south b) (north b) = true /\ dle (west b) (east b) = true.
Proof. unfold okbox, proper. rewrite !andb_true_iff. tauto. Qed.
Lemma doubles_ok_nan x : doubles_ok x = true -> is_nan x = false.
Proof. destruct x; auto; discriminate. Qed.
Lemma child_ok b d : okbox b = true -> okbox (child_box b d) = true /\ contained_by (child_box b d) b = true.
Proof.
  rewrite okbox_iff. intros (A & B & C & D & E & F).
  destruct (mid_ok _ _ A B E) as (M1 & M2 & M3). destruct (mid_ok _ _ C D F) as (M4 & M5 & M6).
  rewrite okbox_iff, contained_iff. unfold child_box, center_lat, center_lon.
  destruct d; cbn [north south east west]; repeat split; auto; apply dle_refl; apply doubles_ok_nan; auto.
Qed.
(** Bounds that have a midpoint. *)
Definition midbox (b : bbox) : bool := addable (north b) (south b) && addable (east b) (west b).
Lemma child_mid b d : midbox b = true -> midbox (child_box b d) = true.
Proof.
  unfold midbox. rewrite andb_true_iff. intros [A B].
  destruct (half_sum_addable _ _ A) as (A1 & A2 & _). destruct (half_sum_addable _ _ B) as (B1 & B2 & _).
  unfold child_box, center_lat, center_lon, mid. destruct d; cbn [north south east west]; apply andb_true_iff; auto.
Qed.
Lemma children_cover b lat lon : midbox b = true -> contains b lat lon = true ->
  exists d, contains (child_box b d) lat lon = true.
Proof.
  unfold midbox. rewrite andb_true_iff. intros [A B] H.
  destruct (half_sum_addable _ _ A) as (_ & _ & A1). destruct (half_sum_addable _ _ B) as (_ & _ & B1).
  pose proof H as H'. rewrite contains_iff in H. destruct H as (H1 & H2 & H3 & H4).
  destruct (dle_nan _ _ H1) as [N1 _]. destruct (dle_nan _ _ H3) as [N2 _].
  destruct (dle_total _ _ N1 A1) as [X|X], (dle_total _ _ N2 B1) as [Y|Y].
  - exists SW. apply contains_iff. cbn [child_box north south east west]. auto.
  - exists SE. apply contains_iff. cbn [child_box north south east west]. auto.
  - exists NW. apply contains_iff. cbn [child_box north south east west]. auto.
  - exists NE. apply contains_iff. cbn [child_box north south east west]. auto.
Qed.
Lemma okbox_mid b : okbox b = true -> midbox b = true.
Proof.
  rewrite okbox_iff. intros (A & B & C & D & _). unfold midbox. apply andb_true_iff.
  assert (H : forall x y, doubles_ok x = true -> doubles_ok y = true -> addable x y = true).
  { intros x y Hx Hy. destruct x; try discriminate; destruct y; try discriminate; reflexivity. }
  auto.
Qed.
Lemma inside_child b d f : okbox b = true -> inside (child_box b d) f = true -> inside b f = true.
Proof.
  intros Hb. unfold inside. destruct (fpos f) as [[lat lon]|]; auto. intros H.
  apply (contains_contained _ _ _ _ H). now apply child_ok.
Qed.

(** Saving features that have no parent yet. *)
Lemma save_fresh l : forall own, NoDup (map fid l) -> (forall f, In f l -> ~ In (fid f) own) ->
  save l own = (length l, l, rev (map fid l) ++ own).
Proof.
  induction l as [|f l IH]; intros own Hn Hf; auto. cbn [save].
  assert (E : existsb (Nat.eqb (fid f)) own = false).
  { destruct (existsb (Nat.eqb (fid f)) own) eqn:E; auto. apply existsb_exists in E as (x & Hx & E).
    apply Nat.eqb_eq in E. subst. elim (Hf f); [now left | exact Hx]. }
  rewrite E. cbn [map] in Hn. inversion Hn; subst. rewrite IH; auto.
  - cbn [length map rev]. rewrite <- app_assoc. reflexivity.
  - intros g Hg [X|X]; [|apply (Hf g); [now right | exact X]]. apply H1. rewrite X. now apply in_map.
Qed.

(** Regionating. *)
Definition feats_of (fs : list file) : list feat := concat (map fl_feats fs).
Lemma feats_app a b : feats_of (a ++ b) = feats_of a ++ feats_of b.
Proof. unfold feats_of. now rewrite map_app, concat_app. Qed.
Lemma in_feats x fs : In x (feats_of fs) <-> exists f, In f fs /\ In x (fl_feats f).
Proof.
  unfold feats_of. rewrite in_concat. split.
  - intros (l & Hl & Hx). apply in_map_iff in Hl as (f & <- & Hf). eauto.
  - intros (f & Hf & Hx). exists (fl_feats f). split; auto. now apply in_map.
Qed.
Definition digits : list quadrant_t := [NW; NE; SW; SE].
(** The node reached by a path from a node. *)
Definition node_at (q : str) (p : list quadrant_t) : str := fold_left qid_child p q.
Definition box_at (b : bbox) (p : list quadrant_t) : bbox := fold_left child_box p b.
Lemma digit_inj a b : quadrant_digit a = quadrant_digit b -> a = b.
Proof. destruct a, b; cbn; congruence. Qed.
Lemma node_at_app q p : node_at q p = q ++ map quadrant_digit p.
Proof.
  revert q. induction p as [|d p IH]; intros q; cbn [node_at fold_left map].
  - now rewrite app_nil_r.
  - change (node_at (qid_child q d) p = q ++ quadrant_digit d :: map quadrant_digit p). rewrite IH. unfold qid_child. rewrite <- app_assoc. reflexivity.
Qed.
Lemma child_prefix q d k : prefixb (qid_child q d) k = true -> prefixb q k = true /\ k <> q.
Proof.
  rewrite !prefixb_spec. unfold qid_child. intros [t ->]. split.
  - exists (quadrant_digit d :: t). now rewrite <- app_assoc.
  - intros E. apply (f_equal (@length _)) in E. rewrite !app_length in E. cbn in E. lia.
Qed.
Lemma child_disjoint q d d' k : prefixb (qid_child q d) k = true -> prefixb (qid_child q d') k = true -> d = d'.
Proof.
  rewrite !prefixb_spec. unfold qid_child. intros [t E] [t' E']. rewrite E, <- !app_assoc in E'. apply app_inv_head in E'.
  inversion E'. now apply digit_inj.
Qed.
Lemma find_by_id fs r : NoDup (map fl_id fs) -> In r fs -> filter (fun g => eqs (fl_id g) (fl_id r)) fs = [r].
Proof.
  induction fs as [|f fs IH]; intros Hn [].
  - subst. cbn [filter]. rewrite eqs_refl. f_equal. cbn [map] in Hn. inversion Hn as [|? ? Ha Hb]; subst.
    clear IH Hn Hb. induction fs as [|g fs IH]; auto. cbn [filter]. destruct (eqs (fl_id g) (fl_id r)) eqn:E.
    + apply eqs_spec in E. elim Ha. left. exact E.
    + apply IH. intros C. apply Ha. now right.
  - cbn [map] in Hn. inversion Hn as [|? ? Ha Hb]; subst. cbn [filter]. destruct (eqs (fl_id f) (fl_id r)) eqn:E.
    + apply eqs_spec in E. elim Ha. rewrite E. now apply in_map.
    + auto.
Qed.
Lemma filter_none {A} (P : A -> bool) l : (forall x, In x l -> P x = false) -> filter P l = [].
Proof. induction l as [|x l IH]; intros H; auto. cbn. rewrite (H x) by now left. apply IH. intros; apply H; now right. Qed.
Lemma filter_length {A} (P : A -> bool) l : length (filter P l) <= length l.
Proof. induction l as [|x l IH]; cbn; auto. destruct (P x); cbn; lia. Qed.
Lemma nodup_app {A} (a b : list A) : NoDup a -> NoDup b -> (forall x, In x a -> ~ In x b) -> NoDup (a ++ b).
Proof.
  induction a as [|x a IH]; intros Ha Hb H; auto. inversion Ha; subst. cbn. constructor.
  - rewrite in_app_iff. intros [C|C]; [auto|]. apply (H x); [now left | auto].
  - apply IH; auto. intros y Hy. apply H. now right.
Qed.
Lemma nodup_app_inv {A} (a b : list A) : NoDup (a ++ b) -> NoDup a /\ NoDup b /\ forall x, In x a -> ~ In x b.
Proof.
  induction a as [|x a IH]; intros H; [repeat split; auto; constructor|]. cbn in H. inversion H; subst.
  destruct (IH H3) as (A1 & A2 & A3). rewrite in_app_iff in H2. repeat split; auto.
  - constructor; tauto.
  - intros y [<-|Hy]; [tauto|auto].
Qed.

Section Spec.
  Variable show : nat -> str.
  Variable root_name : option str.
  Variable max_per : nat.
  Let name := region_filename show root_name.

  Definition fresh (s : rstate) : Prop :=
    NoDup (map fid (remaining s)) /\ (forall f, In f (remaining s) -> ~ In (fid f) (owned s)) /\ msorted (fmap s) /\ msorted (qmap s).

  (** Going from s to s' wrote the files fs and touched only the nodes in P. *)
  Record run (P : str -> Prop) (s s' : rstate) (fs : list file) : Prop := {
    r_files : files s' = files s ++ fs;
    r_perm : Permutation (remaining s) (feats_of fs ++ remaining s');
    r_ord : forall R, StronglySorted R (remaining s) -> StronglySorted R (remaining s');
    r_owned : forall i, In i (owned s') <-> In i (owned s) \/ In i (map fid (feats_of fs));
    r_fmap : forall k, ~ P k -> mget k (fmap s') = mget k (fmap s);
    r_qmap : forall k, ~ P k -> mget k (qmap s') = mget k (qmap s);
    r_fsort : msorted (fmap s');
    r_qsort : msorted (qmap s');
    r_count : count s' = count s + length fs;
    r_ids : forall f, In f fs -> P (fl_id f);
    r_num : forall f, In f fs -> exists n, mget (fl_id f) (qmap s') = Some n /\ count s < n <= count s';
    r_nums : NoDup (map (fun f => mget (fl_id f) (qmap s')) fs);
    r_name : forall f, In f fs -> fl_name f = name (fl_id f) (qmap s') }.

  Lemma run_refl P s : msorted (fmap s) -> msorted (qmap s) -> run P s s [].
  Proof.
    intros A B. constructor; auto; cbn [app map]; try (intros f []); rewrite ?app_nil_r; auto; try (constructor); try lia.
    - intros H. left. exact H.
    - intros [H|H]; [exact H | destruct H].
  Qed.
  Lemma run_fresh P s s' fs : run P s s' fs -> fresh s -> fresh s'.
  Proof.
    intros R (A & B & C & D). pose proof (Permutation_map fid (r_perm _ _ _ _ R)) as HP. rewrite map_app in HP.
    pose proof (Permutation_NoDup HP A) as HN. apply nodup_app_inv in HN as (N1 & N2 & N3).
    split; [exact N2|]. split; [|split; [apply (r_fsort _ _ _ _ R) | apply (r_qsort _ _ _ _ R)]].
    intros f Hf. rewrite (r_owned _ _ _ _ R). intros [X|X].
    - apply (B f); auto. apply (Permutation_in _ (Permutation_sym (r_perm _ _ _ _ R))). apply in_or_app. auto.
    - apply (N3 _ X). now apply in_map.
  Qed.
  Lemma name_ext k m m' : mget k m = mget k m' -> name k m = name k m'.
  Proof. intros E. unfold name, region_filename. now rewrite E. Qed.
  Lemma run_trans P Q s s1 s2 fs1 fs2 : run P s s1 fs1 -> run Q s1 s2 fs2 -> (forall k, P k -> ~ Q k) ->
    run (fun k => P k \/ Q k) s s2 (fs1 ++ fs2).
  Proof.
    intros R1 R2 H.
    assert (Hq : forall f, In f fs1 -> mget (fl_id f) (qmap s2) = mget (fl_id f) (qmap s1)).
    { intros f Hf. apply (r_qmap _ _ _ _ R2). apply H. now apply (r_ids _ _ _ _ R1). }
    constructor.
    - rewrite (r_files _ _ _ _ R2), (r_files _ _ _ _ R1). now rewrite app_assoc.
    - rewrite (r_perm _ _ _ _ R1), feats_app, <- app_assoc. apply Permutation_app_head. apply (r_perm _ _ _ _ R2).
    - intros R HS. apply (r_ord _ _ _ _ R2), (r_ord _ _ _ _ R1), HS.
    - intros i. rewrite (r_owned _ _ _ _ R2), (r_owned _ _ _ _ R1), feats_app, map_app, in_app_iff. tauto.
    - intros k Hk. rewrite (r_fmap _ _ _ _ R2), (r_fmap _ _ _ _ R1); tauto.
    - intros k Hk. rewrite (r_qmap _ _ _ _ R2), (r_qmap _ _ _ _ R1); tauto.
    - apply (r_fsort _ _ _ _ R2).
    - apply (r_qsort _ _ _ _ R2).
    - rewrite (r_count _ _ _ _ R2), (r_count _ _ _ _ R1), app_length. lia.
    - intros f Hf. apply in_app_iff in Hf as [Hf|Hf]; [left; apply (r_ids _ _ _ _ R1 _ Hf) | right; apply (r_ids _ _ _ _ R2 _ Hf)].
    - pose proof (r_count _ _ _ _ R1). pose proof (r_count _ _ _ _ R2).
      intros f Hf. apply in_app_iff in Hf as [Hf|Hf].
      + rewrite (Hq f Hf). destruct (r_num _ _ _ _ R1 _ Hf) as (n & E & L). exists n. split; auto. lia.
      + destruct (r_num _ _ _ _ R2 _ Hf) as (n & E & L). exists n. split; auto. lia.
    - rewrite map_app. apply nodup_app.
      + rewrite (map_ext_in _ (fun f => mget (fl_id f) (qmap s1))); [apply (r_nums _ _ _ _ R1) | exact Hq].
      + apply (r_nums _ _ _ _ R2).
      + intros o Ho Ho'. apply in_map_iff in Ho as (f & <- & Hf). apply in_map_iff in Ho' as (g & E & Hg).
        rewrite (Hq f Hf) in E. destruct (r_num _ _ _ _ R1 _ Hf) as (n & E1 & L1). destruct (r_num _ _ _ _ R2 _ Hg) as (n' & E2 & L2).
        rewrite E1, E2 in E. injection E as ->. lia.
    - intros f Hf. apply in_app_iff in Hf as [Hf|Hf].
      + rewrite (r_name _ _ _ _ R1 _ Hf). apply name_ext. symmetry. now apply Hq.
      + apply (r_name _ _ _ _ R2 _ Hf).
  Qed.
  Lemma run_nodup_ids P s s' fs : run P s s' fs -> NoDup (map fl_id fs).
  Proof.
    intros R. pose proof (r_nums _ _ _ _ R) as H. rewrite <- (map_map fl_id (fun k => mget k (qmap s'))) in H.
    apply NoDup_map_inv in H. exact H.
  Qed.
  Lemma run_weaken (P Q : str -> Prop) s s' fs : run P s s' fs -> (forall k, P k -> Q k) -> run Q s s' fs.
  Proof.
    intros R H. destruct R; constructor; auto.
  Qed.

  Definition under (q k : str) : Prop := prefixb q k = true.
  (** The names of the files for the children of node k. *)
  Definition child_names (k : str) (fs : list file) : list str :=
    concat (map (fun d => map fl_name (filter (fun g => eqs (fl_id g) (qid_child k d)) fs)) digits).
  (** Links, sizes and places of files. *)
  Record fine (b : option bbox) (q : str) (fs : list file) : Prop := {
    f_place : forall f, In f fs -> exists p, fl_id f = node_at q p /\ fl_box f = option_map (fun b => box_at b p) b;
    f_size : forall f, In f fs -> fl_feats f <> [] /\ (max_per = 0 \/ length (fl_feats f) <= max_per);
    f_inside : forall f x, In f fs -> In x (fl_feats f) -> exists b', fl_box f = Some b' /\ inside b' x = true;
    f_links : forall f, In f fs -> fl_links f = child_names (fl_id f) fs;
    f_up : forall f, In f fs -> fl_id f <> q -> exists g d, In g fs /\ fl_id f = qid_child (fl_id g) d }.
  Record good (b : option bbox) (q : str) (s : rstate) (h : bool) (s' : rstate) (fs : list file) : Prop := {
    g_run : run (under q) s s' fs;
    g_fine : fine b q fs;
    g_true : h = true -> exists fs' r, fs = fs' ++ [r] /\ fl_id r = q;
    g_false : h = false -> fs = [];
    g_complete : forall bb x, b = Some bb -> midbox bb = true -> In x (remaining s') -> inside bb x = false;
    g_inside : forall bb x, b = Some bb -> okbox bb = true -> In x (feats_of fs) -> inside bb x = true;
    g_full : forall bb f, b = Some bb -> okbox bb = true -> In f fs -> fl_links f <> [] -> 0 < max_per /\ length (fl_feats f) = max_per;
    g_order : forall bb (R : feat -> feat -> Prop), b = Some bb -> okbox bb = true -> StronglySorted R (remaining s) ->
      forall f g t x y, In f fs -> In g fs -> fl_id g = fl_id f ++ t -> t <> [] -> In x (fl_feats f) -> In y (fl_feats g) -> R x y }.

  Lemma firstn_skipn_R {A} (R : A -> A -> Prop) n l : StronglySorted R l -> forall x y, In x (firstn n l) -> In y (skipn n l) -> R x y.
  Proof.
    revert n. induction l as [|a l IH]; intros [|n] HS x y; cbn; try tauto. inversion HS; subst.
    intros [<-|Hx] Hy.
    - rewrite Forall_forall in H2. apply H2. rewrite <- (firstn_skipn n l). apply in_or_app. auto.
    - eauto.
  Qed.
  Lemma filter_ss {A} (R : A -> A -> Prop) P (l : list A) : StronglySorted R l -> StronglySorted R (filter P l).
  Proof.
    induction 1 as [|a l HS IH HF]; cbn; [constructor|]. destruct (P a); auto. constructor; auto.
    rewrite Forall_forall in *. intros x Hx. apply filter_In in Hx. apply HF. tauto.
  Qed.

  (** What splitting by the region gives. *)
  Definition limit (l : list feat) : nat := match max_per with 0 => length l | _ => max_per end.
  Lemma region_split_spec bb l out rest : region_split (Some bb) max_per l = (out, rest) ->
    out = firstn (limit l) (filter (inside bb) l) /\ filter (inside bb) rest = skipn (limit l) (filter (inside bb) l) /\
    interleave out rest l.
  Proof.
    cbn [region_split]. unfold bbox_split. fold (limit l). intros E.
    destruct l as [|f l]; [cbn in E; injection E as <- <-; rewrite firstn_nil, skipn_nil; repeat split; constructor|].
    assert (Hp : 0 < limit (f :: l)) by (unfold limit; destruct max_per; cbn; lia).
    pose proof (split_spec bb (limit (f :: l)) Hp (f :: l)) as (A & B & _).
    pose proof (split_interleave bb (limit (f :: l)) (f :: l)) as C. rewrite E in *. auto.
  Qed.

  (** One child after the other: the child, what it answered, what it wrote. *)
  Definition e_d (e : quadrant_t * bool * list file) := fst (fst e).
  Definition e_fs (e : quadrant_t * bool * list file) := snd e.
  Inductive seq (b : option bbox) (q : str) : rstate -> list (quadrant_t * bool * list file) -> rstate -> Prop :=
  | seq_nil s : seq b q s [] s
  | seq_cons d s h s1 fs l s2 : good (option_map (fun b => child_box b d) b) (qid_child q d) s h s1 fs ->
      seq b q s1 l s2 -> seq b q s ((d, h, fs) :: l) s2.

  Lemma seq_run b q s l s' : seq b q s l s' -> fresh s -> NoDup (map e_d l) ->
    run (fun k => exists d, In d (map e_d l) /\ under (qid_child q d) k) s s' (concat (map e_fs l)).
  Proof.
    induction 1 as [s|d s h s1 fs l s2 G HS IH]; intros Hf Hn.
    - cbn. destruct Hf as (_ & _ & A & B). apply run_refl; auto.
    - cbn [map e_d fst] in Hn. inversion Hn; subst. cbn [map concat e_fs snd]. pose proof (g_run _ _ _ _ _ _ G) as R.
      apply (run_weaken (fun k => under (qid_child q d) k \/ exists d', In d' (map e_d l) /\ under (qid_child q d') k)).
      + apply (run_trans _ _ s s1 s2); auto.
        * apply IH; auto. apply (run_fresh _ _ _ _ R Hf).
        * intros k Hk (d' & Hd' & Hk'). unfold under in *. assert (d = d') by (eapply child_disjoint; eauto). congruence.
      + intros k [Hk|(d' & Hd' & Hk)]; [exists d | exists d']; split; auto; cbn; auto.
  Qed.
  Lemma seq_good b q s l s' : seq b q s l s' -> forall d h fs, In (d, h, fs) l ->
    exists s1 s2, good (option_map (fun b => child_box b d) b) (qid_child q d) s1 h s2 fs /\
      (forall R, StronglySorted R (remaining s) -> StronglySorted R (remaining s1)) /\
      (forall x, In x (remaining s1) -> In x (remaining s)) /\
      (forall x, In x (remaining s') -> In x (remaining s2)).
  Proof.
    assert (Hsub : forall s l s', seq b q s l s' -> forall x, In x (remaining s') -> In x (remaining s)).
    { clear. induction 1 as [s|d s h s1 fs l s2 G HS IH]; auto. intros x Hx. apply IH in Hx.
      apply (Permutation_in _ (Permutation_sym (r_perm _ _ _ _ (g_run _ _ _ _ _ _ G)))). apply in_or_app. auto. }
    induction 1 as [s|d s h s1 fs l s2 G HS IH]; intros d' h' fs' [].
    - injection H as <- <- <-. exists s, s1. split; [exact G|]. split; [auto|]. split; [auto|]. apply (Hsub _ _ _ HS).
    - destruct (IH _ _ _ H) as (sa & sb & B & C & D & E). exists sa, sb. split; [exact B|]. split; [|split].
      + intros R HR. apply C. apply (r_ord _ _ _ _ (g_run _ _ _ _ _ _ G)), HR.
      + intros x Hx. apply (Hsub _ _ _ (seq_cons _ _ _ _ _ _ _ _ _ G (seq_nil _ _ s1))). auto.
      + exact E.
  Qed.
  (** The files of a node are those its own branch wrote. *)
  Lemma seq_pick b q s l s' : seq b q s l s' -> NoDup (map e_d l) -> forall k d h fs, In (d, h, fs) l -> under (qid_child q d) k ->
    filter (fun g => eqs (fl_id g) k) (concat (map e_fs l)) = filter (fun g => eqs (fl_id g) k) fs.
  Proof.
    induction 1 as [s|d s h s1 fs l s2 G HS IH]; intros Hn k d' h' fs' Hin Hk; [destruct Hin|].
    cbn [map e_d fst] in Hn. inversion Hn as [|? ? N1 N2]; subst. cbn [map concat e_fs snd]. rewrite filter_app.
    destruct Hin as [Hin|Hin].
    - injection Hin as <- <- <-. rewrite (filter_none _ (concat (map e_fs l))), app_nil_r; auto.
      intros g Hg. apply eqs_neq. intros E. apply in_concat in Hg as (fs'' & H' & Hg). apply in_map_iff in H' as ([[d2 h2] f2] & E' & H').
      cbn in E'. subst fs''. destruct (seq_good _ _ _ _ _ HS _ _ _ H') as (sa & sb & B & _).
      pose proof (r_ids _ _ _ _ (g_run _ _ _ _ _ _ B) _ Hg) as Hu. rewrite E in Hu.
      assert (d2 = d) by (unfold under in *; eapply child_disjoint; eauto). subst d2. apply N1.
      apply in_map_iff. exists (d, h2, f2). auto.
    - rewrite (IH N2 _ _ _ _ Hin Hk), (filter_none _ fs); auto.
      intros g Hg. apply eqs_neq. intros E. pose proof (r_ids _ _ _ _ (g_run _ _ _ _ _ _ G) _ Hg) as Hu. rewrite E in Hu.
      assert (d = d') by (unfold under in *; eapply child_disjoint; eauto). subst d'. apply N1.
      apply in_map_iff. exists (d, h', fs'). auto.
  Qed.
End Spec.

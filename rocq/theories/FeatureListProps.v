(** Property theorems about feature lists, extended data values and the regionator (C43, C44, C48, C49, C50, C71). *)
From Coq Require Import Permutation Sorted.
From Verif Require Import Common StrMap Doubles DoublesMore Rounding BboxModel BboxProps FeatureListModel FeatureListProofs FeatureListRegions.

Definition pt (i : nat) (lat lon score : Z) : feat := {| fid := i; fpos := Some (d_of_Z lat, d_of_Z lon); fscore := score |}.
Definition zbox (n s e w : Z) : bbox := {| north := d_of_Z n; south := d_of_Z s; east := d_of_Z e; west := d_of_Z w |}.

(** C43. Splitting by a box: the features moved and those kept interleave to the list; moved are the first N
    inside the box (all if N is 0). *)
Theorem bbox_split_partition : forall b max l o r, bbox_split b max l = (o, r) ->
  interleave o r l /\ o = firstn (if max =? 0 then length l else max) (filter (inside b) l) /\
  filter (fun f => negb (inside b f)) r = filter (fun f => negb (inside b f)) l.
Proof.
  intros b max l o r E. unfold bbox_split in E.
  set (m := match max with 0 => length l | _ => max end) in E.
  assert (Hm : (if max =? 0 then length l else max) = m) by (destruct max; reflexivity). rewrite Hm.
  pose proof (split_interleave b m l) as A. rewrite E in A. split; [exact A|].
  destruct l as [|f l]; [cbn in E; injection E as <- <-; now rewrite firstn_nil|].
  assert (Hp : 0 < m) by (unfold m; destruct max; cbn; lia).
  destruct (split_spec b m Hp (f :: l)) as (B & _ & C). rewrite E in B, C. auto.
Qed.
Print Assumptions bbox_split_partition.
(** If fewer than N are moved, none inside the box is kept. *)
Theorem bbox_split_exhausts : forall b max l o r f, bbox_split b max l = (o, r) -> (max = 0 \/ length o < max) -> In f r -> inside b f = false.
Proof.
  intros b max l o r f E Hm Hf. destruct (inside b f) eqn:Ei; auto. exfalso. unfold bbox_split in E.
  set (m := match max with 0 => length l | _ => max end) in E.
  destruct l as [|g l]; [cbn in E; injection E as <- <-; destruct Hf|].
  assert (Hp : 0 < m) by (unfold m; destruct max; cbn; lia).
  destruct (split_spec b m Hp (g :: l)) as (B & C & _). rewrite E in B, C. cbn [fst snd] in B, C.
  assert (Hin : In f (filter (inside b) r)) by (apply filter_In; auto). rewrite C in Hin.
  assert (Hl : 0 < length (skipn m (filter (inside b) (g :: l)))) by (destruct (skipn _ _); [destruct Hin | cbn; lia]).
  rewrite skipn_length in Hl. pose proof (filter_length (inside b) (g :: l)) as Hle.
  rewrite B, firstn_length in Hm. unfold m in *. destruct Hm as [->|Hm]; [lia|]. destruct max; lia.
Qed.
Print Assumptions bbox_split_exhausts.
(** Without a box nothing is moved. *)
Theorem region_split_without_box : forall max l, region_split None max l = ([], l).
Proof. reflexivity. Qed.
Print Assumptions region_split_without_box.
Example split_sample :
  let l := [pt 1 0 0 0; pt 2 50 0 0; {| fid := 3; fpos := None; fscore := 0 |}; pt 4 1 1 0; pt 5 2 2 0] in
  (map fid (fst (bbox_split (zbox 10 (-10) 10 (-10)) 2 l)), map fid (snd (bbox_split (zbox 10 (-10) 10 (-10)) 2 l))) = ([1; 4], [2; 3; 5]).
Proof. reflexivity. Qed.

(** C44. Sorting: a permutation in descending order that keeps the order of equal scores; such a list is unique. *)
Theorem sort_correct : forall l, Permutation l (sort l) /\ StronglySorted (fun f g => (fscore g <= fscore f)%Z) (sort l) /\
  forall k, filter (fun f => (fscore f =? k)%Z) (sort l) = filter (fun f => (fscore f =? k)%Z) l.
Proof. intros l. split; [apply sort_perm|]. split; [apply sort_sorted | intros k; apply sort_stable]. Qed.
Print Assumptions sort_correct.
Theorem sort_determined : forall l l', StronglySorted (fun f g => (fscore g <= fscore f)%Z) l' ->
  (forall k, filter (fun f => (fscore f =? k)%Z) l' = filter (fun f => (fscore f =? k)%Z) l) -> l' = sort l.
Proof.
  intros l l' HS Hf. apply sorted_unique; auto using sort_sorted. intros k. now rewrite Hf, sort_stable.
Qed.
Print Assumptions sort_determined.
Theorem sort_idempotent : forall l, sort (sort l) = sort l.
Proof. intros l. symmetry. apply sort_determined; auto using sort_sorted. Qed.
Print Assumptions sort_idempotent.
Example sort_sample : map fid (sort [pt 1 0 0 5; pt 2 0 0 9; pt 3 0 0 5; pt 4 0 0 (-1); pt 5 0 0 9]) = [2; 5; 1; 3; 4].
Proof. reflexivity. Qed.

(** C48. Regionating. [listed l own]: distinct features, none of which is in a document already. *)
Definition listed (l : list feat) (own : list nat) : Prop := NoDup (map fid l) /\ forall f, In f l -> ~ In (fid f) own.
Definition always (a b : nat) : bool := true.
Lemma start_fresh l own : listed l own -> fresh (start l own).
Proof. intros [A B]. repeat split; auto; apply msorted_nil. Qed.

(** It terminates, and every feature of the list ends in exactly one file or stays; none inside the root
    box stays; each file has features, at most N, all inside the file's box, which is the box of its node. *)
Theorem regionate_complete : forall show root n total b l own, listed l own -> midbox b = true ->
  exists h s, regionate_all show root n always total (S (length l)) (Some b) l own = Ok (h, s) /\
    Permutation l (concat (map fl_feats (files s)) ++ remaining s) /\
    (forall f, In f (remaining s) -> inside b f = false) /\
    (forall x, In x (files s) -> fl_feats x <> [] /\ (n = 0 \/ length (fl_feats x) <= n) /\
       exists p, fl_id x = node_at qid_root p /\ fl_box x = Some (box_at b p) /\ forall f, In f (fl_feats x) -> inside (box_at b p) f = true).
Proof.
  intros show root n total b l own Hl Hb.
  destruct (regionate_good show root n always total (fun _ _ => eq_refl) (S (length l)) (Some b) qid_root (start l own) (start_fresh _ _ Hl) (Nat.lt_succ_diag_r _))
    as (h & s & fs & E & G).
  exists h, s. split; [exact E|]. pose proof (r_files _ _ _ _ _ _ (g_run _ _ _ _ _ _ _ _ _ G)) as Ef. cbn in Ef.
  rewrite Ef. split; [apply (r_perm _ _ _ _ _ _ (g_run _ _ _ _ _ _ _ _ _ G))|].
  split; [intros f Hf; apply (g_complete _ _ _ _ _ _ _ _ _ G b f eq_refl Hb Hf)|].
  intros x Hx. pose proof (g_fine _ _ _ _ _ _ _ _ _ G) as F. destruct (f_size _ _ _ _ F _ Hx) as [A B].
  destruct (f_place _ _ _ _ F _ Hx) as (p & P1 & P2). split; auto. split; auto. exists p. split; auto. split; auto.
  intros f Hf. destruct (f_inside _ _ _ _ F _ _ Hx Hf) as (b' & Eb & Hi). rewrite P2 in Eb. cbn in Eb. congruence.
Qed.
Print Assumptions regionate_complete.
(** For a root box with numbers that can be doubled, south not above north and west not right of east: the features
    in the files are exactly those inside the root box. *)
Theorem regionate_exact : forall show root n total b l own h s, listed l own -> okbox b = true ->
  regionate_all show root n always total (S (length l)) (Some b) l own = Ok (h, s) ->
  Permutation (filter (inside b) l) (concat (map fl_feats (files s))) /\
  Permutation (filter (fun f => negb (inside b f)) l) (remaining s).
Proof.
  intros show root n total b l own h s Hl Hb E0.
  destruct (regionate_good show root n always total (fun _ _ => eq_refl) (S (length l)) (Some b) qid_root (start l own) (start_fresh _ _ Hl) (Nat.lt_succ_diag_r _))
    as (h' & s' & fs & E & G).
  unfold regionate_all in E0. rewrite E in E0. injection E0 as <- <-.
  pose proof (r_files _ _ _ _ _ _ (g_run _ _ _ _ _ _ _ _ _ G)) as Ef. cbn in Ef. rewrite Ef.
  pose proof (r_perm _ _ _ _ _ _ (g_run _ _ _ _ _ _ _ _ _ G)) as HP. cbn [remaining start] in HP.
  assert (Hin : forall f, In f (feats_of fs) -> inside b f = true) by (intros f Hf; apply (g_inside _ _ _ _ _ _ _ _ _ G b f eq_refl Hb Hf)).
  assert (Hout : forall f, In f (remaining s') -> inside b f = false).
  { intros f Hf. apply (g_complete _ _ _ _ _ _ _ _ _ G b f eq_refl (okbox_mid _ Hb) Hf). }
  assert (Hall : forall (P : feat -> bool) m, (forall f, In f m -> P f = true) -> filter P m = m).
  { intros P m. induction m as [|x m IH]; intros H; auto. cbn. rewrite (H x) by now left. f_equal. apply IH. intros; apply H; now right. }
  assert (Hfp : forall (P : feat -> bool) a c, Permutation a c -> Permutation (filter P a) (filter P c)).
  { intros P a c H. induction H; cbn; auto.
    - destruct (P x); auto.
    - destruct (P x), (P y); auto. apply perm_swap.
    - eapply perm_trans; eauto. }
  split.
  - rewrite (Hfp _ _ _ HP), filter_app, (Hall _ (feats_of fs) Hin), (filter_none _ (remaining s') Hout), app_nil_r. reflexivity.
  - rewrite (Hfp _ _ _ HP), filter_app, (filter_none _ (feats_of fs)), (Hall _ (remaining s')); [reflexivity| |].
    + intros f Hf. now rewrite Hout.
    + intros f Hf. now rewrite Hin.
Qed.
Print Assumptions regionate_exact.
(** The files have distinct names, provided the name chosen for the root is not a number followed by .kml. *)
Theorem regionate_names : forall root n total b l own h s, listed l own ->
  (forall r k, root = Some r -> r <> show_nat k ++ S_".kml") ->
  regionate_all show_nat root n always total (S (length l)) b l own = Ok (h, s) ->
  NoDup (map fl_name (files s)) /\ NoDup (map fl_id (files s)).
Proof.
  intros root n total b l own h s Hl Hr E0.
  destruct (regionate_good show_nat root n always total (fun _ _ => eq_refl) (S (length l)) b qid_root (start l own) (start_fresh _ _ Hl) (Nat.lt_succ_diag_r _))
    as (h' & s' & fs & E & G).
  unfold regionate_all in E0. rewrite E in E0. injection E0 as <- <-.
  pose proof (g_run _ _ _ _ _ _ _ _ _ G) as R. pose proof (r_files _ _ _ _ _ _ R) as Ef. cbn in Ef. rewrite Ef.
  split; [|apply (run_nodup_ids _ _ _ _ _ _ R)].
  pose (num := fun f => mget (fl_id f) (qmap s')).
  assert (Hinj : forall f g, In f fs -> In g fs -> fl_name f = fl_name g -> num f = num g).
  { unfold num. intros f g Hf Hg En. rewrite (r_name _ _ _ _ _ _ R _ Hf), (r_name _ _ _ _ _ _ R _ Hg) in En.
    destruct (r_num _ _ _ _ _ _ R _ Hf) as (i & Ei & _). destruct (r_num _ _ _ _ _ _ R _ Hg) as (j & Ej & _).
    unfold region_filename in En. rewrite Ei, Ej in *. destruct root as [r|].
    - destruct (eqs (fl_id f) qid_root) eqn:Qf, (eqs (fl_id g) qid_root) eqn:Qg.
      + apply eqs_spec in Qf, Qg. rewrite Qf in Ei. rewrite Qg in Ej. congruence.
      + elim (Hr r j eq_refl). exact En.
      + elim (Hr r i eq_refl). symmetry. exact En.
      + apply app_inv_tail in En. apply show_nat_inj in En. congruence.
    - apply app_inv_tail in En. apply show_nat_inj in En. congruence. }
  pose proof (r_nums _ _ _ _ _ _ R) as HN. fold num in HN. clearbody num. revert HN Hinj. clear.
  induction fs as [|f fs IH]; intros HN Hinj; cbn [map] in *; constructor.
  - inversion HN; subst. intros C. apply in_map_iff in C as (g & Eg & Hg). apply H1. rewrite <- (Hinj g f); auto using in_eq, in_cons.
    now apply in_map.
  - inversion HN; subst. apply IH; auto. intros x y Hx Hy. apply Hinj; now right.
Qed.
Print Assumptions regionate_names.
(** The links of a file name the files of its children, in order NW, NE, SW, SE; every file but the root's is
    linked from the file of its parent. *)
Theorem regionate_links : forall show root n total b l own h s, listed l own ->
  regionate_all show root n always total (S (length l)) b l own = Ok (h, s) ->
  forall x, In x (files s) ->
    fl_links x = concat (map (fun d => map fl_name (filter (fun y => eqs (fl_id y) (qid_child (fl_id x) d)) (files s))) [NW; NE; SW; SE]) /\
    (fl_id x <> qid_root -> exists y, In y (files s) /\ In (fl_name x) (fl_links y) /\ exists d, fl_id x = qid_child (fl_id y) d).
Proof.
  intros show root n total b l own h s Hl E0.
  destruct (regionate_good show root n always total (fun _ _ => eq_refl) (S (length l)) b qid_root (start l own) (start_fresh _ _ Hl) (Nat.lt_succ_diag_r _))
    as (h' & s' & fs & E & G).
  unfold regionate_all in E0. rewrite E in E0. injection E0 as <- <-.
  pose proof (r_files _ _ _ _ _ _ (g_run _ _ _ _ _ _ _ _ _ G)) as Ef. cbn in Ef. rewrite Ef.
  pose proof (g_fine _ _ _ _ _ _ _ _ _ G) as F. intros x Hx. split; [apply (f_links _ _ _ _ F _ Hx)|].
  intros Hq. destruct (f_up _ _ _ _ F _ Hx Hq) as (y & d & Hy & Ed). exists y. split; auto. split; [|eauto].
  rewrite (f_links _ _ _ _ F _ Hy). unfold child_names. apply in_concat.
  exists (map fl_name (filter (fun g => eqs (fl_id g) (qid_child (fl_id y) d)) fs)). split.
  - apply in_map_iff. exists d. split; auto. destruct d; cbn; auto.
  - apply in_map. apply filter_In. split; auto. now apply eqs_spec.
Qed.
Print Assumptions regionate_links.
(** If any file is written, the last one is the root's, its number is 1, and it is named as asked. *)
Theorem regionate_root : forall root n total b l own h s, listed l own ->
  regionate_all show_nat root n always total (S (length l)) b l own = Ok (h, s) -> files s <> [] ->
  h = true /\ exists fs x, files s = fs ++ [x] /\ fl_id x = qid_root /\ fl_box x = b /\
    (forall r, root = Some r -> fl_name x = r).
Proof.
  intros root n total b l own h s Hl E0 Hne.
  destruct (regionate_good show_nat root n always total (fun _ _ => eq_refl) (S (length l)) b qid_root (start l own) (start_fresh _ _ Hl) (Nat.lt_succ_diag_r _))
    as (h' & s' & fs & E & G).
  unfold regionate_all in E0. rewrite E in E0. injection E0 as <- <-.
  pose proof (r_files _ _ _ _ _ _ (g_run _ _ _ _ _ _ _ _ _ G)) as Ef. cbn in Ef. rewrite Ef in *.
  destruct h'; [|now rewrite (g_false _ _ _ _ _ _ _ _ _ G eq_refl) in Hne].
  split; auto. destruct (g_true _ _ _ _ _ _ _ _ _ G eq_refl) as (fs' & x & Ex & Hid). exists fs', x. split; auto. split; auto.
  assert (Hx : In x fs) by (rewrite Ex; apply in_or_app; right; now left). split.
  - destruct (f_place _ _ _ _ (g_fine _ _ _ _ _ _ _ _ _ G) _ Hx) as (p & P1 & P2). rewrite Hid, node_at_app in P1.
    assert (p = []). { destruct p; auto. apply (f_equal (@length _)) in P1. rewrite app_length in P1. cbn in P1. lia. }
    subst p. rewrite P2. now destruct b.
  - intros r ->. rewrite (r_name _ _ _ _ _ _ (g_run _ _ _ _ _ _ _ _ _ G) _ Hx), Hid. reflexivity.
Qed.
Print Assumptions regionate_root.
(** Features in a file do not come after those in files below it in the order of the list; a file with files below is full. *)
Theorem regionate_order : forall show root n total b l own h s (R : feat -> feat -> Prop), listed l own -> okbox b = true ->
  regionate_all show root n always total (S (length l)) (Some b) l own = Ok (h, s) -> StronglySorted R l ->
  forall x y t f g, In x (files s) -> In y (files s) -> fl_id y = fl_id x ++ t -> t <> [] -> In f (fl_feats x) -> In g (fl_feats y) -> R f g.
Proof.
  intros show root n total b l own h s R Hl Hb E0 HS.
  destruct (regionate_good show root n always total (fun _ _ => eq_refl) (S (length l)) (Some b) qid_root (start l own) (start_fresh _ _ Hl) (Nat.lt_succ_diag_r _))
    as (h' & s' & fs & E & G).
  unfold regionate_all in E0. rewrite E in E0. injection E0 as <- <-.
  pose proof (r_files _ _ _ _ _ _ (g_run _ _ _ _ _ _ _ _ _ G)) as Ef. cbn in Ef. rewrite Ef.
  intros x y t f g Hx Hy Et Ht Hf Hg. apply (g_order _ _ _ _ _ _ _ _ _ G b R eq_refl Hb HS x y t f g); auto.
Qed.
Print Assumptions regionate_order.
Theorem regionate_full : forall show root n total b l own h s, listed l own -> okbox b = true ->
  regionate_all show root n always total (S (length l)) (Some b) l own = Ok (h, s) ->
  forall x, In x (files s) -> fl_links x <> [] -> length (fl_feats x) = n.
Proof.
  intros show root n total b l own h s Hl Hb E0.
  destruct (regionate_good show root n always total (fun _ _ => eq_refl) (S (length l)) (Some b) qid_root (start l own) (start_fresh _ _ Hl) (Nat.lt_succ_diag_r _))
    as (h' & s' & fs & E & G).
  unfold regionate_all in E0. rewrite E in E0. injection E0 as <- <-.
  pose proof (r_files _ _ _ _ _ _ (g_run _ _ _ _ _ _ _ _ _ G)) as Ef. cbn in Ef. rewrite Ef.
  intros x Hx Hk. apply (g_full _ _ _ _ _ _ _ _ _ G b x eq_refl Hb Hx Hk).
Qed.
Print Assumptions regionate_full.

(** FeatureListRegionator::Regionate: the whole list, for coordinates in range. *)
Definition located (f : feat) : bool := match fpos f with Some _ => true | None => false end.
Definition pos_ok (f : feat) : Prop := match fpos f with Some (lat, lon) => in_range lat = true /\ in_range lon = true | None => True end.
Definition positions (l : list feat) : list (double * double) := flat_map (fun f => match fpos f with Some p => [p] | None => [] end) l.
Lemma list_bounds_eq l : forall b, list_bounds l b = expand_all (positions l) b.
Proof.
  induction l as [|f l IH]; intros b; auto. unfold list_bounds in *. cbn [fold_left positions flat_map]. rewrite IH.
  destruct (fpos f) as [[lat lon]|]; reflexivity.
Qed.
Lemma world_ok : okbox world = true.
Proof. vm_compute. reflexivity. Qed.
Lemma cell_ok qt k c : cell qt k c -> okbox qt = true -> okbox c = true.
Proof.
  intros H Hq. induction H as [|k c u r H IH]; auto.
  destruct u, r; [apply (child_ok c NE IH) | apply (child_ok c NW IH) | apply (child_ok c SE IH) | apply (child_ok c SW IH)].
Qed.
Theorem regionate_list_complete : forall root n total l own, listed l own -> Forall pos_ok l ->
  exists s, regionate_list show_nat root n always total (S (length l)) l own = Ok (Some s) /\
    Permutation (filter located l) (concat (map fl_feats (files s))) /\
    (forall x, In x (files s) -> fl_feats x <> [] /\ (n = 0 \/ length (fl_feats x) <= n)) /\
    (forall x y t f g, In x (files s) -> In y (files s) -> fl_id y = fl_id x ++ t -> t <> [] -> In f (fl_feats x) -> In g (fl_feats y) ->
       (fscore g <= fscore f)%Z) /\
    ((forall r k, root = Some r -> r <> show_nat k ++ S_".kml") -> NoDup (map fl_name (files s))).
Proof.
  intros root n total l own [Hn Ho] Hp. unfold regionate_list, regionate_aligned.
  set (b := list_bounds l bbox0).
  assert (Hpos : Forall (fun p => is_nan (fst p) = false /\ is_nan (snd p) = false) (positions l)).
  { unfold positions. apply Forall_forall. intros p Hin. apply in_flat_map in Hin as (f & Hf & Hin). rewrite Forall_forall in Hp. specialize (Hp _ Hf).
    unfold pos_ok in Hp. destruct (fpos f) as [[lat lon]|]; [|destruct Hin]. destruct Hin as [<-|[]]. cbn. destruct Hp. auto using in_range_nan. }
  assert (Hspec := expand_all_spec (positions l) bbox0 eq_refl Hpos). cbv zeta in Hspec. rewrite <- (list_bounds_eq l) in Hspec. fold b in Hspec.
  destruct Hspec as (_ & _ & Hcont & Hleast).
  assert (Hw : contained_by b world = true).
  { apply Hleast; [reflexivity|]. intros p Hin. unfold positions in Hin. apply in_flat_map in Hin as (f & Hf & Hin). rewrite Forall_forall in Hp. specialize (Hp _ Hf).
    unfold pos_ok in Hp. destruct (fpos f) as [[lat lon]|]; [|destruct Hin]. destruct Hin as [<-|[]]. cbn [fst snd]. destruct Hp as [P1 P2].
    unfold in_range in P1, P2. rewrite andb_true_iff in P1, P2. apply contains_iff. cbn [world north south east west]. tauto. }
  rewrite Hw.
  destruct (align_spec b 24 world Hw) as (k & _ & Hcell & Hba & _). set (a := align b world 24) in *.
  assert (Hok : okbox a = true) by apply (cell_ok _ _ _ Hcell world_ok).
  assert (Hsl : listed (sort l) own).
  { pose proof (sort_perm l) as P. split.
    - apply (Permutation_NoDup (Permutation_map fid P) Hn).
    - intros f Hf. apply Ho. apply (Permutation_in _ (Permutation_sym P) Hf). }
  assert (Hlen : length (sort l) = length l) by (symmetry; apply Permutation_length, sort_perm).
  destruct (regionate_complete show_nat root n total a (sort l) own Hsl (okbox_mid _ Hok)) as (h & s & E & _ & _ & Hfiles).
  pose proof E as E'. rewrite Hlen in E. rewrite E. cbn [bind]. exists s. split; [reflexivity|].
  destruct (regionate_exact _ _ _ _ _ _ _ _ _ Hsl Hok E') as [Hex _].
  assert (Hloc : forall f, In f l -> inside a f = located f).
  { intros f Hf. unfold inside, located. destruct (fpos f) as [[lat lon]|] eqn:Ef; auto.
    apply (contains_contained b); auto. apply (Hcont (lat, lon)). unfold positions. apply in_flat_map. exists f. split; auto. rewrite Ef. now left. }
  split; [|split; [|split]].
  - rewrite <- Hex. rewrite (filter_ext_in located (inside a)).
    + clear - l. assert (Hfp : forall (P : feat -> bool) a c, Permutation a c -> Permutation (filter P a) (filter P c)).
      { intros P x c H. induction H; cbn; auto.
        - destruct (P x); auto.
        - destruct (P x), (P y); auto. apply perm_swap.
        - eapply perm_trans; eauto. }
      apply Hfp, sort_perm.
    + intros f Hf. symmetry. auto.
  - intros x Hx. destruct (Hfiles x Hx) as (A & B & _). auto.
  - intros x y t f g. apply (regionate_order show_nat root n total a (sort l) own h s (fun f g => (fscore g <= fscore f)%Z) Hsl Hok E').
    apply sort_sorted.
  - intros Hr. apply (regionate_names root n total (Some a) (sort l) own h s Hsl Hr E').
Qed.
Print Assumptions regionate_list_complete.
Example regionate_sample :
  let l := [pt 1 10 10 1; pt 2 (-10) 20 7; pt 3 11 12 3; pt 4 (-60) (-70) 2; {| fid := 5; fpos := None; fscore := 9 |}] in
  match regionate_list show_nat None 1 always 5 6 l [] with
  | Ok (Some s) => map (fun x => (String.string_of_list_ascii (fl_name x), String.string_of_list_ascii (fl_id x), map fid (fl_feats x), map String.string_of_list_ascii (fl_links x))) (files s)
  | _ => []
  end = [("3.kml", "q012", [1], []); ("2.kml", "q01", [3], ["3.kml"]); ("4.kml", "q02", [4], []); ("1.kml", "q0", [2], ["2.kml"; "4.kml"])]%string.
Proof. vm_compute. reflexivity. Qed.
Example listed_sample : listed [pt 1 10 10 1; pt 2 (-10) 20 7] [3] /\ Forall pos_ok [pt 1 10 10 1; pt 2 (-10) 20 7] /\ okbox (zbox 90 (-90) 180 (-180)) = true.
Proof.
  split; [|split]; [split| |].
  - repeat constructor; cbn; intuition congruence.
  - cbn. intros f [<-|[<-|[]]]; cbn; intuition congruence.
  - repeat constructor.
  - vm_compute. reflexivity.
Qed.
(** A feature that is in a document already is taken from the list but is in no file; a file without features is written. *)
Theorem regionate_owned_refuted : exists l own b h s,
  regionate_all show_nat None 10 always 1 2 (Some b) l own = Ok (h, s) /\ l <> [] /\ remaining s = [] /\ h = true /\ concat (map fl_feats (files s)) = [].
Proof.
  exists [pt 1 10 10 1], [1], (zbox 90 (-90) 180 (-180)). eexists _, _. split; [vm_compute; reflexivity|].
  split; [discriminate|]. repeat split.
Qed.
Print Assumptions regionate_owned_refuted.
(** If the progress monitor says stop, the features of that region are lost, and the siblings are visited all the same. *)
Theorem regionate_stop_refuted : exists progress l b h s,
  regionate_all show_nat None 1 progress (length l) (S (length l)) (Some b) l [] = Ok (h, s) /\
  listed l [] /\ length l = 3 /\ remaining s = [] /\ map fid (concat (map fl_feats (files s))) = [1].
Proof.
  exists (fun done _ => done <=? 1), [pt 1 10 10 1; pt 2 (-10) 20 7; pt 3 60 60 5], (zbox 90 (-90) 180 (-180)). eexists _, _. split; [vm_compute; reflexivity|].
  split; [|repeat split]. split.
  - repeat constructor; cbn; intuition congruence.
  - intros f _ [].
Qed.
Print Assumptions regionate_stop_refuted.
(** C48. Whatever the progress monitor says, and whatever was there before: every link in a file names a file which
    was written, and true is returned only if the root's file was. *)
Definition no_dangling (fs : list file) : Prop := forall x, In x fs -> incl (fl_links x) (map fl_name fs).
Lemma no_dangling_app a b : no_dangling a -> no_dangling b -> no_dangling (a ++ b).
Proof.
  intros A B x Hx y Hy. rewrite map_app. apply in_app_iff in Hx as [Hx|Hx]; apply in_or_app; [left; exact (A _ Hx _ Hy)|right; exact (B _ Hx _ Hy)].
Qed.
Definition below (q k : str) : Prop := exists t, k = q ++ t.
Record linked_run show root q (s s' : rstate) (h : bool) (fs : list file) : Prop := {
  lr_files : files s' = files s ++ fs;
  lr_sorted : msorted (qmap s) -> msorted (qmap s');
  lr_keys : msorted (qmap s) -> forall k, ~ below q k -> mget k (qmap s') = mget k (qmap s);
  lr_own : h = true -> In (region_filename show root q (qmap s')) (map fl_name fs);
  lr_links : msorted (qmap s) -> no_dangling fs }.
Lemma below_child q d k : below (qid_child q d) k -> below q k /\ k <> q.
Proof.
  intros (t & ->). unfold qid_child. rewrite <- app_assoc. split; [eexists; reflexivity|]. intros C.
  apply (f_equal (@length ascii)) in C. rewrite !app_length in C. cbn in C. lia.
Qed.
Lemma below_other q d d' : d <> d' -> ~ below (qid_child q d) (qid_child q d').
Proof.
  intros Hn (t & E). unfold qid_child in E. rewrite <- app_assoc in E. apply app_inv_head in E. cbn in E. injection E as E _. apply Hn.
  destruct d, d'; cbn in E; congruence.
Qed.
Lemma filename_ext show root k m m' : mget k m = mget k m' -> region_filename show root k m = region_filename show root k m'.
Proof. intros E. unfold region_filename. now rewrite E. Qed.
Lemma regionate_linked show root n progress total fuel : forall b q s h s', regionate show root n progress total fuel b q s = Ok (h, s') ->
  exists fs, linked_run show root q s s' h fs.
Proof.
  induction fuel as [|m IH]; intros b q s h s' H; [discriminate H|]. cbn [regionate] in H.
  destruct (region_split b n (remaining s)) as [out rest]. destruct out as [|o out].
  { injection H as <- <-. exists []. constructor; cbn; auto; try discriminate; [symmetry; apply app_nil_r | intros _ x []]. }
  destruct (save (o :: out) (owned s)) as [[? folder] own].
  destruct (progress (total - length rest) total); cbn [negb] in H.
  2:{ injection H as <- <-. exists []. constructor; cbn; auto; try discriminate; [symmetry; apply app_nil_r | intros _ x []]. }
  match type of H with bind (regionate _ _ _ _ _ _ _ _ ?st) _ = _ => set (s0 := st) in * end.
  destruct (regionate _ _ _ _ _ m _ (qid_child q NW) s0) as [[h0 s1]| | |] eqn:E0; cbn [bind] in H; try discriminate H.
  destruct (regionate _ _ _ _ _ m _ (qid_child q NE) s1) as [[h1 s2]| | |] eqn:E1; cbn [bind] in H; try discriminate H.
  destruct (regionate _ _ _ _ _ m _ (qid_child q SW) s2) as [[h2 s3]| | |] eqn:E2; cbn [bind] in H; try discriminate H.
  destruct (regionate _ _ _ _ _ m _ (qid_child q SE) s3) as [[h3 s4]| | |] eqn:E3; cbn [bind] in H; try discriminate H.
  destruct (IH _ _ _ _ _ E0) as (f0 & L0), (IH _ _ _ _ _ E1) as (f1 & L1), (IH _ _ _ _ _ E2) as (f2 & L2), (IH _ _ _ _ _ E3) as (f3 & L3). clear IH E0 E1 E2 E3.
  assert (S0 : msorted (qmap s) -> msorted (qmap s0)) by (intros Hs; apply mset_sorted; exact Hs).
  assert (S1 : msorted (qmap s) -> msorted (qmap s1)) by (intros Hs; apply (lr_sorted _ _ _ _ _ _ _ L0); auto).
  assert (S2 : msorted (qmap s) -> msorted (qmap s2)) by (intros Hs; apply (lr_sorted _ _ _ _ _ _ _ L1); auto).
  assert (S3 : msorted (qmap s) -> msorted (qmap s3)) by (intros Hs; apply (lr_sorted _ _ _ _ _ _ _ L2); auto).
  assert (S4 : msorted (qmap s) -> msorted (qmap s4)) by (intros Hs; apply (lr_sorted _ _ _ _ _ _ _ L3); auto).
  assert (K : msorted (qmap s) -> forall k, ~ below q k -> mget k (qmap s4) = mget k (qmap s)).
  { intros Hs k Hk.
    rewrite (lr_keys _ _ _ _ _ _ _ L3), (lr_keys _ _ _ _ _ _ _ L2), (lr_keys _ _ _ _ _ _ _ L1), (lr_keys _ _ _ _ _ _ _ L0); auto;
      try (intros C; apply below_child in C; tauto).
    unfold s0. cbn [qmap]. rewrite mget_mset by exact Hs. destruct (eqs k q) eqn:E; auto. apply eqs_spec in E. subst k. exfalso. apply Hk. exists []. symmetry. apply app_nil_r. }
  assert (F : files s4 = files s ++ (f0 ++ f1 ++ f2 ++ f3)).
  { rewrite (lr_files _ _ _ _ _ _ _ L3), (lr_files _ _ _ _ _ _ _ L2), (lr_files _ _ _ _ _ _ _ L1), (lr_files _ _ _ _ _ _ _ L0).
    unfold s0. cbn [files]. now rewrite <- !app_assoc. }
  assert (N : msorted (qmap s) -> no_dangling (f0 ++ f1 ++ f2 ++ f3)).
  { intros Hs. repeat apply no_dangling_app; [apply (lr_links _ _ _ _ _ _ _ L0)|apply (lr_links _ _ _ _ _ _ _ L1)|apply (lr_links _ _ _ _ _ _ _ L2)|apply (lr_links _ _ _ _ _ _ _ L3)]; auto. }
  destruct (mget q (fmap s4)) as [fo|].
  2:{ injection H as <- <-. exists (f0 ++ f1 ++ f2 ++ f3). constructor; auto; discriminate. }
  injection H as <- <-. eexists. constructor; cbn [files qmap].
  - rewrite F, <- app_assoc. reflexivity.
  - exact S4.
  - exact K.
  - intros _. rewrite map_app. apply in_or_app. right. left. reflexivity.
  - intros Hs x Hx. rewrite map_app. apply in_app_iff in Hx as [Hx|[<-|[]]].
    + intros y Hy. apply in_or_app. left. exact (N Hs _ Hx _ Hy).
    + intros y Hy. cbn [fl_links] in Hy. apply in_or_app. left. rewrite !map_app, !in_app_iff.
      apply in_map_iff in Hy as (k & <- & Hk). rewrite !in_app_iff in Hk.
      destruct Hk as [Hk|[Hk|[Hk|Hk]]]; match type of Hk with In _ (if ?h then _ else _) => destruct h eqn:Eh; [|destruct Hk] end; destruct Hk as [<-|[]].
      * left. erewrite filename_ext; [apply (lr_own _ _ _ _ _ _ _ L0 eq_refl)|].
        rewrite (lr_keys _ _ _ _ _ _ _ L3), (lr_keys _ _ _ _ _ _ _ L2), (lr_keys _ _ _ _ _ _ _ L1); auto; apply below_other; discriminate.
      * right; left. erewrite filename_ext; [apply (lr_own _ _ _ _ _ _ _ L1 eq_refl)|].
        rewrite (lr_keys _ _ _ _ _ _ _ L3), (lr_keys _ _ _ _ _ _ _ L2); auto; apply below_other; discriminate.
      * right; right; left. erewrite filename_ext; [apply (lr_own _ _ _ _ _ _ _ L2 eq_refl)|].
        rewrite (lr_keys _ _ _ _ _ _ _ L3); auto; apply below_other; discriminate.
      * right; right; right. apply (lr_own _ _ _ _ _ _ _ L3 eq_refl).
Qed.
Theorem regionate_stopped : forall show root n progress total fuel b l own h s,
  regionate_all show root n progress total fuel b l own = Ok (h, s) ->
  (forall x y, In x (files s) -> In y (fl_links x) -> exists z, In z (files s) /\ fl_name z = y) /\
  (h = true -> exists z, In z (files s) /\ fl_name z = region_filename show root qid_root (qmap s)).
Proof.
  intros show root n progress total fuel b l own h s H. destruct (regionate_linked _ _ _ _ _ _ _ _ _ _ _ H) as (fs & L).
  rewrite (lr_files _ _ _ _ _ _ _ L). cbn [start files app]. split.
  - intros x y Hx Hy. pose proof (lr_links _ _ _ _ _ _ _ L (SSorted_nil _) x Hx y Hy) as G. apply in_map_iff in G as (z & Ez & Hz). eauto.
  - intros Hh. pose proof (lr_own _ _ _ _ _ _ _ L Hh) as G. apply in_map_iff in G as (z & Ez & Hz). eauto.
Qed.
Print Assumptions regionate_stopped.
(** The case of a region stopped at the second feature: no link is left to its files, which are not written. *)
Example regionate_stopped_sample : exists h s,
  regionate_all show_nat None 1 (fun done _ => done <=? 1) 3 4 (Some (zbox 90 (-90) 180 (-180))) [pt 1 10 10 1; pt 2 (-10) 20 7; pt 3 60 60 5] [] = Ok (h, s) /\
  map fl_links (files s) = [[]] /\ h = true.
Proof. eexists _, _. split; [vm_compute; reflexivity|]. repeat split. Qed.
(** A root file named like one of the numbered files: two files have one name. *)
Theorem regionate_root_name_refuted : exists r l b h s,
  regionate_all show_nat (Some r) 1 always 2 3 (Some b) l [] = Ok (h, s) /\ listed l [] /\ okbox b = true /\
  map fl_name (files s) = [r; r] /\ map fl_links (files s) = [[]; [r]].
Proof.
  exists (S_"2.kml"), [pt 1 10 10 1; pt 2 (-10) 20 7], (zbox 90 (-90) 180 (-180)). eexists _, _. split; [vm_compute; reflexivity|].
  split; [|repeat split]. split.
  - repeat constructor; cbn; intuition congruence.
  - intros f _ [].
Qed.
Print Assumptions regionate_root_name_refuted.

(** C49. Ids of distinct nodes are distinct; the children lie in their parent and cover it. *)
Theorem qid_distinct : forall p p', node_at qid_root p = node_at qid_root p' -> p = p'.
Proof.
  intros p p'. rewrite !node_at_app. intros E. apply app_inv_head in E. revert p' E.
  induction p as [|d p IH]; intros [|d' p'] E; auto; try discriminate. cbn in E. injection E as E1 E2. apply digit_inj in E1. f_equal; auto.
Qed.
Print Assumptions qid_distinct.
(** The depth reported is the distance from the root plus one. *)
Theorem qid_depth_distance : forall p, qid_depth (node_at qid_root p) = S (length p).
Proof. intros p. unfold qid_depth. rewrite node_at_app, app_length, map_length. cbn. lia. Qed.
Print Assumptions qid_depth_distance.
Theorem child_regions_inside : forall b d, okbox b = true -> okbox (child_box b d) = true /\ contained_by (child_box b d) b = true.
Proof. exact child_ok. Qed.
Print Assumptions child_regions_inside.
Theorem child_regions_cover : forall b lat lon, midbox b = true -> contains b lat lon = true -> exists d, contains (child_box b d) lat lon = true.
Proof. exact children_cover. Qed.
Print Assumptions child_regions_cover.
(** Children meet only in their edges: a point in two of them is on a midline. *)
Theorem child_regions_meet : forall b d d' lat lon, contains (child_box b d) lat lon = true -> contains (child_box b d') lat lon = true -> d <> d' ->
  deq lat (center_lat b) = true \/ deq lon (center_lon b) = true.
Proof.
  intros b d d' lat lon H H' Hd. rewrite contains_iff in H, H'. rewrite !deq_dle, !andb_true_iff.
  destruct d, d'; try congruence; cbn [child_box north south east west] in *; tauto.
Qed.
Print Assumptions child_regions_meet.
(** At any depth. *)
Theorem node_inside_ancestor : forall p b, okbox b = true -> contained_by (box_at b p) b = true.
Proof.
  assert (H : forall p b, okbox b = true -> contained_by (box_at b p) b = true /\ okbox (box_at b p) = true).
  { induction p as [|d p IH]; intros b Hb; cbn [box_at fold_left].
    - split; auto. apply contained_refl. apply no_nan_iff. apply okbox_iff in Hb. repeat split; apply doubles_ok_nan; tauto.
    - destruct (child_ok b d Hb) as [A B]. destruct (IH _ A) as [C D]. split; [apply (contained_trans _ _ _ C B) | exact D]. }
  intros p b Hb. apply H, Hb.
Qed.
Print Assumptions node_inside_ancestor.
(** The midpoint used for this: never outside the two numbers, whatever the rounding. *)
Theorem midpoint_between : forall n s, doubles_ok n = true -> doubles_ok s = true -> dle s n = true ->
  dle s (mid n s) = true /\ dle (mid n s) n = true.
Proof. intros n s H1 H2 H3. apply (mid_ok n s H1 H2 H3). Qed.
Print Assumptions midpoint_between.
Example midpoint_sample : doubles_ok (d_of_Z 37) = true /\ doubles_ok (S754_finite true 7 (-1074)) = true /\
  mid (S754_finite false 9 (-1074)) (S754_finite false 2 (-1074)) = S754_finite false 6 (-1074).
Proof. vm_compute. auto. Qed.
(** With numbers too large to double the children are not inside. *)
Theorem child_regions_overflow_refuted : exists b, finite (north b) = true /\ finite (south b) = true /\ proper b = true /\ contained_by (child_box b SW) b = false.
Proof.
  exists {| north := S754_finite false 9007199254740991 971; south := S754_finite false 9007199254740990 971; east := d180; west := dm180 |}.
  vm_compute. auto.
Qed.
Print Assumptions child_regions_overflow_refuted.

(** C50. The outline has the four corners in order and ends at the south-west corner, given twice, instead of the first. *)
Theorem outline_closed_refuted : forall b, north b <> south b ->
  line_string_box b = [(north b, west b); (north b, east b); (south b, east b); (south b, west b); (south b, west b)] /\ (south b, west b) <> (north b, west b).
Proof. intros b H. split; [reflexivity | congruence]. Qed.
Print Assumptions outline_closed_refuted.
Example outline_sample : north (zbox 10 0 20 0) <> south (zbox 10 0 20 0).
Proof. vm_compute. discriminate. Qed.

(** C71. Extended data values: a value added under a new name is read back and leaves the others. *)
Theorem ext_add_new : forall e name value, get_ext e name = None -> get_ext (add_ext e name value) name = Some value.
Proof.
  intros e name value H. unfold add_ext, get_ext in *.
  assert (G : forall l : list (option str * str), List.find (fun d => match fst d with Some n => eqs name n | None => false end) l = None ->
    option_map snd (List.find (fun d => match fst d with Some n => eqs name n | None => false end) (l ++ [(Some name, value)])) = Some value).
  { induction l as [|[n v] l IH]; cbn [app List.find fst]; [now rewrite eqs_refl|].
    destruct (match n with Some n0 => eqs name n0 | None => false end); [discriminate | exact IH]. }
  apply G. destruct e as [l|]; auto. destruct (List.find _ l) eqn:E; [cbn in H; discriminate | reflexivity].
Qed.
Print Assumptions ext_add_new.
Theorem ext_add_other : forall e name value name', name' <> name -> get_ext (add_ext e name value) name' = get_ext e name'.
Proof.
  intros e name value name' H. unfold add_ext, get_ext.
  assert (G : forall l : list (option str * str), option_map snd (List.find (fun d => match fst d with Some n => eqs name' n | None => false end) (l ++ [(Some name, value)])) =
    option_map snd (List.find (fun d => match fst d with Some n => eqs name' n | None => false end) l)).
  { induction l as [|[n v] l IH]; cbn [app List.find fst]; [now rewrite (proj2 (eqs_neq name' name) H)|].
    destruct (match n with Some n0 => eqs name' n0 | None => false end); auto. }
  rewrite G. destruct e; reflexivity.
Qed.
Print Assumptions ext_add_other.
(** Adding under a name already used keeps returning the old value. *)
Theorem ext_add_again_refuted : forall e name old value, get_ext e name = Some old -> get_ext (add_ext e name value) name = Some old.
Proof.
  intros e name old value H. unfold add_ext, get_ext in *. destruct e as [l|]; [|discriminate].
  induction l as [|[n v] l IH]; cbn [app List.find fst] in *; [discriminate|].
  destruct (match n with Some n0 => eqs name n0 | None => false end); auto.
Qed.
Print Assumptions ext_add_again_refuted.
(** Setting a value is read back, and erases every other value. *)
Theorem ext_set_read : forall e name value, get_ext (set_ext e name value) name = Some value.
Proof. intros e name value. cbn. now rewrite eqs_refl. Qed.
Print Assumptions ext_set_read.
Theorem ext_set_erases_refuted : forall e name value name', name' <> name -> get_ext (set_ext e name value) name' = None.
Proof. intros e name value name' H. cbn. now rewrite (proj2 (eqs_neq name' name) H). Qed.
Print Assumptions ext_set_erases_refuted.
Example ext_sample : get_ext (add_ext (add_ext None (S_"a") (S_"1")) (S_"b") (S_"2")) (S_"a") = Some (S_"1") /\ get_ext (set_ext (add_ext None (S_"a") (S_"1")) (S_"b") (S_"2")) (S_"a") = None.
Proof. split; reflexivity. Qed.

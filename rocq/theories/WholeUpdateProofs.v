(** Proofs about whole updates: what a merge leaves of ids, and where the objects of the map are. *)
From Verif Require Import Common StrMap StringsModel AttributesModel AttributesProofs XsdTables XsdModel HandlerModel DomTables DomModel DomSpec DomProofs DomProofs2 DomParsed CloneModel CloneProofs.
From Verif Require Import MergeModel MergeProofs MergeProps IdModel IdProofs UpdateModel UpdateProofs.
Local Open Scope N_scope.

(** ** Something seen of elements, which a merge does not bring about if the source does not show it *)
Section Look.
  Variable E : env.
  Hypothesis HE : numbers_stable E.
  Context {A : Type}.
  Variable look : obj -> option A.
  Hypothesis look_simple : forall o, is_simple (oty o) = true -> look o = None.
  Hypothesis look_merged : forall s t r, oty s = oty t -> merged E s t r -> look s = None -> look r = look t.
  Definition look_at (o : obj) (q : address) : option A := match at_address o q with Some x => look x | None => None end.
  Definition unseen (o : obj) : Prop := forall q, look_at o q = None.
  Definition below (t t0 : obj) : Prop := forall i j q, look_at t ((i, j) :: q) = look_at t0 ((i, j) :: q).
  Lemma look_child o i j q : look_at o ((i, j) :: q) = match nth_error (nth i (lists o) []) j with Some c => look_at c q | None => None end.
  Proof. unfold look_at. cbn [at_address]. now destruct (nth_error (nth i (lists o) []) j). Qed.
  Lemma field_unseen o : is_field o -> is_simple (oty o) = true -> unseen o.
  Proof. intros H Hs [|[i j] q]; [now apply look_simple|]. rewrite look_child, H. unfold lists. cbn [field oslots omis app]. destruct i as [|[|i]]; now destruct j. Qed.
  Lemma unseen_child s l c : unseen s -> In l (oslots s) -> In c l -> unseen c.
  Proof.
    intros Hs Hl Hc q. apply (In_nth _ _ []) in Hl as (i & Hi & Hl). apply In_nth_error in Hc as (j & Hj). specialize (Hs ((i, j) :: q)). rewrite look_child in Hs.
    rewrite lists_nth in Hs by exact Hi. rewrite Hl, Hj in Hs. exact Hs.
  Qed.
  Lemma replace_nth l : forall j (c : obj) k, nth_error (replace j c l) k = if (k =? j)%nat then match nth_error l j with Some _ => Some c | None => None end else nth_error l k.
  Proof.
    induction l as [|x l IH]; intros j c k; [destruct j, k; cbn [replace nth_error Nat.eqb]; auto; now destruct (k =? j)%nat|].
    destruct j as [|j], k as [|k]; cbn [replace nth_error Nat.eqb]; auto.
  Qed.
  (** A change of one list. *)
  Lemma below_set t t0 i v : (i < length (oslots t))%nat -> below t t0 ->
    (forall j q, match nth_error v j with Some c => look_at c q | None => None end = look_at t0 ((i, j) :: q)) ->
    below (set_slots t (update i v (oslots t))) t0.
  Proof.
    intros Hi Hb Hv k j q. rewrite look_child, lists_slots by apply update_length'. destruct (Nat.ltb_spec k (length (oslots t))) as [Hk|Hk].
    - rewrite update_nth by exact Hi. destruct (Nat.eqb_spec k i) as [->|Hn]; [apply Hv|]. rewrite <- Hb, look_child. now rewrite lists_nth by exact Hk.
    - rewrite <- Hb, look_child. reflexivity.
  Qed.
  Lemma kid_step_look s t0 D c R t t' : good E s -> good E t0 -> mergeable s t0 = true -> kids s = D ++ c :: R -> inv E t0 D t -> inv E t0 (D ++ [c]) t' ->
    kid_step E t0 (Some t) (c, merge E c) = Some t' -> unseen s ->
    (forall b r, good E c -> good E b -> mergeable c b = true -> merge E c b = Some r -> forall q, look_at r q = look_at b q) -> below t t0 -> below t' t0.
  Proof.
    intros Hs Ht Hm Hk Hinv Hinv' Hstep Hun IH Hb. destruct (mergeable_basic s t0 Hm) as (Hty & _ & _ & Hnd & Hrec).
    assert (Hck : In c (kids s)) by (rewrite Hk; apply in_or_app; right; now left).
    assert (HcD : first (oty c) D = None).
    { apply first_none. pose proof (children_nodup E s Hs Hnd) as Hnd'. assert (Hkn : NoDup (map oty (kids s))).
      { unfold kids. clear -Hnd'. induction (children (oty s) (oslots s)) as [|x l IH]; [constructor|]. cbn [map filter] in *. inversion Hnd'; subst.
        destruct (complex x); auto. cbn [map]. constructor; auto. intros Hin. apply H1. apply in_map_iff in Hin as (y & Hy & Hin). apply filter_In in Hin as [Hin _].
        rewrite <- Hy. now apply in_map. }
      rewrite Hk, map_app in Hkn. cbn [map] in Hkn. apply NoDup_remove_2 in Hkn. intros H. apply Hkn. apply in_or_app. now left. }
    unfold kids in Hck. apply filter_In in Hck as [Hck Hcx]. unfold complex in Hcx. apply negb_true_iff in Hcx.
    destruct (children_slot E s c Hs Hck) as (i & sl & Hfs & Hin & Hinl). pose proof (good_child E s _ c Hs Hinl Hin Hcx) as Hgc.
    destruct Hinv as [I1 I2 I3 I4 I5 I6 I7]. assert (Htt : oty t = oty t0) by (rewrite I1; apply set_slots_ty). rewrite Hty, <- Htt in Hfs.
    assert (Hlen : (i < length (oslots t))%nat).
    { rewrite I2, (good_length E t0 Ht), <- Htt. pose proof (find_slot_spec _ _ _ _ _ Hfs) as [_ H]. rewrite Nat.sub_0_r in H. apply nth_error_Some. congruence. }
    unfold kid_step in Hstep. cbn [fst snd] in Hstep. pose proof (kid_at_spec E t0 (oty c) Ht) as Hat. destruct (kid_at (oty c) t0) as [[i' j]|].
    - destruct Hat as ((s' & Hfs') & Hpos). rewrite Htt in Hfs. rewrite Hfs in Hfs'. inversion Hfs'; subst i' s'; clear Hfs'. rewrite <- Htt in Hfs.
      assert (Hpos' : pos_of (oty c) (nth i (oslots t) []) 0 = Some j).
      { rewrite pos_of_types in *. destruct (I4 i) as (ext & ->). now apply posN_app. }
      pose proof (pos_of_first (oty c) (nth i (oslots t) []) 0) as Hpf. rewrite Hpos' in Hpf. destruct Hpf as (b & _ & Hnj & Hfb). rewrite Nat.sub_0_r in Hnj.
      assert (Hcb : child (oty c) t0 = Some b).
      { specialize (I6 (oty c)). rewrite HcD in I6. cbn [expected] in I6. rewrite <- I6. rewrite (child_slot t (oty c) i sl I3 Hfs). exact Hfb. }
      unfold modify in Hstep. rewrite Hnj in Hstep. destruct (merge E c b) as [r|] eqn:Er; [|discriminate]. inversion Hstep; subst t'. clear Hstep.
      assert (Hgb : good E b). { destruct (child_in _ _ _ Hcb) as (Hbt & l & Hl & Hbl). apply (good_child E t0 l b Ht Hl Hbl). now rewrite Hbt. }
      pose proof (IH b r Hgc Hgb (Hrec _ c b Hinl Hin Hcx Hcb) Er) as Hr. apply below_set; auto. intros k q. rewrite replace_nth. rewrite <- Hb, look_child, lists_nth by exact Hlen.
      destruct (Nat.eqb_spec k j) as [->|Hn]; [|reflexivity]. rewrite Hnj. apply Hr.
    - rewrite (clone_equal E c (proj1 Hgc) (proj1 (proj2 Hgc)) (proj2 (proj2 Hgc))) in Hstep.
      destruct (has_slot_ordinary _ _ _ _ Hfs) as (O1 & O2 & O3). unfold add_element in Hstep. cbv zeta in Hstep. rewrite O1, O2, O3 in Hstep. cbn [andb] in Hstep. rewrite Hfs in Hstep.
      assert (Huc : unseen c) by exact (unseen_child s _ c Hun Hinl Hin).
      destruct (s_kind sl) as [f|f| |] eqn:Ekind.
      + exfalso. destruct (field_slot_simple _ _ _ _ Hfs) as [H _]; [exists f; auto|]. congruence.
      + exfalso. destruct (field_slot_simple _ _ _ _ Hfs) as [H _]; [exists f; auto|]. congruence.
      + cbn [opt_res] in Hstep. inversion Hstep as [Hst]. assert (H0 : nth i (oslots t0) [] = []).
        { destruct (inv_types _ _ _ _ Hinv' i) as (ext & He). rewrite <- Hst in He. rewrite set_slots_slots in He. rewrite update_nth, Nat.eqb_refl in He by exact Hlen. cbn [map] in He.
          destruct (nth i (oslots t0) []) as [|b y] eqn:Et0; [reflexivity|]. exfalso. cbn [map app] in He. injection He as Hbt _.
          unfold child in Hat. apply first_none in Hat. apply Hat. rewrite Hbt. apply (in_map oty). apply in_concat. exists (nth i (oslots t0) []).
          assert (Hbin : In b (nth i (oslots t0) [])) by (rewrite Et0; now left). split; auto. now apply nth_in with b. }
        apply below_set; auto. intros j q. rewrite look_child, lists_nth by (rewrite <- I2; exact Hlen). rewrite H0. destruct j as [|j]; cbn [nth_error]; [apply Huc|now destruct j].
      + cbn [opt_res] in Hstep. inversion Hstep as [Hst]. apply below_set; auto. intros j q. rewrite <- Hb, look_child, lists_nth by exact Hlen.
        destruct (Nat.lt_ge_cases j (length (nth i (oslots t) []))) as [Hj|Hj].
        * now rewrite nth_error_app1 by exact Hj.
        * rewrite nth_error_app2 by exact Hj. rewrite (proj2 (nth_error_None (nth i (oslots t) []) j) Hj).
          destruct (j - length (nth i (oslots t) []))%nat as [|k]; cbn [nth_error]; [apply Huc|now destruct k].
  Qed.
  Lemma add_field_look t t' t0 ty v : add_element E t (field ty v) = Ok t' -> is_simple ty = true -> length (oslots t) = length (c_slots (cls (oty t))) ->
    (forall i s, find_slot ty (c_slots (cls (oty t))) 0 = Some (i, s) -> (exists f, s_kind s = KField f) \/ s_kind s = KChild -> forall j q, look_at t0 ((i, j) :: q) = None) ->
    below t t0 -> below t' t0 /\ oty t' = oty t /\ length (oslots t') = length (oslots t).
  Proof.
    intros Ha Hsi Hlen Hno Hb. unfold add_element in Ha. cbv zeta in Ha. change (oty (field ty v)) with ty in Ha. change (char_data (field ty v)) with v in Ha.
    assert (Hun : forall w, unseen (field ty w)) by (intros w; apply field_unseen; [reflexivity|exact Hsi]).
    assert (Htxt : forall x, below (set_text t x) t0 /\ oty (set_text t x) = oty t /\ length (oslots (set_text t x)) = length (oslots t)).
    { intros x. split; [|now destruct t]. intros i j q. rewrite <- Hb, !look_child. now destruct t. }
    destruct (snippet_type (oty t)); [inversion Ha; apply Htxt|]. destruct (oty t =? Type_coordinates); [inversion Ha; subst; auto|].
    destruct ((oty t =? Type_SimpleData) && (ty =? Type_SimpleData)); [inversion Ha; apply Htxt|].
    destruct (find_slot ty (c_slots (cls (oty t))) 0) as [[i s]|] eqn:Ef.
    2:{ inversion Ha. split; [|now destruct t]. intros i j q. rewrite <- Hb, !look_child. destruct t as [ty0 ka ea tx vec sl mis unk]. unfold lists. cbn [set_mis oslots omis].
      destruct (Nat.lt_trichotomy i (length sl)) as [H|[H|H]].
      - now rewrite !app_nth1 by exact H.
      - subst i. rewrite !app_nth2, Nat.sub_diag by lia. cbn [nth]. destruct (Nat.lt_ge_cases j (length mis)) as [Hj|Hj]; [now rewrite nth_error_app1 by exact Hj|].
        rewrite nth_error_app2 by exact Hj. rewrite (proj2 (nth_error_None mis j) Hj). destruct (j - length mis)%nat as [|k]; cbn [nth_error]; [apply Hun|now destruct k].
      - rewrite !nth_overflow; [reflexivity| |]; rewrite app_length; cbn [length]; lia. }
    assert (Hi : (i < length (oslots t))%nat). { rewrite Hlen. pose proof (find_slot_spec _ _ _ _ _ Ef) as [_ H]. rewrite Nat.sub_0_r in H. apply nth_error_Some. congruence. }
    assert (Hone : forall l, Forall unseen l -> (forall j q, look_at t0 ((i, j) :: q) = None) -> below (set_slots t (update i l (oslots t))) t0).
    { intros l Hl Hz. apply below_set; auto. intros j q. rewrite Hz. destruct (nth_error l j) as [c|] eqn:Ec; [|reflexivity]. apply nth_error_In in Ec. rewrite Forall_forall in Hl. now apply Hl. }
    assert (Happ : forall l, Forall unseen l -> below (set_slots t (update i (nth i (oslots t) [] ++ l) (oslots t))) t0).
    { intros l Hl. apply below_set; auto. intros j q. rewrite <- Hb, look_child, lists_nth by exact Hi. destruct (Nat.lt_ge_cases j (length (nth i (oslots t) []))) as [Hj|Hj]; [now rewrite nth_error_app1 by exact Hj|].
      rewrite nth_error_app2 by exact Hj. rewrite (proj2 (nth_error_None (nth i (oslots t) []) j) Hj). destruct (nth_error l _) as [c|] eqn:Ec; [|reflexivity]. apply nth_error_In in Ec. rewrite Forall_forall in Hl. now apply Hl. }
    assert (Hframe : forall l, oty (set_slots t (update i l (oslots t))) = oty t /\ length (oslots (set_slots t (update i l (oslots t)))) = length (oslots t)).
    { intros l. split; [apply set_slots_ty|]. rewrite set_slots_slots. apply update_length'. }
    destruct (s_kind s) as [f|f| |] eqn:Ekind.
    - destruct (norm E (oty t) f ty _ v) as [w| | |]; try discriminate. cbn [bind] in Ha. inversion Ha. split; [|apply Hframe]. apply Hone; [destruct w; repeat constructor; apply Hun|]. apply (Hno i s eq_refl). left. eauto.
    - destruct (norm E (oty t) f ty None v) as [w| | |]; try discriminate. cbn [bind] in Ha. inversion Ha. split; [|apply Hframe]. apply Happ. destruct w; repeat constructor; apply Hun.
    - inversion Ha. split; [|apply Hframe]. apply Hone; [repeat constructor; apply Hun|]. apply (Hno i s eq_refl). now right.
    - inversion Ha. split; [|apply Hframe]. apply Happ. repeat constructor; apply Hun.
  Qed.
  Theorem merge_look : forall s t r, good E s -> good E t -> mergeable s t = true -> unseen s -> merge E s t = Some r -> forall q, look_at r q = look_at t q.
  Proof.
    induction s as [ty0 ka0 ea0 tx0 vec0 sl0 mis0 unk0 IHsl _] using obj_ind2. set (s := Obj ty0 ka0 ea0 tx0 vec0 sl0 mis0 unk0) in *. intros t r Hs Ht Hm Hun Hr.
    destruct (merge_one E HE s t Hs Ht Hm) as (r' & Hr' & Hmd). assert (r' = r) by congruence. subst r'. clear Hr'.
    intros [|[i j] q]; [unfold look_at; cbn [at_address]; apply (look_merged s t r (proj1 (mergeable_basic s t Hm)) Hmd); exact (Hun [])|]. revert i j q. change (below r t).
    destruct (mergeable_basic s t Hm) as (Hty & Hms & Hmt & Hnd & Hrec). rewrite merge_eq in Hr. rewrite (proj2 (proj2 Hs)), (proj2 (proj2 Ht)) in Hr. unfold simple_mis in Hr. rewrite Hms, Hmt in Hr. cbn [forallb negb orb] in Hr.
    assert (Hex : forall c b, In c (kids s) -> child (oty c) t = Some b -> exists x, merge E c b = Some x /\ oty x = oty b).
    { intros c b Hc Hb. unfold kids in Hc. apply filter_In in Hc as [Hc Hcx]. unfold complex in Hcx. apply negb_true_iff in Hcx.
      destruct (children_slot E s c Hs Hc) as (i & sl & _ & Hin & Hinl). assert (Hgc : good E c) by now apply (good_child E s _ c Hs Hinl Hin).
      assert (Hgb : good E b). { destruct (child_in _ _ _ Hb) as (Hbt & l & Hl & Hbl). apply (good_child E t l b Ht Hl Hbl). now rewrite Hbt. }
      destruct (merge_one E HE c b Hgc Hgb (Hrec _ c b Hinl Hin Hcx Hb)) as (x & Hx & Hxd). exists x. split; [exact Hx|]. exact (md_type _ _ _ _ Hxd). }
    assert (HIH : forall c, In c (kids s) -> forall b x, good E c -> good E b -> mergeable c b = true -> merge E c b = Some x -> forall q, look_at x q = look_at b q).
    { intros c Hc b x Hgc Hgb Hmm Hx. unfold kids in Hc. apply filter_In in Hc as [Hc _]. destruct (children_slot E s c Hs Hc) as (i & sl & _ & Hin & Hinl).
      rewrite Forall_forall in IHsl. specialize (IHsl _ Hinl). rewrite Forall_forall in IHsl. apply (IHsl c Hin b x Hgc Hgb Hmm); [|exact Hx]. exact (unseen_child s _ c Hun Hinl Hin). }
    assert (Hkids : exists t1, merge_kids E t (map (fun c => (c, merge E c)) (kids s)) t = Some t1 /\ inv E t (kids s) t1 /\ below t1 t).
    { assert (G : forall R D x, kids s = D ++ R -> inv E t D x -> below x t ->
        exists t1, fold_left (kid_step E t) (map (fun c => (c, merge E c)) R) (Some x) = Some t1 /\ inv E t (D ++ R) t1 /\ below t1 t).
      { induction R as [|c R IH]; intros D x Hk Hi Hb.
        - exists x. rewrite app_nil_r. auto.
        - cbn [map fold_left]. assert (Hck : In c (kids s)) by (rewrite Hk; apply in_or_app; right; now left).
          destruct (kid_step_inv E s t D c R x Hs Ht Hm Hk Hi (fun b => Hex c b Hck)) as (x' & Hx' & Hi').
          pose proof (kid_step_look s t D c R x x' Hs Ht Hm Hk Hi Hi' Hx' Hun (HIH c Hck) Hb) as Hb'.
          rewrite Hx'. replace (D ++ c :: R) with ((D ++ [c]) ++ R) in * by now rewrite <- app_assoc. exact (IH (D ++ [c]) x' Hk Hi' Hb'). }
      exact (G (kids s) [] t eq_refl (inv_start E t Ht) (fun i j q => eq_refl)). }
    destruct Hkids as (t1 & Hk & [I1 I2 I3 I4 I5 I6 I7] & Hb1). rewrite Hk in Hr. unfold merge_fields in Hr. rewrite Hms in Hr. cbn [filter] in Hr. rewrite app_nil_r in Hr.
    set (a := if oty s =? Type_coordinates then [] else out_attributes s) in *.
    set (t2 := parse_attributes E t1 (merge_attributes (out_attributes t1) a)) in *.
    assert (T1 : oty t1 = oty t) by (rewrite I1; apply set_slots_ty).
    assert (T2 : oty t2 = oty t) by (unfold t2, parse_attributes; destruct (cut_known E (oty t1) _ _ _); now destruct t1).
    assert (L2 : lists t2 = lists t1 /\ oslots t2 = oslots t1) by (unfold t2, parse_attributes; destruct (cut_known E (oty t1) _ _ _); now destruct t1).
    rewrite T2 in Hr. set (t3 := if oty t =? Type_coordinates then set_vec t2 (if oty s =? Type_coordinates then ovec s else []) else t2) in *.
    assert (T3 : oty t3 = oty t) by (unfold t3; destruct (oty t =? Type_coordinates); auto; now destruct t2).
    assert (L3 : lists t3 = lists t2 /\ oslots t3 = oslots t2) by (unfold t3; destruct (oty t =? Type_coordinates); auto; now destruct t2).
    assert (Hb3 : below t3 t). { intros i j q. rewrite look_child. rewrite (proj1 L3), (proj1 L2), <- look_child. apply Hb1. }
    assert (Hl3 : length (oslots t3) = length (c_slots (cls (oty t3)))). { rewrite (proj2 L3), (proj2 L2), I2, T3. now apply good_length with E. }
    assert (G : forall l x, (forall c, In c l -> In c (children (oty s) (oslots s)) /\ is_simple (oty c) = true) -> oty x = oty t -> length (oslots x) = length (c_slots (cls (oty x))) -> below x t ->
      add_fields E l x = Some r -> below r t).
    { clear Hr Hb3 Hl3. induction l as [|c l IH]; intros x Hl Hxt Hxl Hxb Hr; unfold add_fields in Hr; cbn [fold_left] in Hr; [inversion Hr; subst; exact Hxb|].
      destruct (add_element E x (field (oty c) (char_data c))) as [x'| | |] eqn:Ea; cbn [opt_res] in Hr;
        try (exfalso; revert Hr; clear; induction l; cbn [fold_left]; [discriminate|auto]).
      destruct (Hl c (or_introl eq_refl)) as [Hc Hsi]. destruct (add_field_look x x' t (oty c) (char_data c) Ea Hsi Hxl) as (B1 & B2 & B3); [|exact Hxb|].
      - intros i sl Hfs Hkind j q. rewrite Hxt, <- Hty in Hfs. destruct (children_slot E s c Hs Hc) as (i2 & sl2 & Hfs2 & Hin & Hinl). rewrite Hfs in Hfs2. inversion Hfs2; subst i2 sl2. clear Hfs2.
        pose proof (find_slot_spec _ _ _ _ _ Hfs) as [_ Hnth]. rewrite Nat.sub_0_r in Hnth.
        pose proof (mergeable_slot s t i sl Hm Hnth (good_length E s Hs) ltac:(rewrite Hty; now apply good_length with E)) as Hms'. destruct Hkind as [(f & Hf)|Hkind].
        + assert (Hlt : (i < length (oslots t))%nat) by (rewrite (good_length E t Ht), <- Hty; apply nth_error_Some; congruence).
          rewrite look_child, lists_nth by exact Hlt. destruct (nth_error (nth i (oslots t) []) j) as [d|] eqn:Ed; [|reflexivity]. apply nth_error_In in Ed.
          destruct (good_routed E t Ht i d Ed) as (sd & Hsd). pose proof (find_slot_spec _ _ _ _ _ Hsd) as [_ Hnd']. rewrite Nat.sub_0_r, <- Hty, Hnth in Hnd'. inversion Hnd'; subst sd.
          destruct (field_slot_simple _ _ _ _ Hsd) as [Hds _]; [exists f; now left|]. assert (Hil : In (nth i (oslots t) []) (oslots t)) by now apply nth_In.
          destruct (good_in E t _ d Ht Hil Ed) as [W1 W2]. exact (field_unseen d (wf_field E d W1 W2 Hds) Hds q).
        + rewrite Hkind in Hms'. destruct Hms' as [Hms' _]. rewrite forallb_forall in Hms'. specialize (Hms' c Hin). unfold complex in Hms'. rewrite Hsi in Hms'. discriminate.
      - apply (IH x'); auto; [intros c' Hc'; apply Hl; now right|congruence|congruence]. }
    apply (G _ t3 (fun c Hc => proj1 (filter_In _ c _) Hc) T3 Hl3 Hb3 Hr).
  Qed.
End Look.

(** ** Ids and kml elements *)
Lemma simple_not_a ty : is_simple ty = true -> is_a ty Type_Object = false /\ ty <> Type_kml.
Proof.
  intros H. split; [|intros ->; discriminate]. destruct (is_a ty Type_Object) eqn:E; [|reflexivity]. exfalso.
  assert (Hb : ty = Type_Object \/ In ty (map fst bases)).
  { unfold is_a in E. apply orb_true_iff in E as [E|E]; [left; now apply N.eqb_eq|right]. destruct (lookup ty bases) as [l|] eqn:El; [|discriminate]. apply lookup_in in El. now apply (in_map fst) in El. }
  assert (Hall : forallb (fun t => negb (is_simple t && is_a t Type_Object)) (Type_Object :: map fst bases) = true) by (vm_compute; reflexivity).
  rewrite forallb_forall in Hall. specialize (Hall ty ltac:(destruct Hb as [->|Hb]; [now left|now right])). rewrite H, E in Hall. discriminate.
Qed.
Definition kml_of (o : obj) : option unit := if oty o =? Type_kml then Some tt else None.
Definition idless : obj -> Prop := unseen id_of.
Definition kmlless : obj -> Prop := unseen kml_of.
Lemma merge_ids E s t r : numbers_stable E -> good E s -> good E t -> mergeable s t = true -> idless s -> merge E s t = Some r -> forall q, id_at r q = id_at t q.
Proof.
  intros HE. apply (merge_look E HE id_of).
  - intros o H. unfold id_of. now rewrite (proj1 (simple_not_a _ H)).
  - clear. intros s t r Hty H Hs. unfold id_of in *. rewrite (md_type _ _ _ _ H). rewrite Hty in Hs. destruct (is_a (oty t) Type_Object); [|reflexivity].
    pose proof (md_atts _ _ _ _ H (S_ "id")) as Ha. unfold view in Ha. rewrite Hs in Ha. exact Ha.
Qed.
Lemma merge_kml E s t r : numbers_stable E -> good E s -> good E t -> mergeable s t = true -> kmlless s -> kmlless t -> merge E s t = Some r -> kmlless r.
Proof.
  intros HE Hs Ht Hm Us Ut Hr q. transitivity (look_at kml_of t q); [|apply Ut]. revert q. apply (merge_look E HE kml_of) with (s := s); auto.
  - intros o H. unfold kml_of. destruct (N.eqb_spec (oty o) Type_kml); [|reflexivity]. now apply simple_not_a in H.
  - clear. intros s t r Hty H Hn. unfold kml_of in *. now rewrite (md_type _ _ _ _ H).
Qed.

(** ** Changing an element the map refers to *)
Definition one_kml (o : obj) : Prop := forall q, type_of o q = Some Type_kml -> q = [].
Lemma kmlless_types o : kmlless o <-> forall q, type_of o q <> Some Type_kml.
Proof.
  unfold kmlless, unseen, look_at, type_of. split; intros H q; specialize (H q); destruct (at_address o q) as [x|]; cbn [option_map] in *; try congruence.
  - unfold kml_of in H. destruct (N.eqb_spec (oty x) Type_kml); congruence.
  - unfold kml_of. destruct (N.eqb_spec (oty x) Type_kml); congruence.
Qed.
Lemma type_change_other p f o q : under p q = None -> type_of (change_at p f o) q = type_of o q.
Proof. intros H. now rewrite !type_says, says_change_other. Qed.
Lemma id_change_other p f o q : under p q = None -> id_at (change_at p f o) q = id_at o q.
Proof. intros H. now rewrite !id_says, says_change_other. Qed.
Lemma type_change_below p f o x q : at_address o p = Some x -> type_of (change_at p f o) (p ++ q) = type_of (f x) q.
Proof. intros H. unfold type_of. now rewrite (at_change_below p f o x q H). Qed.
Lemma id_change_below p f o x q : at_address o p = Some x -> id_at (change_at p f o) (p ++ q) = id_at (f x) q.
Proof. intros H. unfold id_at. now rewrite (at_change_below p f o x q H). Qed.
Lemma type_at_app o p x q : at_address o p = Some x -> type_of o (p ++ q) = type_of x q.
Proof. intros H. unfold type_of. now rewrite at_app, H. Qed.
Lemma id_at_app o p x q : at_address o p = Some x -> id_at o (p ++ q) = id_at x q.
Proof. intros H. unfold id_at. now rewrite at_app, H. Qed.
Lemma change_consistent o m p t f : consistent (o, m) -> one_kml o -> at_address o p = Some t -> is_a (oty t) Type_Object = true -> oty (f t) = oty t ->
  (forall q id, id_at (f t) q = Some id -> mget id m = None \/ id_at t q = Some id) -> (forall q id, id_at t q = Some id -> id_at (f t) q = Some id) -> kmlless (f t) ->
  consistent (change_at p f o, m) /\ one_kml (change_at p f o).
Proof.
  intros [Cs Cc Ca Co Ck] Hone Ht Hob Hty Hi1 Hi2 Hk. cbn [fst snd] in *.
  assert (Hnk : oty t <> Type_kml) by (intros H; rewrite H in Hob; discriminate).
  assert (Hone' : one_kml (change_at p f o)).
  { intros q Hq. destruct (under p q) as [r|] eqn:Eu; [|rewrite type_change_other in Hq by exact Eu; now apply Hone].
    apply under_spec in Eu. subst q. rewrite (type_change_below _ _ _ _ _ Ht) in Hq. exfalso. revert Hq. now apply kmlless_types. }
  assert (Hroot : type_of o [] = Some Type_kml -> forall q, (length q <= 1)%nat -> type_of (change_at p f o) q = type_of o q).
  { intros Hr q Hq. destruct (under p q) as [r|] eqn:Eu; [|now apply type_change_other]. apply under_spec in Eu. subst q. rewrite (type_change_below _ _ _ _ _ Ht), (type_at_app _ _ _ _ Ht).
    destruct p as [|s p]; [unfold type_of in Hr; cbn [at_address option_map] in *; congruence|]. rewrite app_length in Hq. cbn [length] in Hq. destruct r; [|cbn [length] in Hq; lia]. unfold type_of. cbn [at_address option_map]. congruence. }
  assert (Hroot' : type_of (change_at p f o) [] = Some Type_kml -> type_of o [] = Some Type_kml).
  { intros H. destruct p as [|[i0 j0] p]; [|rewrite type_change_other in H by reflexivity; exact H]. cbn [change_at] in H. cbn [at_address] in Ht. injection Ht as <-. unfold type_of in *. cbn [at_address option_map] in *. congruence. }
  split; [|exact Hone']. constructor; cbn [fst snd].
  - intros id q Hq. apply Cs in Hq. destruct (under p q) as [r|] eqn:Eu; [|now rewrite id_change_other]. apply under_spec in Eu. subst q. rewrite (id_change_below _ _ _ _ _ Ht). apply Hi2. now rewrite <- (id_at_app _ _ _ _ Ht).
  - intros id q Hq. destruct (under p q) as [r|] eqn:Eu; [|rewrite id_change_other in Hq by exact Eu; now apply Cc]. apply under_spec in Eu. subst q. rewrite (id_change_below _ _ _ _ _ Ht) in Hq. apply Hi1 in Hq as [Hq|Hq]; [now left|].
    apply Cc. now rewrite (id_at_app _ _ _ _ Ht).
  - exact Ca.
  - intros id q Hq Hqk. pose proof (Hone' q Hqk). subst q. apply Hroot' in Hqk. rewrite Hroot by (auto; cbn [app length]; lia). now apply Co with id.
  - intros q Hqk. pose proof (Hone' q Hqk). subst q. apply Hroot' in Hqk. destruct (Ck [] Hqk) as (K1 & K2 & K3). split; [|split].
    + intros j. rewrite Hroot by (auto; cbn [app length]; lia). apply K1.
    + intros j ty Hj. rewrite Hroot in Hj by (auto; cbn [app length]; lia). now apply K2 with j.
    + intros y Hy. cbn [at_address] in Hy. injection Hy as <-. destruct p as [|[i j] p]; [cbn [at_address] in Ht; injection Ht as <-; unfold type_of in Hqk; cbn [at_address option_map] in Hqk; congruence|].
      pose proof (says_change_other ((i, j) :: p) f o [] eq_refl) as Hs. unfold says in Hs. cbn [at_address option_map] in Hs. unfold self in Hs. injection Hs as _ _ _ _ _ _ Hl. etransitivity; [exact Hl|now apply K3].
Qed.

(** Proofs about the regionator over a feature list. *)
From Coq Require Import Permutation Sorted.
From Verif Require Import Common StrMap Doubles DoublesMore Rounding BboxModel BboxProps FeatureListModel FeatureListProofs.

Section Regions.
  Variable show : nat -> str.
  Variable root_name : option str.
  Variable max_per : nat.
  Variable progress : nat -> nat -> bool.
  Variable total : nat.
  Hypothesis go_on : forall a b, progress a b = true.
  Notation name := (region_filename show root_name).
  Notation regionate := (regionate show root_name max_per progress total).
  Notation good := (good show root_name max_per).
  Notation run := (run show root_name).

  Lemma run_shrinks P s s' fs : run P s s' fs -> length (remaining s') <= length (remaining s).
  Proof. intros R. rewrite (Permutation_length (r_perm _ _ _ _ _ _ R)), app_length. lia. Qed.

  Definition with_file (s : rstate) (f : file) : rstate :=
    {| remaining := remaining s; owned := owned s; fmap := fmap s; qmap := qmap s; count := count s; files := files s ++ [f] |}.

  Lemma child_names_app k a b : (forall d g, In g b -> fl_id g <> qid_child k d) -> child_names k (a ++ b) = child_names k a.
  Proof.
    intros H. unfold child_names. f_equal. apply map_ext. intros d. rewrite filter_app, (filter_none _ b), app_nil_r; auto.
    intros g Hg. apply eqs_neq. auto.
  Qed.
  Lemma qid_child_inj k d k' d' : qid_child k d = qid_child k' d' -> k = k' /\ d = d'.
  Proof. unfold qid_child. intros E. apply app_inj_tail in E as [-> E]. split; auto. now apply digit_inj. Qed.

  Lemma regionate_good fuel : forall b q s, fresh s -> length (remaining s) < fuel ->
    exists h s' fs, regionate fuel b q s = Ok (h, s') /\ good b q s h s' fs.
  Proof.
    induction fuel as [|n IH]; intros b q s Hf Hl; [lia|].
    cbn [FeatureListModel.regionate].
    destruct (region_split b max_per (remaining s)) as [out rest] eqn:Es.
    assert (Hi : interleave out rest (remaining s)).
    { destruct b as [bb|]; [apply (region_split_spec max_per bb _ _ _ Es)|]. cbn in Es. injection Es as <- <-. apply interleave_right. }
    pose proof (interleave_perm _ _ _ Hi) as HP.
    destruct out as [|o0 out'] eqn:Eo.
    - (* no data *)
      exists false. eexists. exists []. split; [reflexivity|].
      assert (Er : rest = remaining s).
      { clear - Hi. remember (remaining s) as l. clear Heql s. revert rest Hi. induction l as [|x l IH]; intros rest Hi; inversion Hi; subst; auto. f_equal. auto. }
      destruct Hf as (F1 & F2 & F3 & F4).
      constructor.
      + rewrite Er. destruct s. apply run_refl; auto.
      + constructor; try (intros ? []; fail); intros; match goal with H : In _ [] |- _ => destruct H end.
      + discriminate.
      + reflexivity.
      + intros bb x -> _ Hx. cbn [remaining] in Hx. rewrite Er in Hx.
        destruct (region_split_spec max_per bb _ _ _ Es) as (A & _).
        destruct (inside bb x) eqn:Ex; auto. exfalso.
        assert (Hin : In x (filter (inside bb) (remaining s))) by (apply filter_In; auto).
        destruct (filter (inside bb) (remaining s)) as [|y l]; [destruct Hin|].
        unfold limit in A. destruct max_per; [destruct (remaining s); [destruct Hx|cbn in A; discriminate] | cbn in A; discriminate].
      + intros bb x _ _ [].
      + intros bb f _ _ [].
      + intros bb R _ _ _ f g t x y [].
    - rewrite <- Eo in *. assert (Hne : out <> []) by (rewrite Eo; discriminate).
      destruct b as [bb|]; [|cbn in Es; injection Es as <- <-; congruence].
      destruct (region_split_spec max_per bb _ _ _ Es) as (So & Sr & _).
      destruct Hf as (F1 & F2 & F3 & F4).
      pose proof (Permutation_NoDup (Permutation_map fid HP) F1) as HN. rewrite map_app in HN.
      apply nodup_app_inv in HN as (N1 & N2 & N3).
      assert (F2o : forall f, In f out -> ~ In (fid f) (owned s)).
      { intros f Hfo. apply F2. apply (Permutation_in _ (Permutation_sym HP)). apply in_or_app. auto. }
      rewrite (save_fresh out (owned s) N1 F2o), go_on. cbn [negb].
      match goal with |- context [bind (regionate n _ _ ?x)] => set (s0 := x) end.
      assert (Hf0 : fresh s0).
      { unfold fresh, s0. cbn [remaining owned fmap qmap]. split; [exact N2|]. split; [|split; now apply mset_sorted].
        intros f Hr Hin. apply in_app_iff in Hin as [X|X].
        - apply in_rev in X. apply (N3 _ X). now apply in_map.
        - apply (F2 f); auto. apply (Permutation_in _ (Permutation_sym HP)). apply in_or_app. auto. }
      assert (Hlen : length (remaining s) = length out + length rest) by (rewrite (Permutation_length HP), app_length; reflexivity).
      assert (Hlo : 0 < length out) by (destruct out; [congruence | cbn; lia]).
      assert (Hl0 : length (remaining s0) < n) by (unfold s0; cbn [remaining]; lia).
      destruct (IH (option_map (fun b => child_box b NW) (Some bb)) (qid_child q NW) s0 Hf0 Hl0) as (h0 & s1 & fs0 & E0 & G0).
      rewrite E0. cbn [bind]. pose proof (run_fresh _ _ _ _ _ _ (g_run _ _ _ _ _ _ _ _ _ G0) Hf0) as Hf1.
      pose proof (run_shrinks _ _ _ _ (g_run _ _ _ _ _ _ _ _ _ G0)) as L1.
      destruct (IH (option_map (fun b => child_box b NE) (Some bb)) (qid_child q NE) s1 Hf1 ltac:(lia)) as (h1 & s2 & fs1 & E1 & G1).
      rewrite E1. cbn [bind]. pose proof (run_fresh _ _ _ _ _ _ (g_run _ _ _ _ _ _ _ _ _ G1) Hf1) as Hf2.
      pose proof (run_shrinks _ _ _ _ (g_run _ _ _ _ _ _ _ _ _ G1)) as L2.
      destruct (IH (option_map (fun b => child_box b SW) (Some bb)) (qid_child q SW) s2 Hf2 ltac:(lia)) as (h2 & s3 & fs2 & E2 & G2).
      rewrite E2. cbn [bind]. pose proof (run_fresh _ _ _ _ _ _ (g_run _ _ _ _ _ _ _ _ _ G2) Hf2) as Hf3.
      pose proof (run_shrinks _ _ _ _ (g_run _ _ _ _ _ _ _ _ _ G2)) as L3.
      destruct (IH (option_map (fun b => child_box b SE) (Some bb)) (qid_child q SE) s3 Hf3 ltac:(lia)) as (h3 & s4 & fs3 & E3 & G3).
      rewrite E3. cbn [bind]. clear E0 E1 E2 E3 IH.
      assert (HS : seq show root_name max_per (Some bb) q s0 [(NW, h0, fs0); (NE, h1, fs1); (SW, h2, fs2); (SE, h3, fs3)] s4).
      { econstructor; [exact G0|]. econstructor; [exact G1|]. econstructor; [exact G2|]. econstructor; [exact G3|]. constructor. }
      set (hl := [(NW, h0, fs0); (NE, h1, fs1); (SW, h2, fs2); (SE, h3, fs3)]) in *.
      assert (Hnd : NoDup (map e_d hl)) by (cbn; repeat constructor; cbn; intuition congruence).
      pose proof (seq_run _ _ _ _ _ _ _ _ HS Hf0 Hnd) as R4. set (kids := concat (map e_fs hl)) in *.
      assert (Huq : forall k, (exists d, In d (map e_d hl) /\ under (qid_child q d) k) -> under q k /\ k <> q).
      { intros k (d & _ & Hk). apply (child_prefix _ d), Hk. }
      assert (Hqn : ~ (exists d, In d (map e_d hl) /\ under (qid_child q d) q)).
      { intros H. apply Huq in H. tauto. }
      assert (Hfm : mget q (fmap s4) = Some out).
      { rewrite (r_fmap _ _ _ _ _ _ R4 q Hqn). unfold s0. cbn [fmap]. rewrite mget_mset by auto. now rewrite eqs_refl. }
      rewrite Hfm.
      assert (Hqm : mget q (qmap s4) = Some (S (count s))).
      { rewrite (r_qmap _ _ _ _ _ _ R4 q Hqn). unfold s0. cbn [qmap]. rewrite mget_mset by auto. now rewrite eqs_refl. }
      match goal with |- context [Ok (true, ?x)] => set (s' := x) end.
      match type of s' with _ => match eval unfold s' in s' with context [files s4 ++ [?x]] => set (rf := x) in * end end.
      exists true, s', (kids ++ [rf]). split; [reflexivity|].
      assert (Hid : fl_id rf = q) by reflexivity. assert (Hft : fl_feats rf = out) by reflexivity.
      assert (R : run (under q) s s' (kids ++ [rf])).
      { constructor.
        - unfold s'. cbn [files]. rewrite (r_files _ _ _ _ _ _ R4). unfold s0. cbn [files]. now rewrite app_assoc.
        - rewrite feats_app. unfold feats_of at 2. cbn [map concat]. rewrite app_nil_r, Hft. unfold s'. cbn [remaining].
          pose proof (r_perm _ _ _ _ _ _ R4) as P4. unfold s0 in P4. cbn [remaining] in P4.
          rewrite HP, P4, !app_assoc. apply Permutation_app_tail. apply Permutation_app_comm.
        - intros R HR. unfold s'. cbn [remaining]. apply (r_ord _ _ _ _ _ _ R4). unfold s0. cbn [remaining].
          apply (ss_interleave _ _ _ _ Hi HR).
        - intros i. unfold s'. cbn [owned]. rewrite (r_owned _ _ _ _ _ _ R4). unfold s0. cbn [owned].
          rewrite feats_app, map_app, !in_app_iff, <- in_rev. unfold feats_of at 3. cbn [map concat]. rewrite app_nil_r, Hft. tauto.
        - intros k Hk. unfold s'. cbn [fmap]. rewrite (r_fmap _ _ _ _ _ _ R4).
          + unfold s0. cbn [fmap]. rewrite mget_mset by auto. destruct (eqs k q) eqn:E; auto. apply eqs_spec in E. elim Hk. rewrite E. unfold under. apply prefixb_spec. exists []. now rewrite app_nil_r.
          + intros H. apply Huq in H. tauto.
        - intros k Hk. unfold s'. cbn [qmap]. rewrite (r_qmap _ _ _ _ _ _ R4).
          + unfold s0. cbn [qmap]. rewrite mget_mset by auto. destruct (eqs k q) eqn:E; auto. apply eqs_spec in E. elim Hk. rewrite E. unfold under. apply prefixb_spec. exists []. now rewrite app_nil_r.
          + intros H. apply Huq in H. tauto.
        - apply (r_fsort _ _ _ _ _ _ R4).
        - apply (r_qsort _ _ _ _ _ _ R4).
        - unfold s'. cbn [count]. rewrite (r_count _ _ _ _ _ _ R4). unfold s0. cbn [count]. rewrite app_length. cbn [length]. lia.
        - intros f Hin. apply in_app_iff in Hin as [Hin|[Hin|[]]]; [|rewrite <- Hin].
          + apply (r_ids _ _ _ _ _ _ R4) in Hin. apply Huq in Hin. tauto.
          + rewrite Hid. unfold under. apply prefixb_spec. exists []. now rewrite app_nil_r.
        - pose proof (r_count _ _ _ _ _ _ R4) as C4. unfold s0 in C4. cbn [count] in C4.
          intros f Hin. unfold s'. cbn [qmap count]. apply in_app_iff in Hin as [Hin|[Hin|[]]]; [|rewrite <- Hin].
          + destruct (r_num _ _ _ _ _ _ R4 _ Hin) as (m & A & B). exists m. split; auto. unfold s0 in B. cbn [count] in B. lia.
          + exists (S (count s)). rewrite Hid. split; auto. lia.
        - unfold s'. cbn [qmap]. rewrite map_app. apply nodup_app; [apply (r_nums _ _ _ _ _ _ R4) | repeat constructor; auto |].
          intros o Ho [<-|[]]. apply in_map_iff in Ho as (f & E & Hin). rewrite Hid, Hqm in E.
          destruct (r_num _ _ _ _ _ _ R4 _ Hin) as (m & A & B). unfold s0 in B. cbn [count] in B. rewrite A in E. injection E as ->. lia.
        - intros f Hin. unfold s'. cbn [qmap]. apply in_app_iff in Hin as [Hin|[Hin|[]]]; [|rewrite <- Hin].
          + apply (r_name _ _ _ _ _ _ R4 _ Hin).
          + reflexivity. }
      assert (Hkid : forall f, In f kids -> exists d h fs, In f fs /\ In (d, h, fs) hl).
      { intros f Hin. unfold kids in Hin. apply in_concat in Hin as (fs & H & Hin). apply in_map_iff in H as ([[d h] fs'] & E & H).
        cbn in E. subst fs'. eauto. }
      assert (Hgood := seq_good _ _ _ _ _ _ _ _ HS). cbn [option_map] in Hgood.
      assert (Hpick := seq_pick _ _ _ _ _ _ _ _ HS Hnd). fold kids in Hpick.
      assert (Hlast : forall f, In f (kids ++ [rf]) -> In f kids \/ f = rf).
      { intros f Hin. apply in_app_iff in Hin as [Hin|[Hin|[]]]; auto. }
      assert (Hrk : forall d, fl_id rf <> qid_child q d).
      { intros d C. rewrite Hid in C. apply (f_equal (@length _)) in C. unfold qid_child in C. rewrite app_length in C. cbn in C. lia. }
      assert (Hone : forall d h fs, In (d, h, fs) hl ->
                map (fun k => name k (qmap s4)) (if h then [qid_child q d] else []) =
                map fl_name (filter (fun g => eqs (fl_id g) (qid_child q d)) kids)).
      { intros d h fs Hin. destruct (Hgood _ _ _ Hin) as (sa & sb & G & _).
        assert (Hself : under (qid_child q d) (qid_child q d)) by (unfold under; apply prefixb_spec; exists []; now rewrite app_nil_r).
        rewrite (Hpick _ _ _ _ Hin Hself). destruct h.
        - destruct (g_true _ _ _ _ _ _ _ _ _ G eq_refl) as (fs' & r & Ef & Er).
          assert (A : In r fs) by (rewrite Ef; apply in_or_app; right; now left).
          rewrite <- Er, (find_by_id fs r); auto; [|apply (run_nodup_ids _ _ _ _ _ _ (g_run _ _ _ _ _ _ _ _ _ G))].
          cbn [map]. f_equal. symmetry. apply (r_name _ _ _ _ _ _ R4). unfold kids. apply in_concat. exists fs. split; auto.
          apply in_map_iff. exists (d, true, fs). auto.
        - now rewrite (g_false _ _ _ _ _ _ _ _ _ G eq_refl). }
      assert (Hrfl : fl_links rf = child_names q (kids ++ [rf])).
      { rewrite child_names_app by (intros d g [Hg|[]]; rewrite <- Hg; apply Hrk).
        unfold rf. cbn [fl_links]. unfold child_names. cbn [map concat digits].
        rewrite <- (Hone NW h0 fs0), <- (Hone NE h1 fs1), <- (Hone SW h2 fs2), <- (Hone SE h3 fs3) by (cbn; auto).
        now rewrite !map_app, app_nil_r. }
      assert (Hkf : forall f, In f kids -> fl_links f = child_names (fl_id f) (kids ++ [rf])).
      { intros f Hin. destruct (Hkid _ Hin) as (d & h & fs & Hfs & Hhl). destruct (Hgood _ _ _ Hhl) as (sa & sb & G & _).
        pose proof (r_ids _ _ _ _ _ _ (g_run _ _ _ _ _ _ _ _ _ G) _ Hfs) as Hu.
        rewrite (f_links _ _ _ _ (g_fine _ _ _ _ _ _ _ _ _ G) _ Hfs), child_names_app.
        - unfold child_names. f_equal. apply map_ext. intros d'. f_equal. symmetry. apply (Hpick _ _ _ _ Hhl).
          unfold under in *. apply prefixb_spec in Hu as [t ->]. unfold qid_child at 2. rewrite <- app_assoc. apply prefixb_app.
        - intros d' g [Hg|[]] C; rewrite <- Hg in C. rewrite Hid in C. apply prefixb_spec in Hu as [t Et]. rewrite Et in C.
          apply (f_equal (@length _)) in C. unfold qid_child in C. rewrite !app_length in C. cbn in C. lia. }
      assert (Hdown : forall g y, okbox bb = true -> In g kids -> In y (fl_feats g) ->
                In y (skipn (limit max_per (remaining s)) (filter (inside bb) (remaining s)))).
      { intros g y Hok Hgk Hy. destruct (Hkid _ Hgk) as (d & h & fs & Hfs & Hhl). destruct (Hgood _ _ _ Hhl) as (sa & sb & G & _ & Hback & _).
        assert (Hyin : inside bb y = true).
        { apply (inside_child bb d y Hok). apply (g_inside _ _ _ _ _ _ _ _ _ G _ y eq_refl (proj1 (child_ok bb d Hok))).
          apply in_feats. eauto. }
        assert (Hyr : In y rest).
        { change rest with (remaining s0). apply Hback.
          apply (Permutation_in _ (Permutation_sym (r_perm _ _ _ _ _ _ (g_run _ _ _ _ _ _ _ _ _ G)))). apply in_or_app. left. apply in_feats. eauto. }
        rewrite <- Sr. apply filter_In. auto. }
      assert (Hbelow : forall g, okbox bb = true -> In g kids -> exists y, In y (skipn (limit max_per (remaining s)) (filter (inside bb) (remaining s)))).
      { intros g Hok Hgk. pose proof Hgk as Hgk'. destruct (Hkid _ Hgk) as (d & h & fs & Hfs & Hhl). destruct (Hgood _ _ _ Hhl) as (sa & sb & G & _).
        destruct (f_size _ _ _ _ (g_fine _ _ _ _ _ _ _ _ _ G) _ Hfs) as [Hz _]. destruct (fl_feats g) as [|y l] eqn:Ey; [congruence|].
        exists y. apply (Hdown g y Hok Hgk'). rewrite Ey. now left. }
      constructor; [exact R| | | discriminate | | | |].
      + constructor.
        * intros f Hin. destruct (Hlast _ Hin) as [Hk| ->].
          -- destruct (Hkid _ Hk) as (d & h & fs & Hfs & Hhl). destruct (Hgood _ _ _ Hhl) as (sa & sb & G & _).
             destruct (f_place _ _ _ _ (g_fine _ _ _ _ _ _ _ _ _ G) _ Hfs) as (p & A & B). exists (d :: p). split; [exact A | exact B].
          -- exists []. split; reflexivity.
        * intros f Hin. destruct (Hlast _ Hin) as [Hk| ->].
          -- destruct (Hkid _ Hk) as (d & h & fs & Hfs & Hhl). destruct (Hgood _ _ _ Hhl) as (sa & sb & G & _).
             apply (f_size _ _ _ _ (g_fine _ _ _ _ _ _ _ _ _ G) _ Hfs).
          -- rewrite Hft. split; [exact Hne|]. destruct max_per as [|m] eqn:Em; [now left|right].
             rewrite So, firstn_length. unfold limit. lia.
        * intros f x Hin Hx. destruct (Hlast _ Hin) as [Hk| ->].
          -- destruct (Hkid _ Hk) as (d & h & fs & Hfs & Hhl). destruct (Hgood _ _ _ Hhl) as (sa & sb & G & _).
             apply (f_inside _ _ _ _ (g_fine _ _ _ _ _ _ _ _ _ G) _ _ Hfs Hx).
          -- exists bb. split; [reflexivity|]. rewrite Hft in Hx.
             assert (Hx' : In x (filter (inside bb) (remaining s))).
             { rewrite <- (firstn_skipn (limit max_per (remaining s)) (filter _ _)), <- So. apply in_or_app. auto. }
             apply filter_In in Hx'. tauto.
        * intros f Hin. destruct (Hlast _ Hin) as [Hk| ->]; [auto | exact Hrfl].
        * intros f Hin Hq. destruct (Hlast _ Hin) as [Hk| ->]; [|congruence].
          destruct (Hkid _ Hk) as (d & h & fs & Hfs & Hhl). destruct (Hgood _ _ _ Hhl) as (sa & sb & G & _).
          destruct (str_dec (fl_id f) (qid_child q d)) as [E|E].
          -- exists rf, d. split; [apply in_or_app; right; now left | now rewrite Hid].
          -- destruct (f_up _ _ _ _ (g_fine _ _ _ _ _ _ _ _ _ G) _ Hfs E) as (g & d' & Hg & E').
             exists g, d'. split; auto. apply in_or_app. left. unfold kids. apply in_concat. exists fs. split; auto.
             apply in_map_iff. exists (d, h, fs). auto.
      + intros _. exists kids, rf. auto.
      + intros bb' x E Hm Hx. injection E as <-. unfold s' in Hx. cbn [remaining] in Hx.
        destruct (inside bb x) eqn:Ex; auto. exfalso. unfold inside in Ex. destruct (fpos x) as [[lat lon]|] eqn:Ep; [|discriminate].
        destruct (children_cover bb lat lon Hm Ex) as [d Hd].
        assert (Hhl : exists h fs, In (d, h, fs) hl) by (destruct d; cbn; eauto 8).
        destruct Hhl as (h & fs & Hhl). destruct (Hgood _ _ _ Hhl) as (sa & sb & G & _ & _ & Hl4).
        pose proof (g_complete _ _ _ _ _ _ _ _ _ G _ x eq_refl (child_mid _ d Hm) (Hl4 _ Hx)) as C.
        unfold inside in C. rewrite Ep in C. congruence.
      + intros bb' x E Hok Hx. injection E as <-. apply in_feats in Hx as (f & Hin & Hx). destruct (Hlast _ Hin) as [Hk| ->].
        * destruct (Hkid _ Hk) as (d & h & fs & Hfs & Hhl). destruct (Hgood _ _ _ Hhl) as (sa & sb & G & _).
          apply (inside_child bb d x Hok). apply (g_inside _ _ _ _ _ _ _ _ _ G _ x eq_refl).
          -- now apply child_ok.
          -- apply in_feats. eauto.
        * rewrite Hft in Hx. assert (Hx' : In x (filter (inside bb) (remaining s))).
             { rewrite <- (firstn_skipn (limit max_per (remaining s)) (filter _ _)), <- So. apply in_or_app. auto. }
             apply filter_In in Hx'. tauto.
      + intros bb' f E Hok Hin Hlk. injection E as <-. destruct (Hlast _ Hin) as [Hk| ->].
        * destruct (Hkid _ Hk) as (d & h & fs & Hfs & Hhl). destruct (Hgood _ _ _ Hhl) as (sa & sb & G & _).
          apply (g_full _ _ _ _ _ _ _ _ _ G _ f eq_refl (proj1 (child_ok bb d Hok)) Hfs Hlk).
        * rewrite Hft. assert (Hg : exists g, In g kids).
          { destruct kids as [|g kl] eqn:Ek; [|exists g; now left]. exfalso. apply Hlk. rewrite Hrfl.
            unfold child_names. cbn [app digits map filter concat].
            assert (X : forall d, eqs (fl_id rf) (qid_child q d) = false) by (intros d; apply eqs_neq, Hrk).
            now rewrite !X. }
          destruct Hg as (g & Hgk). destruct (Hbelow _ Hok Hgk) as (y & Hys).
          rewrite So, firstn_length. assert (Hsl : 0 < length (skipn (limit max_per (remaining s)) (filter (inside bb) (remaining s)))).
          { destruct (skipn _ _); [destruct Hys | cbn; lia]. }
          rewrite skipn_length in Hsl. assert (Hfl : length (filter (inside bb) (remaining s)) <= length (remaining s)) by apply filter_length.
          unfold limit in *. destruct max_per; lia.
      + intros bb' R0 E Hok HR f g t x y Hfi Hgi Et Ht Hx Hy. injection E as <-.
        destruct (Hlast _ Hfi) as [Hfk| ->], (Hlast _ Hgi) as [Hgk| ->].
        * destruct (Hkid _ Hfk) as (d & h & fs & Hfs & Hhl). destruct (Hgood _ _ _ Hhl) as (sa & sb & G & Hord & _).
          destruct (Hkid _ Hgk) as (d' & h' & fs' & Hfs' & Hhl'). destruct (Hgood _ _ _ Hhl') as (sa' & sb' & G' & _).
          pose proof (r_ids _ _ _ _ _ _ (g_run _ _ _ _ _ _ _ _ _ G) _ Hfs) as Hu.
          pose proof (r_ids _ _ _ _ _ _ (g_run _ _ _ _ _ _ _ _ _ G') _ Hfs') as Hu'.
          assert (Hu2 : under (qid_child q d) (fl_id g)).
          { unfold under in *. apply prefixb_spec in Hu as [t' Et']. rewrite Et, Et', <- app_assoc. apply prefixb_app. }
          assert (Hg2 : In g fs).
          { assert (X : In g (filter (fun g' => eqs (fl_id g') (fl_id g)) kids)) by (apply filter_In; split; auto; apply eqs_refl).
            rewrite (Hpick _ _ _ _ Hhl Hu2) in X. apply filter_In in X. tauto. }
          apply (g_order _ _ _ _ _ _ _ _ _ G _ R0 eq_refl (proj1 (child_ok bb d Hok))) with (f := f) (g := g) (t := t); auto.
          apply Hord. unfold s0. cbn [remaining]. apply (ss_interleave _ _ _ _ Hi HR).
        * exfalso. pose proof (r_ids _ _ _ _ _ _ R4 _ Hfk) as Hu. apply Huq in Hu. destruct Hu as [Hu _]. unfold under in Hu.
          apply prefixb_spec in Hu as [t' Et']. rewrite Hid, Et', <- app_assoc in Et. apply (f_equal (@length _)) in Et. rewrite !app_length in Et.
          destruct t; [congruence|]. cbn [length] in Et. lia.
        * (* the node's own features come before those below *)
          rewrite Hft in Hx.
          pose proof (Hdown _ _ Hok Hgk Hy) as Hys.
          rewrite So in Hx. apply (firstn_skipn_R R0 _ _ (filter_ss R0 (inside bb) _ HR) _ _ Hx Hys).
        * exfalso. apply (f_equal (@length _)) in Et. rewrite app_length in Et. destruct t; [congruence|]. cbn [length] in Et. lia.
  Qed.
End Regions.

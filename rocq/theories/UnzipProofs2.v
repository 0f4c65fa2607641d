(** Lemmas about reading ZIP archives from memory: the directory, the file data, safety. *)
From Verif Require Import Common StringsModel PathModel UnzipModel UnzipProofs.
Local Open Scope N_scope.

(** ** The directory of a well-formed archive *)
Definition no_nul (s : str) : Prop := ~ In "000"%char s.
Lemma cut_nul_id s : no_nul s -> cut_nul s = s.
Proof.
  induction s as [|c s IH]; intros H; [reflexivity|]. cbn [cut_nul].
  destruct (aeq c "000") eqn:E.
  - apply aeq_spec in E. elim H. now left.
  - f_equal. apply IH. intros Hi. apply H. now right.
Qed.

Section Directory.
  Variables (d : str) (es : list entry) (front comment : str) (off : N).
  Let cd := List.concat (map central es).
  Hypothesis Hd : d = front ++ cd ++ ending (N.of_nat (length es)) (len cd) off comment.
  Hypothesis Hoff : off <= len front.
  Hypothesis Hoff32 : off < 4294967296.
  Hypothesis Hcd32 : len cd < 4294967296.
  Hypothesis Hn16 : N.of_nat (length es) < 65536.
  Hypothesis Hfits : forall e, In e es -> fits e /\ at_ d (len front - off + e_off e) (local_ e).
  Hypothesis Hlen : len d <= zip_max.
  Hypothesis Hc16 : len comment < 65536.
  Hypothesis Hc : len comment <= 65513.
  Hypothesis Hlast : forall q, len front + len cd < q -> ~ at_ d q end_magic.
  Hypothesis Hne : es <> [].

  Let u := Unz (len front - off) (N.of_nat (length es)) off.

  Lemma end_at : at_ d (len front + len cd) (ending (N.of_nat (length es)) (len cd) off comment).
  Proof. exists (front ++ cd), []. rewrite app_nil_r, <- app_assoc, len_app. now split. Qed.
  Lemma cd_pos : 0 < len cd.
  Proof. unfold cd. destruct es as [|e l]; [congruence|]. cbn [map List.concat]. rewrite len_app, central_len. lia. Qed.

  Lemma attach_at : attach d = Ok (Some u).
  Proof.
    pose proof end_at as H. pose proof cd_pos as Hp.
    unfold attach. rewrite (search_found d (len front + len cd)).
    - cbn [bind]. destruct (N.eqb_spec (len front + len cd) 0); [lia|].
      set (c := len front + len cd) in *. unfold ending in H.
      fld (c + 4) H. fld (c + 6) H. fld (c + 8) H. fld (c + 10) H. fld (c + 12) H. fld (c + 16) H. fld (c + 20) H.
      apply at_l in H.
      erewrite !get_long_at, !get_short_at by (eassumption || lia).
      rewrite N.eqb_refl. cbn [N.eqb negb orb].
      destruct (N.ltb_spec c (off + len cd)); [unfold c in *; lia|]. unfold u. do 3 f_equal. unfold c. lia.
    - rewrite end_magic_le. exact (at_l _ _ _ _ H).
    - lia.
    - rewrite Hd. unfold ending. rewrite !len_app, !len_le. lia.
    - assumption.
    - assumption.
  Qed.

  (** The item behind [done]. *)
  Lemma item_at done e rest : es = done ++ e :: rest ->
    let p := off + len (List.concat (map central done)) in
    get_info d (p + u_before u) = Some (info_of e) /\ at_ d (p + u_before u + 46) (e_name e) /\ fits e.
  Proof.
    intros He p. assert (Hin : In e es) by (rewrite He; apply in_elt).
    destruct (Hfits e Hin) as [Hf _].
    enough (A : at_ d (p + u_before u) (central e)).
    { destruct (get_info_at d _ e A Hf Hlen). auto. }
    exists (front ++ List.concat (map central done)),
      (List.concat (map central rest) ++ ending (N.of_nat (length es)) (len cd) off comment).
    split.
    - assert (Ecd : cd = List.concat (map central done) ++ central e ++ List.concat (map central rest)).
      { unfold cd. rewrite He, map_app, concat_app. reflexivity. }
      rewrite Hd at 1.
      transitivity (front ++ (List.concat (map central done) ++ central e ++ List.concat (map central rest)) ++
        ending (N.of_nat (length es)) (len cd) off comment); [now rewrite <- Ecd|now rewrite <- !app_assoc].
    - rewrite len_app. unfold p, u. simpl. lia.
  Qed.

  Definition cursor_of (done : list entry) (e : entry) : cursor :=
    Cursor (N.of_nat (length done)) (off + len (List.concat (map central done))) (info_of e).

  Lemma first_at e rest : es = e :: rest -> go_first d u = Some (cursor_of [] e).
  Proof.
    intros He. destruct (item_at [] e rest He) as (H & _). unfold go_first, cursor_of.
    simpl in *. change (len []) with 0 in *. rewrite N.add_0_r in *. now rewrite H.
  Qed.
  Lemma next_at done e rest : es = done ++ e :: rest ->
    go_next d u (cursor_of done e) = match rest with [] => None | e' :: _ => Some (cursor_of (done ++ [e]) e') end.
  Proof.
    intros He. unfold go_next. cbn [c_num c_info c_pos cursor_of].
    assert (Hl : N.of_nat (length es) = N.of_nat (length done) + 1 + N.of_nat (length rest)) by (rewrite He, app_length; simpl; lia).
    assert (Hpos : off + len (List.concat (map central done)) + 46 + fi_name (info_of e) + fi_extra (info_of e) + fi_comment (info_of e)
      = off + len (List.concat (map central (done ++ [e])))).
    { rewrite map_app, concat_app, len_app. cbn [map List.concat]. rewrite app_nil_r, central_len. cbn [info_of fi_name fi_extra fi_comment]. lia. }
    rewrite Hpos. cbn [u_entries u].
    destruct rest as [|e' rest].
    - destruct (N.eqb_spec (N.of_nat (length es)) 65535) as [E|E]; cbn [negb andb].
      + replace (off + len (List.concat (map central (done ++ [e]))) + u_before u) with (len front + len cd).
        * now rewrite (get_info_end d _ _ _ _ _ end_at Hlen).
        * unfold cd, u. rewrite <- He. simpl. lia.
      + destruct (N.eqb_spec (N.of_nat (length done) + 1) (N.of_nat (length es))); [reflexivity|]. simpl in Hl. lia.
    - destruct (N.eqb_spec (N.of_nat (length done) + 1) (N.of_nat (length es))); [simpl in Hl; lia|].
      rewrite andb_false_r.
      destruct (item_at (done ++ [e]) e' rest) as (H & _); [now rewrite <- app_assoc|].
      cbv zeta in H. rewrite H. unfold cursor_of. rewrite app_length. do 2 f_equal. simpl. lia.
  Qed.

  Lemma name_at done e rest size : es = done ++ e :: rest -> len (e_name e) < size ->
    get_name d (c_pos (cursor_of done e) + u_before u) size (c_info (cursor_of done e)) = Some (e_name e, true).
  Proof.
    intros He Hs. destruct (item_at done e rest He) as (_ & H & _). cbv zeta in H.
    unfold get_name. cbn [c_pos c_info cursor_of fi_name info_of].
    destruct (N.ltb_spec (len (e_name e)) size); [|lia].
    destruct (N.eqb_spec (len (e_name e)) 0) as [E|E].
    - destruct (e_name e); [reflexivity|rewrite len_cons in E; lia].
    - rewrite (mem_read_at d _ (e_name e) H Hlen). now rewrite N.eqb_refl.
  Qed.

  Lemma toc_at : (forall e, In e es -> len (e_name e) < 1024 /\ no_nul (e_name e)) ->
    forall rest done e fuel, es = done ++ e :: rest -> (length rest < fuel)%nat ->
    toc_loop fuel d u (cursor_of done e) = Ok (map e_name (e :: rest)).
  Proof.
    intros Hnm. induction rest as [|e' rest IH]; intros done e fuel He Hf.
    - destruct fuel; [simpl in Hf; lia|]. cbn [toc_loop]. rewrite (next_at done e _ He).
      destruct (Hnm e) as [H1 H2]; [rewrite He; apply in_elt|].
      rewrite (name_at done e _ 1024 He H1). unfold c_string. cbn [orb bind]. now rewrite cut_nul_id.
    - destruct fuel; [simpl in Hf; lia|]. cbn [toc_loop]. rewrite (next_at done e _ He).
      destruct (Hnm e) as [H1 H2]; [rewrite He; apply in_elt|].
      rewrite (name_at done e _ 1024 He H1). unfold c_string. cbn [orb bind].
      rewrite (IH (done ++ [e]) e' fuel); [|now rewrite <- app_assoc|simpl in Hf; lia].
      cbn [bind]. now rewrite cut_nul_id.
  Qed.

  Lemma es_le_d : (length es <= length d)%nat.
  Proof.
    assert (H : forall l : list entry, N.of_nat (length l) <= len (List.concat (map central l))).
    { induction l as [|e l IH]; [unfold len; simpl; lia|]. cbn [map List.concat]. rewrite len_app, central_len. simpl length. lia. }
    specialize (H es). assert (len d >= len cd) by (rewrite Hd, !len_app; lia). unfold cd, len in *. lia.
  Qed.

  Lemma zip_toc_at : (forall e, In e es -> len (e_name e) < 1024 /\ no_nul (e_name e)) -> zip_toc d = Ok (map e_name es).
  Proof.
    intros Hnm. unfold zip_toc. rewrite attach_at. cbn [bind].
    pose proof es_le_d as Hl. 
    assert (Hex : exists e rest, es = e :: rest) by (clear - Hne; destruct es; [congruence|eauto]).
    destruct Hex as (e & rest & E).
    assert (He : es = [] ++ e :: rest) by exact E.
    rewrite (first_at e rest E). rewrite (toc_at Hnm rest [] e _ He).
    - now rewrite E.
    - rewrite E in Hl. simpl in Hl. lia.
  Qed.

  (** The platform's comparison of names. *)
  Definition same (cs : bool) (p : str) (e : entry) : bool :=
    if cs then eqs (e_name e) p else eqs (map upper (e_name e)) (map upper p).

  Lemma locate_at cs p : (forall e, In e es -> len (e_name e) < 256 /\ no_nul (e_name e)) ->
    forall rest done e fuel, es = done ++ e :: rest -> (length rest < fuel)%nat ->
    match List.find (same cs p) (e :: rest) with
    | Some e' => exists c, locate_loop fuel cs d u p (cursor_of done e) = Ok (Some c) /\ c_info c = info_of e'
    | None => locate_loop fuel cs d u p (cursor_of done e) = Ok None
    end.
  Proof.
    intros Hnm. induction rest as [|e' rest IH]; intros done e fuel He Hf.
    - destruct fuel; [simpl in Hf; lia|]. cbn [locate_loop List.find].
      destruct (Hnm e) as [H1 H2]; [rewrite He; apply in_elt|].
      rewrite (name_at done e _ 256 He H1). unfold same_name. rewrite cut_nul_id by assumption.
      fold (same cs p e). destruct (same cs p e); [eauto|]. now rewrite (next_at done e _ He).
    - destruct fuel; [simpl in Hf; lia|]. cbn [locate_loop]. cbn [List.find].
      destruct (Hnm e) as [H1 H2]; [rewrite He; apply in_elt|].
      rewrite (name_at done e _ 256 He H1). unfold same_name. rewrite cut_nul_id by assumption.
      fold (same cs p e). destruct (same cs p e); [eauto|]. rewrite (next_at done e _ He).
      apply (IH (done ++ [e]) e' fuel); [now rewrite <- app_assoc|simpl in Hf; lia].
  Qed.

  Lemma local_at e : In e es -> e_method e = 0 \/ e_method e = 8 ->
    exists p, local_data d u (info_of e) = Some p /\ at_ d p (e_raw e).
  Proof.
    intros Hin Hm. destruct (Hfits e Hin) as [Hf H]. destruct Hf.
    set (p := fi_offset (info_of e) + u_before u).
    assert (Hp : len front - off + e_off e = p) by (unfold p, u; simpl; lia). rewrite Hp in H.
    unfold local_ in H.
    fld (p + 4) H. fld (p + 6) H. fld (p + 8) H. fld (p + 10) H. fld (p + 14) H. fld (p + 18) H.
    fld (p + 22) H. fld (p + 26) H. fld (p + 28) H. fld (p + 30) H.
    exists (p + 30 + len (e_name e) + len (e_lextra e)). split.
    - unfold local_data. fold p. cbv zeta.
      erewrite !get_long_at, !get_short_at by (eassumption || lia).
      cbn [fi_method fi_crc fi_csize fi_usize fi_name info_of]. rewrite !N.eqb_refl.
      replace ((e_method e =? 0) || (e_method e =? 8)) with true by (destruct Hm as [-> | ->]; reflexivity).
      destruct f_sizes as [->|(-> & -> & ->)]; [rewrite !orb_true_r|rewrite !N.eqb_refl]; reflexivity.
    - apply (fun H => at_r _ _ _ _ (p + 30 + len (e_name e)) H) in H; [|reflexivity].
      apply (fun H => at_r _ _ _ _ (p + 30 + len (e_name e) + len (e_lextra e)) H) in H; [|reflexivity].
      exact H.
  Qed.
End Directory.

(** ** The file data *)
Section Data.
  Variable zst : Type.
  Variable z_init : zst.
  Variable z_step : zst -> str -> N -> zst * str * str * Z.

  (** The contract of zlib's inflate. [R s z o]: in state [s] the input [z], still to come, makes the
      output [o], still to come. A call gives a part of the output, uses a part of the input, and
      makes progress; the end of the stream is reported only when all output was given. *)
  Definition inflates (R : zst -> str -> str -> Prop) : Prop :=
    forall s a rest o n, R s (a ++ rest) o -> o <> [] -> 0 < n -> (a <> [] \/ rest = []) ->
    exists s' out a' code used o', z_step s a n = (s', out, a', code) /\ a = used ++ a' /\ o = out ++ o' /\
      len out <= n /\ R s' (a' ++ rest) o' /\
      ((code = 0%Z /\ (used <> [] \/ out <> [])) \/ (code = 1%Z /\ o' = [])).

  Lemma at_split d p s k : at_ d p s -> k <= len s ->
    at_ d p (firstn (N.to_nat k) s) /\ at_ d (p + k) (skipn (N.to_nat k) s) /\ len (firstn (N.to_nat k) s) = k /\
    len (skipn (N.to_nat k) s) = len s - k.
  Proof.
    intros H Hk. rewrite <- (firstn_skipn (N.to_nat k) s) in H.
    assert (L : len (firstn (N.to_nat k) s) = k) by (unfold len in *; rewrite firstn_length; lia).
    split; [exact (at_l _ _ _ _ H)|]. split; [exact (at_r _ _ _ _ (p + k) H ltac:(lia))|].
    split; [exact L|]. unfold len in *. rewrite skipn_length. lia.
  Qed.
  Lemma len_nil_iff s : len s = 0 <-> s = [].
  Proof. destruct s; [now split|]. rewrite len_cons. split; [lia|discriminate]. Qed.

  Lemma read_stored d : len d <= zip_max -> forall fuel pos x st avail out,
    at_ d pos x -> (N.to_nat (len avail + len x) < fuel)%nat ->
    read_loop zst z_step fuel 0 d pos (len x) st avail (len avail + len x) out = Ok (Some (out ++ avail ++ x)).
  Proof.
    intros Hd. induction fuel as [|fuel IH]; intros pos x st avail out Hx Hf; [lia|]. cbn [read_loop].
    destruct (N.eqb_spec (len avail + len x) 0) as [E|E].
    { assert (len avail = 0) by lia. assert (len x = 0) by lia.
      rewrite len_nil_iff in *. subst. now rewrite app_nil_r. }
    cbn [N.eqb]. destruct (N.eqb_spec (len avail) 0) as [Ea|Ea]; cbn [andb].
    - apply len_nil_iff in Ea. subst avail. change (len []) with 0 in *.
      destruct (N.ltb_spec 0 (len x)); [|lia].
      set (n := if len x <? 16384 then len x else 16384).
      assert (Hn : n <= len x /\ 0 < n) by (unfold n; destruct (N.ltb_spec (len x) 16384); lia).
      destruct (at_split d pos x n Hx ltac:(lia)) as (A1 & A2 & A3 & A4).
      assert (M : mem_read d pos n = firstn (N.to_nat n) x).
      { rewrite <- A3 at 1. now apply mem_read_at. }
      rewrite M, A3, N.eqb_refl.
      replace (len x - n) with (len (skipn (N.to_nat n) x)) by lia.
      destruct (N.eqb_spec n 0); [lia|]. cbn [andb].
      rewrite N.add_0_l. destruct (N.ltb_spec (len x) n); [lia|].
      replace (len x - n) with (len [] + len (skipn (N.to_nat n) x)) by (change (len []) with 0; lia).
      replace (firstn (N.to_nat n) (firstn (N.to_nat n) x)) with (firstn (N.to_nat n) x)
        by (rewrite firstn_firstn, Nat.min_id; reflexivity).
      replace (skipn (N.to_nat n) (firstn (N.to_nat n) x)) with (@nil ascii)
        by (symmetry; apply skipn_all2; rewrite firstn_length; lia).
      rewrite IH; [|assumption|change (len []) with 0; lia].
      cbn [app]. now rewrite <- app_assoc, firstn_skipn.
    - destruct (N.ltb_spec (len avail + len x) (len avail)); [lia|].
      replace (skipn (N.to_nat (len avail)) avail) with (@nil ascii) by (symmetry; apply skipn_all2; unfold len; lia).
      replace (firstn (N.to_nat (len avail)) avail) with avail by (symmetry; apply firstn_all2; unfold len; lia).
      replace (len avail + len x - len avail) with (len [] + len x) by (change (len []) with 0; lia).
      rewrite IH; [|assumption|change (len []) with 0; lia]. cbn [app]. now rewrite <- app_assoc.
  Qed.

  Lemma read_deflated R d : inflates R -> len d <= zip_max -> forall fuel m pos x st avail o out, m <> 0 ->
    at_ d pos x -> R st (avail ++ x) o -> (N.to_nat (len o + len avail + len x) < fuel)%nat ->
    read_loop zst z_step fuel m d pos (len x) st avail (len o) out = Ok (Some (out ++ o)).
  Proof.
    intros HR Hd. induction fuel as [|fuel IH]; intros m pos x st avail o out Hm Hx Ho Hf; [lia|]. cbn [read_loop].
    destruct (N.eqb_spec (len o) 0) as [E|E].
    { apply len_nil_iff in E. subst. now rewrite app_nil_r. }
    destruct (N.eqb_spec m 0) as [|_]; [lia|].
    assert (Hne : o <> []) by (intros ->; now apply E).
    assert (Step : forall pos' x' a, at_ d pos' x' -> R st (a ++ x') o -> (a <> [] \/ x' = []) ->
      (N.to_nat (len o + len a + len x') <= fuel)%nat ->
      (let '(st', o1, avail', code) := z_step st a (len o) in
        if (code =? 1)%Z then Ok (Some (out ++ o1))
        else if (code =? 0)%Z then read_loop zst z_step fuel m d pos' (len x') st' avail' (len o - len o1) (out ++ o1)
        else Ok None) = Ok (Some (out ++ o))).
    { intros pos' x' a Hx' Ho' Ha Hf'.
      destruct (HR st a x' o (len o) Ho' Hne ltac:(lia) Ha) as (s' & o1 & a' & code & used & o2 & Es & Eu & Eo & Hl & Hr & Hcase).
      rewrite Es. destruct Hcase as [[-> Hprog]|[-> ->]].
      - change (0 =? 1)%Z with false. change (0 =? 0)%Z with true. cbv iota.
        assert (L1 : len o = len o1 + len o2) by (rewrite Eo, len_app; lia).
        assert (L2 : len a = len used + len a') by (rewrite Eu, len_app; lia).
        replace (len o - len o1) with (len o2) by lia.
        assert (0 < len used + len o1).
        { pose proof (len_nil_iff used). pose proof (len_nil_iff o1). destruct Hprog as [P|P]; [assert (len used <> 0) by tauto|assert (len o1 <> 0) by tauto]; lia. }
        rewrite (IH m pos' x' s' a' o2 (out ++ o1)); [|assumption|assumption|assumption|lia].
        rewrite <- app_assoc. now rewrite <- Eo.
      - change (1 =? 1)%Z with true. cbv iota. rewrite Eo. now rewrite app_nil_r. }
    destruct (N.eqb_spec (len avail) 0) as [Ea|Ea]; cbn [andb].
    - apply len_nil_iff in Ea. subst avail.
      destruct (N.ltb_spec 0 (len x)) as [L|L].
      + set (n := if len x <? 16384 then len x else 16384).
        assert (Hn : n <= len x /\ 0 < n) by (unfold n; destruct (N.ltb_spec (len x) 16384); lia).
        destruct (at_split d pos x n Hx ltac:(lia)) as (A1 & A2 & A3 & A4).
        assert (M : mem_read d pos n = firstn (N.to_nat n) x).
        { rewrite <- A3 at 1. now apply mem_read_at. }
        rewrite M, A3, N.eqb_refl.
        replace (len x - n) with (len (skipn (N.to_nat n) x)) by lia.
        apply Step; [assumption|now rewrite firstn_skipn| |change (len []) with 0 in Hf; lia].
        left. intros Hnil. rewrite Hnil in A3. change (len []) with 0 in A3. lia.
      + apply Step; [assumption|assumption| |lia]. right. apply len_nil_iff. lia.
    - apply Step; [assumption|assumption| |]. { left. intros ->. now apply Ea. }
      (* a call with input at hand *)
      lia.
  Qed.
End Data.

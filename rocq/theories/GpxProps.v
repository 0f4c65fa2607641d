(** Properties of the GPX track point reader. *)
From Verif Require Import Common StrMap AttributesModel XmlSpec CoordModel XmlTree GpxModel.

(** C47. A GPX document as a tree.  [number s]: s is not blank, and its number is read from here. *)
Definition number (s : str) : option str := from_string_double s.
(** Text of an element holding only character data. *)
Fixpoint text_of (k : list xt) : option str :=
  match k with
  | [] => Some []
  | XChar c :: k' => option_map (cons c) (text_of k')
  | _ => None
  end.
(** Well-formed track data: track points have both coordinates, not blank, and are not nested; ele and time
    hold text, the text of an ele is not blank. *)
Fixpoint tidy (inside : bool) (t : xt) : bool :=
  match t with
  | XChar _ => true
  | XT n a k =>
      if eqs n (S_ "trkpt") then
        negb inside && (match mget (S_ "lat") (gattrs a), mget (S_ "lon") (gattrs a) with
                        | Some la, Some lo => (if number la then true else false) && (if number lo then true else false)
                        | _, _ => false end) && forallb (tidy true) k
      else if eqs n (S_ "time") then (if text_of k then true else false)
      else if eqs n (S_ "ele") then (match text_of k with Some s => if number s then true else false | None => false end)
      else forallb (tidy inside) k
  end.
(** The texts of the elements with this tag. *)
Fixpoint texts (tag : str) (t : xt) : list str :=
  match t with
  | XChar _ => []
  | XT n _ k => (if eqs n tag then match text_of k with Some s => [s] | None => [] end else flat_map (texts tag) k)
  end.
Definition altitude (k : list xt) : option str :=
  match rev (flat_map (texts (S_ "ele")) k) with [] => None | s :: _ => number s end.
Definition when (k : list xt) : str := last (flat_map (texts (S_ "time")) k) [].
(** The track points of a document in document order, each with its own coordinates, altitude and time. *)
Fixpoint track (t : xt) : list (gpoint * str) :=
  match t with
  | XChar _ => []
  | XT n a k =>
      if eqs n (S_ "trkpt") then
        match mget (S_ "lat") (gattrs a), mget (S_ "lon") (gattrs a) with
        | Some la, Some lo =>
            match number la, number lo with
            | Some la, Some lo => [({| p_lon := lo; p_lat := la; p_alt := altitude k |}, when k)]
            | _, _ => []
            end
        | _, _ => []
        end
      else flat_map track k
  end.

Lemma grun_app g l r : gpx_run g (l ++ r) = (do g1 <- gpx_run g l; gpx_run g1 r).
Proof.
  revert g. induction l as [|e l IH]; intros g; cbn; auto. destruct e as [n a|n|c]; auto.
  - destruct (gpx_start g n a); cbn; auto.
  - destruct (gpx_end g n); cbn; auto.
Qed.
Definition gst v t ga tx o : gpx := {| g_vec := v; g_time := t; g_gather := ga; g_text := tx; g_out := o |}.
Lemma run_text k : forall s, text_of k = Some s -> forall v t tx o,
  gpx_run (gst v t true tx o) (flat_map xevents k) = Ok (gst v t true (tx ++ s) o).
Proof.
  induction k as [|[n a k'|c] k IH]; cbn; intros s H v t tx o.
  - injection H as <-. now rewrite app_nil_r.
  - discriminate.
  - destruct (text_of k) as [s'|]; [|discriminate]. injection H as <-. unfold gpx_char. cbn.
    replace (tx ++ c :: s') with ((tx ++ [c]) ++ s') by (rewrite <- app_assoc; reflexivity). now apply IH.
Qed.
(** Effect on the altitude and time of what is inside of a track point. *)
Definition alt_of (d : option str) (l : list str) : option str := match rev l with [] => d | s :: _ => number s end.
Definition bump (v : gpoint) (l : list str) : gpoint := {| p_lon := p_lon v; p_lat := p_lat v; p_alt := alt_of (p_alt v) l |}.
Lemma bump_app v l k : Forall (fun s => number s <> None) k -> bump (bump v l) k = bump v (l ++ k).
Proof.
  intros F. unfold bump, alt_of. cbn. f_equal. rewrite rev_app_distr.
  destruct (rev k) as [|x y]; [reflexivity|]. reflexivity.
Qed.
Lemma bump_nil v : bump v [] = v.
Proof. now destruct v. Qed.
Lemma last_cons' {A} (x : A) l d : last (x :: l) d = last l x.
Proof. revert x d. induction l as [|y l IH]; intros x d; auto. change (last (y :: l) d = last (y :: l) x). rewrite !IH. reflexivity. Qed.
Lemma last_app' {A} (l k : list A) d : last (l ++ k) d = last k (last l d).
Proof. revert d. induction l as [|x l IH]; intros d; auto. rewrite <- app_comm_cons, !last_cons'. apply IH. Qed.

Definition inside_of (t : xt) : Prop := tidy true t = true -> forall v tm ga tx o, exists ga' tx',
  gpx_run (gst (Some v) tm ga tx o) (xevents t) =
  Ok (gst (Some (bump v (texts (S_ "ele") t))) (last (texts (S_ "time") t) tm) ga' tx' o).
Lemma tidy_numbers i t : tidy i t = true -> Forall (fun s => number s <> None) (texts (S_ "ele") t).
Proof.
  revert i. induction t as [c|n a k IH] using xt_ind'; intros i T; [constructor|]. cbn [tidy texts] in *.
  assert (K : forall j, forallb (tidy j) k = true -> Forall (fun s => number s <> None) (flat_map (texts (S_ "ele")) k)).
  { clear T. intros j H. induction IH as [|t k Ht IH IHk]; cbn in *; [constructor|]. apply andb_prop in H as [H1 H2].
    apply Forall_app. split; [now apply (Ht j)|now apply IHk]. }
  destruct (eqs n (S_ "trkpt")) eqn:E1.
  { apply eqs_spec in E1. subst n. change (eqs (S_ "trkpt") (S_ "ele")) with false. cbv iota.
    apply andb_prop in T as [_ T]. now apply (K true). }
  destruct (eqs n (S_ "time")) eqn:E2.
  { apply eqs_spec in E2. subst n. change (eqs (S_ "time") (S_ "ele")) with false. cbv iota.
    destruct (text_of k) as [s|] eqn:Ek; [|discriminate].
    assert (Z : flat_map (texts (S_ "ele")) k = []).
    { clear -Ek. revert s Ek. induction k as [|[n a k'|c] k IH]; cbn; intros s H; auto; [discriminate|].
      destruct (text_of k); [|discriminate]. eapply IH; eauto. }
    rewrite Z. constructor. }
  destruct (eqs n (S_ "ele")); [|now apply (K i)].
  destruct (text_of k) as [s|]; [|discriminate]. constructor; [|constructor]. destruct (number s); [discriminate|discriminate].
Qed.
Lemma run_kids_inside k : Forall inside_of k -> forallb (tidy true) k = true -> forall v tm ga tx o, exists ga' tx',
  gpx_run (gst (Some v) tm ga tx o) (flat_map xevents k) =
  Ok (gst (Some (bump v (flat_map (texts (S_ "ele")) k))) (last (flat_map (texts (S_ "time")) k) tm) ga' tx' o).
Proof.
  intros H. induction H as [|t k Ht H IH]; intros T v tm ga tx o.
  - exists ga, tx. cbn. now rewrite bump_nil.
  - cbn in T. apply andb_prop in T as [T1 T2]. cbn [flat_map]. rewrite grun_app.
    destruct (Ht T1 v tm ga tx o) as (ga1 & tx1 & ->). cbn [bind].
    destruct (IH T2 (bump v (texts (S_ "ele") t)) (last (texts (S_ "time") t) tm) ga1 tx1 o) as (ga2 & tx2 & ->).
    exists ga2, tx2. rewrite bump_app, last_app'; auto.
    clear -T2. induction k as [|t k IH]; cbn in *; [constructor|]. apply andb_prop in T2 as [A B].
    apply Forall_app. split; [now apply (tidy_numbers true)|auto].
Qed.
Lemma inside_all t : inside_of t.
Proof.
  induction t as [c|n a k IH] using xt_ind'; intros T v tm ga tx o.
  - cbn. unfold gpx_char. cbn. destruct ga; eexists; eexists; rewrite bump_nil; reflexivity.
  - cbn [tidy] in T. cbn [xevents gpx_run texts]. unfold gpx_start.
    destruct (eqs n (S_ "trkpt")) eqn:E1; [discriminate|].
    destruct (eqs n (S_ "time")) eqn:E2.
    { apply eqs_spec in E2. subst n. cbn [orb bind]. destruct (text_of k) as [s|] eqn:Ek; [|discriminate].
      change (eqs (S_ "time") (S_ "ele")) with false. cbv iota.
      assert (Z : flat_map (texts (S_ "ele")) k = []).
      { clear -Ek. revert s Ek. induction k as [|[n a k'|c] k IH]; cbn; intros s H; auto; [discriminate|].
        destruct (text_of k); [|discriminate]. eapply IH; eauto. }
      rewrite Z, bump_nil.
      unfold gst at 1. cbn [g_vec g_time g_gather g_text g_out].
      change {| g_vec := Some v; g_time := tm; g_gather := true; g_text := []; g_out := o |} with (gst (Some v) tm true [] o).
      rewrite grun_app, (run_text k s Ek). cbn [bind gpx_run app]. exists true, s. reflexivity. }
    destruct (eqs n (S_ "ele")) eqn:E3.
    { apply eqs_spec in E3. subst n. cbn [orb bind]. destruct (text_of k) as [s|] eqn:Ek; [|discriminate].
      assert (Z : flat_map (texts (S_ "time")) k = []).
      { clear -Ek. revert s Ek. induction k as [|[n a k'|c] k IH]; cbn; intros s H; auto; [discriminate|].
        destruct (text_of k); [|discriminate]. eapply IH; eauto. }
      rewrite Z. destruct (number s) as [d|] eqn:En; [|discriminate].
      unfold gst at 1. cbn [g_vec g_time g_gather g_text g_out].
      change {| g_vec := Some v; g_time := tm; g_gather := true; g_text := []; g_out := o |} with (gst (Some v) tm true [] o).
      rewrite grun_app, (run_text k s Ek). cbn [bind gpx_run app]. unfold gpx_end.
      change (eqs (S_ "ele") (S_ "trkpt")) with false. change (eqs (S_ "ele") (S_ "time")) with false.
      change (eqs (S_ "ele") (S_ "ele")) with true. cbv iota. cbn [gst g_vec g_text]. unfold number in En. rewrite En. cbn [bind].
      exists true, s. unfold bump, alt_of. cbn [rev app]. unfold number. rewrite En. reflexivity. }
    cbn [orb bind].
    rewrite grun_app. destruct (run_kids_inside k IH T v tm ga tx o) as (ga1 & tx1 & ->). cbn [bind gpx_run].
    unfold gpx_end. rewrite E1, E2, E3. cbn [bind]. exists ga1, tx1. reflexivity.
Qed.
Definition outside_of (t : xt) : Prop := tidy false t = true -> forall v tm ga tx o, exists v' tm' ga' tx',
  gpx_run (gst v tm ga tx o) (xevents t) = Ok (gst v' tm' ga' tx' (o ++ track t)).
Lemma run_kids_outside k : Forall outside_of k -> forallb (tidy false) k = true -> forall v tm ga tx o, exists v' tm' ga' tx',
  gpx_run (gst v tm ga tx o) (flat_map xevents k) = Ok (gst v' tm' ga' tx' (o ++ flat_map track k)).
Proof.
  intros H. induction H as [|t k Ht H IH]; intros T v tm ga tx o.
  - exists v, tm, ga, tx. cbn. now rewrite app_nil_r.
  - cbn in T. apply andb_prop in T as [T1 T2]. cbn [flat_map]. rewrite grun_app.
    destruct (Ht T1 v tm ga tx o) as (v1 & tm1 & ga1 & tx1 & ->). cbn [bind].
    destruct (IH T2 v1 tm1 ga1 tx1 (o ++ track t)) as (v2 & tm2 & ga2 & tx2 & ->).
    exists v2, tm2, ga2, tx2. now rewrite app_assoc.
Qed.
Lemma no_track k s : text_of k = Some s -> flat_map track k = [].
Proof.
  revert s. induction k as [|[n a k'|c] k IH]; cbn; intros s H; auto; [discriminate|].
  destruct (text_of k); [|discriminate]. eapply IH; eauto.
Qed.
Lemma outside_all t : outside_of t.
Proof.
  induction t as [c|n a k IH] using xt_ind'; intros T v tm ga tx o.
  - cbn. rewrite app_nil_r. unfold gpx_char. cbn. destruct ga; repeat eexists.
  - cbn [tidy] in T. cbn [xevents gpx_run track]. unfold gpx_start.
    destruct (eqs n (S_ "trkpt")) eqn:E1.
    { apply andb_prop in T as [T Tk]. cbn [negb andb] in T.
      destruct (mget (S_ "lat") (gattrs a)) as [la|]; [|discriminate].
      destruct (mget (S_ "lon") (gattrs a)) as [lo|]; [|discriminate]. fold (number la) (number lo).
      destruct (number la) as [lat|]; [|discriminate]. destruct (number lo) as [lon|]; [|discriminate]. cbn [bind].
      unfold gst at 1 2 3. cbn [g_vec g_time g_gather g_text g_out].
      rewrite grun_app.
      destruct (run_kids_inside k) with (v := {| p_lon := lon; p_lat := lat; p_alt := None |}) (tm := [] : str) (ga := ga) (tx := tx) (o := o)
        as (ga1 & tx1 & R).
      { apply Forall_forall. intros t _. apply inside_all. }
      { exact Tk. }
      change {| g_vec := Some {| p_lon := lon; p_lat := lat; p_alt := None |}; g_time := []; g_gather := ga; g_text := tx; g_out := o |}
        with (gst (Some {| p_lon := lon; p_lat := lat; p_alt := None |}) [] ga tx o).
      rewrite R. cbn [bind gpx_run]. unfold gpx_end. rewrite E1. cbn [bind gst g_vec g_out g_time g_gather g_text].
      repeat eexists. }
    destruct (eqs n (S_ "time")) eqn:E2.
    { apply eqs_spec in E2. subst n. cbn [orb bind]. destruct (text_of k) as [s|] eqn:Ek; [|discriminate].
      rewrite (no_track k s Ek), app_nil_r.
      unfold gst at 1. cbn [g_vec g_time g_gather g_text g_out].
      change {| g_vec := v; g_time := tm; g_gather := true; g_text := []; g_out := o |} with (gst v tm true [] o).
      rewrite grun_app, (run_text k s Ek). cbn [bind gpx_run app]. repeat eexists. }
    destruct (eqs n (S_ "ele")) eqn:E3.
    { apply eqs_spec in E3. subst n. cbn [orb bind]. destruct (text_of k) as [s|] eqn:Ek; [|discriminate].
      rewrite (no_track k s Ek), app_nil_r.
      destruct (number s) as [d|] eqn:En; [|discriminate].
      unfold gst at 1. cbn [g_vec g_time g_gather g_text g_out].
      change {| g_vec := v; g_time := tm; g_gather := true; g_text := []; g_out := o |} with (gst v tm true [] o).
      rewrite grun_app, (run_text k s Ek). cbn [bind gpx_run app]. unfold gpx_end.
      change (eqs (S_ "ele") (S_ "trkpt")) with false. change (eqs (S_ "ele") (S_ "time")) with false.
      change (eqs (S_ "ele") (S_ "ele")) with true. cbv iota. cbn [gst g_vec g_text]. unfold number in En. rewrite En.
      destruct v; cbn [bind]; repeat eexists. }
    cbn [orb bind].
    rewrite grun_app. destruct (run_kids_outside k IH T v tm ga tx o) as (v1 & tm1 & ga1 & tx1 & ->). cbn [bind gpx_run].
    unfold gpx_end. rewrite E1, E2, E3. cbn [bind]. repeat eexists.
Qed.
Theorem gpx_points_correct : forall doc, tidy false doc = true -> gpx_points (xevents doc) = Ok (track doc).
Proof.
  intros doc T. unfold gpx_points. destruct (outside_all doc T None [] false [] []) as (v & tm & ga & tx & R).
  change gpx_start_state with (gst None [] false [] []). rewrite R. reflexivity.
Qed.
Print Assumptions gpx_points_correct.

Definition pt (lat lon : string) (k : list xt) : xt :=
  XT (S_ "trkpt") [(S_ "lat", list_ascii_of_string lat); (S_ "lon", list_ascii_of_string lon)] k.
Definition leaf (n s : string) : xt := XT (list_ascii_of_string n) [] (map XChar (list_ascii_of_string s)).
Example gpx_example : tidy false (XT (S_ "gpx") [] [leaf "time" "t0"; pt "1" "2" [leaf "ele" "5"; leaf "time" "t1"]; pt "3" "4" []]) = true
  /\ track (XT (S_ "gpx") [] [leaf "time" "t0"; pt "1" "2" [leaf "ele" "5"; leaf "time" "t1"]; pt "3" "4" []]) =
     [({| p_lon := S_ "2"; p_lat := S_ "1"; p_alt := Some (S_ "5") |}, S_ "t1"); ({| p_lon := S_ "4"; p_lat := S_ "3"; p_alt := None |}, [])].
Proof. split; vm_compute; reflexivity. Qed.

(** A point without coordinates is reported with those of the point before. *)
Theorem gpx_missing_coordinates_refuted : exists doc p q, gpx_points (xevents doc) = Ok [p; q] /\ fst p = fst q /\
  track doc = [p].
Proof.
  exists (XT (S_ "gpx") [] [pt "1" "2" []; XT (S_ "trkpt") [] [leaf "time" "t"]]). eexists. eexists.
  split; [vm_compute; reflexivity|]. split; vm_compute; reflexivity.
Qed.
Print Assumptions gpx_missing_coordinates_refuted.
(** A blank altitude or a blank coordinate makes the reader use a number that was never set. *)
Theorem gpx_blank_number_refuted :
  gpx_points (xevents (XT (S_ "gpx") [] [pt "1" "2" [leaf "ele" ""]])) = UB /\
  gpx_points (xevents (XT (S_ "gpx") [] [pt "" "2" []])) = UB.
Proof. split; vm_compute; reflexivity. Qed.
Print Assumptions gpx_blank_number_refuted.
(** Before the first point with coordinates nothing is reported: no document invents a point. *)
Theorem gpx_no_coordinates_no_points : forall l, (forall a, In (EStart (S_ "trkpt") a) l ->
    mget (S_ "lat") (gattrs a) = None \/ mget (S_ "lon") (gattrs a) = None) -> gpx_points l = Ok [].
Proof.
  intros l H. unfold gpx_points.
  assert (G : forall g, g_vec g = None -> g_out g = [] -> exists g', gpx_run g l = Ok g' /\ g_out g' = []).
  { induction l as [|e l IH]; intros g V O; [exists g; auto|]. specialize (IH (fun a Ha => H a (or_intror Ha))).
    destruct e as [n a|n|c]; cbn [gpx_run].
    - unfold gpx_start. destruct (eqs n (S_ "trkpt")) eqn:E.
      + apply eqs_spec in E. subst n. destruct (H a (or_introl eq_refl)) as [-> | ->].
        * cbn [bind]. apply IH; auto.
        * destruct (mget (S_ "lat") (gattrs a)); cbn [bind]; apply IH; auto.
      + destruct (eqs n (S_ "time") || eqs n (S_ "ele")); cbn [bind]; apply IH; auto.
    - unfold gpx_end. rewrite V. destruct (eqs n (S_ "trkpt")); [cbn [bind]; apply IH; auto|].
      destruct (eqs n (S_ "time")); [cbn [bind]; apply IH; auto|]. destruct (eqs n (S_ "ele")); cbn [bind]; apply IH; auto.
    - apply IH; unfold gpx_char; destruct (g_gather g); auto. }
  destruct (G gpx_start_state eq_refl eq_refl) as (g' & -> & O). cbn. now rewrite O.
Qed.
Print Assumptions gpx_no_coordinates_no_points.

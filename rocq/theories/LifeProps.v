(** C115: how long elements live. *)
From Coq Require Import Relations Lia.
From Verif Require Import Common ParentModel ParentProofs.
Local Open Scope N_scope.

(** Somebody points to [n]: the caller, or an element which exists. *)
Definition referenced (h : heap) (n : N) : Prop := ext h n <> 0%nat \/ exists p, alive h p = true /\ holds h p n.
(** No pointer that can be followed leads to a deleted element. *)
Record closed (h : heap) : Prop := {
  cl_ext : forall n, ext h n <> 0%nat -> alive h n = true;
  cl_kids : forall p c, alive h p = true -> holds h p c -> alive h c = true;
  cl_range : forall n, alive h n = true -> n < next h }.
(** Nothing is left over. *)
Definition clean (h : heap) : Prop := forall n, alive h n = true -> referenced h n.

Lemma in_ids h n : In n (ids h) <-> n < next h.
Proof.
  unfold ids. rewrite in_map_iff. split.
  - intros (k & <- & Hk). apply in_seq in Hk. lia.
  - intros H. exists (N.to_nat n). split; [lia|]. apply in_seq. lia.
Qed.
Lemma list_sum_zero {A} (f : A -> nat) l : list_sum (map f l) = 0%nat <-> forall x, In x l -> f x = 0%nat.
Proof.
  induction l as [|x l IH]; [split; [intros _ x []|reflexivity]|]. change (list_sum (map f (x :: l))) with (f x + list_sum (map f l))%nat. split.
  - intros H y [<-|Hy]; [lia|]. apply IH; [lia|exact Hy].
  - intros H. rewrite (H x) by now left. apply IH. intros y Hy. apply H. now right.
Qed.
Lemma refcount_zero h n : closed h -> (refcount h n = 0%nat <-> ~ referenced h n).
Proof.
  intros C. unfold refcount, referenced. split.
  - intros H [He|(p & Hp & k & Hk)]; [lia|]. assert (H2 : list_sum (map (fun p => if alive h p then length (filter (fun e => snd e =? n) (kids h p)) else 0%nat) (ids h)) = 0%nat) by lia.
    rewrite list_sum_zero in H2. specialize (H2 p (proj2 (in_ids h p) (cl_range h C p Hp))). cbv beta in H2. rewrite Hp in H2.
    assert (Q : In (k, n) (filter (fun e => snd e =? n) (kids h p))) by (apply filter_In; split; [exact Hk|apply N.eqb_refl]).
    destruct (filter (fun e => snd e =? n) (kids h p)); [destruct Q|discriminate].
  - intros H. assert (E : ext h n = 0%nat) by (destruct (ext h n); [reflexivity|exfalso; apply H; left; discriminate]). rewrite E. cbn [Nat.add].
    apply list_sum_zero. intros p Hp. destruct (alive h p) eqn:A; [|reflexivity].
    destruct (filter (fun e => snd e =? n) (kids h p)) as [|e l] eqn:F; [reflexivity|]. exfalso. apply H. right. exists p. split; [exact A|].
    assert (Q : In e (filter (fun e => snd e =? n) (kids h p))) by (rewrite F; now left). apply filter_In in Q as [Q1 Q2]. apply N.eqb_eq in Q2. destruct e as [k c]. cbn [snd] in Q2. subst.
    now exists k.
Qed.

(** ** Deleting what nobody points to *)
Lemma free_closed h n : closed h -> ~ referenced h n -> closed (free h n).
Proof.
  intros [C1 C2 C3] Hn. constructor; cbn.
  - intros m Hm. unfold upd. destruct (N.eqb_spec m n) as [->|Hne]; [exfalso; apply Hn; now left|now apply C1].
  - intros p c Hp [k Hk]. cbn in Hk. unfold upd in Hp, Hk |- *. destruct (N.eqb_spec p n) as [->|Hpn]; [discriminate|].
    destruct (N.eqb_spec c n) as [->|Hcn]; [|apply (C2 p c Hp); now exists k]. exfalso. apply Hn. right. exists p. split; [exact Hp|now exists k].
  - intros m. unfold upd. destruct (m =? n); [discriminate|]. apply C3.
Qed.
Definition living (h : heap) : nat := length (filter (alive h) (ids h)).
Lemma free_living h n : closed h -> alive h n = true -> (living (free h n) < living h)%nat.
Proof.
  intros C Hn. unfold living. change (ids (free h n)) with (ids h). pose proof (proj2 (in_ids h n) (cl_range h C n Hn)) as Hi. revert Hi. generalize (ids h). intros l. cbn [free alive].
  assert (Le : forall l, (length (filter (upd (alive h) n false) l) <= length (filter (alive h) l))%nat).
  { intros l'. induction l' as [|x l' IH]; [apply le_n|]. cbn [filter]. unfold upd at 1. destruct (x =? n); [destruct (alive h x); cbn [length]; lia|]. destruct (alive h x); cbn [length]; lia. }
  induction l as [|x l IH]; intros Hi; [destruct Hi|]. cbn [filter]. unfold upd at 1. destruct (N.eqb_spec x n) as [->|Hx].
  - rewrite Hn. cbn [length]. specialize (Le l). lia.
  - destruct Hi as [E|Hi]; [contradiction|]. specialize (IH Hi). destruct (alive h x); cbn [length]; lia.
Qed.
Lemma garbage_spec h n : closed h -> garbage h = Some n -> alive h n = true /\ ~ referenced h n.
Proof.
  intros C H. unfold garbage in H. apply List.find_some in H as [_ H]. apply andb_prop in H as [H1 H2]. split; [exact H1|]. apply (refcount_zero h n C). now apply Nat.eqb_eq.
Qed.
Lemma garbage_none h : closed h -> garbage h = None -> clean h.
Proof.
  intros C H n Hn. unfold garbage in H. pose proof (List.find_none _ _ H n (proj2 (in_ids h n) (cl_range h C n Hn))) as Q. cbv beta in Q. rewrite Hn in Q. cbn [andb] in Q.
  apply Nat.eqb_neq in Q. destruct (ext h n) eqn:E; [|left; congruence]. right.
  assert (S : list_sum (map (fun p => if alive h p then length (filter (fun e => snd e =? n) (kids h p)) else 0%nat) (ids h)) <> 0%nat) by (unfold refcount in Q; rewrite E in Q; exact Q).
  rewrite list_sum_zero in S. revert S. generalize (ids h). intros l S.
  assert (X : exists p, In p l /\ (if alive h p then length (filter (fun e => snd e =? n) (kids h p)) else 0%nat) <> 0%nat).
  { clear -S. induction l as [|x l IH]; [exfalso; apply S; intros y []|].
    destruct (if alive h x then length (filter (fun e => snd e =? n) (kids h x)) else 0%nat) eqn:F.
    - destruct IH as (p & Hp & Hq); [|exists p; split; [now right|exact Hq]]. intros K. apply S. intros y [<-|Hy]; [exact F|now apply K].
    - exists x. split; [now left|]. rewrite F. discriminate. }
  destruct X as (p & _ & Hp). exists p. destruct (alive h p); [|congruence]. split; [reflexivity|].
  destruct (filter (fun e => snd e =? n) (kids h p)) as [|e r] eqn:F; [now cbn in Hp|].
  assert (In e (filter (fun e => snd e =? n) (kids h p))) as G by (rewrite F; now left). apply filter_In in G as [G1 G2]. apply N.eqb_eq in G2. destruct e as [k c]. cbn in G2. subst. now exists k.
Qed.
Lemma collect_ok fuel : forall h, closed h -> (living h <= fuel)%nat -> closed (collect fuel h) /\ clean (collect fuel h).
Proof.
  induction fuel as [|f IH]; intros h C L; cbn [collect].
  - split; [exact C|]. intros n Hn. exfalso. pose proof (proj2 (in_ids h n) (cl_range h C n Hn)) as Hi.
    assert (In n (filter (alive h) (ids h))) as Q by (apply filter_In; now split). unfold living in L. destruct (filter (alive h) (ids h)); [destruct Q|cbn in L; lia].
  - destruct (garbage h) as [n|] eqn:G.
    + destruct (garbage_spec h n C G) as [G1 G2]. apply IH; [now apply free_closed|]. pose proof (free_living h n C G1). lia.
    + split; [exact C|]. now apply garbage_none.
Qed.
Lemma filter_le {A} (f : A -> bool) l : (length (filter f l) <= length l)%nat.
Proof. induction l as [|x l IH]; [apply le_n|]. cbn. destruct (f x); cbn; lia. Qed.
Lemma sweep_ok h : closed h -> closed (sweep h) /\ clean (sweep h).
Proof.
  intros C. apply collect_ok; [exact C|]. unfold living. etransitivity; [apply filter_le|]. unfold ids. rewrite map_length, seq_length. apply le_n.
Qed.

(** ** The calls *)
Lemma held_spec h n : held h n = true -> alive h n = true /\ ext h n <> 0%nat.
Proof. unfold held. intros H. apply andb_prop in H as [H1 H2]. split; [exact H1|]. now apply negb_true_iff, Nat.eqb_neq in H2. Qed.
Lemma step_life h o h' b : sound h -> closed h -> clean h -> step h o = Ok (h', b) -> closed h' /\ clean h'.
Proof.
  intros Hs Hc Hl. pose proof Hc as [C1 C2 C3]. pose proof Hs as [S1 S2 S3 S4 S5].
  assert (Fresh : alive h (next h) = false) by (destruct (alive h (next h)) eqn:A; [apply C3 in A; lia|reflexivity]).
  destruct o as [|p k [c|]|p k c|p k i|n|n|n f]; cbn [step].
  - intros H. inversion H; subst; clear H. split; [constructor|]; cbn.
    + intros n. unfold upd. destruct (n =? next h); [reflexivity|apply C1].
    + intros p c Hp [k Hk]. cbn in Hk. unfold upd in *. destruct (p =? next h); [destruct Hk|]. destruct (c =? next h); [reflexivity|]. apply (C2 p c Hp). now exists k.
    + intros n. unfold upd. destruct (N.eqb_spec n (next h)); [lia|]. intros Hn. apply C3 in Hn. lia.
    + intros n Hn. cbn in Hn. destruct (N.eq_dec n (next h)) as [En|Ne]; [left; cbn; unfold upd; apply N.eqb_eq in En; now rewrite En|]. rewrite upd_neq in Hn by exact Ne.
      destruct (Hl n Hn) as [R|(p & Hp & k & Hk)]; [left; cbn; unfold upd; apply N.eqb_neq in Ne; now rewrite Ne|]. right. exists p.
      assert (p <> next h) by (intros ->; congruence). cbn. split; [now rewrite upd_neq|]. exists k. cbn. now rewrite upd_neq.
  - destruct (held h p) eqn:Hp; [|discriminate]. destruct (held h c) eqn:Hcc; [|discriminate]. cbn [andb]. destruct (can_set_parent h c p); [|intros H; inversion H; now subst].
    intros H. inversion H; subst; clear H. apply sweep_ok. apply held_spec in Hp as [Hp _], Hcc as [Hcc _]. constructor; cbn; auto.
    intros q d Hq [j Hj]. cbn in Hj. unfold upd in Hj. destruct (N.eqb_spec q p) as [->|Hn]; [|apply (C2 q d Hq); now exists j].
    apply in_app_or in Hj as [Hj|[Hj|[]]]; [|injection Hj as <- <-; exact Hcc]. apply filter_In in Hj as [Hj _]. apply (C2 p d Hp). now exists j.
  - destruct (held h p) eqn:Hp; [|discriminate]. intros H. inversion H; subst; clear H. apply sweep_ok. constructor; cbn; auto.
    intros q d Hq [j Hj]. cbn in Hj. unfold upd in Hj. destruct (N.eqb_spec q p) as [->|Hn]; [|apply (C2 q d Hq); now exists j].
    apply filter_In in Hj as [Hj _]. apply (C2 p d Hq). now exists j.
  - destruct (held h p) eqn:Hp; [|discriminate]. destruct (held h c) eqn:Hcc; [|discriminate]. cbn [andb]. destruct (can_set_parent h c p); [|intros H; inversion H; now subst].
    intros H. inversion H; subst; clear H. apply held_spec in Hp as [Hp _], Hcc as [Hcc Hce]. split; [constructor|]; cbn; auto.
    + intros q d Hq [j Hj]. cbn in Hj. unfold upd in Hj. destruct (N.eqb_spec q p) as [->|Hn]; [|apply (C2 q d Hq); now exists j].
      apply in_app_or in Hj as [Hj|[Hj|[]]]; [|injection Hj as <- <-; exact Hcc]. apply (C2 p d Hp). now exists j.
    + intros n Hn. destruct (Hl n Hn) as [R|(q & Hq & j & Hj)]; [now left|]. right. exists q. split; [exact Hq|]. exists j. cbn. unfold upd. destruct (N.eqb_spec q p) as [->|]; [|exact Hj].
      apply in_or_app. now left.
  - destruct (held h p) eqn:Hp; [|discriminate]. destruct (erase k i (kids h p)) as [[c ks]|] eqn:Er; intros H; inversion H; subst; clear H; [|now split].
    destruct (erase_spec _ _ _ _ _ Er) as (a & d & E1 & ->). apply held_spec in Hp as [Hp _].
    assert (Ac : alive h c = true) by (apply (C2 p c Hp); exists k; rewrite E1; apply in_or_app; right; now left).
    split; [constructor|]; cbn.
    + intros n. unfold upd. destruct (N.eqb_spec n c) as [->|]; [auto|apply C1].
    + intros q x Hq [j Hj]. cbn in Hj. unfold upd in Hj. destruct (N.eqb_spec q p) as [->|Hn]; [|apply (C2 q x Hq); now exists j].
      apply (C2 p x Hp). exists j. rewrite E1. apply in_app_or in Hj as [Hj|Hj]; apply in_or_app; [now left|right; now right].
    + exact C3.
    + intros n Hn. cbn in Hn. destruct (N.eq_dec n c) as [->|Hne]; [left; cbn; now rewrite upd_eq|].
      destruct (Hl n Hn) as [R|(q & Hq & j & Hj)]; [left; cbn; now rewrite upd_neq|]. right. exists q. split; [exact Hq|]. exists j. cbn. unfold upd. destruct (N.eqb_spec q p) as [->|]; [|exact Hj].
      rewrite E1 in Hj. apply in_app_or in Hj as [Hj|[Hj|Hj]]; apply in_or_app; [now left|injection Hj as <- <-; congruence|now right].
  - destruct (held h n) eqn:Hp; [|discriminate]. apply held_spec in Hp as [Hp He]. intros H. inversion H; subst; clear H. split; [constructor|]; cbn; auto.
    + intros m. unfold upd. destruct (N.eqb_spec m n) as [->|]; [auto|apply C1].
    + intros m Hm. destruct (Hl m Hm) as [R|R]; [|now right]. left. cbn. unfold upd. destruct (m =? n); [discriminate|exact R].
  - destruct (held h n) eqn:Hp; [|discriminate]. apply held_spec in Hp as [Hp He]. intros H. inversion H; subst; clear H. apply sweep_ok. constructor; cbn; auto.
    intros m. unfold upd. destruct (N.eqb_spec m n) as [->|]; [auto|apply C1].
  - destruct (held h n) eqn:Hp; [|discriminate]. destruct (file h n); intros H; inversion H; subst; clear H; split; auto. constructor; auto.
Qed.
Lemma run_life ops : forall h h', sound h -> closed h -> clean h -> run h ops = Ok h' -> sound h' /\ closed h' /\ clean h'.
Proof.
  induction ops as [|o ops IH]; intros h h' Hs Hc Hl; cbn [run]; [intros H; inversion H; subst; auto|].
  destruct (step h o) as [[h1 b]| | |] eqn:E; cbn [bind]; try discriminate. destruct (step_life h o h1 b Hs Hc Hl E) as [C L]. apply IH; auto. exact (step_sound h o h1 b Hs E).
Qed.
Lemma life0 ops h : run heap0 ops = Ok h -> sound h /\ closed h /\ clean h.
Proof.
  apply run_life; [exact sound0| |intros n H; discriminate]. constructor; cbn; try discriminate. intros n H. now destruct H.
Qed.

(** C115. After any calls: an element the caller has a pointer to exists, and so do all the elements below an element that exists. *)
Theorem referenced_alive : forall ops h n, run heap0 ops = Ok h -> referenced h n -> alive h n = true.
Proof. intros ops h n R H. destruct (life0 ops h R) as (_ & C & _). destruct H as [H|(p & Hp & Hh)]; [now apply (cl_ext h C)|exact (cl_kids h C p n Hp Hh)]. Qed.
Print Assumptions referenced_alive.
Theorem descendants_alive : forall ops h n m, run heap0 ops = Ok h -> ext h n <> 0%nat -> clos_refl_trans _ (holds h) n m -> alive h m = true.
Proof.
  intros ops h n m R He Hd. apply clos_rt_rtn1 in Hd. induction Hd as [|y z Hyz _ IH]; [apply (referenced_alive ops h n R); now left|].
  apply (referenced_alive ops h z R). right. exists y. now split.
Qed.
Print Assumptions descendants_alive.
(** C115. An element which nobody points to is deleted at once. *)
Theorem unreferenced_deleted : forall ops h n, run heap0 ops = Ok h -> ~ referenced h n -> alive h n = false.
Proof. intros ops h n R H. destruct (life0 ops h R) as (_ & _ & L). destruct (alive h n) eqn:A; [|reflexivity]. exfalso. apply H, L, A. Qed.
Print Assumptions unreferenced_deleted.

(** C115. If no element was put below itself, every element that exists is one the caller has a pointer to, or is below one: nothing is lost. *)
Theorem nothing_lost : forall ops h n, all_downward heap0 ops -> run heap0 ops = Ok h -> alive h n = true ->
  exists r, ext h r <> 0%nat /\ clos_refl_trans _ (holds h) r n.
Proof.
  intros ops h n D R A. destruct (life0 ops h R) as (S & C & L). pose proof (forest ops h D R) as F.
  assert (G : forall k n l, alive h n = true -> NoDup l -> (forall x, In x l -> alive h x = true /\ clos_trans _ (holds h) n x) -> (length l + k >= N.to_nat (next h))%nat ->
    exists r, ext h r <> 0%nat /\ clos_refl_trans _ (holds h) r n).
  { clear n A. induction k as [|k IH]; intros n l A Hd Hl Hk.
    - exfalso. assert (Q : NoDup (n :: l)) by (constructor; [intros Hi; apply (F n); now apply Hl|exact Hd]).
      assert (I : incl (n :: l) (ids h)) by (intros x [<-|Hx]; apply in_ids, (cl_range h C); [exact A|now apply Hl]).
      pose proof (NoDup_incl_length Q I) as Len. unfold ids in Len. rewrite map_length, seq_length in Len. cbn [length] in Len. lia.
    - destruct (L n A) as [He|(p & Hp & Hh)]; [exists n; split; [exact He|apply rt_refl]|].
      destruct (IH p (n :: l) Hp) as (r & Hr & Hrp).
      + constructor; [intros Hi; apply (F n); now apply Hl|exact Hd].
      + intros x [<-|Hx]; [split; [exact A|now apply t_step]|]. destruct (Hl x Hx) as [Ax Tx]. split; [exact Ax|]. eapply t_trans; [apply t_step; exact Hh|exact Tx].
      + cbn [length]. lia.
      + exists r. split; [exact Hr|]. eapply rt_trans; [exact Hrp|now apply rt_step]. }
  apply (G (N.to_nat (next h)) n []); [exact A|constructor|intros x []|cbn; lia].
Qed.
Print Assumptions nothing_lost.
(** C115. In particular, when the caller has dropped all pointers no element is left. *)
Theorem all_deleted : forall ops h, all_downward heap0 ops -> run heap0 ops = Ok h -> (forall n, ext h n = 0%nat) -> forall n, alive h n = false.
Proof. intros ops h D R H n. destruct (alive h n) eqn:A; [|reflexivity]. destruct (nothing_lost ops h n D R A) as (r & Hr & _). now rewrite H in Hr. Qed.
Print Assumptions all_deleted.
(** C115. Refuted without that condition: two elements that are children of one another are never deleted. *)
Theorem cycle_leaks_refuted : exists ops h, run heap0 ops = Ok h /\ (forall n, ext h n = 0%nat) /\ alive h 0 = true /\ alive h 1 = true.
Proof.
  exists [New; New; AddChild 0 7 1; AddChild 1 7 0; Release 0; Release 1]. eexists. split; [vm_compute; reflexivity|].
  split; [|split; reflexivity]. intros n. cbn. repeat (match goal with |- context [match ?x with _ => _ end] => destruct x end; try reflexivity).
Qed.
Print Assumptions cycle_leaks_refuted.
(** Building a tree and dropping the root: the children go too, unless the caller kept them. *)
Example life_sample : exists h, run heap0 [New; New; New; AddChild 0 7 1; AddChild 1 7 2; Release 1; Release 2; Retain 0; Release 0; Release 0] = Ok h /\
  map (alive h) [0; 1; 2] = [false; false; false].
Proof. eexists. split; vm_compute; reflexivity. Qed.
Example life_kept_sample : exists h, run heap0 [New; New; New; AddChild 0 7 1; AddChild 1 7 2; Release 2; Release 0] = Ok h /\ map (alive h) [0; 1; 2] = [false; true; true] /\ ext h 1 = 1%nat.
Proof. eexists. split; [vm_compute; reflexivity|]. split; vm_compute; reflexivity. Qed.

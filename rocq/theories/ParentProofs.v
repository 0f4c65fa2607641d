(** Proofs about element ownership. *)
From Verif Require Import Common ParentModel.
From Coq Require Import Relations.
Local Open Scope N_scope.

(** [holds h p c]: [p] has [c] among its children. *)
Definition holds (h : heap) (p c : N) : Prop := exists k, In (k, c) (kids h p).
(** Every child pointer agrees with the parent pointer and each child is held once. *)
Record sound (h : heap) : Prop := {
  so_parent : forall p c, holds h p c -> parent h c = Some p;
  so_once : forall p, NoDup (map snd (kids h p));
  so_fresh : forall n, next h <= n -> parent h n = None /\ kids h n = [];
  so_range : forall n p, parent h n = Some p -> n < next h /\ p < next h;
  so_ext : forall n, next h <= n -> ext h n = 0%nat }.

Lemma upd_eq {A} (f : N -> A) n v : upd f n v n = v.
Proof. unfold upd. now rewrite N.eqb_refl. Qed.
Lemma upd_neq {A} (f : N -> A) n v m : m <> n -> upd f n v m = f m.
Proof. unfold upd. intros H. now apply N.eqb_neq in H as ->. Qed.

(** Freeing and collecting change child lists only by emptying them, and no parent pointer. *)
Record shrunk (h h' : heap) : Prop := {
  sh_parent : parent h' = parent h; sh_file : file h' = file h; sh_ext : ext h' = ext h; sh_next : next h' = next h;
  sh_kids : forall n, kids h' n = kids h n \/ kids h' n = [];
  sh_alive : forall n, alive h' n = true -> alive h n = true }.
Lemma shrunk_refl h : shrunk h h.
Proof. constructor; auto. Qed.
Lemma collect_shrunk fuel : forall h, shrunk h (collect fuel h).
Proof.
  induction fuel as [|f IH]; intros h; cbn [collect]; [apply shrunk_refl|].
  destruct (garbage h) as [n|]; [|apply shrunk_refl]. destruct (IH (free h n)) as [H1 H2 H3 H4 H5 H6].
  constructor; cbn in *; auto.
  - intros m. destruct (H5 m) as [E|E]; [|now right]. rewrite E. unfold upd. destruct (m =? n); auto.
  - intros m Hm. apply H6 in Hm. unfold upd in Hm. destruct (m =? n); [discriminate|auto].
Qed.
Lemma sweep_shrunk h : shrunk h (sweep h).
Proof. apply collect_shrunk. Qed.

Lemma shrunk_holds h h' p c : shrunk h h' -> holds h' p c -> holds h p c.
Proof. intros H [k Hk]. destruct (sh_kids _ _ H p) as [E|E]; rewrite E in Hk; [now exists k|destruct Hk]. Qed.
Lemma shrunk_sound h h' : shrunk h h' -> sound h -> sound h'.
Proof.
  intros H [S1 S2 S3 S4 S5]. pose proof H as [H1 H2 H3 H4 H5 H6]. constructor.
  - intros p c Hh. rewrite H1. apply S1. eapply shrunk_holds; eauto.
  - intros p. destruct (H5 p) as [-> | ->]; [apply S2|constructor].
  - intros n Hn. rewrite H4 in Hn. destruct (S3 n Hn) as [E1 E2]. rewrite H1. split; auto.
    destruct (H5 n) as [-> | ->]; auto.
  - intros n p. rewrite H1, H4. apply S4.
  - intros n. rewrite H3, H4. apply S5.
Qed.

Lemma held_range h n : sound h -> held h n = true -> n < next h.
Proof.
  intros Hs H. unfold held in H. apply andb_true_iff in H as [_ H]. destruct (N.lt_ge_cases n (next h)); auto.
  rewrite (so_ext _ Hs) in H by auto. discriminate.
Qed.
Lemma NoDup_filter_map {A B} (f : A -> B) (g : A -> bool) l : NoDup (map f l) -> NoDup (map f (filter g l)).
Proof.
  induction l as [|x l IH]; simpl; auto. intros H. inversion H as [|? ? H1 H2]; subst. destruct (g x); simpl; auto.
  constructor; auto. intros K. apply H1. apply in_map_iff in K as (y & E & Hy). apply filter_In in Hy as [Hy _].
  rewrite <- E. now apply in_map.
Qed.
Lemma NoDup_snoc {A} (l : list A) x : NoDup l -> ~ In x l -> NoDup (l ++ [x]).
Proof.
  intros H Hx. apply NoDup_rev in H. rewrite <- (rev_involutive (l ++ [x])). apply NoDup_rev. rewrite rev_app_distr. simpl.
  constructor; auto. rewrite <- in_rev. auto.
Qed.

Lemma link_sound h p c ks k : sound h -> p < next h -> c < next h -> parent h c = None ->
  (forall e, In e ks -> In e (kids h p)) -> NoDup (map snd ks) -> sound (link h p c (ks ++ [(k, c)])).
Proof.
  intros [S1 S2 S3 S4 S5] Hp Hc Hn Hks Hnd. constructor; cbn.
  - intros q d [j Hj]. cbn in Hj. unfold upd in *. destruct (q =? p) eqn:Eq.
    + apply N.eqb_eq in Eq; subst q. apply in_app_or in Hj as [Hj | [Hj | []]].
      * destruct (d =? c) eqn:Ed; auto. apply S1. exists j. auto.
      * inversion Hj; subst. now rewrite N.eqb_refl.
    + destruct (d =? c) eqn:Ed.
      * apply N.eqb_eq in Ed; subst d. assert (parent h c = Some q) by (apply S1; now exists j). congruence.
      * apply S1. now exists j.
  - intros q. unfold upd. destruct (q =? p) eqn:Eq; [|apply S2]. rewrite map_app. simpl. apply NoDup_snoc; auto.
    intros K. apply in_map_iff in K as ([j d] & E & Hin). simpl in E; subst d.
    assert (parent h c = Some p) by (apply S1; exists j; now apply Hks). congruence.
  - intros n Hnn. unfold upd. destruct (n =? c) eqn:E1; [apply N.eqb_eq in E1; lia|].
    destruct (n =? p) eqn:E2; [apply N.eqb_eq in E2; lia|]. auto.
  - intros n q. unfold upd. destruct (n =? c) eqn:E1.
    + apply N.eqb_eq in E1; subst. intros E; inversion E; subst. auto.
    + apply S4.
  - auto.
Qed.
Lemma sub_kids_sound h p ks : sound h -> p < next h -> (forall e, In e ks -> In e (kids h p)) -> NoDup (map snd ks) -> sound (set_kids h p ks).
Proof.
  intros [S1 S2 S3 S4 S5] Hp Hks Hnd. constructor; cbn; auto.
  - intros q d [j Hj]. cbn in Hj. unfold upd in Hj. destruct (q =? p) eqn:Eq; apply S1; [|now exists j].
    apply N.eqb_eq in Eq; subst q. exists j. auto.
  - intros q. unfold upd. destruct (q =? p); auto.
  - intros n Hn. unfold upd. destruct (n =? p) eqn:E2; [apply N.eqb_eq in E2; lia|]. auto.
Qed.
Lemma set_ext_sound h n e : sound h -> n < next h -> sound (set_ext h n e).
Proof.
  intros [S1 S2 S3 S4 S5] Hn. constructor; cbn; auto.
  intros m Hm. unfold upd. destruct (m =? n) eqn:E; [apply N.eqb_eq in E; lia|auto].
Qed.

Lemma erase_spec k : forall ks i c r, erase k i ks = Some (c, r) ->
  exists a b, ks = a ++ (k, c) :: b /\ r = a ++ b.
Proof.
  induction ks as [|e ks IH]; intros i c r; simpl; [discriminate|]. unfold in_slot. destruct (fst e =? k) eqn:E.
  - destruct i as [|j].
    + intros H. inversion H; subst. exists [], r. apply N.eqb_eq in E. destruct e as [x y]; simpl in *; subst. auto.
    + destruct (erase k j ks) as [[c' r']|] eqn:Er; simpl; [|discriminate]. intros H. inversion H; subst.
      destruct (IH _ _ _ Er) as (a & b & -> & ->). now exists (e :: a), b.
  - destruct (erase k i ks) as [[c' r']|] eqn:Er; simpl; [|discriminate]. intros H. inversion H; subst.
    destruct (IH _ _ _ Er) as (a & b & -> & ->). now exists (e :: a), b.
Qed.

Lemma step_sound h o h' b : sound h -> step h o = Ok (h', b) -> sound h'.
Proof.
  intros Hs. pose proof Hs as [S1 S2 S3 S4 S5]. destruct o as [|p k [c|]|p k c|p k i|n|n|n f]; cbn [step].
  - intros H. inversion H; subst; clear H. constructor; cbn.
    + intros p c [k Hk]. cbn in Hk. unfold upd in *. destruct (p =? next h) eqn:E; [destruct Hk|].
      assert (Hp : parent h c = Some p) by (apply S1; now exists k). destruct (S4 _ _ Hp).
      destruct (c =? next h) eqn:Ec; [apply N.eqb_eq in Ec; lia|auto].
    + intros p. unfold upd. destruct (p =? next h); [constructor|apply S2].
    + intros n Hn. unfold upd. destruct (n =? next h) eqn:E; auto. apply S3. lia.
    + intros n p. unfold upd. destruct (n =? next h) eqn:E; [discriminate|]. intros H. apply S4 in H. lia.
    + intros n Hn. unfold upd. destruct (n =? next h) eqn:E; [apply N.eqb_eq in E; lia|]. apply S5. lia.
  - destruct (held h p) eqn:Hp; [|discriminate]. destruct (held h c) eqn:Hc; [|discriminate]. cbn [andb].
    apply held_range in Hp, Hc; auto. unfold can_set_parent. destruct (parent h c) as [q|] eqn:Hn.
    + intros H; inversion H; now subst.
    + destruct (oeq (file h c) (file h p)); intros H; inversion H; subst; auto.
      eapply shrunk_sound; [apply sweep_shrunk|]. apply link_sound; auto.
      * intros e He. apply filter_In in He. tauto.
      * apply NoDup_filter_map. apply S2.
  - destruct (held h p) eqn:Hp; [|discriminate]. apply held_range in Hp; auto. intros H; inversion H; subst; clear H.
    eapply shrunk_sound; [apply sweep_shrunk|]. apply sub_kids_sound; auto.
    * intros e He. apply filter_In in He. tauto.
    * apply NoDup_filter_map. apply S2.
  - destruct (held h p) eqn:Hp; [|discriminate]. destruct (held h c) eqn:Hc; [|discriminate]. cbn [andb].
    apply held_range in Hp, Hc; auto. unfold can_set_parent. destruct (parent h c) as [q|] eqn:Hn.
    + intros H; inversion H; now subst.
    + destruct (oeq (file h c) (file h p)); intros H; inversion H; subst; auto. apply link_sound; auto.
  - destruct (held h p) eqn:Hp; [|discriminate]. apply held_range in Hp; auto.
    destruct (erase k i (kids h p)) as [[c ks]|] eqn:Er; intros H; inversion H; subst; auto.
    destruct (erase_spec _ _ _ _ _ Er) as (a & d & E1 & ->).
    assert (Hcr : c < next h).
    { apply (so_range _ Hs c p). apply S1. exists k. rewrite E1. apply in_or_app. right. now left. }
    apply set_ext_sound; [|exact Hcr]. apply sub_kids_sound; auto.
    + intros e He. rewrite E1. apply in_or_app. apply in_app_or in He as [He|He]; [now left|right; now right].
    + pose proof (S2 p) as Hd. rewrite E1, map_app in Hd. simpl in Hd. rewrite map_app. now apply NoDup_remove_1 in Hd.
  - destruct (held h n) eqn:Hp; [|discriminate]. apply held_range in Hp; auto. intros H; inversion H; subst. now apply set_ext_sound.
  - destruct (held h n) eqn:Hp; [|discriminate]. apply held_range in Hp; auto. intros H; inversion H; subst.
    eapply shrunk_sound; [apply sweep_shrunk|]. now apply set_ext_sound.
  - destruct (held h n) eqn:Hp; [|discriminate]. destruct (file h n); intros H; inversion H; subst; auto.
    constructor; cbn; auto.
Qed.
Lemma sound0 : sound heap0.
Proof.
  constructor; cbn; auto; try (intros; discriminate).
  - intros p c [k []].
  - intros p. constructor.
Qed.
Lemma run_sound ops : forall h h', sound h -> run h ops = Ok h' -> sound h'.
Proof.
  induction ops as [|o ops IH]; intros h h' Hs; cbn [run].
  - intros H; inversion H; now subst.
  - destruct (step h o) as [[h1 b]| | |] eqn:E; cbn [bind]; try discriminate. intros H. apply (IH h1); auto. eapply step_sound; eauto.
Qed.

(** Parent pointers never change once set. *)
Lemma step_parent h o h' b n p : sound h -> step h o = Ok (h', b) -> parent h n = Some p -> parent h' n = Some p.
Proof.
  intros Hs E Hp. destruct o as [|q k [c|]|q k c|q k i|m|m|m f]; cbn [step] in E;
    repeat match type of E with (if ?x then _ else _) = _ => match type of x with bool => destruct x eqn:? ; try discriminate end end.
  - inversion E; subst. cbn. unfold upd. apply (so_range _ Hs) in Hp as Hr. destruct (n =? next h) eqn:K; [lia|auto].
  - inversion E; subst. rewrite (sh_parent _ _ (sweep_shrunk _)). cbn. unfold upd. destruct (n =? c) eqn:K; auto.
    apply N.eqb_eq in K; subst. unfold can_set_parent in *. rewrite Hp in *. discriminate.
  - inversion E; now subst.
  - inversion E; subst. rewrite (sh_parent _ _ (sweep_shrunk _)). exact Hp.
  - inversion E; subst. cbn. unfold upd. destruct (n =? c) eqn:K; auto.
    apply N.eqb_eq in K; subst. unfold can_set_parent in *. rewrite Hp in *. discriminate.
  - inversion E; now subst.
  - destruct (erase k i (kids h q)) as [[c ks]|]; inversion E; subst; auto.
  - inversion E; subst; auto.
  - inversion E; subst. rewrite (sh_parent _ _ (sweep_shrunk _)). exact Hp.
  - destruct (file h m); inversion E; subst; auto.
Qed.
Lemma run_parent ops : forall h h' n p, sound h -> run h ops = Ok h' -> parent h n = Some p -> parent h' n = Some p.
Proof.
  induction ops as [|o ops IH]; intros h h' n p Hs; cbn [run].
  - intros H; inversion H; now subst.
  - destruct (step h o) as [[h1 b]| | |] eqn:E; cbn [bind]; try discriminate. intros H Hp.
    eapply IH; [|eauto|]; [eapply step_sound; eauto|eapply step_parent; eauto].
Qed.

(** The call gives [c] to a parent. *)
Definition adopts (o : op) (c : N) : Prop := (exists p k, o = AddChild p k c) \/ (exists p k, o = SetChild p k (Some c)).
Lemma adopt_sets h o h' c : step h o = Ok (h', true) -> adopts o c -> exists p, parent h' c = Some p.
Proof.
  intros E [(p & k & ->) | (p & k & ->)]; cbn [step] in E;
    repeat match type of E with (if ?x then _ else _) = _ => match type of x with bool => destruct x eqn:? ; try discriminate end end; inversion E; subst.
  - exists p. cbn. apply upd_eq.
  - exists p. rewrite (sh_parent _ _ (sweep_shrunk _)). cbn. apply upd_eq.
Qed.
Lemma adopt_refused h o h' b c p : parent h c = Some p -> step h o = Ok (h', b) -> adopts o c -> b = false /\ h' = h.
Proof.
  intros Hp E [(q & k & ->) | (q & k & ->)]; cbn [step] in E; unfold can_set_parent in E; rewrite Hp in E;
    destruct (held h q && held h c); inversion E; auto.
Qed.
Lemma adopted_once ops1 ops2 o1 o2 c h1 h2 h3 h4 b : run heap0 ops1 = Ok h1 -> adopts o1 c -> step h1 o1 = Ok (h2, true) ->
  run h2 ops2 = Ok h3 -> adopts o2 c -> step h3 o2 = Ok (h4, b) -> b = false /\ h4 = h3.
Proof.
  intros R1 A1 E1 R2 A2 E2. assert (S1 : sound h1) by (eapply run_sound; [apply sound0|eauto]).
  assert (S2 : sound h2) by (eapply step_sound; eauto).
  destruct (adopt_sets _ _ _ _ E1 A1) as [p Hp]. eapply adopt_refused; [|exact E2|exact A2]. eapply run_parent; eauto.
Qed.
Lemma one_parent ops h p q c : run heap0 ops = Ok h -> holds h p c -> holds h q c -> p = q.
Proof.
  intros R H1 H2. assert (S : sound h) by (eapply run_sound; [apply sound0|eauto]).
  apply (so_parent _ S) in H1. apply (so_parent _ S) in H2. congruence.
Qed.
Lemma held_once ops h p : run heap0 ops = Ok h -> NoDup (map snd (kids h p)).
Proof. intros R. assert (S : sound h) by (eapply run_sound; [apply sound0|eauto]). apply (so_once _ S). Qed.

(** * Cycles *)
(** [above h p c]: following parent pointers from [c] reaches [p]. *)
Definition above (h : heap) : N -> N -> Prop := clos_trans _ (fun p c => parent h c = Some p).
Definition acyclic (h : heap) : Prop := forall n, ~ above h n n.
(** The call does not put an element below itself. *)
Definition downward (h : heap) (o : op) : Prop := forall p c,
  (exists k, o = AddChild p k c \/ o = SetChild p k (Some c)) -> p <> c /\ ~ above h c p.

Lemma above_inv h h' : (forall c p, parent h' c = Some p -> parent h c = Some p) -> forall a b, above h' a b -> above h a b.
Proof.
  intros E a b H. induction H as [x y H|x y z _ IH1 _ IH2]; [apply t_step; auto|eapply t_trans; eauto].
Qed.
Lemma link_acyclic h p c h' : acyclic h -> parent h c = None -> ~ above h c p -> p <> c ->
  parent h' = upd (parent h) c (Some p) -> acyclic h'.
Proof.
  intros Hac Hn Hcp Hpc Eh' n.
  assert (H : forall a b, above h' a b -> above h a b \/ ((a = p \/ above h a p) /\ (b = c \/ above h c b))).
  { intros a b Hab. induction Hab as [x y Hxy|x y z _ IH1 _ IH2].
    - rewrite Eh' in Hxy. unfold upd in Hxy. destruct (y =? c) eqn:K.
      + apply N.eqb_eq in K; subst. inversion Hxy; subst. right. auto.
      + left. now apply t_step.
    - destruct IH1 as [I1|[I1 J1]], IH2 as [I2|[I2 J2]].
      + left. eapply t_trans; eauto.
      + right. split; auto. right. destruct I2 as [-> | I2]; auto. eapply t_trans; eauto.
      + right. split; auto. right. destruct J1 as [-> | J1]; auto. eapply t_trans; eauto.
      + right. auto. }
  intros Hnn. destruct (H n n Hnn) as [K|[[-> | K1] [K2 | K2]]].
  - eapply Hac; eauto.
  - congruence.
  - eauto.
  - subst. eauto.
  - apply Hcp. eapply t_trans; eauto.
Qed.
Lemma step_acyclic h o h' b : sound h -> acyclic h -> downward h o -> step h o = Ok (h', b) -> acyclic h'.
Proof.
  intros Hs Ha Hd E.
  assert (Hsame : (forall c p, parent h' c = Some p -> parent h c = Some p) -> acyclic h').
  { intros H n Hn. apply (Ha n). revert Hn. now apply above_inv. }
  destruct o as [|q k [c|]|q k c|q k i|m|m|m f]; cbn [step] in E;
    repeat match type of E with (if ?x then _ else _) = _ => match type of x with bool => destruct x eqn:? ; try discriminate end end.
  - inversion E; subst. apply Hsame. intros c p. cbn. unfold upd. destruct (c =? next h); [discriminate|auto].
  - inversion E; subst. destruct (Hd q c) as [H1 H2]; [eauto|]. unfold can_set_parent in *. destruct (parent h c) eqn:Hn; [discriminate|].
    eapply (link_acyclic h q c); eauto. now rewrite (sh_parent _ _ (sweep_shrunk _)).
  - inversion E; now subst.
  - inversion E; subst. apply Hsame. now rewrite (sh_parent _ _ (sweep_shrunk _)).
  - inversion E; subst. destruct (Hd q c) as [H1 H2]; [eauto|]. unfold can_set_parent in *. destruct (parent h c) eqn:Hn; [discriminate|].
    eapply (link_acyclic h q c); eauto.
  - inversion E; now subst.
  - destruct (erase k i (kids h q)) as [[c ks]|]; inversion E; subst; auto.
  - inversion E; subst; auto.
  - inversion E; subst. apply Hsame. now rewrite (sh_parent _ _ (sweep_shrunk _)).
  - destruct (file h m); inversion E; subst; auto.
Qed.
(** Every call of the sequence is downward in the state in which it is made. *)
Fixpoint all_downward (h : heap) (ops : list op) : Prop :=
  match ops with
  | [] => True
  | o :: ops' => downward h o /\ forall h' b, step h o = Ok (h', b) -> all_downward h' ops'
  end.
Lemma run_acyclic ops : forall h h', sound h -> acyclic h -> all_downward h ops -> run h ops = Ok h' -> acyclic h'.
Proof.
  induction ops as [|o ops IH]; intros h h' Hs Ha Hd; cbn [run].
  - intros H; inversion H; now subst.
  - destruct Hd as [H1 H2]. destruct (step h o) as [[h1 b]| | |] eqn:E; cbn [bind]; try discriminate. intros H.
    eapply IH; [| |eauto|exact H]; [eapply step_sound; eauto|eapply step_acyclic; eauto].
Qed.
Lemma acyclic0 : acyclic heap0.
Proof. intros n H. apply clos_trans_t1n in H. destruct H; discriminate. Qed.
Lemma holds_above h a b : sound h -> clos_trans _ (holds h) a b -> above h a b.
Proof. intros Hs H. induction H as [x y H|x y z _ IH1 _ IH2]; [apply t_step; now apply (so_parent _ Hs)|eapply t_trans; eauto]. Qed.
Lemma forest ops h : all_downward heap0 ops -> run heap0 ops = Ok h -> forall n, ~ clos_trans _ (holds h) n n.
Proof.
  intros Hd R n H. assert (S : sound h) by (eapply run_sound; [apply sound0|eauto]).
  eapply (run_acyclic ops heap0 h sound0 acyclic0 Hd R n). now apply holds_above.
Qed.

(** Adding elements that have no children yet (building top down) is always downward when they are
    fresh; a simple sufficient condition used by the examples. *)
Lemma fresh_child_downward h p c k : sound h -> p <> c -> (forall n, parent h n <> Some c) -> downward h (AddChild p k c).
Proof.
  intros Hs Hne Hn p' c' [k' [E|E]]; inversion E; subst. split; auto. intros H. apply clos_trans_t1n in H.
  destruct H as [y H|y z H _]; eapply Hn; eauto.
Qed.

(** * Two files *)
Lemma adopt_same_file h o h' c p : step h o = Ok (h', true) -> (exists k, o = AddChild p k c \/ o = SetChild p k (Some c)) -> file h c = file h p.
Proof.
  intros E (k & [-> | ->]); cbn [step] in E;
    repeat match type of E with (if ?x then _ else _) = _ => match type of x with bool => destruct x eqn:? ; try discriminate end end;
    unfold can_set_parent in *; destruct (parent h c); try discriminate; unfold oeq in *;
    destruct (file h c) as [x|], (file h p) as [y|]; try discriminate; auto;
    match goal with H : (x =? y) = true |- _ => apply N.eqb_eq in H; now subst end.
Qed.

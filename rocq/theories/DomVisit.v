(** Visitors: which elements the two drivers reach, in terms of positions in the element tree. *)
From Verif Require Import Common XsdTables XsdModel HandlerModel DomTables DomModel DomProofs.
From Coq Require Import Permutation.
Local Open Scope N_scope.

(** A position: (number of the child list, place in it) from the root on. *)
Definition path := list (nat * nat).
Fixpoint at_path (o : obj) (p : path) : option obj :=
  match p with
  | [] => Some o
  | (i, j) :: r =>
      match nth_error (oslots o) i with
      | Some l => match nth_error l j with Some c => at_path c r | None => None end
      | None => None
      end
  end.
(** Specification: a position is reached if it exists and each step goes through a child list the class
    hands to visitors. *)
Definition handed (ty : N) (i : nat) : bool :=
  existsb (fun k => match index_of_key k (c_slots (cls ty)) 0 with Some j => (j =? i)%nat | None => false end) (c_acc (cls ty)).
Fixpoint reached (o : obj) (p : path) : bool :=
  match p with
  | [] => true
  | (i, j) :: r =>
      handed (oty o) i &&
      match nth_error (oslots o) i with
      | Some l => match nth_error l j with Some c => reached c r | None => false end
      | None => false
      end
  end.

(** * The positions the drivers go through *)
Definition number {A} (l : list A) : list (nat * A) := combine (seq 0 (length l)) l.
Definition below (i : nat) (f : obj -> list path) (l : list obj) : list path :=
  flat_map (fun jc => map (cons (i, fst jc)) (f (snd jc))) (number l).
Fixpoint size (o : obj) : nat := let 'Obj _ _ _ _ _ sl _ _ := o in S (list_sum (map (fun l => list_sum (map size l)) sl)).
Section Order.
  Variable post : bool.
  Definition around (kids : list path) : list path := if post then kids ++ [[]] else [] :: kids.
  (** Fuel bounds the depth. *)
  Fixpoint positions (fuel : nat) (o : obj) : list path :=
    match fuel with
    | O => []
    | S n =>
        around (flat_map (fun k => match index_of_key k (c_slots (cls (oty o))) 0 with
                                   | Some i => below i (positions n) (nth i (oslots o) [])
                                   | None => []
                                   end) (c_acc (cls (oty o))))
    end.
End Order.

Lemma size_slot ty ka ea tx vec sl mis unk l c : In l sl -> In c l -> (size c < size (Obj ty ka ea tx vec sl mis unk))%nat.
Proof.
  intros Hl Hc. cbn [size].
  assert (forall (x : nat) ls, In x ls -> (x <= list_sum ls)%nat) as Hsum.
  { induction ls as [|y ls IH]; [now intros []|]. cbn [list_sum fold_right]. intros [->|H]; [lia|]. specialize (IH H). unfold list_sum in IH. lia. }
  pose proof (Hsum _ _ (in_map (fun l => list_sum (map size l)) _ _ Hl)) as H1. pose proof (Hsum _ _ (in_map size _ _ Hc)) as H2. cbn beta in H1. lia.
Qed.
Lemma number_nth {A} (l : list A) j c : In (j, c) (number l) <-> nth_error l j = Some c.
Proof.
  unfold number.
  assert (H : forall k (l : list A), In (j, c) (combine (seq k (length l)) l) <-> (k <= j)%nat /\ nth_error l (j - k) = Some c).
  { intros k l0. revert k. induction l0 as [|x l0 IH]; intros k; cbn [length seq combine In].
    - split; [tauto|]. intros [_ H]. now destruct (j - k)%nat.
    - rewrite IH. split.
      + intros [H|[H1 H2]]; [inversion H; subst; rewrite Nat.sub_diag; auto|]. split; [lia|]. replace (j - k)%nat with (S (j - S k)) by lia. exact H2.
      + intros [H1 H2]. destruct (Nat.eq_dec k j) as [->|Hn]; [left; rewrite Nat.sub_diag in H2; inversion H2; auto|].
        right. split; [lia|]. replace (j - k)%nat with (S (j - S k)) in H2 by lia. exact H2. }
  rewrite H, Nat.sub_0_r. split; [intros [_ K]; exact K|intros K; split; [lia|exact K]].
Qed.
Lemma pick_oslots o k : pick (cls (oty o)) (oslots o) k = match index_of_key k (c_slots (cls (oty o))) 0 with Some i => nth i (oslots o) [] | None => [] end.
Proof. reflexivity. Qed.
Lemma pick_flat {A B} (f : A -> list B) c (l : list (list A)) k : pick c (map (flat_map f) l) k = flat_map f (pick c l k).
Proof.
  unfold pick. destruct (index_of_key k (c_slots c) 0) as [i|]; [|reflexivity]. change [] with (flat_map f []) at 1. now rewrite map_nth.
Qed.

Section Positions.
  Variable post : bool.
  Definition order (o : obj) : list obj := if post then postorder o else preorder o.
  Lemma order_eq o : order o = let kids := flat_map (fun k => flat_map order (pick (cls (oty o)) (oslots o) k)) (c_acc (cls (oty o))) in
                               if post then kids ++ [o] else o :: kids.
  Proof.
    assert (H : forall (f : obj -> list obj) (c : class) (l : list (list obj)) ks, flat_map (pick c (map (flat_map f) l)) ks = flat_map (fun k => flat_map f (pick c l k)) ks).
    { intros f c l ks. apply flat_map_ext. intros k. apply pick_flat. }
    unfold order. destruct post; destruct o as [ty ka ea tx vec sl mis unk]; cbn [postorder preorder oty oslots]; rewrite H; reflexivity.
  Qed.
  Lemma positions_at fuel : forall o, (size o <= fuel)%nat -> map (at_path o) (positions post fuel o) = map Some (order o).
  Proof.
    induction fuel as [|n IH]; intros o Hf; [destruct o; cbn [size] in Hf; lia|]. rewrite order_eq. cbn [positions]. unfold around. cbv zeta.
    assert (Hkids : map (at_path o) (flat_map (fun k => match index_of_key k (c_slots (cls (oty o))) 0 with
        | Some i => below i (positions post n) (nth i (oslots o) []) | None => [] end) (c_acc (cls (oty o)))) =
      map Some (flat_map (fun k => flat_map order (pick (cls (oty o)) (oslots o) k)) (c_acc (cls (oty o))))).
    { induction (c_acc (cls (oty o))) as [|k r IHr]; [reflexivity|]. cbn [flat_map]. rewrite !map_app, IHr. f_equal. clear IHr r.
      unfold pick. destruct (index_of_key k (c_slots (cls (oty o))) 0) as [i|]; [|reflexivity].
      assert (Hl : forall l pre, nth i (oslots o) [] = pre ++ l ->
        map (at_path o) (flat_map (fun jc => map (cons (i, fst jc)) (positions post n (snd jc))) (combine (seq (length pre) (length l)) l)) = map Some (flat_map order l)).
      { induction l as [|c l IHl]; intros pre Hpre; [reflexivity|]. cbn [length seq combine flat_map fst snd]. rewrite !map_app. f_equal.
        - assert (Hin : exists sl', nth_error (oslots o) i = Some sl' /\ nth_error sl' (length pre) = Some c).
          { exists (nth i (oslots o) []). split.
            - apply nth_error_nth'. destruct (Nat.lt_ge_cases i (length (oslots o))); auto. rewrite nth_overflow in Hpre by auto. now destruct pre.
            - rewrite Hpre, nth_error_app2, Nat.sub_diag by lia. reflexivity. }
          destruct Hin as (sl' & Hs1 & Hs2). rewrite <- (IH c).
          + rewrite map_map. apply map_ext. intros q. cbn [at_path]. now rewrite Hs1, Hs2.
          + destruct o as [ty ka ea tx vec sl mis unk]. cbn [oslots] in *. apply nth_error_In in Hs1, Hs2.
            pose proof (size_slot ty ka ea tx vec sl mis unk sl' c Hs1 Hs2). lia.
        - specialize (IHl (pre ++ [c])). rewrite app_length in IHl. cbn [length] in IHl. rewrite Nat.add_1_r in IHl. apply IHl.
          now rewrite <- app_assoc. }
      unfold below, number. apply (Hl (nth i (oslots o) []) []). reflexivity. }
    destruct post; rewrite ?map_app; cbn [map at_path]; rewrite Hkids; reflexivity.
  Qed.
  Lemma positions_in fuel : forall o p, (size o <= fuel)%nat -> In p (positions post fuel o) <-> reached o p = true.
  Proof.
    induction fuel as [|n IH]; intros o p Hf; [destruct o; cbn [size] in Hf; lia|]. cbn [positions].
    assert (Ha : forall ks, In p (around post ks) <-> p = [] \/ In p ks).
    { intros ks. unfold around. destruct post; cbn [In]; [rewrite in_app_iff; cbn [In]|]; intuition. }
    rewrite Ha. destruct p as [|[i j] p]; [cbn [reached]; tauto|]. cbn [reached]. rewrite andb_true_iff.
    rewrite in_flat_map. split.
    - intros [H|(k & Hk & Hin)]; [discriminate|]. destruct (index_of_key k (c_slots (cls (oty o))) 0) as [i'|] eqn:Ei; [|destruct Hin].
      unfold below in Hin. apply in_flat_map in Hin as ([j' c] & Hn & Hm). apply in_map_iff in Hm as (q & Hq & Hin). cbn [fst snd] in *.
      inversion Hq; subst i' j' q; clear Hq. apply number_nth in Hn. split.
      + unfold handed. apply existsb_exists. exists k. split; auto. rewrite Ei. apply Nat.eqb_refl.
      + assert (Hs : nth_error (oslots o) i = Some (nth i (oslots o) [])).
        { apply nth_error_nth'. destruct (Nat.lt_ge_cases i (length (oslots o))); auto. rewrite nth_overflow in Hn by auto. now destruct j. }
        rewrite Hs, Hn. apply IH; auto. destruct o as [ty ka ea tx vec sl mis unk]. cbn [oslots] in *. apply nth_error_In in Hs, Hn.
        pose proof (size_slot ty ka ea tx vec sl mis unk _ c Hs Hn). lia.
    - intros [Hh Hr]. right. unfold handed in Hh. apply existsb_exists in Hh as (k & Hk & Hi). exists k. split; auto.
      destruct (index_of_key k (c_slots (cls (oty o))) 0) as [i'|] eqn:Ei; [|discriminate]. apply Nat.eqb_eq in Hi. subst i'.
      destruct (nth_error (oslots o) i) as [l|] eqn:El; [|discriminate]. destruct (nth_error l j) as [c|] eqn:Ec; [|discriminate].
      unfold below. apply in_flat_map. exists (j, c). split.
      + apply number_nth. apply (nth_error_nth (oslots o) i []) in El. now rewrite El.
      + cbn [fst snd]. apply in_map. apply IH; auto. destruct o as [ty ka ea tx vec sl mis unk]. cbn [oslots] in *. apply nth_error_In in El, Ec.
        pose proof (size_slot ty ka ea tx vec sl mis unk _ c El Ec). lia.
  Qed.
End Positions.

Lemma acc_nodup ty : NoDup (c_acc (cls ty)).
Proof. apply nodupN_spec. apply (class_forall (fun c => nodupN (c_acc c))); vm_compute; reflexivity. Qed.
Lemma nodup_flat {A B} (f : A -> list B) l : NoDup l -> (forall x, In x l -> NoDup (f x)) ->
  (forall x y z, In x l -> In y l -> In z (f x) -> In z (f y) -> x = y) -> NoDup (flat_map f l).
Proof.
  intros Hl. induction Hl as [|x l Hx Hl IH]; intros Hf Hd; [constructor|]. cbn [flat_map]. 
  assert (H1 : NoDup (f x)) by (apply Hf; now left). assert (H2 : NoDup (flat_map f l)).
  { apply IH; [intros y Hy; apply Hf; now right|]. intros y y' z Hy Hy'. apply Hd; now right. }
  assert (H3 : forall z, In z (f x) -> ~ In z (flat_map f l)).
  { intros z Hz Hz'. apply in_flat_map in Hz' as (y & Hy & Hz'). apply Hx. rewrite (Hd x y z); auto; [now left|now right]. }
  clear -H1 H2 H3. induction H1 as [|a m Ha Hm IHm]; [exact H2|]. cbn [app]. constructor.
  - rewrite in_app_iff. intros [H|H]; [auto|]. apply (H3 a); [now left|exact H].
  - apply IHm. intros z Hz. apply H3. now right.
Qed.
Lemma index_of_key_inj k1 k2 ss : forall i j, index_of_key k1 ss i = Some j -> index_of_key k2 ss i = Some j -> k1 = k2.
Proof.
  induction ss as [|s ss IH]; intros i j; cbn [index_of_key]; [discriminate|].
  destruct (s_key s =? k1) eqn:E1, (s_key s =? k2) eqn:E2.
  - intros _ _. apply N.eqb_eq in E1, E2. congruence.
  - intros H1 H2. inversion H1; subst. apply index_of_key_spec in H2 as [H2 _]. lia.
  - intros H1 H2. inversion H2; subst. apply index_of_key_spec in H1 as [H1 _]. lia.
  - apply IH.
Qed.
Lemma number_nodup {A} (l : list A) : NoDup (number l).
Proof.
  unfold number. generalize 0%nat. induction l as [|x l IH]; intros k; [constructor|]. cbn [length seq combine]. constructor; [|apply IH].
  intros H. apply in_combine_l in H. apply in_seq in H. lia.
Qed.
Lemma positions_nodup post fuel : forall o, NoDup (positions post fuel o).
Proof.
  induction fuel as [|n IH]; intros o; [constructor|]. cbn [positions].
  assert (Hk : forall p, In p (flat_map (fun k => match index_of_key k (c_slots (cls (oty o))) 0 with
        | Some i => below i (positions post n) (nth i (oslots o) []) | None => [] end) (c_acc (cls (oty o)))) -> p <> []).
  { intros p Hp ->. apply in_flat_map in Hp as (k & _ & Hp). destruct (index_of_key k (c_slots (cls (oty o))) 0); [|destruct Hp].
    unfold below in Hp. apply in_flat_map in Hp as (x & _ & Hp). apply in_map_iff in Hp as (q & Hq & _). discriminate. }
  assert (Hd : NoDup (flat_map (fun k => match index_of_key k (c_slots (cls (oty o))) 0 with
        | Some i => below i (positions post n) (nth i (oslots o) []) | None => [] end) (c_acc (cls (oty o))))).
  { apply nodup_flat.
    - apply acc_nodup.
    - intros k _. destruct (index_of_key k (c_slots (cls (oty o))) 0) as [i|]; [|constructor]. unfold below. apply nodup_flat.
      + apply number_nodup.
      + intros x _. apply FinFun.Injective_map_NoDup; [|apply IH]. intros a b Hab. now inversion Hab.
      + intros x y z Hx Hy Hzx Hzy. apply in_map_iff in Hzx as (q & <- & _). apply in_map_iff in Hzy as (q' & Hq & _). inversion Hq.
        destruct x as [j c], y as [j' c']. cbn [fst] in *. subst j'. apply number_nth in Hx, Hy. congruence.
    - intros k1 k2 z _ _ H1 H2. destruct (index_of_key k1 (c_slots (cls (oty o))) 0) as [i1|] eqn:E1; [|destruct H1].
      destruct (index_of_key k2 (c_slots (cls (oty o))) 0) as [i2|] eqn:E2; [|destruct H2].
      unfold below in H1, H2. apply in_flat_map in H1 as (x1 & _ & H1), H2 as (x2 & _ & H2). apply in_map_iff in H1 as (q1 & <- & _).
      apply in_map_iff in H2 as (q2 & H2 & _). inversion H2. subst i2. eapply index_of_key_inj; eauto. }
  unfold around. destruct post.
  - apply (Permutation_NoDup (Permutation_cons_append _ [])). constructor; [intros H; now apply (Hk [] H)|exact Hd].
  - constructor; [intros H; now apply (Hk [] H)|exact Hd].
Qed.

(** [before x y l]: [x] comes before [y] in [l]. *)
Definition before {A} (x y : A) (l : list A) : Prop := exists a b c, l = a ++ x :: b ++ y :: c.
Lemma before_cons {A} (x y : A) l : In y l -> before x y (x :: l).
Proof. intros H. apply in_split in H as (b & c & ->). exists [], b, c. reflexivity. Qed.
Lemma before_last {A} (x y : A) l : In x l -> before x y (l ++ [y]).
Proof. intros H. apply in_split in H as (a & b & ->). exists a, b, []. now rewrite <- app_assoc. Qed.
Lemma before_app {A} (x y : A) a l c : before x y l -> before x y (a ++ l ++ c).
Proof. intros (a' & b & c' & ->). exists (a ++ a'), b, (c' ++ c). repeat (rewrite <- app_assoc; cbn [app]). reflexivity. Qed.
Lemma before_map {A B} (f : A -> B) x y l : before x y l -> before (f x) (f y) (map f l).
Proof. intros (a & b & c & ->). exists (map f a), (map f b), (map f c). repeat (rewrite map_app; cbn [map]). reflexivity. Qed.
Lemma before_flat {A B} (f : A -> list B) l z x y : In z l -> before x y (f z) -> before x y (flat_map f l).
Proof. intros H Hb. apply in_split in H as (a & c & ->). rewrite flat_map_app. cbn [flat_map]. now apply before_app. Qed.
Lemma positions_order (post : bool) fuel : forall o p s q, (size o <= fuel)%nat -> reached o (p ++ s :: q) = true ->
  if post then before (p ++ s :: q) p (positions post fuel o) else before p (p ++ s :: q) (positions post fuel o).
Proof.
  induction fuel as [|n IH]; intros o p s q Hf Hr; [destruct o; cbn [size] in Hf; lia|].
  destruct p as [|[i j] p].
  - cbn [app] in *. apply (positions_in post (S n) o _ Hf) in Hr. cbn [positions] in *. unfold around in *. destruct post.
    + apply before_last. apply in_app_or in Hr as [Hr|[Hr|[]]]; [exact Hr|discriminate].
    + apply before_cons. destruct Hr as [Hr|Hr]; [discriminate|exact Hr].
  - cbn [app reached] in Hr. apply andb_true_iff in Hr as [Hh Hr].
    destruct (nth_error (oslots o) i) as [l|] eqn:El; [|discriminate]. destruct (nth_error l j) as [c|] eqn:Ec; [|discriminate].
    assert (Hsz : (size c <= n)%nat).
    { destruct o as [ty ka ea tx vec sl mis unk]. cbn [oslots] in *. apply nth_error_In in El, Ec.
      pose proof (size_slot ty ka ea tx vec sl mis unk _ c El Ec). lia. }
    specialize (IH c p s q Hsz Hr).
    unfold handed in Hh. apply existsb_exists in Hh as (k & Hk & Hi).
    destruct (index_of_key k (c_slots (cls (oty o))) 0) as [i'|] eqn:Ei; [|discriminate]. apply Nat.eqb_eq in Hi. subst i'.
    assert (Hn : In (j, c) (number (nth i (oslots o) []))) by (apply number_nth; apply (nth_error_nth (oslots o) i []) in El; now rewrite El).
    cbn [positions app]. unfold around.
    assert (Hlift : forall x y, before x y (positions post n c) -> before ((i, j) :: x) ((i, j) :: y)
      (flat_map (fun k => match index_of_key k (c_slots (cls (oty o))) 0 with
        | Some i => below i (positions post n) (nth i (oslots o) []) | None => [] end) (c_acc (cls (oty o))))).
    { intros x y Hb. apply (before_flat _ _ k); [exact Hk|]. rewrite Ei. unfold below. apply (before_flat _ _ (j, c)); [exact Hn|]. cbn [fst snd].
      now apply (before_map (cons (i, j))). }
    destruct post.
    + apply (before_app _ _ [] _ [[]]). now apply Hlift.
    + match goal with |- before _ _ ([] :: ?x) => rewrite <- (app_nil_r x); apply (before_app _ _ [[]] x []) end. now apply Hlift.
Qed.

(** * Which child lists are not handed to visitors *)
Definition is_child_slot (s : slot) : bool := match s_kind s with KChild | KChildren => true | _ => false end.
Definition visit_gaps : list (N * N) :=
  flat_map (fun p => flat_map (fun s => if is_child_slot s && negb (existsb (N.eqb (s_key s)) (c_acc (snd p))) then [(fst p, s_key s)] else []) (c_slots (snd p))) classes.

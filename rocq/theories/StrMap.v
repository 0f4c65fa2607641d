(** std::map<string, V> as an association list in strictly increasing key order
    (std::less<string>: byte-wise lexicographic). Used by the models of attributes, caches,
    id maps and entity maps. *)
From Verif Require Import Common.
From Coq Require Import Sorted.

Fixpoint scmp (a b : str) : comparison :=
  match a, b with
  | [], [] => Eq
  | [], _ => Lt
  | _, [] => Gt
  | x :: a', y :: b' => match N.compare (code x) (code y) with Eq => scmp a' b' | c => c end
  end.
Definition slt (a b : str) : Prop := scmp a b = Lt.

Lemma code_inj x y : code x = code y -> x = y.
Proof. intros H. rewrite <- (ascii_N_embedding x), <- (ascii_N_embedding y). unfold code in H. now rewrite H. Qed.
Lemma scmp_eq a b : scmp a b = Eq <-> a = b.
Proof.
  revert b; induction a as [|x a IH]; intros [|y b]; simpl; try (split; congruence).
  destruct (N.compare_spec (code x) (code y)) as [E|E|E].
  - apply code_inj in E; subst. rewrite IH. split; congruence.
  - split; [discriminate|]. intros H; inversion H; subst. lia.
  - split; [discriminate|]. intros H; inversion H; subst. lia.
Qed.
Lemma scmp_refl a : scmp a a = Eq.
Proof. now apply scmp_eq. Qed.
Lemma scmp_antisym a b : scmp b a = CompOpp (scmp a b).
Proof.
  revert b; induction a as [|x a IH]; intros [|y b]; simpl; auto.
  rewrite N.compare_antisym. destruct (N.compare (code x) (code y)); simpl; auto.
Qed.
Lemma slt_trans a b c : slt a b -> slt b c -> slt a c.
Proof.
  unfold slt. revert b c; induction a as [|x a IH]; intros [|y b] [|z c]; simpl; try congruence.
  destruct (N.compare_spec (code x) (code y)), (N.compare_spec (code y) (code z)),
    (N.compare_spec (code x) (code z)); try congruence; try lia; intros; eauto.
Qed.
Lemma slt_irrefl a : ~ slt a a.
Proof. unfold slt. rewrite scmp_refl. discriminate. Qed.
Lemma slt_gt a b : scmp a b = Gt -> slt b a.
Proof. intros H. unfold slt. now rewrite scmp_antisym, H. Qed.

Section Map.
  Context {V : Type}.
  Definition smap := list (str * V).

  Fixpoint mget (k : str) (m : smap) : option V :=
    match m with
    | [] => None
    | (k', v) :: m' => if eqs k k' then Some v else mget k m'
    end.
  (** m[k] = v *)
  Fixpoint mset (k : str) (v : V) (m : smap) : smap :=
    match m with
    | [] => [(k, v)]
    | (k', v') :: m' =>
        match scmp k k' with
        | Lt => (k, v) :: m
        | Eq => (k, v) :: m'
        | Gt => (k', v') :: mset k v m'
        end
    end.
  (** m.erase(k) *)
  Definition mdel (k : str) (m : smap) : smap := filter (fun kv => negb (eqs k (fst kv))) m.

  Definition klt (a b : str * V) : Prop := slt (fst a) (fst b).
  Definition msorted (m : smap) : Prop := StronglySorted klt m.

  Lemma msorted_nil : msorted []. Proof. constructor. Qed.
  Lemma mset_keys k v m kv : In kv (mset k v m) -> kv = (k, v) \/ In kv m.
  Proof.
    induction m as [|[k' v'] m IH]; simpl.
    - intros [<-|[]]; auto.
    - destruct (scmp k k'); simpl; intros [<-|H]; auto. destruct (IH H); auto.
  Qed.
  Lemma mset_sorted k v m : msorted m -> msorted (mset k v m).
  Proof.
    intros H. induction H as [|[k' v'] m Hm IH Hall]; simpl.
    - repeat constructor.
    - destruct (scmp k k') eqn:E.
      + apply scmp_eq in E; subst. constructor; auto.
      + constructor; [constructor; auto|]. constructor; [exact E|].
        eapply Forall_impl; [|exact Hall]. intros a Ha. unfold klt in *. simpl in *. eapply slt_trans; eauto.
      + constructor; auto. apply Forall_forall. intros kv Hin. apply mset_keys in Hin as [->|Hin].
        * apply slt_gt in E. exact E.
        * rewrite Forall_forall in Hall. auto.
  Qed.
  Lemma mget_mset k v m k2 : msorted m -> mget k2 (mset k v m) = if eqs k2 k then Some v else mget k2 m.
  Proof.
    intros H. induction H as [|[k' v'] m Hm IH Hall]; simpl; auto.
    destruct (scmp k k') eqn:E; simpl.
    - apply scmp_eq in E; subst. destruct (eqs k2 k'); auto.
    - destruct (eqs k2 k) eqn:E2; auto.
    - rewrite IH. destruct (eqs k2 k') eqn:E2, (eqs k2 k) eqn:E3; auto.
      apply eqs_spec in E2, E3; subst. rewrite scmp_refl in E. discriminate.
  Qed.
  Lemma mdel_sorted k m : msorted m -> msorted (mdel k m).
  Proof.
    intros H. induction H as [|kv m Hm IH Hall]; simpl; [constructor|].
    destruct (negb (eqs k (fst kv))); auto. constructor; auto.
    apply Forall_forall. intros x Hx. apply filter_In in Hx as [Hx _]. rewrite Forall_forall in Hall. auto.
  Qed.
  Lemma mget_mdel k m k2 : mget k2 (mdel k m) = if eqs k2 k then None else mget k2 m.
  Proof.
    induction m as [|[k' v'] m IH]; simpl; [destruct (eqs k2 k); auto|].
    destruct (eqs k k') eqn:E; simpl.
    - rewrite IH. apply eqs_spec in E; subst. destruct (eqs k2 k'); auto.
    - rewrite IH. destruct (eqs k2 k') eqn:E2, (eqs k2 k) eqn:E3; auto.
      apply eqs_spec in E2, E3; subst. rewrite eqs_refl in E. discriminate.
  Qed.
  Lemma mget_in k v m : mget k m = Some v -> In (k, v) m.
  Proof.
    induction m as [|[k' v'] m IH]; simpl; [discriminate|].
    destruct (eqs k k') eqn:E; auto. apply eqs_spec in E; subst. intros H; inversion H; auto.
  Qed.
  Lemma in_mget k v m : msorted m -> In (k, v) m -> mget k m = Some v.
  Proof.
    intros H. induction H as [|[k' v'] m Hm IH Hall]; simpl; [tauto|].
    intros [E|Hin].
    - inversion E; subst. now rewrite eqs_refl.
    - destruct (eqs k k') eqn:E; auto. apply eqs_spec in E; subst.
      rewrite Forall_forall in Hall. specialize (Hall _ Hin). now elim (slt_irrefl k').
  Qed.
  Lemma msorted_ext m1 m2 : msorted m1 -> msorted m2 -> (forall k, mget k m1 = mget k m2) -> m1 = m2.
  Proof.
    intros H1. revert m2. induction H1 as [|[k v] m Hm IH Hall]; intros m2 H2 Hext.
    - destruct m2 as [|[k v] m2]; auto. specialize (Hext k). simpl in Hext. rewrite eqs_refl in Hext. discriminate.
    - destruct H2 as [|[k2 v2] m2 Hm2 Hall2].
      + specialize (Hext k). simpl in Hext. rewrite eqs_refl in Hext. discriminate.
      + rewrite Forall_forall in Hall, Hall2.
        assert (k = k2).
        { pose proof (Hext k) as Ek. pose proof (Hext k2) as Ek2. simpl in *. rewrite eqs_refl in *.
          destruct (eqs k k2) eqn:E; [now apply eqs_spec in E|].
          rewrite eqs_sym, E in Ek2. symmetry in Ek. apply mget_in in Ek, Ek2.
          apply Hall in Ek2. apply Hall2 in Ek. unfold klt in *. simpl in *.
          elim (slt_irrefl k). eapply slt_trans; eauto. }
        subst k2. pose proof (Hext k) as Ek. simpl in Ek. rewrite eqs_refl in Ek. inversion Ek; subst.
        f_equal. apply IH; auto. intros k3. pose proof (Hext k3) as E3. simpl in E3.
        destruct (eqs k3 k) eqn:E; auto. apply eqs_spec in E; subst.
        assert (forall m, (forall x, In x m -> klt (k, v2) x) -> mget k m = None) as Hn.
        { intros m' Hm'. destruct (mget k m') eqn:E4; auto. apply mget_in in E4. apply Hm' in E4.
          now elim (slt_irrefl k). }
        rewrite !Hn; auto.
  Qed.
  Lemma mget_none_notin k m : mget k m = None <-> ~ In k (map fst m).
  Proof.
    induction m as [|[k' v'] m IH]; simpl; [tauto|]. destruct (eqs k k') eqn:E.
    - apply eqs_spec in E; subst. split; [discriminate|]. intros H; elim H; auto.
    - apply eqs_neq in E. rewrite IH. intuition.
  Qed.
  Lemma msorted_nodup m : msorted m -> NoDup (map fst m).
  Proof.
    intros H. induction H as [|[k v] m Hm IH Hall]; simpl; constructor; auto.
    intros Hin. apply in_map_iff in Hin as ([k' v'] & E & Hin). simpl in E; subst.
    rewrite Forall_forall in Hall. now elim (slt_irrefl k (Hall _ Hin)).
  Qed.
  Lemma mset_length k v m : msorted m -> length (mset k v m) = match mget k m with Some _ => length m | None => S (length m) end.
  Proof.
    intros H. induction H as [|[k' v'] m Hm IH Hall]; simpl; auto.
    destruct (scmp k k') eqn:E; simpl.
    - apply scmp_eq in E; subst. now rewrite eqs_refl.
    - destruct (eqs k k') eqn:E2; [apply eqs_spec in E2; subst; rewrite scmp_refl in E; discriminate|].
      destruct (mget k m) eqn:E3; auto. exfalso. apply mget_in in E3. rewrite Forall_forall in Hall.
      specialize (Hall _ E3). unfold klt in Hall. simpl in Hall. elim (slt_irrefl k). eapply slt_trans; eauto.
    - destruct (eqs k k') eqn:E2; [apply eqs_spec in E2; subst; rewrite scmp_refl in E; discriminate|].
      rewrite IH. destruct (mget k m); auto.
  Qed.
  Lemma mdel_length k m : msorted m -> length (mdel k m) = match mget k m with Some _ => pred (length m) | None => length m end.
  Proof.
    intros H. induction H as [|[k' v'] m Hm IH Hall]; simpl; auto.
    destruct (eqs k k') eqn:E; simpl.
    - rewrite IH. apply eqs_spec in E; subst.
      destruct (mget k' m) eqn:E3; auto. exfalso. apply mget_in in E3. rewrite Forall_forall in Hall.
      now elim (slt_irrefl k' (Hall _ E3)).
    - rewrite IH. destruct (mget k m) eqn:E3; auto. apply mget_in in E3. destruct m; [inversion E3|reflexivity].
  Qed.
End Map.
Arguments smap V : clear implicits.

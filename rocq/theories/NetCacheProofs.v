From Verif Require Import Common StrMap NetCacheModel.
From Coq Require Import Sorted Permutation.
Local Open Scope N_scope.

(** * Specification: a queue of (url, item) pairs, oldest first. *)
Section Queue.
  Variable item : Type.
  Variable fetch_url : str -> option str.
  Variable create : str -> option item.
  Variable max_size : N.
  Definition queue := list (str * option item).
  Definition qfind (u : str) (q : queue) : option item :=
    match List.find (fun kv => if str_dec (fst kv) u then true else false) q with
    | Some (_, i) => i | None => None end.
  Definition qremove (u : str) (q : queue) : queue :=
    List.filter (fun kv => if str_dec (fst kv) u then false else true) q.
  Definition qsave (u : str) (i : option item) (q : queue) : bool * queue :=
    match qfind u q with
    | Some _ => (false, q)
    | None => (true, qremove u (if N.of_nat (length q) =? max_size then tl q else q) ++ [(u, i)])
    end.
  Definition qdelete (u : str) (q : queue) : bool * queue :=
    match qfind u q with Some _ => (true, qremove u q) | None => (false, q) end.
  Definition qpop (q : queue) : bool * queue := match q with [] => (false, []) | _ :: q' => (true, q') end.
  Definition qfetch (u : str) (q : queue) : (option item * bool) * queue :=
    match qfind u q with
    | Some i => ((Some i, false), q)
    | None => match fetch_url u with
              | None => ((None, true), q)
              | Some d => ((create d, true), snd (qsave u (create d) q))
              end
    end.
End Queue.

Inductive cop (item : Type) := CFetch (u : str) | CLook (u : str) | CSave (u : str) (i : option item) | CDelete (u : str) | CPop.
Arguments CFetch {item}. Arguments CLook {item}. Arguments CSave {item}. Arguments CDelete {item}. Arguments CPop {item}.
Inductive cout (item : Type) := RFetch (i : option item) (asked : bool) | RItem (i : option item) | RBool (b : bool).
Arguments RFetch {item}. Arguments RItem {item}. Arguments RBool {item}.

Section Run.
  Variable item : Type.
  Variable fetch_url : str -> option str.
  Variable create : str -> option item.
  Variable max_size : N.
  Notation cache := (cache item). Notation queue := (queue item).
  Definition cstep (c : cache) (o : cop item) : cout item * cache :=
    match o with
    | CFetch u => let '((i, a), c) := fetch item fetch_url create max_size u c in (RFetch i a, c)
    | CLook u => (RItem (look_up item u c), c)
    | CSave u i => let '(b, c) := save item max_size u i c in (RBool b, c)
    | CDelete u => let '(b, c) := delete item u c in (RBool b, c)
    | CPop => let '(b, c) := remove_oldest item c in (RBool b, c)
    end.
  Definition qstep (q : queue) (o : cop item) : cout item * queue :=
    match o with
    | CFetch u => let '((i, a), c) := qfetch item fetch_url create max_size u q in (RFetch i a, c)
    | CLook u => (RItem (qfind item u q), q)
    | CSave u i => let '(b, c) := qsave item max_size u i q in (RBool b, c)
    | CDelete u => let '(b, c) := qdelete item u q in (RBool b, c)
    | CPop => let '(b, c) := qpop item q in (RBool b, c)
    end.
  Fixpoint crun (c : cache) (os : list (cop item)) : list (cout item) * cache :=
    match os with
    | [] => ([], c)
    | o :: os => let '(r, c) := cstep c o in let '(rs, c) := crun c os in (r :: rs, c)
    end.
  Fixpoint qrun (q : queue) (os : list (cop item)) : list (cout item) * queue :=
    match os with
    | [] => ([], q)
    | o :: os => let '(r, q) := qstep q o in let '(rs, q) := qrun q os in (r :: rs, q)
    end.

  (** * Refinement *)
  Definition stlt (a b : str * entry item) : Prop := snd (snd a) < snd (snd b).
  Definition strip (kv : str * entry item) : str * option item := (fst kv, fst (snd kv)).
  Record R (c : cache) (l : list (str * entry item)) : Prop := {
    r_sorted : msorted (cmap item c);
    r_in : forall kv, In kv l <-> In kv (cmap item c);
    r_asc : StronglySorted stlt l;
    r_keys : NoDup (map fst l);
    r_count : Forall (fun kv => snd (snd kv) < count item c) l }.

  Lemma stlt_irrefl a : ~ stlt a a. Proof. unfold stlt; lia. Qed.
  Lemma nodup_of_keys {A B} (l : list (A * B)) : NoDup (map fst l) -> NoDup l.
  Proof. apply NoDup_map_inv. Qed.
  Lemma R_length c l : R c l -> length l = length (cmap item c).
  Proof.
    intros H. apply Permutation_length. apply NoDup_Permutation.
    - apply nodup_of_keys. apply H.
    - apply nodup_of_keys. apply msorted_nodup. apply H.
    - apply H.
  Qed.
  Lemma R_init : R (empty_cache item) [].
  Proof. constructor; simpl; try constructor; tauto. Qed.

  Lemma key_unique (l : list (str * entry item)) k v1 v2 : NoDup (map fst l) -> In (k, v1) l -> In (k, v2) l -> v1 = v2.
  Proof.
    induction l as [|[k' v'] l IH]; simpl; [tauto|]. intros Hn H1 H2. inversion Hn; subst.
    destruct H1 as [H1|H1], H2 as [H2|H2]; auto; try congruence.
    - inversion H1; subst. elim H3. apply in_map_iff. exists (k, v2). auto.
    - inversion H2; subst. elim H3. apply in_map_iff. exists (k, v1). auto.
  Qed.

  Lemma R_find c l u : R c l -> look_up item u c = qfind item u (map strip l).
  Proof.
    intros H. unfold look_up, qfind.
    destruct (mget u (cmap item c)) as [[i s]|] eqn:E.
    - apply mget_in, (r_in _ _ H) in E. pose proof (r_keys _ _ H) as Hn. clear H.
      induction l as [|[k' [i' s']] l IH]; simpl in *; [tauto|]. inversion Hn; subst.
      destruct (str_dec k' u) as [->|Hk].
      + destruct E as [E|E]; [now inversion E|]. elim H1. apply in_map_iff. now exists (u, (i, s)).
      + destruct E as [E|E]; [inversion E; congruence|]. auto.
    - assert (Hno : forall v, ~ In (u, v) l).
      { intros v Hv. apply (r_in _ _ H) in Hv. apply in_mget in Hv; [congruence|apply H]. }
      clear H E. induction l as [|[k' [i' s']] l IH]; simpl in *; auto.
      destruct (str_dec k' u) as [->|Hk]; [elim (Hno (i', s')); auto|]. apply IH. intros v Hv. apply (Hno v). auto.
  Qed.

  Definition lremove (u : str) (l : list (str * entry item)) := filter (fun kv => if str_dec (fst kv) u then false else true) l.
  Lemma strip_remove u l : map strip (lremove u l) = qremove item u (map strip l).
  Proof.
    induction l as [|[k v] l IH]; simpl; auto. destruct (str_dec k u); simpl; auto. f_equal. auto.
  Qed.
  Lemma mdel_lremove u (m : smap (entry item)) : mdel u m = lremove u m.
  Proof.
    unfold mdel, lremove. apply filter_ext. intros [k v]. simpl. destruct (str_dec k u) as [->|E].
    - now rewrite eqs_refl.
    - destruct (eqs u k) eqn:E2; auto. apply eqs_spec in E2. congruence.
  Qed.
  Lemma filter_strong {A} (Q : A -> A -> Prop) f l : StronglySorted Q l -> StronglySorted Q (filter f l).
  Proof.
    induction 1 as [|a l H IH Hall]; simpl; [constructor|]. destruct (f a); auto. constructor; auto.
    rewrite Forall_forall in *. intros x Hx. apply filter_In in Hx. now apply Hall.
  Qed.
  Lemma filter_nodup_keys f (l : list (str * entry item)) : NoDup (map fst l) -> NoDup (map fst (filter f l)).
  Proof.
    induction l as [|a l IH]; simpl; auto. intros H; inversion H; subst. destruct (f a); simpl; auto. constructor; auto.
    intros Hin. apply H2. apply in_map_iff in Hin as (x & Ex & Hx). apply filter_In in Hx. apply in_map_iff. exists x. tauto.
  Qed.
  Lemma R_remove c l u : R c l -> R {| cmap := mdel u (cmap item c); count := count item c |} (lremove u l).
  Proof.
    intros H. constructor; cbn [cmap count].
    - apply mdel_sorted, H.
    - intros kv. rewrite mdel_lremove. unfold lremove. rewrite !filter_In. now rewrite (r_in _ _ H).
    - apply filter_strong, H.
    - apply filter_nodup_keys, H.
    - pose proof (r_count _ _ H) as Hc. rewrite Forall_forall in *. intros x Hx. apply filter_In in Hx. now apply Hc.
  Qed.

  Lemma oldest_spec (m : smap (entry item)) first : In (oldest item first m) (first :: m) /\
    forall kv, In kv (first :: m) -> snd (snd (oldest item first m)) <= snd (snd kv).
  Proof.
    revert first. induction m as [|x m IH]; intros first.
    - simpl. split; auto. intros kv [->|[]]. lia.
    - change (oldest item first (x :: m)) with (oldest item (if snd (snd x) <? snd (snd first) then x else first) m).
      destruct (snd (snd x) <? snd (snd first)) eqn:E.
      + destruct (IH x) as [H1 H2]. split.
        * simpl in *. tauto.
        * intros kv [->|Hk]; auto. specialize (H2 x (or_introl eq_refl)). lia.
      + destruct (IH first) as [H1 H2]. split.
        * simpl in *. tauto.
        * intros kv [->|[->|Hk]]; auto.
          -- apply H2. simpl; auto.
          -- specialize (H2 first (or_introl eq_refl)). lia.
          -- apply H2. simpl; auto.
  Qed.
  Lemma lremove_notin u l : ~ In u (map fst l) -> lremove u l = l.
  Proof.
    induction l as [|[k v] l IH]; simpl; auto. intros H. destruct (str_dec k u); [tauto|]. f_equal. auto.
  Qed.
  Lemma lremove_out u l : ~ In u (map fst (lremove u l)).
  Proof.
    intros H. apply in_map_iff in H as ((k & v) & E & H). simpl in E; subst. apply filter_In in H as [_ H]. simpl in H.
    destruct (str_dec u u); congruence.
  Qed.
  Lemma lremove_head u v t : NoDup (map fst ((u, v) :: t)) -> lremove u ((u, v) :: t) = t.
  Proof.
    intros H. unfold lremove. simpl. destruct (str_dec u u); [|congruence]. simpl in H. inversion H; subst.
    now apply lremove_notin.
  Qed.
  Lemma R_oldest c u v t first m : R c ((u, v) :: t) -> cmap item c = first :: m -> oldest item first (first :: m) = (u, v).
  Proof.
    intros H Em. destruct (oldest_spec (first :: m) first) as [H1 H2].
    set (o := oldest item first (first :: m)) in *.
    assert (Hin : In o (first :: m)) by (destruct H1 as [<-|]; simpl; auto).
    rewrite <- Em in Hin. apply (r_in _ _ H) in Hin. destruct Hin as [Hin|Hin]; auto.
    pose proof (r_asc _ _ H) as Ha. apply StronglySorted_inv in Ha as [_ Ha]. rewrite Forall_forall in Ha. specialize (Ha _ Hin).
    unfold stlt in Ha.
    assert (Huv : In (u, v) (first :: m)) by (rewrite <- Em; apply (r_in _ _ H); simpl; auto).
    specialize (H2 (u, v) (or_intror Huv)). lia.
  Qed.
  Lemma R_pop c l : R c l -> R (snd (remove_oldest item c)) (tl l) /\
    fst (remove_oldest item c) = fst (qpop item (map strip l)) /\ count item (snd (remove_oldest item c)) = count item c.
  Proof.
    intros H. pose proof (R_length _ _ H) as Hl. unfold remove_oldest.
    destruct (cmap item c) as [|first m] eqn:Em.
    - destruct l; [|discriminate]. auto.
    - destruct l as [|[u v] t]; [discriminate|]. cbn [snd fst tl].
      rewrite (R_oldest _ _ _ _ _ _ H Em). cbn [fst]. split; [|auto].
      pose proof (R_remove c _ u H) as Hr. rewrite Em in Hr. rewrite lremove_head in Hr by apply H. exact Hr.
  Qed.

  Lemma strong_snoc {A} (Q : A -> A -> Prop) l x : StronglySorted Q l -> Forall (fun y => Q y x) l -> StronglySorted Q (l ++ [x]).
  Proof.
    induction 1 as [|a l H IH Hall]; intros Hf; simpl; [repeat constructor|].
    inversion Hf; subst. constructor; auto. apply Forall_app. auto.
  Qed.
  Lemma nodup_snoc {A} (l : list A) x : NoDup l -> ~ In x l -> NoDup (l ++ [x]).
  Proof.
    induction 1 as [|a l Ha Hl IH]; intros Hx; simpl; [repeat constructor; auto|].
    constructor; [|apply IH; simpl in Hx; tauto]. rewrite in_app_iff. simpl in *. intros [|[->|[]]]; tauto.
  Qed.
  Lemma R_put c l u i : R c l ->
    R {| cmap := mset u (i, count item c) (cmap item c); count := count item c + 1 |} (lremove u l ++ [(u, (i, count item c))]).
  Proof.
    intros H. pose proof (R_remove c l u H) as Hr.
    assert (Hs : msorted (mset u (i, count item c) (cmap item c))) by (apply mset_sorted, H).
    constructor; cbn [cmap count].
    - auto.
    - intros [k v]. rewrite in_app_iff. simpl. split.
      + intros [Hin|[E|[]]].
        * apply (r_in _ _ Hr) in Hin. cbn [cmap] in Hin. apply mget_in.
          apply in_mget in Hin; [|apply mdel_sorted, H]. rewrite mget_mdel in Hin. rewrite mget_mset by apply H.
          destruct (eqs k u); [discriminate|]. auto.
        * inversion E; subst. apply mget_in. rewrite mget_mset by apply H. now rewrite eqs_refl.
      + intros Hin. apply in_mget in Hin; auto. rewrite mget_mset in Hin by apply H.
        destruct (eqs k u) eqn:E.
        * apply eqs_spec in E; subst. inversion Hin; subst. auto.
        * left. apply (r_in _ _ Hr). cbn [cmap]. apply mget_in. rewrite mget_mdel, E. auto.
    - apply strong_snoc; [apply Hr|]. apply Hr.
    - rewrite map_app. apply nodup_snoc; [apply Hr|]. apply lremove_out.
    - apply Forall_app. split; [|constructor; [simpl; lia|constructor]].
      pose proof (r_count _ _ Hr) as Hc. cbn [count] in Hc. eapply Forall_impl; [|exact Hc]. simpl. intros; lia.
  Qed.

  Lemma strip_tl l : map strip (tl l) = tl (map strip l). Proof. now destruct l. Qed.
  Lemma R_save c l u i : R c l -> exists l', R (snd (save item max_size u i c)) l' /\
    map strip l' = snd (qsave item max_size u i (map strip l)) /\
    fst (save item max_size u i c) = fst (qsave item max_size u i (map strip l)).
  Proof.
    intros H. unfold save, qsave. rewrite <- (R_find _ _ _ H). destruct (look_up item u c) eqn:E; cbn [fst snd].
    - eauto.
    - unfold size. rewrite <- (R_length _ _ H), map_length. destruct (N.of_nat (length l) =? max_size) eqn:Em.
      + destruct (R_pop _ _ H) as (Hp & _ & Hc). eexists. split; [apply R_put, Hp|]. split; auto.
        rewrite map_app, strip_remove, strip_tl. reflexivity.
      + eexists. split; [apply R_put, H|]. split; auto. rewrite map_app, strip_remove. reflexivity.
  Qed.

  Lemma step_refines c l o : R c l -> exists l', R (snd (cstep c o)) l' /\
    map strip l' = snd (qstep (map strip l) o) /\ fst (cstep c o) = fst (qstep (map strip l) o).
  Proof.
    intros H. destruct o as [u|u|u i|u|]; cbn [cstep qstep].
    - unfold fetch, qfetch. rewrite <- (R_find _ _ _ H). destruct (look_up item u c) eqn:E; [cbn; eauto|].
      destruct (fetch_url u) as [d|]; [|cbn; eauto].
      destruct (R_save _ _ u (create d) H) as (l' & HR & Hq & Hb).
      assert (Hok : fst (save item max_size u (create d) c) = true) by (unfold save; rewrite E; reflexivity).
      destruct (save item max_size u (create d) c) as [ok c']. cbn [fst snd] in *. rewrite Hok. eauto.
    - rewrite <- (R_find _ _ _ H). cbn; eauto.
    - destruct (R_save _ _ u i H) as (l' & HR & Hq & Hb).
      destruct (save item max_size u i c), (qsave item max_size u i (map strip l)). cbn [fst snd] in *. subst. eauto.
    - unfold delete, qdelete. rewrite <- (R_find _ _ _ H). destruct (look_up item u c); cbn; [|eauto].
      eexists. split; [apply R_remove, H|]. split; auto. apply strip_remove.
    - destruct (R_pop _ _ H) as (Hp & Hb & _). exists (tl l).
      destruct (remove_oldest item c), l; cbn [fst snd qpop map tl] in *; subst; auto.
  Qed.
  Lemma run_refines os c l : R c l -> exists l', R (snd (crun c os)) l' /\
    map strip l' = snd (qrun (map strip l) os) /\ fst (crun c os) = fst (qrun (map strip l) os).
  Proof.
    revert c l; induction os as [|o os IH]; intros c l H; [cbn; eauto|]. cbn [crun qrun].
    destruct (step_refines _ _ o H) as (l1 & H1 & Hq & Hr).
    destruct (cstep c o) as [r c1], (qstep (map strip l) o) as [r' q1]. cbn [fst snd] in *. subst.
    destruct (IH _ _ H1) as (l2 & H2 & Hq2 & Hr2).
    destruct (crun c1 os), (qrun (map strip l1) os). cbn [fst snd] in *. subst. eauto.
  Qed.
  Lemma cache_refines_queue os :
    fst (crun (empty_cache item) os) = fst (qrun [] os) /\
    size item (snd (crun (empty_cache item) os)) = N.of_nat (length (snd (qrun [] os))) /\
    forall u, look_up item u (snd (crun (empty_cache item) os)) = qfind item u (snd (qrun [] os)).
  Proof.
    destruct (run_refines os _ _ R_init) as (l & H & Hq & Hr). cbn [map] in *. rewrite <- Hq. repeat split; auto.
    - unfold size. now rewrite map_length, (R_length _ _ H).
    - intros u. now apply R_find.
  Qed.

  (** * Facts about the queue *)
  Lemma qremove_length u q : (length (qremove item u q) <= length q)%nat.
  Proof. unfold qremove. induction q as [|[k v] q IH]; simpl; auto. destruct (str_dec k u); simpl; lia. Qed.
  Lemma qstep_bound q o : 0 < max_size -> N.of_nat (length q) <= max_size -> N.of_nat (length (snd (qstep q o))) <= max_size.
  Proof.
    intros Hm Hq.
    assert (Hs : forall u i, N.of_nat (length (snd (qsave item max_size u i q))) <= max_size).
    { intros u i. unfold qsave. destruct (qfind item u q); auto. cbn [snd]. rewrite app_length. cbn [length].
      pose proof (qremove_length u (if N.of_nat (length q) =? max_size then tl q else q)) as Hl.
      destruct (N.of_nat (length q) =? max_size) eqn:E; [|lia]. destruct q; cbn [tl length] in *; lia. }
    destruct o; cbn [qstep].
    - unfold qfetch. destruct (qfind item u q); auto. destruct (fetch_url u) as [d|]; auto. apply Hs.
    - auto.
    - specialize (Hs u i). now destruct (qsave item max_size u i q).
    - unfold qdelete. destruct (qfind item u q); auto. cbn [snd]. pose proof (qremove_length u q). lia.
    - destruct q; cbn [qpop snd length] in *; lia.
  Qed.
  Lemma qrun_bound os q : 0 < max_size -> N.of_nat (length q) <= max_size -> N.of_nat (length (snd (qrun q os))) <= max_size.
  Proof.
    intros Hm. revert q; induction os as [|o os IH]; intros q Hq; auto. cbn [qrun].
    pose proof (qstep_bound q o Hm Hq) as H1. destruct (qstep q o) as [r q1]. specialize (IH q1 H1).
    destruct (qrun q1 os). auto.
  Qed.
  Lemma cache_bounded os : 0 < max_size -> size item (snd (crun (empty_cache item) os)) <= max_size.
  Proof. intros H. destruct (cache_refines_queue os) as (_ & -> & _). apply qrun_bound; auto. cbn. lia. Qed.

  Lemma crun_app os1 os2 c : snd (crun c (os1 ++ os2)) = snd (crun (snd (crun c os1)) os2).
  Proof.
    revert c; induction os1 as [|o os IH]; intros c; [reflexivity|]. cbn [app crun]. destruct (cstep c o) as [r c1].
    specialize (IH c1). destruct (crun c1 (os ++ os2)), (crun c1 os) as [rs c2]. auto.
  Qed.
  (** A save that is accepted is visible. *)
  Lemma save_visible c u i : msorted (cmap item c) -> fst (save item max_size u i c) = true -> look_up item u (snd (save item max_size u i c)) = i.
  Proof.
    intros Hs. unfold save. destruct (look_up item u c); [discriminate|]. intros _. cbn [snd]. unfold look_up. cbn [cmap].
    rewrite mget_mset, eqs_refl; auto. destruct (size item c =? max_size); auto.
    unfold remove_oldest. destruct (cmap item c) eqn:E; cbn [snd cmap]; [now rewrite E|]. now apply mdel_sorted.
  Qed.
  Lemma reach_sorted os : msorted (cmap item (snd (crun (empty_cache item) os))).
  Proof. destruct (run_refines os _ _ R_init) as (l & H & _). apply H. Qed.
  Lemma reach_save_visible os u i : let c := snd (crun (empty_cache item) os) in
    fst (save item max_size u i c) = true -> look_up item u (snd (save item max_size u i c)) = i.
  Proof. cbn. apply save_visible, reach_sorted. Qed.

  (** A hit asks nothing and changes nothing. *)
  Lemma fetch_hit u c i : look_up item u c = Some i -> fetch item fetch_url create max_size u c = ((Some i, false), c).
  Proof. intros H. unfold fetch. now rewrite H. Qed.
  (** A fetch after a successful fetch is a hit. *)
  Lemma fetch_fetch c u i a : msorted (cmap item c) -> fst (fetch item fetch_url create max_size u c) = (Some i, a) ->
    fetch item fetch_url create max_size u (snd (fetch item fetch_url create max_size u c)) = ((Some i, false), snd (fetch item fetch_url create max_size u c)).
  Proof.
    intros Hs H. apply fetch_hit. revert H. unfold fetch. destruct (look_up item u c) eqn:E; [cbn; congruence|].
    destruct (fetch_url u) as [d|]; [|discriminate].
    assert (Hok : fst (save item max_size u (create d) c) = true) by (unfold save; rewrite E; reflexivity).
    pose proof (save_visible c u (create d) Hs Hok) as Hv.
    destruct (save item max_size u (create d) c) as [ok c']. cbn [fst snd] in *. subst ok. congruence.
  Qed.
End Run.

(** * Refutations *)
(** With capacity 0 the cache grows without bound. *)
Definition urls (n : nat) : list str := map (fun i => List.repeat "u"%char (S i)) (seq 0 n).
Lemma qfind_notin {item} u (q : queue item) : ~ In u (map fst q) -> qfind item u q = None.
Proof.
  unfold qfind. induction q as [|[k v] q IH]; simpl; auto. intros H. destruct (str_dec k u); [tauto|]. auto.
Qed.
Lemma qremove_notin {item} u (q : queue item) : ~ In u (map fst q) -> qremove item u q = q.
Proof.
  unfold qremove. induction q as [|[k v] q IH]; simpl; auto. intros H. destruct (str_dec k u); [tauto|]. f_equal. auto.
Qed.
Lemma zero_grows us q : NoDup (map fst q ++ us) ->
  length (snd (qrun unit (fun _ => None) (fun _ => None) 0 q (map (fun u => CSave u (Some tt)) us))) = (length q + length us)%nat.
Proof.
  revert q; induction us as [|u us IH]; intros q H; [cbn; lia|].
  assert (Hu : ~ In u (map fst q)) by (apply NoDup_remove_2 in H; rewrite in_app_iff in H; tauto).
  assert (E : qsave unit 0 u (Some tt) q = (true, q ++ [(u, Some tt)])).
  { unfold qsave. rewrite qfind_notin by auto. f_equal. f_equal. transitivity (qremove unit u q); [|now apply qremove_notin].
    destruct q; reflexivity. }
  cbn [map qrun qstep]. rewrite E.
  specialize (IH (q ++ [(u, Some tt)])). rewrite map_app, <- app_assoc in IH. specialize (IH H).
  destruct (qrun _ _ _ _ _ _). cbn [snd length] in *. rewrite IH, app_length. cbn. lia.
Qed.
Lemma urls_nodup n : NoDup (urls n).
Proof.
  unfold urls. apply FinFun.Injective_map_NoDup; [|apply seq_NoDup].
  intros i j H. apply (f_equal (@length ascii)) in H. rewrite !repeat_length in H. lia.
Qed.
Lemma zero_capacity_unbounded n : exists os,
  size unit (snd (crun unit (fun _ => None) (fun _ => None) 0 (empty_cache unit) os)) = N.of_nat n.
Proof.
  exists (map (fun u => CSave u (Some tt)) (urls n)). rewrite (proj1 (proj2 (cache_refines_queue _ _ _ _ _))).
  rewrite zero_grows by apply urls_nodup. unfold urls. now rewrite !map_length, seq_length.
Qed.
(** Fetching a cached URL whose data could not be turned into an item asks again and evicts another entry. *)
Lemma null_item_evicts : exists (fetch_url create : str -> option str) os u v,
  let c := snd (crun str fetch_url create 2 (empty_cache str) os) in
  size str c = 2 /\ mget u (cmap str c) <> None /\ look_up str v c <> None /\ u <> v /\
  look_up str v (snd (fetch str fetch_url create 2 u c)) = None.
Proof.
  exists (fun u => Some u), (fun d => if eqs d (S_ "bad") then None else Some d),
    [CFetch (S_ "a"); CFetch (S_ "bad")], (S_ "bad"), (S_ "a").
  vm_compute. repeat split; discriminate.
Qed.

(** Property theorems about element ownership (C15, C16). *)
From Verif Require Import Common ParentModel ParentProofs.
From Coq Require Import Relations.
Local Open Scope N_scope.

(** C15. After any sequence of calls, an element is a child of at most one element, and occurs there
    once. *)
Theorem at_most_one_parent : forall ops h p q c, run heap0 ops = Ok h -> holds h p c -> holds h q c -> p = q.
Proof. exact one_parent. Qed.
Print Assumptions at_most_one_parent.
Theorem child_occurs_once : forall ops h p, run heap0 ops = Ok h -> NoDup (map snd (kids h p)).
Proof. exact held_once. Qed.
Print Assumptions child_occurs_once.

(** C15, C16. Once an element was accepted by a parent, every later attempt to give it to any parent is
    refused and changes nothing, whatever happened in between (including its removal). *)
Theorem never_adopted_twice : forall ops1 ops2 o1 o2 c h1 h2 h3 h4 b,
  run heap0 ops1 = Ok h1 -> adopts o1 c -> step h1 o1 = Ok (h2, true) ->
  run h2 ops2 = Ok h3 -> adopts o2 c -> step h3 o2 = Ok (h4, b) -> b = false /\ h4 = h3.
Proof. exact adopted_once. Qed.
Print Assumptions never_adopted_twice.

(** C15. A parent only accepts an element of the same file. *)
Theorem adopted_in_same_file : forall h o h' c p, step h o = Ok (h', true) ->
  (exists k, o = AddChild p k c \/ o = SetChild p k (Some c)) -> file h c = file h p.
Proof. exact adopt_same_file. Qed.
Print Assumptions adopted_in_same_file.

(** C15. If no call puts an element below itself, the children relation has no cycle (with
    at_most_one_parent: it is a forest). *)
Theorem children_forest : forall ops h, all_downward heap0 ops -> run heap0 ops = Ok h -> forall n, ~ clos_trans _ (holds h) n n.
Proof. exact forest. Qed.
Print Assumptions children_forest.
Example forest_sample : let ops := [New; New; New; AddChild 0 1 1; AddChild 1 1 2] in
  all_downward heap0 ops /\ exists h, run heap0 ops = Ok h /\ kids h 0 = [(1, 1)] /\ kids h 1 = [(1, 2)].
Proof.
  cbn zeta. split; [|eexists; split; [reflexivity|split; reflexivity]].
  cbn [all_downward]. do 3 (split; [intros p c (k & [E | E]); discriminate|]; intros ? ? E0; inversion E0; subst; clear E0).
  split; [apply fresh_child_downward; [|lia|]|].
  - eapply (run_sound [New; New; New]); [apply sound0|reflexivity].
  - intros n. cbn. unfold upd. repeat destruct (_ =? _); discriminate.
  - intros h' b E. vm_compute in E. inversion E; subst; clear E.
    split; [|auto]. apply fresh_child_downward; [|lia|].
    + eapply (run_sound [New; New; New; AddChild 0 1 1]); [apply sound0|]. vm_compute. reflexivity.
    + intros n. cbn. intros K. destruct n as [|[n|n|]]; try discriminate; destruct n; discriminate.
Qed.

(** C15. Refuted: an element is accepted by itself and by its own descendant, which makes a cycle. *)
Theorem cycle_refuted : exists ops h, run heap0 ops = Ok h /\ holds h 0 1 /\ holds h 1 0.
Proof.
  exists [New; New; AddChild 0 7 1; AddChild 1 7 0]. eexists. split; [vm_compute; reflexivity|].
  split; exists 7; vm_compute; auto.
Qed.
Print Assumptions cycle_refuted.
Theorem self_child_refuted : exists ops h, run heap0 ops = Ok h /\ holds h 0 0.
Proof. exists [New; AddChild 0 7 0]. eexists. split; [vm_compute; reflexivity|]. exists 7. vm_compute. auto. Qed.
Print Assumptions self_child_refuted.

(** C16. Refuted: a removed element cannot be given to another parent. *)
Theorem removed_not_reusable_refuted : exists h h1, run heap0 [New; New; New; AddChild 0 7 1; DeleteAt 0 7 0] = Ok h /\
  ~ holds h 0 1 /\ step h (AddChild 2 7 1) = Ok (h1, false).
Proof.
  eexists. eexists. split; [vm_compute; reflexivity|]. split; [|vm_compute; reflexivity].
  intros [k Hk]. vm_compute in Hk. destruct Hk.
Qed.
Print Assumptions removed_not_reusable_refuted.
(** C16. Refuted: after its old parent is destroyed, the parent reference of a removed element, or of
    an element replaced by a setter, dangles. *)
Theorem dangling_parent_refuted :
  (exists h, run heap0 [New; New; AddChild 0 7 1; DeleteAt 0 7 0; Release 0] = Ok h /\ held h 1 = true /\ deref_parent h 1 = UB) /\
  (exists h, run heap0 [New; New; New; SetChild 0 7 (Some 1); SetChild 0 7 (Some 2); Release 0] = Ok h /\ held h 1 = true /\ deref_parent h 1 = UB).
Proof. split; eexists; (split; [vm_compute; reflexivity|]); split; vm_compute; reflexivity. Qed.
Print Assumptions dangling_parent_refuted.
(** C15. From a child one comes back to the element that has it, while this one lives. *)
Theorem child_knows_parent : forall ops h p c, run heap0 ops = Ok h -> holds h p c -> alive h p = true -> deref_parent h c = Ok (Some p).
Proof.
  intros ops h p c Hr Hh Ha. pose proof (run_sound ops heap0 h sound0 Hr) as S. unfold deref_parent. rewrite (so_parent h S p c Hh), Ha. reflexivity.
Qed.
Print Assumptions child_knows_parent.
(** C15. An element that was never given to another has no parent. *)
Theorem fresh_no_parent : forall ops h h' b, run heap0 ops = Ok h -> step h New = Ok (h', b) -> deref_parent h' (next h) = Ok None.
Proof.
  intros ops h h' b Hr Hs. pose proof (run_sound ops heap0 h sound0 Hr) as S. destruct (so_fresh h S (next h) (N.le_refl _)) as [Hp _].
  cbn [step] in Hs. injection Hs as <- <-. unfold deref_parent. cbn [parent]. rewrite upd_eq. reflexivity.
Qed.
Print Assumptions fresh_no_parent.
(** C15. A call is defined exactly if the caller holds the elements it names; otherwise its behaviour is undefined. *)
Definition named (o : op) (n : N) : Prop :=
  match o with
  | New => False
  | SetChild p _ None => n = p
  | SetChild p _ (Some c) => n = p \/ n = c
  | AddChild p _ c => n = p \/ n = c
  | DeleteAt p _ _ => n = p
  | Retain m | Release m | SetFile m _ => n = m
  end.
Theorem calls_defined : forall h o, ((forall n, named o n -> held h n = true) <-> exists r, step h o = Ok r) /\ ((exists n, named o n /\ held h n = false) <-> step h o = UB).
Proof.
  assert (K : forall h o, ((forall n, named o n -> held h n = true) /\ exists r, step h o = Ok r) \/ ((exists n, named o n /\ held h n = false) /\ step h o = UB)).
  { intros h o. destruct o as [|p k [c|]|p k c|p k i|m|m|m f]; cbn [named step].
    1: { left. split; [tauto|eauto]. }
    1, 3: destruct (held h p) eqn:E1, (held h c) eqn:E2; cbn [andb]; try (right; split; [eauto|reflexivity]); left; (split; [intros n [->| ->]; assumption|destruct (can_set_parent h c p); eauto]).
    all: match goal with |- context [held ?g ?x] => destruct (held g x) eqn:E1 end; [left; split; [intros n ->; assumption|]|right; split; [eauto|reflexivity]].
    - eauto.
    - destruct (erase k i (kids h p)) as [[c ks]|]; eauto.
    - eauto.
    - eauto.
    - destruct (file h m); eauto. }
  intros h o. destruct (K h o) as [[A [r B]]|[[n [N1 N2]] B]]; split; split; intros H.
  - eauto.
  - exact A.
  - destruct H as (n & N1 & N2). rewrite (A n N1) in N2. discriminate.
  - congruence.
  - rewrite (H n N1) in N2. discriminate.
  - destruct H as [r H]. congruence.
  - exact B.
  - eauto.
Qed.
Print Assumptions calls_defined.
(** C15. What every call does: it is accepted exactly if the new child has no parent and is of the same file, the
    index is one of the field, the element is of no file yet; a refused call changes nothing; an accepted one
    changes the named field of the named element, as said, and no other field of any element which is still alive. *)
Definition field (h : heap) (p k : N) : list N := map snd (filter (fun e => fst e =? k) (kids h p)).
Definition accepted (h : heap) (o : op) : Prop :=
  match o with
  | SetChild p _ (Some c) | AddChild p _ c => parent h c = None /\ file h c = file h p
  | DeleteAt p k i => (i < length (field h p k))%nat
  | SetFile n _ => file h n = None
  | _ => True
  end.
Definition effect (h : heap) (o : op) (p k : N) (before : list N) : list N :=
  match o with
  | New => if p =? next h then [] else before
  | SetChild q j c => if (p =? q) && (k =? j) then match c with Some c => [c] | None => [] end else before
  | AddChild q j c => if (p =? q) && (k =? j) then before ++ [c] else before
  | DeleteAt q j i => if (p =? q) && (k =? j) then firstn i before ++ skipn (S i) before else before
  | _ => before
  end.
Lemma collect_kids n p : forall h, alive (collect n h) p = true -> kids (collect n h) p = kids h p /\ alive h p = true.
Proof.
  induction n as [|n IH]; intros h; cbn [collect]; [auto|]. destruct (garbage h) as [m|]; [|auto].
  intros H. apply IH in H as [H1 H2]. rewrite H1. cbn [free alive kids] in *. unfold upd in *. destruct (p =? m); [discriminate|]. auto.
Qed.
Lemma field_drop k j l : map snd (filter (fun e : N * N => fst e =? k) (filter (fun e => negb (in_slot j e)) l)) = if k =? j then [] else map snd (filter (fun e => fst e =? k) l).
Proof.
  unfold in_slot. induction l as [|[a b] l IH]; cbn [filter map fst]; [destruct (k =? j); reflexivity|].
  destruct (a =? j) eqn:E1; cbn [negb filter fst]; destruct (a =? k) eqn:E2; cbn [map snd]; rewrite IH;
    destruct (k =? j) eqn:E3; try reflexivity; rewrite ?N.eqb_eq, ?N.eqb_neq in *; congruence.
Qed.
Lemma erase_field (j k : N) : forall l i, 
  match erase j i l with
  | None => (length (map snd (filter (fun e : N * N => (fst e =? j)%N) l)) <= i)%nat
  | Some (c, r) => (i < length (map snd (filter (fun e : N * N => (fst e =? j)%N) l)))%nat /\
      map snd (filter (fun e => fst e =? k) r) = (let b := map snd (filter (fun e : N * N => fst e =? k) l) in if k =? j then firstn i b ++ skipn (S i) b else b)
  end.
Proof.
  induction l as [|[a b] l IH]; intros i; cbn [erase filter map length fst]; [lia|]. unfold in_slot at 1. cbn [fst].
  destruct (a =? j) eqn:E1.
  - apply N.eqb_eq in E1 as ->. cbn [map length snd]. destruct i as [|i].
    + split; [cbn [length]; lia|]. cbv zeta. rewrite (N.eqb_sym j k). destruct (k =? j); reflexivity.
    + specialize (IH i). destruct (erase j i l) as [[c r]|]; cbn [option_map fst snd length]; [|lia].
      destruct IH as [I1 I2]. split; [lia|]. cbn [filter fst]. cbv zeta in *. rewrite (N.eqb_sym j k). destruct (k =? j); cbn [map snd firstn skipn app]; rewrite I2; reflexivity.
  - specialize (IH i). destruct (erase j i l) as [[c r]|]; cbn [option_map fst snd]; [|exact IH].
    destruct IH as [I1 I2]. split; [exact I1|]. cbn [filter fst]. cbv zeta in *. destruct (a =? k) eqn:E2; [|exact I2].
    apply N.eqb_eq in E2 as ->. rewrite E1 in *. cbn [map snd]. rewrite I2. reflexivity.
Qed.
Theorem calls_do : forall h o h' b, step h o = Ok (h', b) ->
  (b = true <-> accepted h o) /\ (b = false -> h' = h) /\
  (b = true -> forall p k, alive h' p = true -> field h' p k = effect h o p k (field h p k)).
Proof.
  assert (OE : forall a b, oeq a b = true <-> a = b).
  { intros [x|] [y|]; cbn [oeq]; rewrite ?N.eqb_eq; split; intros H; try congruence; try discriminate. }
  assert (CP : forall h c p, can_set_parent h c p = true <-> parent h c = None /\ file h c = file h p).
  { intros h c p. unfold can_set_parent. destruct (parent h c); [split; [discriminate|intros [? _]; discriminate]|]. rewrite OE. tauto. }
  intros h o h' b. destruct o as [|q j [c|]|q j c|q j i|m|m|m f]; cbn [step accepted effect]; intros H.
  - injection H as <- <-. split; [tauto|]. split; [discriminate|]. intros _ p k _. unfold field. cbn [kids]. unfold upd. destruct (p =? next h); reflexivity.
  - destruct (held h q && held h c); [|discriminate]. destruct (can_set_parent h c q) eqn:E; injection H as <- <-.
    + split; [rewrite <- CP, E; tauto|]. split; [discriminate|]. intros _ p k Hp. apply collect_kids in Hp as [Hp _]. unfold field. unfold sweep. rewrite Hp.
      cbn [link kids]. unfold upd. destruct (p =? q) eqn:Eq; [|reflexivity]. apply N.eqb_eq in Eq as ->. cbn [andb].
      rewrite filter_app, map_app, field_drop. cbn [filter fst]. rewrite (N.eqb_sym j k). destruct (k =? j); cbn [map snd]; rewrite ?app_nil_r; reflexivity.
    + split; [rewrite <- CP, E; split; discriminate|]. split; [reflexivity|discriminate].
  - destruct (held h q); [|discriminate]. injection H as <- <-. split; [tauto|]. split; [discriminate|]. intros _ p k Hp. apply collect_kids in Hp as [Hp _]. unfold field. unfold sweep. rewrite Hp.
    cbn [set_kids kids]. unfold upd. destruct (p =? q) eqn:Eq; [|reflexivity]. apply N.eqb_eq in Eq as ->. cbn [andb]. rewrite field_drop. reflexivity.
  - destruct (held h q && held h c); [|discriminate]. destruct (can_set_parent h c q) eqn:E; injection H as <- <-.
    + split; [rewrite <- CP, E; tauto|]. split; [discriminate|]. intros _ p k _. unfold field.
      cbn [link kids]. unfold upd. destruct (p =? q) eqn:Eq; [|reflexivity]. apply N.eqb_eq in Eq as ->. cbn [andb].
      rewrite filter_app, map_app. cbn [filter fst]. rewrite (N.eqb_sym j k). destruct (k =? j); cbn [map snd]; rewrite ?app_nil_r; reflexivity.
    + split; [rewrite <- CP, E; split; discriminate|]. split; [reflexivity|discriminate].
  - destruct (held h q); [|discriminate]. pose proof (fun k => erase_field j k (kids h q) i) as F. destruct (erase j i (kids h q)) as [[c r]|]; injection H as <- <-.
    + split; [split; [intros _; exact (proj1 (F 0))|tauto]|]. split; [discriminate|]. intros _ p k _. unfold field. cbn [set_ext set_kids kids]. unfold upd.
      destruct (p =? q) eqn:Eq; [|reflexivity]. apply N.eqb_eq in Eq as ->. cbn [andb]. exact (proj2 (F k)).
    + split; [split; [discriminate|]|split; [reflexivity|discriminate]]. intros A. specialize (F 0). unfold field in A. lia.
  - destruct (held h m); [|discriminate]. injection H as <- <-. split; [tauto|]. split; [discriminate|reflexivity].
  - destruct (held h m); [|discriminate]. injection H as <- <-. split; [tauto|]. split; [discriminate|]. intros _ p k Hp. apply collect_kids in Hp as [Hp _]. unfold field, sweep. rewrite Hp. reflexivity.
  - destruct (held h m); [|discriminate]. destruct (file h m) eqn:E; injection H as <- <-.
    + split; [split; discriminate|]. split; [reflexivity|discriminate].
    + split; [tauto|]. split; [discriminate|reflexivity].
Qed.
Print Assumptions calls_do.
Example calls_do_sample : exists h, run heap0 [New; New; New; New; AddChild 0 7 1; AddChild 0 7 2; SetChild 0 8 (Some 3); DeleteAt 0 7 0] = Ok h /\
  field h 0 7 = [2] /\ field h 0 8 = [3] /\ step h (DeleteAt 0 7 1) = Ok (h, false).
Proof. eexists. split; [vm_compute; reflexivity|]. repeat split; vm_compute; reflexivity. Qed.

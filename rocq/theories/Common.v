(** Shared vocabulary: byte strings, outcomes, list helpers. No model of /repo code here
    except the std::string primitives used throughout. *)
From Coq Require Export String.
From Coq Require Export List Arith ZArith NArith Lia Bool Ascii.
From Coq Require Export ZifyBool ZifyNat ZifyN.
Export ListNotations.
Ltac Zify.zify_post_hook ::= Z.div_mod_to_equations.
#[global] Arguments N.add : simpl never.
#[global] Arguments N.mul : simpl never.
#[global] Arguments N.sub : simpl never.

(** A std::string is a list of bytes. *)
Definition str := list ascii.
Notation "'S_' s" := (String.list_ascii_of_string s%string) (at level 9, s at level 8).
Close Scope string_scope.

(** Outcome of a C++ call: normal result, undefined behaviour, uncaught exception,
    or fuel exhausted (the loop did not finish within the given number of steps). *)
Inductive res (A : Type) : Type :=
| Ok (a : A)
| UB
| Throw
| Fuel.
Arguments Ok {A} a. Arguments UB {A}. Arguments Throw {A}. Arguments Fuel {A}.

Definition bind {A B} (r : res A) (f : A -> res B) : res B :=
  match r with Ok a => f a | UB => UB | Throw => Throw | Fuel => Fuel end.
Notation "'do' x <- r ; k" := (bind r (fun x => k)) (at level 200, x pattern, r at level 100, k at level 200).

(** Byte equality. *)
Definition aeq (a b : ascii) : bool := Ascii.eqb a b.
Lemma aeq_spec a b : aeq a b = true <-> a = b.
Proof. apply Ascii.eqb_eq. Qed.
Lemma aeq_refl a : aeq a a = true.
Proof. apply Ascii.eqb_refl. Qed.
Lemma aeq_neq a b : aeq a b = false <-> a <> b.
Proof. apply Ascii.eqb_neq. Qed.

(** std::string operator==. *)
Fixpoint eqs (a b : str) : bool :=
  match a, b with
  | [], [] => true
  | x :: a', y :: b' => aeq x y && eqs a' b'
  | _, _ => false
  end.
Lemma eqs_spec a b : eqs a b = true <-> a = b.
Proof.
  revert b; induction a as [|x a IH]; intros [|y b]; simpl; try (split; congruence).
  rewrite andb_true_iff, aeq_spec, IH. split; [intros [-> ->]; auto | intros H; inversion H; auto].
Qed.
Lemma eqs_refl a : eqs a a = true.
Proof. now apply eqs_spec. Qed.
Lemma eqs_neq a b : eqs a b = false <-> a <> b.
Proof.
  destruct (eqs a b) eqn:E.
  - apply eqs_spec in E. split; congruence.
  - split; auto. intros _ H. apply eqs_spec in H. congruence.
Qed.
Lemma eqs_sym a b : eqs a b = eqs b a.
Proof.
  destruct (eqs b a) eqn:E.
  - apply eqs_spec in E; subst. apply eqs_refl.
  - apply eqs_neq in E. apply eqs_neq. auto.
Qed.
Definition str_dec (a b : str) : {a = b} + {a <> b} := list_eq_dec ascii_dec a b.

(** [prefixb p s]: s starts with p (std::string::compare(0, p.size(), p) == 0). *)
Fixpoint prefixb (p s : str) : bool :=
  match p, s with
  | [], _ => true
  | x :: p', y :: s' => aeq x y && prefixb p' s'
  | _, [] => false
  end.
Lemma prefixb_spec p s : prefixb p s = true <-> exists t, s = p ++ t.
Proof.
  revert s; induction p as [|x p IH]; intros s; simpl.
  - split; eauto.
  - destruct s as [|y s].
    + split; [discriminate | intros [t H]; discriminate].
    + rewrite andb_true_iff, aeq_spec, IH. split.
      * intros [-> [t ->]]. now exists t.
      * intros [t H]. inversion H; subst. eauto.
Qed.
Lemma prefixb_app p t : prefixb p (p ++ t) = true.
Proof. apply prefixb_spec; eauto. Qed.
Lemma prefixb_false p s : prefixb p s = false <-> forall t, s <> p ++ t.
Proof.
  destruct (prefixb p s) eqn:E.
  - apply prefixb_spec in E as [t Ht]. split; [discriminate|]. intros H. now elim (H t).
  - split; auto. intros _ t Ht. assert (prefixb p s = true) by (apply prefixb_spec; eauto). congruence.
Qed.
Lemma prefixb_length p s : prefixb p s = true -> length p <= length s.
Proof. intros H. apply prefixb_spec in H as [t ->]. rewrite app_length. lia. Qed.

(** std::string::find(needle): index of the first occurrence, None for npos. *)
Fixpoint find (p s : str) : option nat :=
  if prefixb p s then Some 0
  else match s with
       | [] => None
       | _ :: s' => option_map S (find p s')
       end.

(** std::string::find(needle, pos): searches from pos; pos > size gives npos. *)
Definition find_from (p s : str) (pos : nat) : option nat :=
  if length s <? pos then None
  else option_map (Nat.add pos) (find p (skipn pos s)).

(** std::string::find(char). *)
Fixpoint find_char (c : ascii) (s : str) : option nat :=
  match s with
  | [] => None
  | x :: s' => if aeq x c then Some 0 else option_map S (find_char c s')
  end.

(** [contains p s]: p occurs somewhere in s (specification vocabulary). *)
Definition occurs (p s : str) : Prop := exists u v, s = u ++ p ++ v.

Lemma find_some p s i : find p s = Some i ->
  i + length p <= length s /\ firstn i s ++ p ++ skipn (i + length p) s = s.
Proof.
  revert i; induction s as [|y s IH]; intros i H; simpl in H.
  - destruct p as [|x p]; simpl in H; [|discriminate]. inversion H; subst. simpl. auto.
  - destruct (prefixb p (y :: s)) eqn:E.
    + inversion H; subst. apply prefixb_spec in E as [t Et]. rewrite Et. simpl.
      rewrite app_length. split; [lia|]. now rewrite skipn_app, skipn_all, Nat.sub_diag.
    + destruct (find p s) as [j|] eqn:Ej; [|discriminate]. inversion H; subst.
      destruct (IH j eq_refl) as [H1 H2]. split; [simpl; lia|]. simpl. now f_equal.
Qed.

Lemma find_none p s : find p s = None <-> ~ occurs p s.
Proof.
  induction s as [|y s IH]; simpl.
  - destruct p as [|x p]; simpl.
    + split; [discriminate|]. intros H. elim H. now exists [], [].
    + split; auto. intros _ (u & v & H). destruct u; discriminate.
  - destruct (prefixb p (y :: s)) eqn:E.
    + split; [discriminate|]. intros H. elim H. apply prefixb_spec in E as [t ->]. now exists [], t.
    + destruct (find p s) as [j|].
      * split; [discriminate|]. intros H. exfalso. apply H.
        assert (~ ~ occurs p s) as Hn.
        { intros Hn. apply IH in Hn. discriminate. }
        exfalso. apply Hn. intros (u & v & ->). apply H. now exists (y :: u), v.
      * split; auto. intros _ (u & v & H). destruct u as [|z u].
        -- simpl in H. assert (prefixb p (y :: s) = true); [|congruence].
           apply prefixb_spec. eauto.
        -- simpl in H. inversion H; subst. apply IH; auto. now exists u, v.
Qed.

(** The index returned by find is the first one. *)
Lemma find_first p s i : find p s = Some i -> forall j, j < i -> prefixb p (skipn j s) = false.
Proof.
  revert i; induction s as [|y s IH]; intros i H j Hj; simpl in H.
  - destruct p; simpl in H; [|discriminate]. inversion H; lia.
  - destruct (prefixb p (y :: s)) eqn:E.
    + inversion H; lia.
    + destruct (find p s) as [k|] eqn:Ek; [|discriminate]. inversion H; subst.
      destruct j as [|j]; [exact E|]. simpl. apply (IH k); auto. lia.
Qed.

Lemma find_char_some c s i : find_char c s = Some i ->
  exists u v, s = u ++ c :: v /\ length u = i /\ ~ In c u.
Proof.
  revert i; induction s as [|y s IH]; intros i H; simpl in H; [discriminate|].
  destruct (aeq y c) eqn:E.
  - apply aeq_spec in E; subst. inversion H; subst. exists [], s. auto.
  - destruct (find_char c s) as [j|]; [|discriminate]. inversion H; subst.
    destruct (IH j eq_refl) as (u & v & -> & <- & Hn). exists (y :: u), v. repeat split; auto.
    intros [->|Hi]; [rewrite aeq_refl in E; discriminate | auto].
Qed.
Lemma find_char_none c s : find_char c s = None <-> ~ In c s.
Proof.
  induction s as [|y s IH]; simpl; [tauto|].
  destruct (aeq y c) eqn:E.
  - apply aeq_spec in E; subst. split; [discriminate|]. intros H; elim H; auto.
  - destruct (find_char c s).
    + split; [discriminate|]. intros H. exfalso.
      assert (Some n = None) by (apply IH; tauto). discriminate.
    + split; auto. intros _ [->|H]; [rewrite aeq_refl in E; discriminate | now apply IH].
Qed.
Lemma find_char_app c u v : ~ In c u -> find_char c (u ++ c :: v) = Some (length u).
Proof.
  induction u as [|x u IH]; simpl; intros H.
  - now rewrite aeq_refl.
  - destruct (aeq x c) eqn:E; [apply aeq_spec in E; subst; tauto|]. rewrite IH; auto.
Qed.

Definition code (c : ascii) : N := N_of_ascii c.
Lemma code_bound c : (code c < 256)%N.
Proof. apply N_ascii_bounded. Qed.
Definition chr (n : N) : ascii := ascii_of_N n.

(** C isspace in the "C" locale; bytes >= 128 are not space (glibc behaviour for the
    negative char values that the C standard leaves undefined). *)
Definition isspace (c : ascii) : bool :=
  let n := code c in ((n =? 32) || ((9 <=? n) && (n <=? 13)))%N.
Definition isdigit (c : ascii) : bool :=
  let n := code c in ((48 <=? n) && (n <=? 57))%N.
(** C tolower in the "C" locale. *)
Definition tolower (c : ascii) : ascii :=
  let n := code c in if ((65 <=? n) && (n <=? 90))%N then chr (n + 32)%N else c.

(** Drop the longest prefix satisfying f. *)
Fixpoint drop_while {A} (f : A -> bool) (l : list A) : list A :=
  match l with
  | [] => []
  | x :: l' => if f x then drop_while f l' else l
  end.
Fixpoint take_while {A} (f : A -> bool) (l : list A) : list A :=
  match l with
  | [] => []
  | x :: l' => if f x then x :: take_while f l' else []
  end.
Lemma take_drop_while {A} (f : A -> bool) l : take_while f l ++ drop_while f l = l.
Proof. induction l as [|x l IH]; simpl; auto. destruct (f x); simpl; congruence. Qed.
Lemma take_while_all {A} (f : A -> bool) l : forallb f (take_while f l) = true.
Proof. induction l as [|x l IH]; simpl; auto. destruct (f x) eqn:E; simpl; auto. now rewrite E. Qed.
Lemma drop_while_head {A} (f : A -> bool) l x t : drop_while f l = x :: t -> f x = false.
Proof.
  induction l as [|y l IH]; simpl; [discriminate|].
  destruct (f y) eqn:E; auto. intros H; inversion H; subst; auto.
Qed.
Lemma drop_while_length {A} (f : A -> bool) l : length (drop_while f l) <= length l.
Proof. induction l as [|x l IH]; simpl; auto. destruct (f x); simpl; lia. Qed.

(** Join pieces with a separator (specification vocabulary). *)
Fixpoint join (sep : str) (l : list str) : str :=
  match l with
  | [] => []
  | [x] => x
  | x :: l' => x ++ sep ++ join sep l'
  end.

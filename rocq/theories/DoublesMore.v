(** When sums and quotients are not NaN. *)
From Verif Require Import Common Doubles.
Local Open Scope Z_scope.

Lemma shr_1_nonneg r : 0 <= shr_m r -> 0 <= shr_m (shr_1 r).
Proof.
  destruct r as [m b s]; cbn. destruct m as [|[p|p|]|p]; cbn; intros; lia.
Qed.
Lemma iter_shr_nonneg p : forall r, 0 <= shr_m r -> 0 <= shr_m (iter_pos shr_1 p r).
Proof.
  induction p as [p IH|p IH|]; intros r H; cbn [iter_pos].
  - apply IH, IH, shr_1_nonneg, H.
  - apply IH, IH, H.
  - apply shr_1_nonneg, H.
Qed.
Lemma record_nonneg m l : shr_m (shr_record_of_loc m l) = m.
Proof. destruct l as [|[]]; reflexivity. Qed.
Lemma shr_fexp_nonneg m e l r e' : 0 <= m -> shr_fexp 53 1024 m e l = (r, e') -> 0 <= shr_m r.
Proof.
  intros H. unfold shr_fexp, shr. destruct (fexp 53 1024 (Zdigits2 m + e) - e) as [|p|p]; intros E;
    inversion E; subst; try rewrite record_nonneg; try exact H.
  apply iter_shr_nonneg. now rewrite record_nonneg.
Qed.
Lemma rne_nonneg m l : 0 <= m -> 0 <= round_nearest_even m l.
Proof. destruct l as [|[]]; cbn; try lia. destruct (Z.even m); lia. Qed.
Lemma round_aux_not_nan sx m e l : 0 <= m -> is_nan (binary_round_aux 53 1024 sx m e l) = false.
Proof.
  intros H. unfold binary_round_aux. destruct (shr_fexp 53 1024 m e l) as [r1 e1] eqn:E1.
  destruct (shr_fexp 53 1024 (round_nearest_even (shr_m r1) (loc_of_shr_record r1)) e1 loc_Exact) as [r2 e2] eqn:E2.
  apply shr_fexp_nonneg in E1; [|exact H]. apply shr_fexp_nonneg in E2; [|now apply rne_nonneg].
  destruct (shr_m r2) as [|p|p]; [reflexivity| |lia].
  destruct (e2 <=? 1024 - 53); reflexivity.
Qed.
Lemma normalize_not_nan m e s : is_nan (binary_normalize 53 1024 m e s) = false.
Proof.
  unfold binary_normalize, binary_round. destruct m as [|p|p]; [reflexivity| |];
    destruct (shl_align _ _ _) as [mz ez]; apply round_aux_not_nan; lia.
Qed.

(** Two numbers that are not opposite infinities. *)
Definition addable (x y : double) : bool :=
  match x, y with
  | S754_nan, _ | _, S754_nan => false
  | S754_infinity a, S754_infinity b => Bool.eqb a b
  | _, _ => true
  end.
Lemma addable_sym x y : addable x y = addable y x.
Proof. destruct x as [| [] | |], y as [| [] | |]; reflexivity. Qed.
Lemma dadd_not_nan x y : addable x y = true -> is_nan (dadd x y) = false.
Proof.
  intros H. unfold dadd.
  destruct x as [a|a| |a m e], y as [b|b| |b m' e']; try discriminate; cbn [SFadd]; try reflexivity.
  - now destruct (Bool.eqb a b).
  - cbn in H. now rewrite H.
  - apply normalize_not_nan.
Qed.
Lemma half_class x : is_nan x = false -> is_nan (ddiv x (d_of_Z 2)) = false.
Proof.
  intros H. change (d_of_Z 2) with (S754_finite false 4503599627370496 (-51)). unfold ddiv.
  destruct x as [a|a| |a m e]; cbn [SFdiv]; try reflexivity; try discriminate.
  destruct (SFdiv_core_binary 53 1024 (Z.pos m) e (Z.pos 4503599627370496) (-51)) as [[mz ez] lz] eqn:E.
  apply round_aux_not_nan. revert E. unfold SFdiv_core_binary.
  match goal with |- context[Z.div_eucl ?a ?b] => pose proof (Z_div_mod_full a b) as Hd;
     assert (Hb : 0 < b) by lia; assert (Ha : 0 <= a); [|destruct (Z.div_eucl a b) as [q r]] end.
  { match goal with |- 0 <= match ?s with _ => _ end => destruct s end; [lia | apply Z.shiftl_nonneg; lia | lia]. }
  intros E. inversion E; subst. specialize (Hd ltac:(discriminate)). destruct Hd as [Hd Hr].
  unfold Remainder in Hr. nia.
Qed.
Lemma half_inf x : ddiv (S754_infinity x) (d_of_Z 2) = S754_infinity x.
Proof. destruct x; reflexivity. Qed.
(** Midpoints, as bbox.h 165-171 computes them, of addable numbers are addable to both. *)
Lemma half_sum_addable x y : addable x y = true ->
  let m := ddiv (dadd x y) (d_of_Z 2) in addable x m = true /\ addable m y = true /\ is_nan m = false.
Proof.
  intros H m. assert (Hm : is_nan m = false) by (apply half_class, dadd_not_nan, H).
  destruct x as [a|a| |a p e]; try discriminate.
  - destruct y as [b|b| |b p' e']; try discriminate.
    + split; [|split]; try exact Hm; destruct m as [| | |]; try discriminate; reflexivity.
    + unfold m. cbn [dadd SFadd]. rewrite half_inf. destruct b; auto.
    + split; [|split]; try exact Hm; destruct m as [| | |]; try discriminate; reflexivity.
  - assert (E : m = S754_infinity a).
    { unfold m, dadd. destruct y as [b|b| |b p' e']; try discriminate; cbn [SFadd]; rewrite ?half_inf; try reflexivity.
      cbn in H. rewrite H. apply half_inf. }
    rewrite E in *. repeat split; [destruct a; reflexivity | exact H].
  - destruct y as [b|b| |b p' e']; try discriminate.
    + split; [|split]; try exact Hm; destruct m as [| | |]; try discriminate; reflexivity.
    + unfold m. cbn [dadd SFadd]. rewrite half_inf. destruct b; auto.
    + split; [|split]; try exact Hm; destruct m as [| | |]; try discriminate; reflexivity.
Qed.

(** Decimal numerals: their text, their value, and how the reader and the writer of numbers treat them. *)
From Coq Require Import ZArith QArith Qpower Lqa Lia.
From Verif Require Import Common StringsModel StringsProofs CoordModel CoordProofs Doubles NumberModel NumberProofs.
Local Open Scope Z_scope.

(** * Specification *)
(** The number that a string of digits denotes. *)
Fixpoint number_of (s : str) : Z :=
  match s with [] => 0 | c :: t => (Z.of_N (N_of_ascii c) - 48) * 10 ^ Z.of_nat (length t) + number_of t end.
(** A numeral as it is written in KML: sign, digits, point and digits, exponent. *)
Inductive sign := NoSign | Plus | Minus.
Record numeral := { n_sign : sign; n_int : str; n_frac : option str; n_exp : option (ascii * sign * str) }.
Definition sign_text (g : sign) : str := match g with NoSign => [] | Plus => S_ "+" | Minus => S_ "-" end.
Definition numeral_text (n : numeral) : str :=
  sign_text (n_sign n) ++ n_int n ++ match n_frac n with Some f => S_ "." ++ f | None => [] end ++
  match n_exp n with Some (c, g, x) => c :: sign_text g ++ x | None => [] end.
Definition frac_digits (n : numeral) : str := match n_frac n with Some f => f | None => [] end.
Definition numeral_ok (n : numeral) : Prop :=
  forallb isdigit (n_int n) = true /\ forallb isdigit (frac_digits n) = true /\ n_int n ++ frac_digits n <> [] /\
  match n_exp n with Some (c, _, x) => (c = "e"%char \/ c = "E"%char) /\ forallb isdigit x = true /\ x <> [] | None => True end.
Definition exponent (n : numeral) : Z :=
  match n_exp n with Some (_, Minus, x) => - number_of x | Some (_, _, x) => number_of x | None => 0 end.
Definition negative (n : numeral) : bool := match n_sign n with Minus => true | _ => false end.
(** Its value without the sign. *)
Definition magnitude (n : numeral) : Q :=
  (inject_Z (number_of (n_int n ++ frac_digits n)) * Qpower (inject_Z 10) (exponent n - Z.of_nat (length (frac_digits n))))%Q.

(** * Digits *)
Lemma digits_acc s : forall v, fold_left (fun v c => 10 * v + digit_value c) s v = v * 10 ^ Z.of_nat (length s) + number_of s.
Proof.
  induction s as [|c s IH]; intros v; cbn [fold_left number_of length].
  - change (Z.of_nat 0) with 0. rewrite Z.pow_0_r. lia.
  - rewrite IH, Nat2Z.inj_succ, Z.pow_succ_r by lia. unfold digit_value. ring.
Qed.
Lemma digits_number s : digits_value s = number_of s.
Proof. unfold digits_value. rewrite digits_acc. lia. Qed.
Lemma number_app s t : number_of (s ++ t) = number_of s * 10 ^ Z.of_nat (length t) + number_of t.
Proof.
  induction s as [|c s IH]; cbn [app number_of]; [lia|]. rewrite IH, app_length, Nat2Z.inj_add, Z.pow_add_r by lia. ring.
Qed.
Lemma number_zeros n : number_of (repeat "0"%char n) = 0.
Proof. induction n; [reflexivity|]. cbn [repeat number_of]. rewrite IHn. change (Z.of_N (N_of_ascii "0") - 48) with 0. lia. Qed.
Lemma digit_char_code d : 0 <= d < 10 -> Z.of_N (N_of_ascii (digit_char d)) = d + 48.
Proof. intros H. unfold digit_char. rewrite N_ascii_embedding by lia. lia. Qed.
Lemma digit_char_digit d : 0 <= d < 10 -> isdigit (digit_char d) = true.
Proof. intros H. pose proof (digit_char_code d H) as E. unfold isdigit, code. cbv zeta. apply andb_true_iff. split; apply N.leb_le; lia. Qed.
Lemma digits_text_length w : forall n, length (digits_text w n) = w.
Proof. induction w as [|w IH]; intros n; cbn [digits_text]; [reflexivity|]. rewrite app_length, IH. cbn. lia. Qed.
Lemma digits_text_digits w : forall n, forallb isdigit (digits_text w n) = true.
Proof.
  induction w as [|w IH]; intros n; cbn [digits_text]; [reflexivity|]. rewrite forallb_app, IH. cbn [forallb]. rewrite digit_char_digit; [reflexivity|]. apply Z.mod_pos_bound. lia.
Qed.
Lemma digits_text_number w : forall n, 0 <= n < 10 ^ Z.of_nat w -> number_of (digits_text w n) = n.
Proof.
  induction w as [|w IH]; intros n H; cbn [digits_text].
  - change (Z.of_nat 0) with 0 in H. rewrite Z.pow_0_r in H. cbn. lia.
  - rewrite Nat2Z.inj_succ, Z.pow_succ_r in H by lia. rewrite number_app, IH by (split; [apply Z.div_pos; lia|apply Z.div_lt_upper_bound; lia]).
    cbn [number_of length]. rewrite digit_char_code by (apply Z.mod_pos_bound; lia). change (Z.of_nat 1) with 1. change (Z.of_nat 0) with 0. rewrite Z.pow_1_r, Z.pow_0_r.
    pose proof (Z.div_mod n 10 ltac:(lia)). lia.
Qed.
Lemma strip_spec w : forall n, (1 <= w)%nat -> 10 ^ (Z.of_nat w - 1) <= n < 10 ^ Z.of_nat w -> exists w' n',
  strip w n = (w', n') /\ (1 <= w' <= w)%nat /\ n = n' * 10 ^ (Z.of_nat w - Z.of_nat w') /\ 10 ^ (Z.of_nat w' - 1) <= n' < 10 ^ Z.of_nat w'.
Proof.
  induction w as [|w IH]; intros n Hw Hn; [lia|]. destruct w as [|w].
  - exists 1%nat, n. cbn [strip]. split; [reflexivity|]. split; [lia|]. rewrite Z.sub_diag, Z.pow_0_r. split; [lia|exact Hn].
  - cbn [strip]. destruct (Z.eqb_spec (n mod 10) 0) as [G|G].
    + pose proof (Z.div_mod n 10 ltac:(lia)) as D. rewrite G, Z.add_0_r in D.
      destruct (IH (n / 10)) as (w' & n' & E & W & V & B); [lia| |].
      { rewrite (Nat2Z.inj_succ (S w)) in Hn. replace (Z.succ (Z.of_nat (S w)) - 1) with (Z.succ (Z.of_nat (S w) - 1)) in Hn by lia. rewrite !Z.pow_succ_r in Hn by lia. lia. }
      exists w', n'. split; [exact E|]. split; [lia|]. split; [|exact B].
      replace (Z.of_nat (S (S w)) - Z.of_nat w') with (Z.succ (Z.of_nat (S w) - Z.of_nat w')) by lia. rewrite Z.pow_succ_r by lia. rewrite D at 1. rewrite V at 1. ring.
    + exists (S (S w)), n. split; [reflexivity|]. split; [lia|]. rewrite Z.sub_diag, Z.pow_0_r. split; [lia|exact Hn].
Qed.

(** * Reading a numeral *)
Lemma isdigit_not c : isdigit c = true -> aeq c "+"%char = false /\ aeq c "-"%char = false /\ aeq c "."%char = false /\ aeq c "e"%char = false /\ aeq c "E"%char = false.
Proof.
  intros H. unfold isdigit, code in H. cbv zeta in H. apply andb_true_iff in H as [H1 H2]. apply N.leb_le in H1, H2.
  repeat split; match goal with |- aeq c ?d = false => destruct (aeq c d) eqn:E; [apply aeq_spec in E; subst c; cbn in H1, H2; lia|reflexivity] end.
Qed.
Lemma read_sign_text g r : match r with [] => True | c :: _ => aeq c "+"%char = false /\ aeq c "-"%char = false end ->
  read_sign (sign_text g ++ r) = (match g with Minus => true | _ => false end, r).
Proof. intros H. destruct g; [|reflexivity|reflexivity]. cbn [sign_text app]. destruct r as [|c r]; [reflexivity|]. destruct H as [H1 H2]. unfold read_sign. now rewrite H2, H1. Qed.
Lemma exp_stops n : numeral_ok n -> stops isdigit match n_exp n with Some (c, g, x) => c :: sign_text g ++ x | None => [] end.
Proof. intros (_ & _ & _ & H). destruct (n_exp n) as [[[c g] x]|]; cbn; [|auto]. destruct H as [[->| ->] _]; reflexivity. Qed.
Lemma digits_head s r : forallb isdigit s = true -> match r with [] => True | c :: _ => aeq c "+"%char = false /\ aeq c "-"%char = false end ->
  match s ++ r with [] => True | c :: _ => aeq c "+"%char = false /\ aeq c "-"%char = false end.
Proof. destruct s as [|c s]; [auto|]. cbn [app forallb]. intros H _. apply andb_true_iff in H as [H _]. apply isdigit_not in H. tauto. Qed.
Lemma read_numeral n : numeral_ok n ->
  read_decimal (numeral_text n) = Some (negative n, number_of (n_int n ++ frac_digits n), exponent n - Z.of_nat (length (frac_digits n))).
Proof.
  intros Hok. pose proof (exp_stops n Hok) as Hs. destruct Hok as (Hi & Hf & Hne & Hx). unfold read_decimal, numeral_text.
  rewrite read_sign_text.
  2: { apply digits_head; [exact Hi|]. destruct (n_frac n) as [f|]; [cbn; split; reflexivity|]. cbn [app]. destruct (n_exp n) as [[[c g] x]|]; [|exact I]. destruct Hx as [[->| ->] _]; split; reflexivity. }
  assert (Hst : stops isdigit (match n_frac n with Some f => S_ "." ++ f | None => [] end ++ match n_exp n with Some (c, g, x) => c :: sign_text g ++ x | None => [] end)).
  { destruct (n_frac n); [reflexivity|exact Hs]. }
  rewrite (take_app isdigit _ _ Hi Hst), (drop_app isdigit _ _ Hi Hst).
  set (ex := match n_exp n with Some (c, g, x) => c :: sign_text g ++ x | None => [] end) in *.
  assert (Hd : match match n_frac n with Some f => S_ "." ++ f | None => [] end ++ ex with
               | [] => ([], match n_frac n with Some f => S_ "." ++ f | None => [] end ++ ex)
               | c :: t => if aeq c "."%char then (take_while isdigit t, drop_while isdigit t) else ([], match n_frac n with Some f => S_ "." ++ f | None => [] end ++ ex)
               end = (frac_digits n, ex)).
  { unfold frac_digits in *. destruct (n_frac n) as [f|]; cbn [app].
    - change (S_ "." ++ f) with ("."%char :: f). cbn [app]. change (aeq "."%char "."%char) with true. cbn iota. now rewrite (take_app isdigit f ex Hf Hs), (drop_app isdigit f ex Hf Hs).
    - subst ex. destruct (n_exp n) as [[[c g] x]|]; [|reflexivity]. destruct Hx as [[->| ->] _]; reflexivity. }
  cbv zeta. rewrite Hd. clear Hd. destruct (n_int n ++ frac_digits n) as [|d ds] eqn:Ed; [congruence|]. rewrite digits_number.
  unfold exponent, negative. subst ex. destruct (n_exp n) as [[[c g] x]|].
  - destruct Hx as [Hc [Hxd Hxn]]. assert (Ec : aeq c "e"%char || aeq c "E"%char = true) by (destruct Hc as [->| ->]; reflexivity). rewrite Ec.
    rewrite read_sign_text by (rewrite <- (app_nil_r x); apply digits_head; [exact Hxd|exact I]).
    assert (Et : take_while isdigit x = x) by (rewrite <- (app_nil_r x) at 1; apply take_app; [exact Hxd|exact I]). rewrite Et. destruct x as [|y x]; [congruence|].
    rewrite digits_number. destruct g; reflexivity.
  - reflexivity.
Qed.

(** * Writing *)
Lemma forallb_firstn {A} (f : A -> bool) k l : forallb f l = true -> forallb f (firstn k l) = true.
Proof. intros H. rewrite <- (firstn_skipn k l), forallb_app in H. now apply andb_true_iff in H as [H _]. Qed.
Lemma forallb_skipn {A} (f : A -> bool) k l : forallb f l = true -> forallb f (skipn k l) = true.
Proof. intros H. rewrite <- (firstn_skipn k l), forallb_app in H. now apply andb_true_iff in H as [_ H]. Qed.
Lemma zeros_digits z : forallb isdigit (zeros z) = true.
Proof. unfold zeros. induction (Z.to_nat z); [reflexivity|]. cbn [repeat forallb]. now rewrite IHn. Qed.
Lemma general_numeral w n x : (1 <= w <= 15)%nat -> 10 ^ (Z.of_nat w - 1) <= n < 10 ^ Z.of_nat w -> Z.abs x < 1000 ->
  exists N, numeral_ok N /\ n_sign N = NoSign /\ n_int N <> [] /\ numeral_text N = general_text w n x /\
    number_of (n_int N ++ frac_digits N) > 0 /\ (magnitude N == vq 10 n (x - Z.of_nat w + 1))%Q /\ (length (numeral_text N) <= 30)%nat.
Proof.
  intros Hw Hn Hx. pose proof (digits_text_length w n) as L. pose proof (digits_text_digits w n) as D.
  assert (Hn0 : 0 < n). { assert (0 < 10 ^ (Z.of_nat w - 1)) by (apply Z.pow_pos_nonneg; lia). lia. }
  pose proof (digits_text_number w n ltac:(lia)) as V. unfold general_text. set (ds := digits_text w n) in *. cbv zeta.
  destruct ((x <? -4) || (15 <=? x)) eqn:Esci.
  - set (xw := if Z.abs x <? 100 then 2%nat else 3%nat).
    assert (Xw : (xw <= 3)%nat /\ (0 < xw)%nat /\ 0 <= Z.abs x < 10 ^ Z.of_nat xw). { unfold xw. destruct (Z.ltb_spec (Z.abs x) 100); (split; [lia|split; [lia|]]); [change (10 ^ Z.of_nat 2) with 100|change (10 ^ Z.of_nat 3) with 1000]; lia. }
    destruct Xw as (X1 & X2 & X3). pose proof (digits_text_length xw (Z.abs x)) as XL. pose proof (digits_text_digits xw (Z.abs x)) as XD. pose proof (digits_text_number xw (Z.abs x) X3) as XV.
    set (xs := digits_text xw (Z.abs x)) in *.
    exists {| n_sign := NoSign; n_int := firstn 1 ds; n_frac := match skipn 1 ds with [] => None | r => Some r end; n_exp := Some ("e"%char, (if x <? 0 then Minus else Plus), xs) |}.
    assert (Fd : frac_digits {| n_sign := NoSign; n_int := firstn 1 ds; n_frac := match skipn 1 ds with [] => None | r => Some r end; n_exp := Some ("e"%char, (if x <? 0 then Minus else Plus), xs) |} = skipn 1 ds).
    { unfold frac_digits. cbn [n_frac]. destruct (skipn 1 ds); reflexivity. }
    assert (Tx : numeral_text {| n_sign := NoSign; n_int := firstn 1 ds; n_frac := match skipn 1 ds with [] => None | r => Some r end; n_exp := Some ("e"%char, (if x <? 0 then Minus else Plus), xs) |} =
       firstn 1 ds ++ match skipn 1 ds with [] => [] | r => S_ "." ++ r end ++ S_ "e" ++ (if x <? 0 then S_ "-" else S_ "+") ++ xs).
    { unfold numeral_text. cbn [n_sign n_int n_frac n_exp sign_text app]. f_equal. destruct (skipn 1 ds); destruct (x <? 0); reflexivity. }
    split; [|split; [reflexivity|split; [|split; [exact Tx|split; [|split]]]]].
    + unfold numeral_ok. rewrite Fd. cbn [n_int n_exp]. split; [now apply forallb_firstn|]. split; [now apply forallb_skipn|]. split; [rewrite firstn_skipn; destruct ds; cbn in L; [lia|congruence]|].
      split; [now left|]. split; [exact XD|]. destruct xs; cbn in XL; [lia|congruence].
    + cbn [n_int]. destruct ds; cbn in L; [lia|]. cbn. congruence.
    + rewrite Fd. cbn [n_int]. rewrite firstn_skipn, V. lia.
    + unfold magnitude, exponent. rewrite Fd. cbn [n_int n_exp]. rewrite firstn_skipn, V, skipn_length, L. unfold vq, pw.
      replace ((match (if x <? 0 then Minus else Plus) with Minus => - number_of xs | _ => number_of xs end) - Z.of_nat (w - 1)) with (x - Z.of_nat w + 1); [reflexivity|].
      rewrite XV. destruct (Z.ltb_spec x 0); lia.
    + rewrite Tx, !app_length, XL. pose proof (firstn_le_length 1 ds). assert (length (match skipn 1 ds with [] => [] | r => S_ "." ++ r end) <= w)%nat.
      { pose proof (skipn_length 1 ds) as K. rewrite L in K. destruct (skipn 1 ds); [cbn; lia|]. cbn [length app] in *. change (length (S_ "." ++ a :: l)) with (S (S (length l))). lia. }
      assert (length (if (x <? 0)%Z then S_ "-" else S_ "+") = 1%nat) by (destruct (x <? 0); reflexivity). change (length (S_ "e")) with 1%nat. rewrite firstn_length in *. lia.
  - apply orb_false_iff in Esci as [E1 E2]. apply Z.ltb_ge in E1. apply Z.leb_gt in E2. destruct (Z.ltb_spec x 0) as [Hx0|Hx0].
    + exists {| n_sign := NoSign; n_int := S_ "0"; n_frac := Some (zeros (- x - 1) ++ ds); n_exp := None |}.
      assert (Zl : length (zeros (- x - 1)) = Z.to_nat (- x - 1)) by (unfold zeros; apply repeat_length).
      assert (Zn : number_of (zeros (- x - 1)) = 0) by (unfold zeros; apply number_zeros).
      split; [|split; [reflexivity|split; [discriminate|split; [|split; [|split]]]]].
      * unfold numeral_ok, frac_digits. cbn [n_int n_frac n_exp]. split; [reflexivity|]. split; [now rewrite forallb_app, zeros_digits, D|]. split; [discriminate|exact I].
      * unfold numeral_text. cbn [n_sign n_int n_frac n_exp sign_text app]. now rewrite app_nil_r.
      * unfold frac_digits. cbn [n_int n_frac]. rewrite !number_app, V, Zn. change (number_of (S_ "0")) with 0. lia.
      * unfold magnitude, exponent, frac_digits. cbn [n_int n_frac n_exp]. rewrite !number_app, V, Zn, app_length, Zl, L. change (number_of (S_ "0")) with 0. unfold vq, pw.
        replace (0 - Z.of_nat (Z.to_nat (- x - 1) + w)) with (x - Z.of_nat w + 1) by lia. now rewrite !Z.mul_0_l, !Z.add_0_l.
      * unfold numeral_text. cbn [n_sign n_int n_frac n_exp sign_text app]. rewrite app_nil_r, !app_length, Zl, L. change (length (S_ "0")) with 1%nat. change (length (S_ ".")) with 1%nat. lia.
    + destruct (Nat.leb_spec w (Z.to_nat (x + 1))) as [G|G].
      * exists {| n_sign := NoSign; n_int := ds ++ zeros (x + 1 - Z.of_nat w); n_frac := None; n_exp := None |}.
        assert (Zl : length (zeros (x + 1 - Z.of_nat w)) = Z.to_nat (x + 1 - Z.of_nat w)) by (unfold zeros; apply repeat_length).
        assert (Zn : number_of (zeros (x + 1 - Z.of_nat w)) = 0) by (unfold zeros; apply number_zeros).
        assert (Np : number_of (ds ++ zeros (x + 1 - Z.of_nat w)) = n * 10 ^ (x + 1 - Z.of_nat w)) by (rewrite number_app, V, Zn, Zl; rewrite Z2Nat.id by lia; lia).
        assert (Dn : ds ++ zeros (x + 1 - Z.of_nat w) <> []) by (destruct ds; cbn in L; [lia|discriminate]).
        split; [|split; [reflexivity|split; [exact Dn|split; [|split; [|split]]]]].
        -- unfold numeral_ok, frac_digits. cbn [n_int n_frac n_exp]. split; [now rewrite forallb_app, zeros_digits, D|]. split; [reflexivity|]. split; [now rewrite app_nil_r|exact I].
        -- unfold numeral_text. cbn [n_sign n_int n_frac n_exp sign_text app]. now rewrite !app_nil_r.
        -- unfold frac_digits. cbn [n_int n_frac]. rewrite app_nil_r, Np. assert (0 < 10 ^ (x + 1 - Z.of_nat w)) by (apply Z.pow_pos_nonneg; lia). nia.
        -- unfold magnitude, exponent, frac_digits. cbn [n_int n_frac n_exp length]. rewrite app_nil_r, Np. unfold vq. rewrite inject_Z_mult, (pw_int 10 (x - Z.of_nat w + 1)) by lia. replace (x - Z.of_nat w + 1) with (x + 1 - Z.of_nat w) by lia.
           change (Qpower (inject_Z 10) (0 - Z.of_nat 0)) with 1%Q. ring.
        -- unfold numeral_text. cbn [n_sign n_int n_frac n_exp sign_text app]. rewrite !app_nil_r, app_length, Zl, L. lia.
      * exists {| n_sign := NoSign; n_int := firstn (Z.to_nat (x + 1)) ds; n_frac := Some (skipn (Z.to_nat (x + 1)) ds); n_exp := None |}.
        split; [|split; [reflexivity|split; [|split; [|split; [|split]]]]].
        -- unfold numeral_ok, frac_digits. cbn [n_int n_frac n_exp]. split; [now apply forallb_firstn|]. split; [now apply forallb_skipn|]. split; [rewrite firstn_skipn; destruct ds; cbn in L; [lia|congruence]|exact I].
        -- cbn [n_int]. destruct ds; cbn in L; [lia|]. destruct (Z.to_nat (x + 1)) eqn:Ez; [lia|]. cbn. congruence.
        -- unfold numeral_text. cbn [n_sign n_int n_frac n_exp sign_text app]. now rewrite !app_nil_r.
        -- unfold frac_digits. cbn [n_int n_frac]. rewrite firstn_skipn, V. lia.
        -- unfold magnitude, exponent, frac_digits. cbn [n_int n_frac n_exp]. rewrite firstn_skipn, V, skipn_length, L. unfold vq, pw. replace (0 - Z.of_nat (w - Z.to_nat (x + 1))) with (x - Z.of_nat w + 1) by lia. reflexivity.
        -- unfold numeral_text. cbn [n_sign n_int n_frac n_exp sign_text app]. rewrite !app_nil_r, !app_length, firstn_length, skipn_length, L. change (length (S_ ".")) with 1%nat. lia.
Qed.

(** * Whole numbers *)
Lemma decimal_range m e a b n k : good m e -> fraction m e = (a, b) -> to_decimal a b = (n, k) -> -400 < k < 400.
Proof.
  intros [Hm [He Hx]] Hf Hd. destruct (fraction_spec m e a b ltac:(lia) Hf) as (Ha & Hb & Fr).
  destruct (to_decimal_spec a b n k Ha Hb Hd) as (Hn & D1 & D2). rewrite Fr in D1, D2. pose proof (pw_pos 10 ten_ok k) as P.
  assert (V1 : (inject_Z (10 ^ 14) * pw 10 k <= vq 10 n k)%Q) by (apply vq_mono; lia).
  assert (V2 : (vq 10 n k <= inject_Z (10 ^ 15) * pw 10 k)%Q) by (apply vq_mono; lia).
  assert (U : (vq 2 m e <= inject_Z (2 ^ 53) * pw 2 971)%Q).
  { apply Qle_trans with (vq 2 m 971); [unfold vq; apply Qmult_le_l; [apply iz_pos; lia|apply pw_mono; lia]|apply vq_mono; lia]. }
  assert (L : (pw 2 (-1074) <= vq 2 m e)%Q).
  { apply Qle_trans with (pw 2 e); [apply pw_mono; lia|]. setoid_replace (pw 2 e) with (vq 2 1 e) by (unfold vq; change (inject_Z 1) with 1%Q; ring). apply vq_mono; lia. }
  assert (C2 : (inject_Z (10 ^ 15) + (1 # 2) <= inject_Z (10 ^ 16))%Q) by (vm_compute; congruence).
  assert (C3 : ((inject_Z (10 ^ 15) + (1 # 2)) * pw 10 k <= inject_Z (10 ^ 16) * pw 10 k)%Q) by (apply Qmult_le_compat_r; lra).
  assert (C4 : (1 + (1 # 2) <= inject_Z (10 ^ 14))%Q) by (vm_compute; congruence).
  assert (C5 : ((1 + (1 # 2)) * pw 10 k <= inject_Z (10 ^ 14) * pw 10 k)%Q) by (apply Qmult_le_compat_r; lra).
  split.
  - destruct (Z_lt_le_dec (-400) k) as [G|G]; [exact G|exfalso]. apply (pw_mono 10 ten_ok) in G.
    assert (A : (inject_Z (10 ^ 16) * pw 10 k <= inject_Z (10 ^ 16) * pw 10 (-400))%Q) by (apply Qmult_le_l; [reflexivity|exact G]).
    assert (C : (inject_Z (10 ^ 16) * pw 10 (-400) < pw 2 (-1074))%Q) by (vm_compute; reflexivity). lra.
  - destruct (Z_lt_le_dec k 400) as [G|G]; [exact G|exfalso]. apply (pw_mono 10 ten_ok) in G.
    assert (C : (inject_Z (2 ^ 53) * pw 2 971 < pw 10 400)%Q) by (vm_compute; reflexivity). lra.
Qed.
Lemma print_numeral m e a b n k : good m e -> fraction m e = (a, b) -> to_decimal a b = (n, k) ->
  exists N, numeral_ok N /\ n_sign N = NoSign /\ n_int N <> [] /\ numeral_text N = print_positive m e /\ number_of (n_int N ++ frac_digits N) > 0 /\
    (magnitude N == vq 10 n k)%Q /\ (length (numeral_text N) <= 30)%nat.
Proof.
  intros Hg Hf Hd. pose proof (decimal_range m e a b n k Hg Hf Hd) as Hk. destruct (fraction_spec m e a b ltac:(destruct Hg; lia) Hf) as (Ha & Hb & _).
  destruct (to_decimal_spec a b n k Ha Hb Hd) as (Hn & _). destruct (strip_spec 15 n ltac:(lia)) as (w & d & Es & Hw & Ev & Hr).
  { change (Z.of_nat 15 - 1) with 14. change (Z.of_nat 15) with 15. exact Hn. }
  destruct (general_numeral w d (k + 14) Hw Hr ltac:(lia)) as (N & N1 & N2 & N3 & N4 & N5 & N6 & N7). exists N. split; [exact N1|]. split; [exact N2|]. split; [exact N3|]. split.
  { unfold print_positive. rewrite Hf, Hd, Es. exact N4. }
  split; [exact N5|]. split; [|exact N7]. rewrite N6. unfold vq. rewrite Ev, inject_Z_mult. change (Z.of_nat 15) with 15. rewrite <- (pw_int 10 (15 - Z.of_nat w)) by lia.
  rewrite <- Qmult_assoc, <- (pw_plus 10 ten_ok). replace (15 - Z.of_nat w + k) with (k + 14 - Z.of_nat w + 1) by lia. reflexivity.
Qed.
Lemma decimal_double neg D E a b m x : 0 < D -> fraction10 D E = (a, b) -> saturated (to_binary a b) = (m, x) ->
  decimal_to_double neg D E = match m with Zpos p => S754_finite neg p x | _ => S754_zero neg end.
Proof.
  intros HD Hf Hs. unfold decimal_to_double. destruct (Z.leb_spec D 0); [lia|]. fold (fraction10 D E). rewrite Hf. unfold saturated in Hs. destruct (to_binary a b) as [m' x']. cbn [snd] in Hs.
  destruct (971 <? x'); injection Hs as <- <-; reflexivity.
Qed.
Definition good_double (x : double) : Prop := match x with S754_zero _ => True | S754_finite _ m e => good (Zpos m) e | _ => False end.
Lemma decimal_good neg D E : good_double (decimal_to_double neg D E).
Proof.
  destruct (Z_lt_le_dec 0 D) as [G|G].
  - destruct (fraction10 D E) as [a b] eqn:Ef. destruct (fraction10_spec D E a b G Ef) as (Ha & Hb & _). destruct (saturated (to_binary a b)) as [m x] eqn:Es.
    rewrite (decimal_double neg D E a b m x G Ef Es). destruct (saturated_good a b m x Ha Hb Es) as [[-> _]|Hg]; [exact I|]. destruct m; [exact I|exact Hg|exact I].
  - unfold decimal_to_double. destruct (Z.leb_spec D 0); [exact I|lia].
Qed.
Lemma read_good tok : good_double (read_double tok).
Proof. unfold read_double. destruct (read_decimal tok) as [[[neg d] e]|]; [apply decimal_good|exact I]. Qed.

(** The numeral printed for a double. *)
Definition zero_numeral : numeral := {| n_sign := NoSign; n_int := S_ "0"; n_frac := None; n_exp := None |}.
Definition with_sign (s : bool) (N : numeral) : numeral := {| n_sign := if s then Minus else NoSign; n_int := n_int N; n_frac := n_frac N; n_exp := n_exp N |}.
Lemma with_sign_text s N : n_sign N = NoSign -> numeral_text (with_sign s N) = (if s then S_ "-" else []) ++ numeral_text N.
Proof. intros H. unfold numeral_text. rewrite H. destruct s; reflexivity. Qed.
Definition stands_for (N : numeral) (x : double) : Prop :=
  match x with
  | S754_zero s => N = with_sign s zero_numeral
  | S754_finite s m e => negative N = s /\ exists a b n k, fraction (Zpos m) e = (a, b) /\ to_decimal a b = (n, k) /\ (magnitude N == vq 10 n k)%Q /\ number_of (n_int N ++ frac_digits N) > 0
  | _ => False
  end.
Lemma print_spec x : good_double x -> exists N, numeral_ok N /\ n_int N <> [] /\ n_sign N <> Plus /\ numeral_text N = print_double x /\ stands_for N x /\ (length (numeral_text N) <= 31)%nat.
Proof.
  intros Hg. destruct x as [s|s| |s m e]; cbn in Hg; try tauto.
  - exists (with_sign s zero_numeral). split; [destruct s; (split; [reflexivity|split; [reflexivity|split; [discriminate|exact I]]])|]. split; [discriminate|]. split; [destruct s; discriminate|]. split; [destruct s; reflexivity|]. split; [reflexivity|]. destruct s; cbn; lia.
  - destruct (fraction (Zpos m) e) as [a b] eqn:Ef. destruct (to_decimal a b) as [n k] eqn:Ed.
    destruct (print_numeral _ _ _ _ _ _ Hg Ef Ed) as (N & N1 & N2 & N3 & N4 & N5 & N6 & N7). exists (with_sign s N). split; [exact N1|]. split; [exact N3|]. split; [destruct s; discriminate|].
    split; [rewrite (with_sign_text s N N2); cbn [print_double]; now rewrite N4|]. split.
    + cbn [stands_for]. split; [destruct s; reflexivity|]. exists a, b, n, k. split; [exact Ef|]. split; [exact Ed|]. split; [exact N6|exact N5].
    + rewrite (with_sign_text s N N2), app_length. destruct s; cbn [length]; change (length (S_ "-")) with 1%nat; lia.
Qed.
Lemma print_read_print x : good_double x -> print_double (read_double (print_double x)) = print_double x.
Proof.
  intros Hg. destruct (print_spec x Hg) as (N & N1 & N2 & N3 & N4 & N5 & N6). rewrite <- N4. unfold read_double. rewrite (read_numeral N N1).
  destruct x as [s|s| |s m e]; try contradiction.
  - cbn [stands_for] in N5. subst N. destruct s; reflexivity.
  - destruct N5 as (Hs & a & b & n & k & Ef & Ed & Em & Ep). rewrite N4. set (D := number_of (n_int N ++ frac_digits N)) in *. set (E := exponent N - Z.of_nat (length (frac_digits N))) in *.
    destruct (fraction10 D E) as [a2 b2] eqn:Ef2. destruct (fraction10_spec D E a2 b2 ltac:(lia) Ef2) as (Ha2 & Hb2 & Hr). destruct (saturated (to_binary a2 b2)) as [m2 x2] eqn:Es.
    rewrite (decimal_double (negative N) D E a2 b2 m2 x2 ltac:(lia) Ef2 Es). destruct (fraction m2 x2) as [a3 b3] eqn:Ef3.
    assert (Hr' : (ratio a2 b2 == vq 10 n k)%Q) by (rewrite Hr, <- Em; reflexivity).
    destruct (printed_again (Zpos m) e a b n k a2 b2 m2 x2 a3 b3 Hg Ef Ed Ha2 Hb2 Hr' Es Ef3) as [Hm2 Hd2]. destruct m2 as [|p|p]; try lia. cbn [print_double]. rewrite Hs. f_equal.
    unfold print_positive. now rewrite Ef, Ed, Ef3, Hd2.
Qed.

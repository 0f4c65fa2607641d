From Verif Require Import Common ColorModel.
Local Open Scope N_scope.

(** * Specification: a colour is four bytes. *)
Definition mk (a b g r : N) : N := ((a * 256 + b) * 256 + g) * 256 + r.
Definition byte (n : N) : Prop := n < 256.
Definition is_color (c : N) : Prop := c < 4294967296.

Lemma color_mk c : is_color c -> exists a b g r, byte a /\ byte b /\ byte g /\ byte r /\ c = mk a b g r.
Proof.
  unfold is_color, byte, mk; intros H.
  exists (c / 16777216), (c / 65536 mod 256), (c / 256 mod 256), (c mod 256). lia.
Qed.
Lemma mk_color a b g r : byte a -> byte b -> byte g -> byte r -> is_color (mk a b g r).
Proof. unfold byte, mk, is_color; lia. Qed.

(** * Bit splitting *)
Lemma testbit_split a x k n : x < 2 ^ k ->
  N.testbit (a * 2 ^ k + x) n = if n <? k then N.testbit x n else N.testbit a (n - k).
Proof.
  intros Hx. destruct (N.ltb_spec n k).
  - rewrite <- (N.mod_pow2_bits_low _ k) by auto.
    replace ((a * 2 ^ k + x) mod 2 ^ k) with x; auto.
    rewrite N.add_comm, N.mod_add by (apply N.pow_nonzero; lia). symmetry. now apply N.mod_small.
  - replace n with ((n - k) + k) at 1 by lia. rewrite <- N.div_pow2_bits.
    replace ((a * 2 ^ k + x) / 2 ^ k) with a; auto.
    rewrite N.add_comm, N.div_add by (apply N.pow_nonzero; lia). rewrite N.div_small; lia.
Qed.
Lemma land_lt x y k : x < 2 ^ k -> N.land x y < 2 ^ k.
Proof.
  intros H. assert (N.land x y = N.land x y mod 2 ^ k) as ->.
  { rewrite <- N.land_ones, <- N.land_assoc, (N.land_comm y), N.land_assoc, N.land_ones.
    now rewrite (N.mod_small x). }
  apply N.mod_lt, N.pow_nonzero; lia.
Qed.
Lemma lor_lt x y k : x < 2 ^ k -> y < 2 ^ k -> N.lor x y < 2 ^ k.
Proof.
  intros Hx Hy. assert (N.lor x y = N.lor x y mod 2 ^ k) as ->.
  { rewrite <- N.land_ones, N.land_lor_distr_l, !N.land_ones, !N.mod_small; auto. }
  apply N.mod_lt, N.pow_nonzero; lia.
Qed.
Lemma land_split a x m y k : x < 2 ^ k -> y < 2 ^ k ->
  N.land (a * 2 ^ k + x) (m * 2 ^ k + y) = N.land a m * 2 ^ k + N.land x y.
Proof.
  intros Hx Hy. apply N.bits_inj; intros n.
  rewrite N.land_spec, !testbit_split; auto using land_lt.
  destruct (n <? k); now rewrite N.land_spec.
Qed.
Lemma lor_split a x m y k : x < 2 ^ k -> y < 2 ^ k ->
  N.lor (a * 2 ^ k + x) (m * 2 ^ k + y) = N.lor a m * 2 ^ k + N.lor x y.
Proof.
  intros Hx Hy. apply N.bits_inj; intros n.
  rewrite N.lor_spec, !testbit_split; auto using lor_lt.
  destruct (n <? k); now rewrite N.lor_spec.
Qed.
Lemma land_mk a b g r a' b' g' r' : byte b -> byte g -> byte r -> byte b' -> byte g' -> byte r' ->
  N.land (mk a b g r) (mk a' b' g' r') = mk (N.land a a') (N.land b b') (N.land g g') (N.land r r').
Proof.
  unfold mk, byte. intros. change 256 with (2 ^ 8) in *. now rewrite !land_split.
Qed.
Lemma lor_mk a b g r a' b' g' r' : byte b -> byte g -> byte r -> byte b' -> byte g' -> byte r' ->
  N.lor (mk a b g r) (mk a' b' g' r') = mk (N.lor a a') (N.lor b b') (N.lor g g') (N.lor r r').
Proof.
  unfold mk, byte. intros. change 256 with (2 ^ 8) in *. now rewrite !lor_split.
Qed.
Lemma land_byte v : byte v -> N.land v 255 = v.
Proof. intros H. change 255 with (N.ones 8). rewrite N.land_ones. now apply N.mod_small. Qed.
Lemma byte0 : byte 0. Proof. unfold byte; lia. Qed.
Lemma byte255 : byte 255. Proof. unfold byte; lia. Qed.
#[global] Hint Resolve byte0 byte255 : core.

Ltac mask :=
  repeat match goal with
  | |- context [N.land (mk ?a ?b ?g ?r) ?m] =>
      let a' := eval vm_compute in (m / 16777216) in
      let b' := eval vm_compute in (m / 65536 mod 256) in
      let g' := eval vm_compute in (m / 256 mod 256) in
      let r' := eval vm_compute in (m mod 256) in
      change (N.land (mk a b g r) m) with (N.land (mk a b g r) (mk a' b' g' r'));
      rewrite (land_mk a b g r a' b' g' r') by auto;
      rewrite ?N.land_0_r, ?land_byte by auto
  end.

Section Channels.
  Context (a b g r v : N) (Ha : byte a) (Hb : byte b) (Hg : byte g) (Hr : byte r) (Hv : byte v).

  Lemma get_red_mk : get_red (mk a b g r) = r.
  Proof using Ha Hb Hg Hr. clear v Hv. unfold get_red. mask. unfold mk. lia. Qed.
  Lemma get_green_mk : get_green (mk a b g r) = g.
  Proof using Ha Hb Hg Hr. clear v Hv.
    unfold get_green. mask. rewrite N.shiftr_div_pow2. unfold mk, byte in *. change (2 ^ 8) with 256. lia.
  Qed.
  Lemma get_blue_mk : get_blue (mk a b g r) = b.
  Proof using Ha Hb Hg Hr. clear v Hv.
    unfold get_blue. mask. rewrite N.shiftr_div_pow2. unfold mk, byte in *. change (2 ^ 16) with 65536. lia.
  Qed.
  Lemma get_alpha_mk : get_alpha (mk a b g r) = a.
  Proof using Ha Hb Hg Hr. clear v Hv.
    unfold get_alpha. mask. rewrite N.shiftr_div_pow2. unfold mk, byte in *. change (2 ^ 24) with 16777216. lia.
  Qed.
  Lemma set_red_mk : set_red (mk a b g r) v = mk a b g v.
  Proof using Ha Hb Hg Hr Hv.
    unfold set_red. mask. replace v with (mk 0 0 0 v) at 1 by (unfold mk; lia).
    rewrite lor_mk by auto. now rewrite !N.lor_0_r, N.lor_0_l.
  Qed.
  Lemma set_green_mk : set_green (mk a b g r) v = mk a b v r.
  Proof using Ha Hb Hg Hr Hv.
    unfold set_green. mask. rewrite N.shiftl_mul_pow2. change (2 ^ 8) with 256.
    replace (v * 256) with (mk 0 0 v 0) by (unfold mk; lia).
    rewrite lor_mk by auto. now rewrite !N.lor_0_r, N.lor_0_l.
  Qed.
  Lemma set_blue_mk : set_blue (mk a b g r) v = mk a v g r.
  Proof using Ha Hb Hg Hr Hv.
    unfold set_blue. mask. rewrite N.shiftl_mul_pow2. change (2 ^ 16) with 65536.
    replace (v * 65536) with (mk 0 v 0 0) by (unfold mk; lia).
    rewrite lor_mk by auto. now rewrite !N.lor_0_r, N.lor_0_l.
  Qed.
  Lemma set_alpha_mk : set_alpha (mk a b g r) v = mk v b g r.
  Proof using Ha Hb Hg Hr Hv.
    unfold set_alpha. mask. rewrite N.shiftl_mul_pow2. change (2 ^ 24) with 16777216.
    replace (u32 (v * 16777216)) with (mk v 0 0 0) by (unfold mk, u32, byte in *; lia).
    rewrite lor_mk by auto. now rewrite !N.lor_0_r, N.lor_0_l.
  Qed.
  Lemma get_argb_mk : get_color_argb (mk a b g r) = mk a r g b.
  Proof using Ha Hb Hg Hr. clear v Hv.
    unfold get_color_argb. mask. rewrite N.shiftr_div_pow2, N.shiftl_mul_pow2.
    change (2 ^ 16) with 65536.
    replace (mk 0 b 0 0 / 65536) with (mk 0 0 0 b) by (unfold mk, byte in *; lia).
    replace (u32 (mk 0 0 0 r * 65536)) with (mk 0 r 0 0) by (unfold mk, u32, byte in *; lia).
    rewrite !lor_mk by (rewrite ?N.lor_0_r, ?N.lor_0_l; auto).
    now rewrite !N.lor_0_r, !N.lor_0_l.
  Qed.
  Lemma bytes_of_mk :
    N.land (mk a b g r) 255 = r /\ N.land (N.shiftr (mk a b g r) 8) 255 = g /\
    N.land (N.shiftr (mk a b g r) 16) 255 = b /\ N.land (N.shiftr (mk a b g r) 24) 255 = a.
  Proof using Ha Hb Hg Hr. clear v Hv.
    change 255 with (N.ones 8). rewrite !N.land_ones, !N.shiftr_div_pow2.
    change (2 ^ 8) with 256. change (2 ^ 16) with 65536. change (2 ^ 24) with 16777216.
    unfold mk, byte in *. lia.
  Qed.
End Channels.

Definition hexdigits : str := S_ "0123456789abcdef".

(** * Hex text *)
Definition nibble_ok (n : N) : bool :=
  (digit_step 0 (hexdigit n) =? n) && existsb (aeq (hexdigit n)) hexdigits.
Lemma below16 (P : N -> bool) n :
  forallb P [0;1;2;3;4;5;6;7;8;9;10;11;12;13;14;15] = true -> n < 16 -> P n = true.
Proof.
  intros H Hn. rewrite forallb_forall in H. apply H.
  assert (n = 0 \/ n = 1 \/ n = 2 \/ n = 3 \/ n = 4 \/ n = 5 \/ n = 6 \/ n = 7 \/ n = 8 \/ n = 9 \/
          n = 10 \/ n = 11 \/ n = 12 \/ n = 13 \/ n = 14 \/ n = 15) by lia.
  simpl. intuition.
Qed.

(** Value of a hex digit byte, as a specification: position in the lower- or upper-case alphabet. *)
Fixpoint index_of (c : ascii) (s : str) (i : N) : option N :=
  match s with [] => None | x :: s' => if aeq x c then Some i else index_of c s' (i + 1) end.
Definition hexval (c : ascii) : option N :=
  match index_of c (S_ "0123456789abcdef") 0 with
  | Some v => Some v
  | None => index_of c (S_ "0123456789ABCDEF") 0
  end.
Fixpoint hexnum (s : str) (acc : N) : option N :=
  match s with
  | [] => Some acc
  | c :: s' => match hexval c with Some v => hexnum s' (acc * 16 + v) | None => None end
  end.

Lemma all_bytes (P : ascii -> bool) :
  forallb P (map (fun n => chr (N.of_nat n)) (seq 0 256)) = true -> forall c, P c = true.
Proof.
  intros H c. rewrite forallb_forall in H. apply H. apply in_map_iff.
  exists (N.to_nat (code c)). split.
  - rewrite N2Nat.id. apply ascii_N_embedding.
  - apply in_seq. pose proof (code_bound c). lia.
Qed.

Lemma digit_step_hex out c v : out < 268435456 -> hexval c = Some v -> digit_step out c = out * 16 + v /\ v < 16.
Proof.
  intros Ho Hv. revert v Hv.
  assert (H : (match hexval c with
              | None => true
              | Some v => (v <? 16) &&
                 (if (48 <=? code c) && (code c <=? 57)
                  then (code c - 48 =? v) && negb ((97 <=? code (tolower c)) && (code (tolower c) <=? 102))
                  else ((97 <=? code (tolower c)) && (code (tolower c) <=? 102)) && (code (tolower c) - 97 + 10 =? v))
              end) = true).
  { apply (all_bytes (fun c => match hexval c with
              | None => true
              | Some v => (v <? 16) &&
                 (if (48 <=? code c) && (code c <=? 57)
                  then (code c - 48 =? v) && negb ((97 <=? code (tolower c)) && (code (tolower c) <=? 102))
                  else ((97 <=? code (tolower c)) && (code (tolower c) <=? 102)) && (code (tolower c) - 97 + 10 =? v))
              end)). vm_compute. reflexivity. }
  intros v Hv. rewrite Hv in H. apply andb_true_iff in H as [H1 H2]. unfold digit_step.
  destruct ((48 <=? code c) && (code c <=? 57)).
  - apply andb_true_iff in H2 as [H2 H3]. apply negb_true_iff in H3. rewrite H3.
    apply N.eqb_eq in H2. rewrite H2. unfold u32. lia.
  - apply andb_true_iff in H2 as [H2 H3]. rewrite H2. apply N.eqb_eq in H3. rewrite H3. unfold u32. lia.
Qed.

Lemma at_app u c t : at_ (u ++ c :: t) (length u) = Ok c.
Proof.
  unfold at_. rewrite app_length. simpl.
  replace (length u <? length u + S (length t))%nat with true by (symmetry; apply Nat.ltb_lt; lia).
  now rewrite app_nth2, Nat.sub_diag by lia.
Qed.
Lemma at_end u : at_ u (length u) = Ok zero.
Proof. unfold at_. now rewrite Nat.ltb_irrefl, Nat.eqb_refl. Qed.

Lemma digit_loop_app u ds t out :
  digit_loop (u ++ ds ++ t) (length u) (length ds) out = Ok (fold_left digit_step ds out).
Proof.
  revert u out; induction ds as [|d ds IH]; intros u out; simpl; auto.
  rewrite at_app. cbn [bind].
  specialize (IH (u ++ [d]) (digit_step out d)). rewrite <- app_assoc in IH. simpl in IH.
  rewrite app_length in IH. simpl in IH. now rewrite Nat.add_1_r in IH.
Qed.

Lemma hexnum_bound ds acc v : hexnum ds acc = Some v -> v < (acc + 1) * 16 ^ N.of_nat (length ds).
Proof.
  revert acc; induction ds as [|d ds IH]; intros acc H; simpl in H.
  - inversion H; subst. simpl. lia.
  - destruct (hexval d) as [x|] eqn:E; [|discriminate]. specialize (IH _ H).
    destruct (digit_step_hex 0 d x ltac:(lia) E) as [_ Hx].
    cbn [length]. rewrite Nat2N.inj_succ, N.pow_succ_r'. nia.
Qed.
Lemma hexnum_lower ds acc v : hexnum ds acc = Some v -> acc * 16 ^ N.of_nat (length ds) <= v.
Proof.
  revert acc; induction ds as [|d ds IH]; intros acc H; simpl in H.
  - inversion H; subst. simpl. lia.
  - destruct (hexval d) as [x|] eqn:E; [|discriminate]. specialize (IH _ H).
    cbn [length]. rewrite Nat2N.inj_succ, N.pow_succ_r'. nia.
Qed.

Lemma digits_hex ds acc v : hexnum ds acc = Some v -> v < 4294967296 -> fold_left digit_step ds acc = v.
Proof.
  revert acc; induction ds as [|d ds IH]; intros acc H Hv; simpl in *; [congruence|].
  destruct (hexval d) as [x|] eqn:E; [|discriminate].
  pose proof (hexnum_lower _ _ _ H) as Hl.
  assert (acc * 16 + x < 4294967296).
  { assert (1 <= 16 ^ N.of_nat (length ds)). { change 1 with (16 ^ 0). apply N.pow_le_mono_r; lia. } nia. }
  destruct (digit_step_hex acc d x) as [-> _]; auto. lia.
Qed.

(** The colour produced from [out] does not depend on the previous (possibly
    uninitialised) value. *)
Lemma assemble c out : is_color c -> is_color out ->
  set_alpha (set_blue (set_green (set_red c (N.land out 255)) (N.land (N.shiftr out 8) 255))
     (N.land (N.shiftr out 16) 255)) (N.land (N.shiftr out 24) 255) = out.
Proof.
  intros Hc Ho. apply color_mk in Hc as (a & b & g & r & Ha & Hb & Hg & Hr & ->).
  apply color_mk in Ho as (a' & b' & g' & r' & Ha' & Hb' & Hg' & Hr' & ->).
  destruct (bytes_of_mk a' b' g' r' Ha' Hb' Hg' Hr') as (-> & -> & -> & ->).
  rewrite set_red_mk, set_green_mk, set_blue_mk, set_alpha_mk; auto.
Qed.

Lemma take_while_app {A} (f : A -> bool) u x t :
  forallb f u = true -> f x = false -> take_while f (u ++ x :: t) = u.
Proof.
  induction u as [|y u IH]; simpl; intros H Hx; [now rewrite Hx|].
  apply andb_true_iff in H as [-> H]. now rewrite IH.
Qed.

Lemma hexval_not_space c v : hexval c = Some v -> isspace c = false /\ aeq c "#"%char = false.
Proof.
  intros H. pose proof (all_bytes (fun c => match hexval c with None => true | Some _ => negb (isspace c) && negb (aeq c "#"%char) end)
    ltac:(vm_compute; reflexivity) c) as K. simpl in K. rewrite H in K.
  apply andb_true_iff in K as [K1 K2]. apply negb_true_iff in K1, K2. auto.
Qed.

(** Main parsing lemma: white space, optional '#', eight hex digits, anything. *)
Lemma parse_eight c ws hash ds t v :
  is_color c -> forallb isspace ws = true -> (hash = [] \/ hash = S_ "#") ->
  length ds = 8%nat -> hexnum ds 0 = Some v ->
  set_color_abgr_str c (ws ++ hash ++ ds ++ t) = Ok v.
Proof.
  intros Hc Hws Hh Hl Hv.
  assert (Hvb : v < 4294967296).
  { pose proof (hexnum_bound _ _ _ Hv) as K. rewrite Hl in K. exact K. }
  destruct ds as [|d ds]; [discriminate|].
  assert (Hd : exists x, hexval d = Some x).
  { cbn [hexnum] in Hv. destruct (hexval d); [eauto|discriminate]. }
  destruct Hd as [x Hx]. destruct (hexval_not_space _ _ Hx) as [Hsp Hns].
  unfold set_color_abgr_str.
  assert (Hlen : (0 <? length (ws ++ hash ++ (d :: ds) ++ t))%nat = true).
  { apply Nat.ltb_lt. rewrite !app_length. simpl. lia. }
  rewrite Hlen.
  destruct Hh as [->| ->].
  - assert (Hskip : skip_space_count (ws ++ [] ++ (d :: ds) ++ t) = length ws).
    { unfold skip_space_count. simpl. rewrite take_while_app; auto. }
    rewrite Hskip. cbn [app]. rewrite at_app. cbn [bind]. rewrite Hns. cbn [andb].
    assert (E : (8 + length ws <=? length (ws ++ d :: ds ++ t))%nat = true).
    { apply Nat.leb_le. rewrite app_length. cbn [length]. rewrite app_length. simpl in Hl. lia. }
    rewrite E. rewrite <- Hl. change (d :: ds ++ t) with ((d :: ds) ++ t). rewrite digit_loop_app.
    cbn [bind]. rewrite (digits_hex _ _ _ Hv) by auto. now rewrite assemble.
  - assert (Hskip : skip_space_count (ws ++ S_ "#" ++ (d :: ds) ++ t) = length ws).
    { unfold skip_space_count. simpl. rewrite take_while_app; auto. }
    rewrite Hskip. change (S_ "#" ++ (d :: ds) ++ t) with ("#"%char :: (d :: ds) ++ t).
    rewrite at_app. cbn [bind]. rewrite aeq_refl. cbn [andb].
    assert (E : (8 + S (length ws) <=? length (ws ++ "#"%char :: (d :: ds) ++ t))%nat = true).
    { apply Nat.leb_le. rewrite app_length. cbn [length]. rewrite app_length. lia. }
    rewrite E. rewrite <- Hl.
    replace (ws ++ "#"%char :: (d :: ds) ++ t) with ((ws ++ ["#"%char]) ++ (d :: ds) ++ t) by (rewrite <- app_assoc; auto).
    replace (S (length ws)) with (length (ws ++ ["#"%char])) by (rewrite app_length; simpl; lia).
    rewrite digit_loop_app.
    cbn [bind]. rewrite (digits_hex _ _ _ Hv) by auto. now rewrite assemble.
Qed.

(** Short texts without prefix are read as the number they denote. *)
Lemma parse_short c ds v :
  is_color c -> (length ds <= 8)%nat -> hexnum ds 0 = Some v -> set_color_abgr_str c ds = Ok v.
Proof.
  intros Hc Hl Hv.
  assert (Hvb : v < 4294967296).
  { pose proof (hexnum_bound _ _ _ Hv) as K.
    assert (16 ^ N.of_nat (length ds) <= 16 ^ 8) by (apply N.pow_le_mono_r; lia). 
    change (16 ^ 8) with 4294967296 in *. lia. }
  unfold set_color_abgr_str.
  destruct ds as [|d ds].
  - simpl in *. inversion Hv; subst. pose proof (assemble c 0 Hc Hvb) as K. cbn -[set_alpha set_blue set_green set_red] in *. now rewrite K.
  - assert (Hd : exists x, hexval d = Some x).
    { cbn [hexnum] in Hv. destruct (hexval d); [eauto|discriminate]. }
    destruct Hd as [x Hx]. destruct (hexval_not_space _ _ Hx) as [Hsp Hns].
    assert (Hskip : skip_space_count (d :: ds) = 0%nat).
    { unfold skip_space_count. simpl. now rewrite Hsp. }
    rewrite Hskip. pose proof (at_app [] d ds) as Ha. simpl in Ha. rewrite Ha.
    change (0 <? length (d :: ds))%nat with true. cbn [bind]. rewrite Hns. cbn [andb].
    cbn [length].
    assert (Hn : (if (8 + 0 <=? S (length ds))%nat then 8%nat else S (length ds)) = length (d :: ds)).
    { cbn [length] in *. destruct (Nat.leb_spec (8 + 0) (S (length ds))); lia. }
    rewrite Hn. pose proof (digit_loop_app [] (d :: ds) [] 0) as Hloop.
    rewrite app_nil_r in Hloop. cbn [app] in Hloop. change (length []) with 0%nat in Hloop.
    rewrite Hloop. cbn [bind]. rewrite (digits_hex _ _ _ Hv) by auto. now rewrite assemble.
Qed.

Lemma hexnum_app a b acc : hexnum (a ++ b) acc = match hexnum a acc with Some v => hexnum b v | None => None end.
Proof. revert acc; induction a as [|x a IH]; intros acc; simpl; auto. destruct (hexval x); auto. Qed.

Lemma hexval_hexdigit n : n < 16 -> hexval (hexdigit n) = Some n.
Proof.
  intros H. pose proof (below16 (fun n => match hexval (hexdigit n) with Some v => v =? n | None => false end) n ltac:(vm_compute; reflexivity) H) as K.
  simpl in K. destruct (hexval (hexdigit n)); [|discriminate]. apply N.eqb_eq in K. now subst.
Qed.
Lemma b2a_hex_num v acc : byte v -> hexnum (b2a_hex v) acc = Some (acc * 256 + v).
Proof.
  unfold byte, b2a_hex; intros H. change 15 with (N.ones 4).
  rewrite !N.land_ones, N.shiftr_div_pow2. change (2 ^ 4) with 16.
  cbn [hexnum]. rewrite !hexval_hexdigit by lia. f_equal. lia.
Qed.
Lemma b2a_hex_lower v : Forall (fun c => In c hexdigits) (b2a_hex v).
Proof.
  assert (H : forall n, n < 16 -> In (hexdigit n) hexdigits).
  { intros n Hn. pose proof (below16 (fun n => existsb (aeq (hexdigit n)) hexdigits) n ltac:(vm_compute; reflexivity) Hn) as K.
    cbv beta in K. apply existsb_exists in K as (x & Hx & E). apply aeq_spec in E. now subst. }
  unfold b2a_hex. change 15 with (N.ones 4). rewrite !N.land_ones. change (2 ^ 4) with 16.
  apply Forall_cons; [apply H; lia|]. apply Forall_cons; [apply H; lia|constructor].
Qed.

Lemma to_string_num c : is_color c -> hexnum (to_string_abgr c) 0 = Some c.
Proof.
  intros Hc. apply color_mk in Hc as (a & b & g & r & Ha & Hb & Hg & Hr & ->).
  unfold to_string_abgr. rewrite get_red_mk, get_green_mk, get_blue_mk, get_alpha_mk by auto.
  do 3 rewrite hexnum_app, b2a_hex_num by auto. rewrite b2a_hex_num by auto. reflexivity.
Qed.

Lemma color_round_trip c0 c : is_color c0 -> is_color c ->
  set_color_abgr_str c0 (to_string_abgr c) = Ok c.
Proof. intros H0 Hc. apply parse_short; auto. now apply to_string_num. Qed.

Lemma color_text_shape c : length (to_string_abgr c) = 8%nat /\ Forall (fun x => In x hexdigits) (to_string_abgr c).
Proof.
  split; [reflexivity|]. unfold to_string_abgr. rewrite !Forall_app. auto using b2a_hex_lower.
Qed.

Lemma color_text_injective c1 c2 : is_color c1 -> is_color c2 -> to_string_abgr c1 = to_string_abgr c2 -> c1 = c2.
Proof.
  intros H1 H2 H. pose proof (to_string_num c1 H1) as K1. rewrite H, to_string_num in K1 by auto. congruence.
Qed.

Lemma argb_round_trip c0 c : is_color c0 -> is_color c -> set_color_argb c0 (get_color_argb c) = c.
Proof.
  intros H0 Hc. apply color_mk in Hc as (a & b & g & r & Ha & Hb & Hg & Hr & ->).
  apply color_mk in H0 as (a0 & b0 & g0 & r0 & Ha0 & Hb0 & Hg0 & Hr0 & ->).
  rewrite get_argb_mk by auto. unfold set_color_argb.
  destruct (bytes_of_mk a r g b Ha Hr Hg Hb) as (-> & -> & -> & ->).
  rewrite set_alpha_mk, set_red_mk, set_green_mk, set_blue_mk; auto.
Qed.

Lemma argb_string c : is_color c -> hexnum (to_string_argb c) 0 = Some (get_color_argb c).
Proof.
  intros Hc. apply color_mk in Hc as (a & b & g & r & Ha & Hb & Hg & Hr & ->).
  unfold to_string_argb. rewrite get_red_mk, get_green_mk, get_blue_mk, get_alpha_mk, get_argb_mk by auto.
  do 3 rewrite hexnum_app, b2a_hex_num by auto. rewrite b2a_hex_num by auto. reflexivity.
Qed.

(** Channel setters are independent. *)
Lemma channels c v : is_color c -> byte v ->
  (get_red (set_red c v) = v /\ get_green (set_red c v) = get_green c /\ get_blue (set_red c v) = get_blue c /\ get_alpha (set_red c v) = get_alpha c) /\
  (get_green (set_green c v) = v /\ get_red (set_green c v) = get_red c /\ get_blue (set_green c v) = get_blue c /\ get_alpha (set_green c v) = get_alpha c) /\
  (get_blue (set_blue c v) = v /\ get_red (set_blue c v) = get_red c /\ get_green (set_blue c v) = get_green c /\ get_alpha (set_blue c v) = get_alpha c) /\
  (get_alpha (set_alpha c v) = v /\ get_red (set_alpha c v) = get_red c /\ get_green (set_alpha c v) = get_green c /\ get_blue (set_alpha c v) = get_blue c).
Proof.
  intros Hc Hv. apply color_mk in Hc as (a & b & g & r & Ha & Hb & Hg & Hr & ->).
  rewrite set_red_mk, set_green_mk, set_blue_mk, set_alpha_mk by auto.
  rewrite !get_red_mk, !get_green_mk, !get_blue_mk, !get_alpha_mk by auto. repeat split; auto.
Qed.

Lemma set4 c a b g r : is_color c -> byte a -> byte b -> byte g -> byte r ->
  set_color_abgr_4 c a b g r = mk a b g r.
Proof.
  intros Hc Ha Hb Hg Hr. apply color_mk in Hc as (a0 & b0 & g0 & r0 & Ha0 & Hb0 & Hg0 & Hr0 & ->).
  unfold set_color_abgr_4. rewrite set_alpha_mk, set_blue_mk, set_green_mk, set_red_mk; auto.
Qed.

(** What the text means as a specification: drop leading white space and one '#', take the
    first eight bytes, read them as a hex number. *)
Definition color_text_spec (s : str) : option N :=
  let s := drop_while isspace s in
  let s := match s with c :: t => if aeq c "#"%char then t else s | [] => s end in
  hexnum (firstn 8 s) 0.

(** Strongest positive fact: whenever the spec gives a value and the text has at least eight
    bytes after the prefix, or no prefix at all, the code computes that value. *)
Lemma parse_refines_spec c s v : is_color c -> color_text_spec s = Some v ->
  (let s' := drop_while isspace s in
   let s' := match s' with x :: t => if aeq x "#"%char then t else s' | [] => s' end in
   (8 <= length s')%nat \/ s' = s) ->
  set_color_abgr_str c s = Ok v.
Proof.
  intros Hc Hs Hd. unfold color_text_spec in Hs. cbn zeta in *.
  pose proof (take_drop_while isspace s) as Hsplit.
  set (ws := take_while isspace s) in *. set (r := drop_while isspace s) in *.
  set (s' := match r with x :: t => if aeq x "#"%char then t else r | [] => r end) in *.
  assert (Hcase : exists hash, (hash = [] \/ hash = S_ "#") /\ r = hash ++ s').
  { subst s'. destruct r as [|x t]; [exists []; auto|].
    destruct (aeq x "#"%char) eqn:E; [apply aeq_spec in E; subst x; exists (S_ "#"); auto|exists []; auto]. }
  destruct Hcase as (hash & Hh & Hr).
  destruct Hd as [Hd|Hd].
  - rewrite <- Hsplit, Hr, <- (firstn_skipn 8 s'). apply parse_eight; auto.
    + apply take_while_all.
    + now rewrite firstn_length_le.
  - destruct (Nat.le_gt_cases 8 (length s')) as [Hle|Hgt].
    + rewrite <- Hsplit, Hr, <- (firstn_skipn 8 s'). apply parse_eight; auto.
      * apply take_while_all.
      * now rewrite firstn_length_le.
    + rewrite Hd in *. rewrite firstn_all2 in Hs by lia. apply parse_short; auto. lia.
Qed.

(** The refutations. *)
Lemma parse_shift : color_text_spec (S_ " ff") = Some 255 /\ set_color_abgr_str 0 (S_ " ff") = Ok 4080.
Proof. split; vm_compute; reflexivity. Qed.
Lemma parse_oob : color_text_spec (S_ "  ff") = Some 255 /\ set_color_abgr_str 0 (S_ "  ff") = UB.
Proof. split; vm_compute; reflexivity. Qed.
Lemma parse_shift_wit : exists s v w, color_text_spec s = Some v /\ set_color_abgr_str 0 s = Ok w /\ v <> w.
Proof. exists (S_ " ff"), 255, 4080. repeat split; try (vm_compute; reflexivity). discriminate. Qed.
Lemma parse_oob_wit : exists s v, color_text_spec s = Some v /\ set_color_abgr_str 0 s = UB.
Proof. exists (S_ "  ff"), 255. split; vm_compute; reflexivity. Qed.
Lemma mk_sum a b g r : mk a b g r = a * 2 ^ 24 + b * 2 ^ 16 + g * 2 ^ 8 + r.
Proof. unfold mk. lia. Qed.

(** C113: date-time text. *)
From Coq Require Import Lia ZArith.
From Verif Require Import Common DateTimeModel DateTimeProofs DateTextModel.
Local Open Scope Z_scope.

(** Specification: a numeral of at most k digits, its value, and its range. *)
Fixpoint numeral (acc : Z) (ds : str) : Z := match ds with [] => acc | d :: r => numeral (10 * acc + (Z.of_N (N_of_ascii d) - 48)) r end.
Definition field (k : nat) (lo hi : Z) (ds : str) (v : Z) : Prop :=
  (1 <= length ds <= k)%nat /\ (forall c, In c ds -> (48 <= N_of_ascii c <= 57)%N) /\ numeral 0 ds = v /\ lo <= v <= hi.
(** A text that begins with a date-time: year, month, day, hour, minute and second, each as a number in its range, and a Z. *)
Definition date_text (s : str) (y mo d h mi sec : Z) (rest : str) : Prop :=
  exists ty tmo td th tmi ts, s = ty ++ "-"%char :: tmo ++ "-"%char :: td ++ "T"%char :: th ++ ":"%char :: tmi ++ ":"%char :: ts ++ "Z"%char :: rest /\
    field 4 0 9999 ty y /\ field 2 1 12 tmo mo /\ field 2 1 31 td d /\ field 2 0 23 th h /\ field 2 0 59 tmi mi /\ field 2 0 61 ts sec.

Lemma isdigit_iff c : isdigit c = true <-> (48 <= N_of_ascii c <= 57)%N.
Proof. unfold isdigit, code. rewrite andb_true_iff, !N.leb_le. tauto. Qed.
Lemma dval_range c : isdigit c = true -> 0 <= dval c <= 9.
Proof. rewrite isdigit_iff. unfold dval, code. lia. Qed.
Lemma numeral_ge ds : forall acc, 0 <= acc -> forallb isdigit ds = true -> acc <= numeral acc ds /\ (ds <> [] -> 10 * acc <= numeral acc ds).
Proof.
  induction ds as [|d ds IH]; intros acc Ha Hd; cbn [numeral]; [split; [lia|congruence]|]. cbn in Hd. apply andb_true_iff in Hd as [H1 H2].
  apply dval_range in H1. unfold dval, code in H1. destruct (IH (10 * acc + (Z.of_N (N_of_ascii d) - 48))) as [I1 _]; [lia|exact H2|]. lia.
Qed.
Lemma conv_complete ulim sep r : isdigit sep = false -> forall ds res rul, ds <> [] -> forallb isdigit ds = true -> 0 <= res -> numeral res ds <= ulim ->
  10 ^ (Z.of_nat (length ds) - 1) <= rul -> conv_digits ulim res rul (ds ++ sep :: r) = (numeral res ds, sep :: r).
Proof.
  intros Hs. induction ds as [|d ds IH]; intros res rul Hne Hd Hr Hn Hk; [congruence|]. cbn in Hd. apply andb_true_iff in Hd as [H1 H2].
  cbn [conv_digits app numeral] in *. pose proof (dval_range d H1) as Hv. unfold dval, code in *. rewrite (Z.mul_comm res 10).
  set (res' := 10 * res + (Z.of_N (N_of_ascii d) - 48)) in *. destruct ds as [|d2 ds].
  - cbn [app]. rewrite Hs, andb_false_r. reflexivity.
  - cbn [app]. cbn in H2. pose proof H2 as H2'. apply andb_true_iff in H2' as [H3 _]. rewrite H3.
    assert (A : res' * 10 <= ulim). { destruct (numeral_ge (d2 :: ds) res') as [_ G]; [lia|cbn; exact H2|]. specialize (G ltac:(discriminate)). lia. }
    assert (B : 10 ^ (Z.of_nat (length (d2 :: ds)) - 1) <= rul / 10).
    { apply Z.div_le_lower_bound; [lia|]. cbn [length] in *. replace (Z.of_nat (S (S (length ds))) - 1) with (1 + (Z.of_nat (S (length ds)) - 1)) in Hk by lia.
      rewrite Z.pow_add_r in Hk by lia. change (10 ^ 1) with 10 in Hk. exact Hk. }
    assert (C : 0 < rul / 10). { assert (0 < 10 ^ (Z.of_nat (length (d2 :: ds)) - 1)) by (apply Z.pow_pos_nonneg; [lia|cbn [length]; lia]). lia. }
    apply Z.leb_le in A. apply Z.ltb_lt in C. rewrite A, C. cbn [andb]. apply (IH res' (rul / 10)); auto; try discriminate. lia.
Qed.
Lemma conv_sound ulim : forall s res rul m v r, 0 <= res -> (1 <= m)%nat -> rul < 10 ^ Z.of_nat m -> 0 <= rul -> match s with c :: _ => isdigit c = true | [] => False end ->
  conv_digits ulim res rul s = (v, r) -> exists ds, s = ds ++ r /\ (1 <= length ds <= m)%nat /\ forallb isdigit ds = true /\ numeral res ds = v.
Proof.
  induction s as [|c s IH]; intros res rul m v r Hr Hm Hk Hp Hd H; [destruct Hd|]. cbn [conv_digits] in H. pose proof (dval_range c Hd) as Hv.
  destruct ((_ <=? ulim) && (0 <? rul / 10) && match s with d :: _ => isdigit d | [] => false end) eqn:T.
  - rewrite !andb_true_iff in T. destruct T as ((_ & T1) & T2). apply Z.ltb_lt in T1. destruct s as [|d s]; [discriminate|].
    destruct m as [|[|m]]; [lia| |].
    { exfalso. change (10 ^ Z.of_nat 1) with 10 in Hk. rewrite Z.div_small in T1 by lia. lia. }
    apply (IH _ _ (S m)) in H; [|lia|lia| |apply Z.div_pos; lia|exact T2].
    + destruct H as (ds & -> & L & D & N). exists (c :: ds). split; [reflexivity|]. split; [cbn [length]; lia|]. split; [cbn; now rewrite Hd|].
      cbn [numeral]. unfold dval, code in N. now rewrite (Z.mul_comm res 10) in N.
    + apply Z.div_lt_upper_bound; [lia|]. replace (Z.of_nat (S (S m))) with (1 + Z.of_nat (S m)) in Hk by lia. rewrite Z.pow_add_r in Hk by lia. exact Hk.
  - injection H as <- <-. exists [c]. split; [reflexivity|]. split; [cbn; lia|]. split; [cbn; now rewrite Hd|]. cbn [numeral]. unfold dval, code. lia.
Qed.
Lemma all_digits ds : forallb isdigit ds = true <-> (forall c, In c ds -> (48 <= N_of_ascii c <= 57)%N).
Proof. rewrite forallb_forall. split; intros H c Hc; apply isdigit_iff, H, Hc. Qed.
Lemma conv_num_iff k lo hi sep r s v : (1 <= k)%nat -> 10 ^ (Z.of_nat k - 1) <= hi < 10 ^ Z.of_nat k -> isdigit sep = false ->
  (conv_num lo hi s = Some (v, sep :: r) <-> exists ds, s = ds ++ sep :: r /\ field k lo hi ds v).
Proof.
  intros Hk Hh Hs. assert (P : 0 < 10 ^ (Z.of_nat k - 1)) by (apply Z.pow_pos_nonneg; lia). split.
  - unfold conv_num. destruct s as [|c s]; [discriminate|]. destruct (isdigit c) eqn:Ec; [|discriminate].
    destruct (conv_digits hi 0 hi (c :: s)) as [v' r'] eqn:E. destruct ((v' <? lo) || (hi <? v')) eqn:T; [discriminate|]. intros [= -> ->].
    apply (conv_sound _ _ _ _ k) in E; [|lia|exact Hk|lia|lia|exact Ec]. destruct E as (ds & -> & L & D & N). exists ds. split; [reflexivity|].
    apply orb_false_iff in T as [T1 T2]. apply Z.ltb_ge in T1. apply Z.ltb_ge in T2. split; [exact L|]. split; [now apply all_digits|]. split; [exact N|lia].
  - intros (ds & -> & L & D & N & R). unfold conv_num. apply all_digits in D. destruct ds as [|c ds]; [cbn in L; lia|]. cbn [app]. pose proof D as D'. cbn in D'. apply andb_true_iff in D' as [D1 _]. rewrite D1.
    change (c :: ds ++ sep :: r) with ((c :: ds) ++ sep :: r). rewrite (conv_complete hi sep r Hs (c :: ds) 0 hi); [|discriminate|exact D|lia|lia|].
    + rewrite N. assert ((v <? lo) || (hi <? v) = false) as ->; [|reflexivity]. apply orb_false_iff. rewrite !Z.ltb_ge. lia.
    + transitivity (10 ^ (Z.of_nat k - 1)); [apply Z.pow_le_mono_r; lia|lia].
Qed.

(** One number and the character after it. *)
Lemma step_num k lo hi (set : Z -> tm) sep f s : (1 <= k)%nat -> 10 ^ (Z.of_nat k - 1) <= hi < 10 ^ Z.of_nat k -> isdigit sep = false -> isspace sep = false -> aeq sep "%"%char = false ->
  forall out, (match match conv_num lo hi s with Some (v, r) => Some (r, set v) | None => None end with Some (s, t) => strptime (sep :: f) s t | None => None end) = Some out <->
    exists ds v r, s = ds ++ sep :: r /\ field k lo hi ds v /\ strptime f r (set v) = Some out.
Proof.
  intros Hk Hh Hs Hsp Hpc out. split.
  - destruct (conv_num lo hi s) as [[v r]|] eqn:E; [|discriminate]. cbn [strptime]. rewrite Hsp, Hpc. destruct r as [|d r]; [discriminate|].
    destruct (aeq sep d) eqn:Ed; [|discriminate]. apply aeq_spec in Ed. subst d. intros H. apply (conv_num_iff k) in E; auto. destruct E as (ds & -> & F). exists ds, v, r. auto.
  - intros (ds & v & r & -> & F & H). assert (E : conv_num lo hi (ds ++ sep :: r) = Some (v, sep :: r)) by (apply (conv_num_iff k); eauto). rewrite E.
    cbn [strptime]. rewrite Hsp, Hpc, aeq_refl. exact H.
Qed.

Definition fields (y mo d h mi sec : Z) : tm := {| tm_year := y - 1900; tm_mon := mo - 1; tm_mday := d; tm_hour := h; tm_min := mi; tm_sec := sec |}.
Lemma strptime_iff s t0 out : strptime (S_ "%Y-%m-%dT%H:%M:%SZ") s t0 = Some out <->
  exists y mo d h mi sec rest, date_text s y mo d h mi sec rest /\ out = (rest, fields y mo d h mi sec).
Proof.
  change (strptime (S_ "%Y-%m-%dT%H:%M:%SZ") s t0) with
    (match match conv_num 0 9999 s with Some (v, r) => Some (r, set_year (v - 1900) t0) | None => None end with Some (s, t) => strptime (S_ "-%m-%dT%H:%M:%SZ") s t | None => None end).
  rewrite (step_num 4 0 9999 (fun v => set_year (v - 1900) t0) "-"%char (S_ "%m-%dT%H:%M:%SZ")) by (cbn; lia || reflexivity).
  assert (Q2 : forall s t, strptime (S_ "%m-%dT%H:%M:%SZ") s t = Some out <-> exists ds v r, s = ds ++ "-"%char :: r /\ field 2 1 12 ds v /\ strptime (S_ "%dT%H:%M:%SZ") r (set_mon (v - 1) t) = Some out).
  { intros u t. exact (step_num 2 1 12 (fun v => set_mon (v - 1) t) "-"%char (S_ "%dT%H:%M:%SZ") u ltac:(lia) ltac:(cbn; lia) eq_refl eq_refl eq_refl out). }
  assert (Q3 : forall s t, strptime (S_ "%dT%H:%M:%SZ") s t = Some out <-> exists ds v r, s = ds ++ "T"%char :: r /\ field 2 1 31 ds v /\ strptime (S_ "%H:%M:%SZ") r (set_mday v t) = Some out).
  { intros u t. exact (step_num 2 1 31 (fun v => set_mday v t) "T"%char (S_ "%H:%M:%SZ") u ltac:(lia) ltac:(cbn; lia) eq_refl eq_refl eq_refl out). }
  assert (Q4 : forall s t, strptime (S_ "%H:%M:%SZ") s t = Some out <-> exists ds v r, s = ds ++ ":"%char :: r /\ field 2 0 23 ds v /\ strptime (S_ "%M:%SZ") r (set_hour v t) = Some out).
  { intros u t. exact (step_num 2 0 23 (fun v => set_hour v t) ":"%char (S_ "%M:%SZ") u ltac:(lia) ltac:(cbn; lia) eq_refl eq_refl eq_refl out). }
  assert (Q5 : forall s t, strptime (S_ "%M:%SZ") s t = Some out <-> exists ds v r, s = ds ++ ":"%char :: r /\ field 2 0 59 ds v /\ strptime (S_ "%SZ") r (set_min v t) = Some out).
  { intros u t. exact (step_num 2 0 59 (fun v => set_min v t) ":"%char (S_ "%SZ") u ltac:(lia) ltac:(cbn; lia) eq_refl eq_refl eq_refl out). }
  assert (Q6 : forall s t, strptime (S_ "%SZ") s t = Some out <-> exists ds v r, s = ds ++ "Z"%char :: r /\ field 2 0 61 ds v /\ strptime [] r (set_sec v t) = Some out).
  { intros u t. exact (step_num 2 0 61 (fun v => set_sec v t) "Z"%char [] u ltac:(lia) ltac:(cbn; lia) eq_refl eq_refl eq_refl out). }
  split.
  - intros (ty & y & r1 & -> & F1 & H). apply Q2 in H as (tmo & mo & r2 & -> & F2 & H). apply Q3 in H as (td & d & r3 & -> & F3 & H).
    apply Q4 in H as (th & h & r4 & -> & F4 & H). apply Q5 in H as (tmi & mi & r5 & -> & F5 & H). apply Q6 in H as (ts & sec & r6 & -> & F6 & H).
    cbn [strptime] in H. injection H as <-. exists y, mo, d, h, mi, sec, r6. split; [|reflexivity]. exists ty, tmo, td, th, tmi, ts. auto 10.
  - intros (y & mo & d & h & mi & sec & rest & (ty & tmo & td & th & tmi & ts & -> & F1 & F2 & F3 & F4 & F5 & F6) & ->).
    exists ty, y. eexists. split; [reflexivity|]. split; [exact F1|]. apply Q2. exists tmo, mo. eexists. split; [reflexivity|]. split; [exact F2|].
    apply Q3. exists td, d. eexists. split; [reflexivity|]. split; [exact F3|]. apply Q4. exists th, h. eexists. split; [reflexivity|]. split; [exact F4|].
    apply Q5. exists tmi, mi. eexists. split; [reflexivity|]. split; [exact F5|]. apply Q6. exists ts, sec. eexists. split; [reflexivity|]. split; [exact F6|]. reflexivity.
Qed.
Lemma take_while_keep {A} (f : A -> bool) l r : forallb f l = true -> take_while f (l ++ r) = l ++ take_while f r.
Proof. induction l as [|x l IH]; intros H; [reflexivity|]. cbn in *. apply andb_true_iff in H as [-> H]. now rewrite IH. Qed.
Lemma take_while_split {A} (f : A -> bool) l : exists r, l = take_while f l ++ r.
Proof. induction l as [|x l [r IH]]; [now exists []|]. cbn. destruct (f x); [exists r; cbn; congruence|exists (x :: l); reflexivity]. Qed.
Lemma digits_no_nul k lo hi ds v : field k lo hi ds v -> forallb (fun c => negb (aeq c zero)) ds = true.
Proof.
  intros (_ & D & _). apply forallb_forall. intros c Hc. specialize (D c Hc). apply negb_true_iff. destruct (aeq c zero) eqn:E; [|reflexivity]. apply aeq_spec in E. subst c. cbn in D. lia.
Qed.
Lemma c_str_date s y mo d h mi sec : (exists rest, date_text (c_str s) y mo d h mi sec rest) <-> (exists rest, date_text s y mo d h mi sec rest).
Proof.
  split.
  - intros (rest & ty & tmo & td & th & tmi & ts & E & F). destruct (take_while_split (fun c => negb (aeq c zero)) s) as [r Hr]. fold (c_str s) in Hr. rewrite E in Hr.
    exists (rest ++ r), ty, tmo, td, th, tmi, ts. split; [|exact F]. rewrite Hr. repeat (rewrite <- app_assoc; cbn [app]). reflexivity.
  - intros (rest & ty & tmo & td & th & tmi & ts & -> & F). exists (c_str rest), ty, tmo, td, th, tmi, ts. split; [|exact F].
    destruct F as (F1 & F2 & F3 & F4 & F5 & F6). unfold c_str.
    rewrite take_while_keep by (eapply digits_no_nul; eauto). f_equal. cbn [take_while]. change (negb (aeq "-"%char zero)) with true. cbv iota. f_equal.
    rewrite take_while_keep by (eapply digits_no_nul; eauto). f_equal. cbn [take_while]. change (negb (aeq "-"%char zero)) with true. cbv iota. f_equal.
    rewrite take_while_keep by (eapply digits_no_nul; eauto). f_equal. cbn [take_while]. change (negb (aeq "T"%char zero)) with true. cbv iota. f_equal.
    rewrite take_while_keep by (eapply digits_no_nul; eauto). f_equal. cbn [take_while]. change (negb (aeq ":"%char zero)) with true. cbv iota. f_equal.
    rewrite take_while_keep by (eapply digits_no_nul; eauto). f_equal. cbn [take_while]. change (negb (aeq ":"%char zero)) with true. cbv iota. f_equal.
    rewrite take_while_keep by (eapply digits_no_nul; eauto). f_equal. 
Qed.

(** C113. A date-time is made from exactly the texts that begin with one, and its fields are the numbers in the text. *)
Theorem date_time_accepts : forall s t, create s = Some t <-> exists y mo d h mi sec rest, date_text s y mo d h mi sec rest /\ t = fields y mo d h mi sec.
Proof.
  intros s t. unfold create. split.
  - destruct (strptime _ (c_str s) new_date_time) as [[r t']|] eqn:E; [|discriminate]. intros [= ->]. apply strptime_iff in E as (y & mo & d & h & mi & sec & rest & D & [= -> ->]).
    destruct (proj1 (c_str_date s y mo d h mi sec) (ex_intro _ rest D)) as [rest' D']. exists y, mo, d, h, mi, sec, rest'. auto.
  - intros (y & mo & d & h & mi & sec & rest & D & ->). destruct (proj2 (c_str_date s y mo d h mi sec) (ex_intro _ rest D)) as [rest' D'].
    assert (E : strptime (S_ "%Y-%m-%dT%H:%M:%SZ") (c_str s) new_date_time = Some (rest', fields y mo d h mi sec)) by (apply strptime_iff; exists y, mo, d, h, mi, sec, rest'; auto). now rewrite E.
Qed.
Print Assumptions date_time_accepts.

Definition fieldb (k : nat) (ds : str) (v : Z) : bool := (1 <=? length ds)%nat && (length ds <=? k)%nat && forallb isdigit ds && (numeral 0 ds =? v).
Lemma fieldb_field k lo hi ds v : fieldb k ds v = true -> lo <= v <= hi -> field k lo hi ds v.
Proof.
  unfold fieldb. rewrite !andb_true_iff, !Nat.leb_le, Z.eqb_eq. intros (((H1 & H2) & H3) & H4) R. repeat split; try lia; try (intros; eapply all_digits; eauto); apply (proj1 (all_digits ds)) in H3; apply H3; assumption.
Qed.
Definition upto (n : nat) : list Z := map Z.of_nat (seq 0 n).
Lemma upto_in n v : 0 <= v < Z.of_nat n -> In v (upto n).
Proof. intros H. apply in_map_iff. exists (Z.to_nat v). split; [lia|]. apply in_seq. lia. Qed.
Lemma two_field lo hi v : 0 <= v <= 99 -> lo <= v <= hi -> field 2 lo hi (two v) v.
Proof.
  intros R. apply fieldb_field. assert (T : forallb (fun v => fieldb 2 (two v) v) (upto 100) = true) by (vm_compute; reflexivity). rewrite forallb_forall in T. apply T, upto_in. cbn; lia.
Qed.
Lemma show_field v : 0 <= v <= 9999 -> field 4 0 9999 (show v) v.
Proof.
  intros R. apply fieldb_field; [|exact R]. assert (T : forallb (fun v => fieldb 4 (show v) v) (upto (100 * 100)) = true) by (vm_compute; reflexivity). rewrite forallb_forall in T. apply T, upto_in. lia.
Qed.
Lemma show_four v : 1000 <= v <= 9999 -> length (show v) = 4%nat.
Proof.
  intros R. assert (T : forallb (fun v => (length (show v) =? 4)%nat || (v <? 1000)) (upto (100 * 100)) = true) by (vm_compute; reflexivity). rewrite forallb_forall in T.
  specialize (T v (upto_in (100 * 100) v ltac:(lia))). apply orb_true_iff in T as [T|T]; [now apply Nat.eqb_eq|]. apply Z.ltb_lt in T. lia.
Qed.
Definition date_range (y mo d h mi sec : Z) : Prop := 0 <= y <= 9999 /\ 1 <= mo <= 12 /\ 1 <= d <= 31 /\ 0 <= h <= 23 /\ 0 <= mi <= 59 /\ 0 <= sec <= 61.
Definition written (y mo d h mi sec : Z) : str := show y ++ "-"%char :: two mo ++ "-"%char :: two d ++ "T"%char :: two h ++ ":"%char :: two mi ++ ":"%char :: two sec ++ ["Z"%char].
Lemma xsd_written y mo d h mi sec : date_range y mo d h mi sec -> get_xsd_date_time (fields y mo d h mi sec) = Ok (written y mo d h mi sec).
Proof.
  intros (R1 & _). unfold get_xsd_date_time, get_xsd_date, get_xsd_time, fields. cbn [tm_year tm_mon tm_mday tm_hour tm_min tm_sec].
  replace (y - 1900 + 1900) with y by lia. replace (mo - 1 + 1) with mo by lia. destruct (show_field y R1) as ((_ & L) & _).
  unfold do_strftime at 1. assert ((length (show y ++ S_ "-" ++ two mo ++ S_ "-" ++ two d) <? 11)%nat = true) as ->.
  { apply Nat.ltb_lt. rewrite app_length. change (length (S_ "-" ++ two mo ++ S_ "-" ++ two d)) with 6%nat. lia. }
  cbn [bind]. unfold do_strftime. change (length (two h ++ S_ ":" ++ two mi ++ S_ ":" ++ two sec) <? 9)%nat with true. cbn [bind]. unfold written. f_equal.
  rewrite <- !app_assoc. reflexivity.
Qed.
Lemma written_text y mo d h mi sec : date_range y mo d h mi sec -> date_text (written y mo d h mi sec) y mo d h mi sec [].
Proof.
  intros (R1 & R2 & R3 & R4 & R5 & R6). exists (show y), (two mo), (two d), (two h), (two mi), (two sec). split; [reflexivity|].
  split; [now apply show_field|]. split; [apply two_field; lia|]. split; [apply two_field; lia|]. split; [apply two_field; lia|]. split; apply two_field; lia.
Qed.
Lemma text_range s y mo d h mi sec rest : date_text s y mo d h mi sec rest -> date_range y mo d h mi sec.
Proof.
  intros (ty & tmo & td & th & tmi & ts & _ & (_ & _ & _ & F1) & (_ & _ & _ & F2) & (_ & _ & _ & F3) & (_ & _ & _ & F4) & (_ & _ & _ & F5) & (_ & _ & _ & F6)).
  unfold date_range. auto 10.
Qed.

(** C113. What is written for a date-time is always defined and gives the same date-time when read. *)
Theorem date_time_round_trip : forall s t, create s = Some t -> exists x, get_xsd_date_time t = Ok x /\ create x = Some t.
Proof.
  intros s t H. apply date_time_accepts in H as (y & mo & d & h & mi & sec & rest & D & ->). apply text_range in D.
  exists (written y mo d h mi sec). split; [now apply xsd_written|]. apply date_time_accepts. exists y, mo, d, h, mi, sec, []. split; [now apply written_text|reflexivity].
Qed.
Print Assumptions date_time_round_trip.
Theorem date_time_parts_defined : forall s t, create s = Some t -> exists d h, get_xsd_date t = Ok d /\ get_xsd_time t = Ok h /\ get_xsd_date_time t = Ok (d ++ S_ "T" ++ h ++ S_ "Z") /\ length h = 8%nat.
Proof.
  intros s t H. apply date_time_round_trip in H as (x & H & _). unfold get_xsd_date_time in H. destruct (get_xsd_date t) as [d| | |] eqn:E1; cbn [bind] in H; try discriminate.
  destruct (get_xsd_time t) as [h| | |] eqn:E2; cbn [bind] in H; try discriminate. exists d, h. unfold get_xsd_date_time. rewrite E1, E2. repeat split.
  unfold get_xsd_time, do_strftime in E2. destruct (_ <? 9)%nat; [|discriminate]. now injection E2 as <-.
Qed.
Print Assumptions date_time_parts_defined.

Lemma numeral_split ds : forall acc, numeral acc ds = acc * 10 ^ Z.of_nat (length ds) + numeral 0 ds.
Proof.
  induction ds as [|d ds IH]; intros acc; [cbn; lia|]. cbn [numeral length]. rewrite (IH (10 * acc + _)), (IH (10 * 0 + _)). rewrite Nat2Z.inj_succ, Z.pow_succ_r by lia. ring.
Qed.
Lemma numeral_bound ds : forallb isdigit ds = true -> 0 <= numeral 0 ds < 10 ^ Z.of_nat (length ds).
Proof.
  induction ds as [|d ds IH]; intros H; [cbn; lia|]. cbn in H. apply andb_true_iff in H as [H1 H2]. specialize (IH H2). apply dval_range in H1. unfold dval, code in H1.
  cbn [numeral length]. rewrite numeral_split, Nat2Z.inj_succ, Z.pow_succ_r by lia. nia.
Qed.
Lemma numeral_inj ds : forall ds', length ds = length ds' -> forallb isdigit ds = true -> forallb isdigit ds' = true -> numeral 0 ds = numeral 0 ds' -> ds = ds'.
Proof.
  induction ds as [|d ds IH]; intros [|d' ds'] L D D' H; try discriminate; [reflexivity|]. cbn in L. injection L as L. cbn in D, D'. apply andb_true_iff in D as [D1 D2]. apply andb_true_iff in D' as [D1' D2'].
  cbn [numeral] in H. rewrite (numeral_split ds), (numeral_split ds'), L in H. pose proof (numeral_bound ds D2) as B. pose proof (numeral_bound ds' D2') as B'. rewrite L in B.
  apply dval_range in D1. apply dval_range in D1'. unfold dval, code in D1, D1'.
  assert (E : Z.of_N (N_of_ascii d) = Z.of_N (N_of_ascii d')) by nia. apply N2Z.inj in E. assert (d = d') as -> by (rewrite <- (ascii_N_embedding d), <- (ascii_N_embedding d'); congruence).
  f_equal. apply IH; auto. lia.
Qed.
Lemma field_inj k lo hi ds v k' lo' hi' ds' : field k lo hi ds v -> field k' lo' hi' ds' v -> length ds = length ds' -> ds = ds'.
Proof. intros (_ & D & N & _) (_ & D' & N' & _) L. apply all_digits in D. apply all_digits in D'. apply numeral_inj; auto. congruence. Qed.
(** C113. A text in the form YYYY-MM-DDThh:mm:ssZ (all digits there, the year from 1000 on) is written exactly as it was read. *)
Theorem date_time_canonical : forall ty tmo td th tmi ts y mo d h mi sec, 1000 <= y ->
  length ty = 4%nat -> length tmo = 2%nat -> length td = 2%nat -> length th = 2%nat -> length tmi = 2%nat -> length ts = 2%nat ->
  field 4 0 9999 ty y -> field 2 1 12 tmo mo -> field 2 1 31 td d -> field 2 0 23 th h -> field 2 0 59 tmi mi -> field 2 0 61 ts sec ->
  let s := ty ++ S_ "-" ++ tmo ++ S_ "-" ++ td ++ S_ "T" ++ th ++ S_ ":" ++ tmi ++ S_ ":" ++ ts ++ S_ "Z" in
  exists t, create s = Some t /\ get_xsd_date_time t = Ok s /\ t = fields y mo d h mi sec.
Proof.
  intros ty tmo td th tmi ts y mo d h mi sec Hy L1 L2 L3 L4 L5 L6 F1 F2 F3 F4 F5 F6 s. exists (fields y mo d h mi sec).
  assert (D : date_text s y mo d h mi sec []). { exists ty, tmo, td, th, tmi, ts. split; [reflexivity|]. auto 10. }
  split; [apply date_time_accepts; exists y, mo, d, h, mi, sec, []; auto|]. pose proof (text_range _ _ _ _ _ _ _ _ D) as R. split; [|reflexivity]. rewrite (xsd_written _ _ _ _ _ _ R).
  destruct (written_text _ _ _ _ _ _ R) as (_ & _). destruct R as (R1 & R2 & R3 & R4 & R5 & R6). f_equal. unfold written, s.
  rewrite (field_inj _ _ _ _ _ _ _ _ _ F1 (show_field y R1)) by (rewrite show_four by lia; exact L1).
  rewrite (field_inj _ _ _ _ _ _ _ _ _ F2 (two_field 0 99 mo ltac:(lia) ltac:(lia)) L2), (field_inj _ _ _ _ _ _ _ _ _ F3 (two_field 0 99 d ltac:(lia) ltac:(lia)) L3),
    (field_inj _ _ _ _ _ _ _ _ _ F4 (two_field 0 99 h ltac:(lia) ltac:(lia)) L4), (field_inj _ _ _ _ _ _ _ _ _ F5 (two_field 0 99 mi ltac:(lia) ltac:(lia)) L5),
    (field_inj _ _ _ _ _ _ _ _ _ F6 (two_field 0 99 sec ltac:(lia) ltac:(lia)) L6). reflexivity.
Qed.
Print Assumptions date_time_canonical.

(** C113. The seconds of a text from 1970 on are those of the calendar (C12). *)
Theorem date_text_seconds : forall s y mo d h mi sec rest, date_text s y mo d h mi sec rest -> 1970 <= y -> to_time_t s = Ok (unix_seconds y (Z.to_nat (mo - 1)) d h mi sec).
Proof.
  intros s y mo d h mi sec rest D Hy. unfold to_time_t. assert (create s = Some (fields y mo d h mi sec)) as -> by (apply date_time_accepts; exists y, mo, d, h, mi, sec, rest; auto).
  destruct (text_range _ _ _ _ _ _ _ _ D) as (_ & R & _). pose proof (time_t_spec y (Z.to_nat (mo - 1)) d h mi sec Hy ltac:(lia)) as E. rewrite Z2Nat.id in E by lia. exact E.
Qed.
Print Assumptions date_text_seconds.
Theorem no_date_no_seconds : forall s, (forall y mo d h mi sec rest, ~ date_text s y mo d h mi sec rest) -> create s = None /\ to_time_t s = Ok 0.
Proof.
  intros s H. assert (E : create s = None). { destruct (create s) as [t|] eqn:E; [|reflexivity]. apply date_time_accepts in E as (y & mo & d & h & mi & sec & rest & D & _). now destruct (H y mo d h mi sec rest). }
  split; [exact E|]. unfold to_time_t. now rewrite E.
Qed.
Print Assumptions no_date_no_seconds.
Example date_text_sample : date_text (S_ "2008-10-03T09:25:42Z") 2008 10 3 9 25 42 [] /\ to_time_t (S_ "2008-10-03T09:25:42Z") = Ok 1223025942 /\
  (do t <- match create (S_ "2008-10-03T09:25:42Z") with Some t => Ok t | None => UB end; get_xsd_date_time t) = Ok (S_ "2008-10-03T09:25:42Z").
Proof.
  split; [|split; vm_compute; reflexivity]. exists (S_ "2008"), (S_ "10"), (S_ "03"), (S_ "09"), (S_ "25"), (S_ "42"). split; [reflexivity|].
  split; [|split; [|split; [|split; [|split]]]]; (split; [cbn; lia|split; [apply (proj1 (all_digits _)); reflexivity|split; [reflexivity|lia]]]).
Qed.
(** C113. Not every text that is accepted is a date-time: what comes after the Z is ignored, and every month has 31 days. *)
Theorem date_time_trailing_refuted : exists t, create (S_ "2008-10-03T09:25:42Z and so on") = Some t /\ create (S_ "2008-10-03T09:25:42Z") = Some t.
Proof. eexists. split; vm_compute; reflexivity. Qed.
Print Assumptions date_time_trailing_refuted.
Theorem date_time_february_refuted : exists t t', create (S_ "2008-02-31T00:00:00Z") = Some t /\ create (S_ "2008-03-02T00:00:00Z") = Some t' /\ t <> t' /\ get_time_t t = get_time_t t' /\
  get_xsd_date t = Ok (S_ "2008-02-31").
Proof. eexists. eexists. split; [vm_compute; reflexivity|]. split; [vm_compute; reflexivity|]. split; [discriminate|]. split; vm_compute; reflexivity. Qed.
Print Assumptions date_time_february_refuted.
(** C113. Not every xsd:dateTime is accepted: fractions of a second, time zones and dates alone are refused, and their seconds are those of 1970. *)
Theorem date_time_xsd_refuted : forall s, In s (map list_ascii_of_string ["2007-01-14T22:57:31.000Z"; "2007-01-14T22:57:31+01:00"; "2007-01-14T22:57:31"; "2007-01-14"; "2007"]%string) ->
  create s = None /\ to_time_t s = to_time_t (S_ "1970-01-01T00:00:00Z").
Proof. intros s H. repeat (destruct H as [<-|H]; [split; vm_compute; reflexivity|]). destruct H. Qed.
Print Assumptions date_time_xsd_refuted.
(** C113. A year before 1000 is written with fewer than four digits, which xsd:dateTime does not allow. *)
Theorem date_time_early_refuted : exists t, create (S_ "0987-06-05T00:00:00Z") = Some t /\ get_xsd_date t = Ok (S_ "987-06-05").
Proof. eexists. split; vm_compute; reflexivity. Qed.
Print Assumptions date_time_early_refuted.
(** C113. Before anything is read into it a DateTime has the fields of its compiled-in text. *)
Theorem date_time_initial : new_date_time = fields 1991 11 14 12 33 45.
Proof. vm_compute. reflexivity. Qed.
Print Assumptions date_time_initial.
(** The name of a month, long or short and in any mixture of capitals, is that month. *)
Lemma prefix_self (n s r : str) : map tolower s = n -> prefixb n (map tolower (s ++ r)) = true.
Proof. intros <-. rewrite map_app. apply prefixb_app. Qed.
Lemma find_name_at (pre post : list str) n s r i : map tolower s = n -> forallb (fun m => negb (prefixb m n || prefixb n m)) pre = true ->
  find_name (s ++ r) (pre ++ n :: post) i = Some (i + Z.of_nat (length pre), r).
Proof.
  intros Hs. revert i. induction pre as [|m pre IH]; intros i H.
  - cbn [app find_name length]. rewrite (prefix_self n s r Hs). rewrite <- Hs, map_length, skipn_app, skipn_all, Nat.sub_diag. cbn [app skipn]. do 2 f_equal. lia.
  - cbn [app find_name forallb] in *. apply andb_true_iff in H as [Hm H]. apply negb_true_iff, orb_false_iff in Hm as [M1 M2].
    assert (P : prefixb m (map tolower (s ++ r)) = false).
    { apply not_true_is_false. intros C. apply prefixb_spec in C as (u & C). rewrite map_app, Hs in C.
      assert (D : prefixb m n = true \/ prefixb n m = true).
      { clear - C. revert n C. induction m as [|x m IH]; intros n C; [left; destruct n; reflexivity|]. destruct n as [|y n]; [right; reflexivity|]. cbn [app] in C. injection C as -> C. cbn [prefixb]. rewrite aeq_refl. cbn [andb]. exact (IH n C). }
      destruct D; congruence. }
    rewrite P. rewrite (IH (i + 1) H). do 2 f_equal. cbn [length]. lia.
Qed.
Theorem month_name_read : forall i n s r, nth_error months i = Some n -> map tolower s = n -> find_month (s ++ r) = Some (Z.of_nat i, r).
Proof.
  intros i n s r Hn Hs. unfold find_month.
  assert (T : forallb (fun i => forallb (fun m => negb (prefixb m (nth i months []) || prefixb (nth i months []) m)) (firstn i months)) (seq 0 12) = true) by (vm_compute; reflexivity).
  assert (Hi : (i < 12)%nat) by (apply (proj1 (nth_error_Some months i)); rewrite Hn; discriminate).
  rewrite forallb_forall in T. specialize (T i (proj2 (in_seq 12 0 i) (conj (Nat.le_0_l i) Hi))). rewrite (nth_error_nth months i [] Hn) in T.
  destruct (nth_error_split months i Hn) as (pre & post & E & L). rewrite E in T. rewrite firstn_app, L, Nat.sub_diag, <- L, firstn_all in T. cbn [firstn] in T. rewrite app_nil_r in T.
  assert (G : find_name (s ++ r) months 0 = Some (Z.of_nat i, r)); [|now rewrite G].
  rewrite E. etransitivity; [exact (find_name_at pre post n s r 0 Hs T)|]. rewrite L. reflexivity.
Qed.
Print Assumptions month_name_read.
(** C113. So is what its first three letters stand for, unless the whole name follows. *)
Theorem month_short_read : forall i n s r, nth_error months i = Some n -> map tolower s = firstn 3 n -> prefixb n (map tolower (s ++ r)) = false -> find_month (s ++ r) = Some (Z.of_nat i, r).
Proof.
  intros i n s r Hn Hs Hno. unfold find_month.
  assert (Hi : (i < 12)%nat) by (apply (proj1 (nth_error_Some months i)); rewrite Hn; discriminate).
  assert (A : find_name (s ++ r) months 0 = None).
  { assert (G : forall l j, (forall m, In m l -> prefixb m (map tolower (s ++ r)) = false) -> find_name (s ++ r) l j = None).
    { induction l as [|m l IH]; intros j Hl; [reflexivity|]. cbn [find_name]. rewrite (Hl m (or_introl eq_refl)). apply IH. intros x Hx. apply Hl. now right. }
    apply G. intros m Hm. apply not_true_is_false. intros C.
    assert (T : forallb (fun i => forallb (fun m => eqs m (nth i months []) || negb (eqs (firstn 3 m) (firstn 3 (nth i months [])))) months && (2 <? Z.of_nat (length (nth i months [])))) (seq 0 12) = true) by (vm_compute; reflexivity).
    rewrite forallb_forall in T. pose proof (T i (proj2 (in_seq 12 0 i) (conj (Nat.le_0_l i) Hi))) as Ti. rewrite (nth_error_nth months i [] Hn) in Ti. apply andb_prop in Ti as [Ti Li]. rewrite forallb_forall in Ti. specialize (Ti m Hm).
    apply orb_prop in Ti as [Ti|Ti]; [apply eqs_spec in Ti; subst m; congruence|]. apply negb_true_iff in Ti.
    assert (Lm : (3 <= length m)%nat).
    { destruct (In_nth_error _ _ Hm) as [j Hj]. assert (Lj : (j < 12)%nat) by (apply (proj1 (nth_error_Some months j)); rewrite Hj; discriminate).
      pose proof (T j (proj2 (in_seq 12 0 j) (conj (Nat.le_0_l j) Lj))) as Tj. rewrite (nth_error_nth months j [] Hj) in Tj. apply andb_prop in Tj as [_ Tj]. apply Z.ltb_lt in Tj. lia. }
    apply Z.ltb_lt in Li. apply prefixb_spec in C as (u & C). rewrite map_app, Hs in C. apply (f_equal (firstn 3)) in C.
    rewrite !firstn_app, firstn_firstn, firstn_length_le in C by lia. rewrite Nat.sub_diag in C. replace (3 - length m)%nat with 0%nat in C by lia. rewrite Nat.min_id, !firstn_O, !app_nil_r in C. rewrite C, eqs_refl in Ti. discriminate. }
  rewrite A.
  assert (T : forallb (fun i => eqs (nth i short_months []) (firstn 3 (nth i months [])) && forallb (fun m => negb (prefixb m (nth i short_months []) || prefixb (nth i short_months []) m)) (firstn i short_months)) (seq 0 12) = true) by (vm_compute; reflexivity).
  rewrite forallb_forall in T. specialize (T i (proj2 (in_seq 12 0 i) (conj (Nat.le_0_l i) Hi))). rewrite (nth_error_nth months i [] Hn) in T. apply andb_prop in T as [T1 T]. apply eqs_spec in T1.
  destruct (nth_error short_months i) as [k|] eqn:Hk; [|apply nth_error_None in Hk; change (length short_months) with 12%nat in Hk; lia]. rewrite (nth_error_nth short_months i [] Hk) in T1, T.
  destruct (nth_error_split short_months i Hk) as (pre & post & E & L). rewrite E in T. rewrite firstn_app, L, Nat.sub_diag, <- L, firstn_all in T. cbn [firstn] in T. rewrite app_nil_r in T.
  rewrite E. etransitivity; [apply (find_name_at pre post k s r 0); [congruence|exact T]|]. rewrite L. reflexivity.
Qed.
Print Assumptions month_short_read.
Example month_short_sample : find_month (S_ "Dec 31") = Some (11, S_ " 31") /\ find_month (S_ "DECEMBER 31") = Some (11, S_ " 31") /\ find_month (S_ "May 1") = Some (4, S_ " 1").
Proof. repeat split; vm_compute; reflexivity. Qed.

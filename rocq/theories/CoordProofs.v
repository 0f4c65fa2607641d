(** Proofs about the coordinates text parsers. *)
From Verif Require Import Common StrMap StringsModel StringsProofs XmlSpec XmlSpecProofs SerializerModel SerializerProofs HandlerSpec CoordModel.

(** * Specification of coordinates texts *)
(** A number as users write it: optional minus sign, digits and the other number characters. *)
Definition number (n : str) : bool :=
  match n with c :: _ => starts c | [] => false end && is_decimal_double_string n && forallb numchar n.
Definition blank (c : ascii) : bool := aeq c " "%char || aeq c "009"%char || aeq c "010"%char || aeq c "013"%char.
Definition blank_nolf (c : ascii) : bool := blank c && negb (aeq c "010"%char).
Definition blank_nosp (c : ascii) : bool := blank c && negb (aeq c " "%char).

(** One written tuple: lon w1 , w2 lat [ w3 , w4 alt ]. *)
Record tuple := { lon : str; w1 : str; w2 : str; lat : str; alt : option (str * str * str) }.
Definition tuple_text (t : tuple) : str :=
  lon t ++ w1 t ++ S_ "," ++ w2 t ++ lat t ++
  match alt t with None => [] | Some (w3, w4, a) => w3 ++ S_ "," ++ w4 ++ a end.
Definition tuple_vec (t : tuple) : vec3 :=
  {| v_lon := lon t; v_lat := Some (lat t);
     v_alt := match alt t with None => None | Some (_, _, a) => Some a end |}.
(** Numbers are numbers; no line feed next to the first comma; no space before the second comma. *)
Definition tuple_ok (t : tuple) : bool :=
  number (lon t) && number (lat t) && forallb blank_nolf (w1 t) && forallb blank_nolf (w2 t) &&
  match alt t with None => true | Some (w3, w4, a) => forallb blank_nosp w3 && forallb blank w4 && number a end.
(** Tuples with the white space that follows each; every separator but the last contains a space,
    and a tuple with its separator has at most 1023 characters. *)
Fixpoint tuples_ok (l : list (tuple * str)) : bool :=
  match l with
  | [] => true
  | (t, sep) :: l' =>
      tuple_ok t && forallb blank sep && fits (tuple_text t ++ sep) &&
      match l' with [] => true | _ => existsb (fun c => aeq c " "%char) sep end && tuples_ok l'
  end.
Definition tuples_text (l : list (tuple * str)) : str := flat_map (fun p => tuple_text (fst p) ++ snd p) l.

(** * Characters *)

Lemma numchar_lon c : numchar c = true -> lon_char c = true.
Proof. destruct c as [[] [] [] [] [] [] [] []]; vm_compute; congruence. Qed.
Lemma numchar_tok c : numchar c = true -> tok_char c = true.
Proof. destruct c as [[] [] [] [] [] [] [] []]; vm_compute; congruence. Qed.
Lemma blank_not_num c : blank c = true -> numchar c = false.
Proof. destruct c as [[] [] [] [] [] [] [] []]; vm_compute; congruence. Qed.
Lemma blank_skips c : blank c = true -> negb (is_nul c) && negb (starts c) = true.
Proof. destruct c as [[] [] [] [] [] [] [] []]; vm_compute; congruence. Qed.
Lemma nolf_skips c : blank_nolf c = true -> negb (is_nul c) && negb (aeq c "010"%char) && negb (starts c) = true.
Proof. destruct c as [[] [] [] [] [] [] [] []]; vm_compute; congruence. Qed.
Lemma nosp_tok c : blank_nosp c = true -> tok_char c = true.
Proof. destruct c as [[] [] [] [] [] [] [] []]; vm_compute; congruence. Qed.
Lemma nolf_blank c : blank_nolf c = true -> blank c = true.
Proof. unfold blank_nolf. intros H. apply andb_true_iff in H. tauto. Qed.
Lemma nosp_blank c : blank_nosp c = true -> blank c = true.
Proof. unfold blank_nosp. intros H. apply andb_true_iff in H. tauto. Qed.
Lemma starts_stop c : starts c = true -> negb (is_nul c) && negb (starts c) = false.
Proof. intros H. rewrite H. apply andb_false_r. Qed.
Lemma starts_stop_lat c : starts c = true -> negb (is_nul c) && negb (aeq c "010"%char) && negb (starts c) = false.
Proof. intros H. rewrite H. apply andb_false_r. Qed.

Lemma forallb_imp {A} (f g : A -> bool) l : (forall x, f x = true -> g x = true) -> forallb f l = true -> forallb g l = true.
Proof. intros H. rewrite !forallb_forall. auto. Qed.

(** A text at which scanning with [f] stops. *)
Definition stops (f : ascii -> bool) (r : str) : Prop := match r with [] => True | c :: _ => f c = false end.
Lemma take_app f u r : forallb f u = true -> stops f r -> take_while f (u ++ r) = u.
Proof.
  intros Hu Hr. induction u as [|x u IH]; simpl in *.
  - destruct r as [|c r]; simpl in *; auto. now rewrite Hr.
  - apply andb_true_iff in Hu as [-> Hu]. now rewrite IH.
Qed.
Lemma drop_app f u r : forallb f u = true -> stops f r -> drop_while f (u ++ r) = r.
Proof.
  intros Hu Hr. induction u as [|x u IH]; simpl in *.
  - destruct r as [|c r]; simpl in *; auto. now rewrite Hr.
  - apply andb_true_iff in Hu as [-> Hu]. auto.
Qed.

Lemma number_inv n : number n = true -> exists c t, n = c :: t /\ starts c = true /\
  is_decimal_double_string n = true /\ forallb numchar n = true.
Proof.
  unfold number. destruct n as [|c t]; [discriminate|]. rewrite !andb_true_iff. intros [[H1 H2] H3]. now exists c, t.
Qed.
Lemma decimal_app n u : is_decimal_double_string n = true -> is_decimal_double_string (n ++ u) = true.
Proof.
  intros H. apply decimal_spec in H as (sg & dot & d & t & H1 & H2 & H3 & ->). apply decimal_spec.
  exists sg, dot, d, (t ++ u). rewrite <- !app_assoc. auto.
Qed.
Lemma double_of n u : number n = true -> stops numchar u -> string_to_double (n ++ u) = Some n.
Proof.
  intros Hn Hu. apply number_inv in Hn as (c & t & -> & Hs & Hd & Hc). unfold string_to_double.
  rewrite (decimal_app _ _ Hd). f_equal. now apply take_app.
Qed.
Lemma skip_to u n r : forallb (fun c => negb (is_nul c) && negb (starts c)) u = true ->
  number n = true -> skip (u ++ n ++ r) = n ++ r.
Proof.
  intros Hu Hn. apply number_inv in Hn as (c & t & -> & Hs & _). unfold skip. apply drop_app; auto.
  simpl. now apply starts_stop.
Qed.
Lemma skip_lat_to u n r : forallb (fun c => negb (is_nul c) && negb (aeq c "010"%char) && negb (starts c)) u = true ->
  number n = true -> skip_lat (u ++ n ++ r) = n ++ r.
Proof.
  intros Hu Hn. apply number_inv in Hn as (c & t & -> & Hs & _). unfold skip_lat. apply drop_app; auto.
  simpl. now apply starts_stop_lat.
Qed.
Lemma skip_rest u r : forallb (fun c => negb (is_nul c) && negb (starts c)) u = true ->
  match r with [] => True | c :: _ => starts c = true end -> skip (u ++ r) = r.
Proof.
  intros Hu Hr. unfold skip. apply drop_app; auto. destruct r; simpl; auto. now apply starts_stop.
Qed.
Lemma number_nonempty n u {A} (x y : A) : number n = true -> match n ++ u with [] => x | _ :: _ => y end = y.
Proof. intros Hn. apply number_inv in Hn as (c & t & -> & _). reflexivity. Qed.
Lemma fits_le a b : fits b = true -> length a <= length b -> fits a = true.
Proof. unfold fits. lia. Qed.

(** * One tuple *)
Lemma blanks_skip u : forallb blank u = true -> forallb (fun c => negb (is_nul c) && negb (starts c)) u = true.
Proof. apply forallb_imp. apply blank_skips. Qed.
Lemma nolf_skip u : forallb blank_nolf u = true ->
  forallb (fun c => negb (is_nul c) && negb (aeq c "010"%char) && negb (starts c)) u = true.
Proof. apply forallb_imp. apply nolf_skips. Qed.
Lemma num_lon n : forallb numchar n = true -> forallb lon_char n = true.
Proof. apply forallb_imp. apply numchar_lon. Qed.
Lemma num_tok n : forallb numchar n = true -> forallb tok_char n = true.
Proof. apply forallb_imp. apply numchar_tok. Qed.
Lemma number_chars n : number n = true -> forallb numchar n = true.
Proof. intros H. apply number_inv in H as (c & t & -> & _ & _ & H). exact H. Qed.

(** The longitude token may carry white space other than space and line feed up to the comma. *)
Lemma split_run {P : ascii -> bool} f w : (forall c, P c = true -> f c = true \/ True) -> forallb P w = true ->
  forallb P (take_while f w) = true /\ forallb P (drop_while f w) = true /\ stops f (drop_while f w).
Proof.
  intros _ Hw. rewrite <- (take_drop_while f w) in Hw at 1. rewrite forallb_app in Hw. apply andb_true_iff in Hw as [H1 H2].
  repeat split; auto. destruct (drop_while f w) eqn:E; simpl; auto. eapply drop_while_head; eauto.
Qed.
Lemma blank_num_stop w r : forallb blank w = true -> stops numchar r -> stops numchar (w ++ r).
Proof.
  intros Hw Hr. destruct w as [|c w]; simpl in *; auto. apply andb_true_iff in Hw as [H _]. now apply blank_not_num.
Qed.

(** Generic steps of the parser. *)
Lemma vec3_lon lead n w r : forallb blank lead = true -> number n = true -> forallb blank_nolf w = true ->
  exists w', skip_lat (drop_while lon_char (n ++ w ++ ","%char :: r)) = skip_lat r /\
    skip (lead ++ n ++ w ++ ","%char :: r) = n ++ w ++ ","%char :: r /\
    take_while lon_char (n ++ w ++ ","%char :: r) = n ++ w' /\ stops numchar w' /\ length w' <= length w.
Proof.
  intros Hl Hn Hw. exists (take_while lon_char w).
  pose proof (@split_run blank_nolf lon_char w (fun _ _ => or_intror I) Hw) as (Ha & Hb & Hc).
  assert (Hsplit : n ++ w ++ ","%char :: r = (n ++ take_while lon_char w) ++ drop_while lon_char w ++ ","%char :: r).
  { rewrite <- (take_drop_while lon_char w) at 1. now rewrite <- !app_assoc. }
  assert (Hrun : forallb lon_char (n ++ take_while lon_char w) = true).
  { rewrite forallb_app, num_lon, take_while_all; auto using number_chars. }
  assert (Hst : stops lon_char (drop_while lon_char w ++ ","%char :: r)).
  { destruct (drop_while lon_char w) as [|c t]; simpl in *; [reflexivity|]. now inversion Hc. }
  repeat split.
  - rewrite Hsplit, drop_app by auto. unfold skip_lat.
    rewrite <- (take_drop_while lon_char w) in Hw. rewrite forallb_app in Hw. apply andb_true_iff in Hw as [_ Hw].
    apply nolf_skip in Hw. clear - Hw. induction (drop_while lon_char w) as [|c t IH]; simpl; auto.
    simpl in Hw. apply andb_true_iff in Hw as [-> Hw]. auto.
  - apply (skip_to lead n (w ++ ","%char :: r)); auto. now apply blanks_skip.
  - rewrite Hsplit. now apply take_app.
  - destruct (take_while lon_char w) as [|c t] eqn:E; simpl; auto. simpl in Ha. apply andb_true_iff in Ha as [H _].
    apply blank_not_num. now apply nolf_blank.
  - rewrite <- (take_drop_while lon_char w) at 2. rewrite app_length. lia.
Qed.

Lemma tok_no_space u : forallb tok_char u = true -> existsb (fun c => aeq c " "%char) u = false.
Proof.
  induction u as [|c t IH]; simpl; auto. intros H. apply andb_true_iff in H as [H1 H2].
  rewrite IH by auto. unfold tok_char in H1. rewrite !andb_true_iff, !negb_true_iff in H1. destruct H1 as [_ ->]. reflexivity.
Qed.
(** A number followed by separator white space [sep] and the rest. *)
Lemma tok_sep n sep rest : number n = true -> forallb blank sep = true ->
  (rest = [] \/ existsb (fun c => aeq c " "%char) sep = true) ->
  match rest with [] => True | c :: _ => starts c = true end ->
  exists w s, take_while tok_char (n ++ sep ++ rest) = n ++ w /\ stops numchar w /\ length w <= length sep /\
    drop_while tok_char (n ++ sep ++ rest) = s ++ rest /\ forallb blank s = true /\
    (at_space (s ++ rest) = true \/ (s = [] /\ rest = [])).
Proof.
  intros Hn Hs Hr Hrest. exists (take_while tok_char sep), (drop_while tok_char sep).
  pose proof (@split_run blank tok_char sep (fun _ _ => or_intror I) Hs) as (Ha & Hb & Hc).
  assert (Hsplit : n ++ sep ++ rest = (n ++ take_while tok_char sep) ++ drop_while tok_char sep ++ rest).
  { rewrite <- (take_drop_while tok_char sep) at 1. now rewrite <- !app_assoc. }
  assert (Hrun : forallb tok_char (n ++ take_while tok_char sep) = true).
  { rewrite forallb_app, num_tok, take_while_all; auto using number_chars. }
  assert (Hsp : drop_while tok_char sep = [] -> existsb (fun c => aeq c " "%char) sep = false).
  { intros E. rewrite <- (take_drop_while tok_char sep), E, app_nil_r. apply tok_no_space. apply take_while_all. }
  assert (Hst : stops tok_char (drop_while tok_char sep ++ rest)).
  { destruct (drop_while tok_char sep) as [|c t] eqn:E; simpl in *; [|now inversion Hc].
    destruct Hr as [-> | Hr]; simpl; auto. rewrite Hsp in Hr; auto. discriminate. }
  split; [rewrite Hsplit; now apply take_app|]. split.
  { destruct (take_while tok_char sep); simpl in *; auto. apply andb_true_iff in Ha as [H _]. now apply blank_not_num. }
  split; [rewrite <- (take_drop_while tok_char sep) at 2; rewrite app_length; lia|].
  split; [rewrite Hsplit; now apply drop_app|]. split; auto.
  destruct (drop_while tok_char sep) as [|c t] eqn:E.
  - right. split; auto. destruct Hr as [-> | Hr]; auto. rewrite Hsp in Hr; auto. discriminate.
  - left. simpl in *. apply andb_true_iff in Hb as [Hb _]. clear - Hb Hc.
    destruct c as [[] [] [] [] [] [] [] []]; vm_compute in *; congruence.
Qed.

Lemma vec3_exact lead t sep rest : forallb blank lead = true -> tuple_ok t = true -> forallb blank sep = true ->
  fits (tuple_text t ++ sep) = true ->
  (rest = [] \/ existsb (fun c => aeq c " "%char) sep = true) ->
  match rest with [] => True | c :: _ => starts c = true end ->
  parse_vec3 (lead ++ tuple_text t ++ sep ++ rest) = Ok (Some (tuple_vec t, rest)).
Proof.
  intros Hl Ht Hsep Hfit Hr Hrest. unfold tuple_ok in Ht. rewrite !andb_true_iff in Ht.
  destruct Ht as ((((Hlon & Hlat) & Hw1) & Hw2) & Halt). unfold tuple_text in *.
  set (q := w2 t ++ lat t ++ match alt t with None => [] | Some (w3, w4, a) => w3 ++ S_ "," ++ w4 ++ a end) in *.
  assert (Etext : lead ++ (lon t ++ w1 t ++ S_ "," ++ q) ++ sep ++ rest = lead ++ lon t ++ w1 t ++ ","%char :: q ++ sep ++ rest).
  { rewrite <- !app_assoc. reflexivity. }
  rewrite Etext. clear Etext.
  destruct (vec3_lon lead (lon t) (w1 t) (q ++ sep ++ rest) Hl Hlon Hw1) as (w' & E1 & E2 & E3 & Hw' & Hlen).
  unfold parse_vec3. rewrite E2, E3.
  assert (Hfl : fits (lon t ++ w') = true).
  { eapply fits_le; [exact Hfit|]. rewrite !app_length. lia. }
  rewrite Hfl. cbv beta iota zeta delta [negb]. rewrite number_nonempty by auto.
  rewrite (double_of _ _ Hlon Hw'). rewrite E1. unfold tuple_vec.
  unfold q in *. rewrite <- !app_assoc. rewrite skip_lat_to by (auto; now apply nolf_skip).
  destruct (alt t) as [[[w3 w4] a]|].
  - rewrite !andb_true_iff in Halt. destruct Halt as [[Hw3 Hw4] Ha].
    assert (Esp : lat t ++ (w3 ++ S_ "," ++ w4 ++ a) ++ sep ++ rest = (lat t ++ w3) ++ ","%char :: w4 ++ a ++ sep ++ rest).
    { rewrite <- !app_assoc. reflexivity. }
    rewrite Esp. clear Esp.
    assert (Hrun : forallb tok_char (lat t ++ w3) = true).
    { rewrite forallb_app, num_tok by auto using number_chars. simpl. revert Hw3. apply forallb_imp. apply nosp_tok. }
    rewrite take_app, drop_app by (auto; reflexivity).
    assert (Hf2 : fits (lat t ++ w3) = true).
    { eapply fits_le; [exact Hfit|]. rewrite !app_length. simpl. lia. }
    rewrite Hf2. change (at_space (","%char :: w4 ++ a ++ sep ++ rest)) with false. cbv beta iota zeta delta [negb].
    rewrite number_nonempty by auto.
    assert (Hst3 : stops numchar w3).
    { destruct w3 as [|c3 w3]; simpl in *; auto. apply andb_true_iff in Hw3 as [H3 _]. apply blank_not_num. now apply nosp_blank. }
    rewrite (double_of (lat t) w3 Hlat Hst3).
    change (skip (","%char :: w4 ++ a ++ sep ++ rest)) with (skip (w4 ++ a ++ sep ++ rest)).
    rewrite skip_to by (auto; now apply blanks_skip).
    destruct (tok_sep a sep rest Ha Hsep Hr Hrest) as (w & s & E4 & Hw & Hlw & E5 & Hs & Hat).
    rewrite E4, E5.
    assert (Hf3 : fits (a ++ w) = true).
    { eapply fits_le; [exact Hfit|]. rewrite !app_length. simpl. lia. }
    rewrite Hf3. rewrite number_nonempty by auto. rewrite (double_of _ _ Ha Hw).
    rewrite skip_rest by (auto; now apply blanks_skip). reflexivity.
  - rewrite app_nil_l.
    destruct (tok_sep (lat t) sep rest Hlat Hsep Hr Hrest) as (w & s & E4 & Hw & Hlw & E5 & Hs & Hat).
    rewrite E4, E5.
    assert (Hf3 : fits (lat t ++ w) = true).
    { eapply fits_le; [exact Hfit|]. rewrite !app_length. lia. }
    rewrite Hf3. cbv beta iota zeta delta [negb]. rewrite number_nonempty by auto. rewrite (double_of _ _ Hlat Hw).
    rewrite skip_rest by (auto; now apply blanks_skip).
    destruct Hat as [-> | [-> ->]].
    + assert (Hsk : skip rest = rest) by (apply (skip_rest [] rest); auto). now rewrite Hsk.
    + reflexivity.
Qed.

(** * Whole texts *)
Lemma starts_tuple t r : tuple_ok t = true -> match tuple_text t ++ r with [] => True | c :: _ => starts c = true end.
Proof.
  unfold tuple_ok. rewrite !andb_true_iff. intros ((((H & _) & _) & _) & _).
  apply number_inv in H as (c & u & E & Hs & _). unfold tuple_text. rewrite E. simpl. exact Hs.
Qed.
Lemma tuples_start l : tuples_ok l = true -> match tuples_text l with [] => True | c :: _ => starts c = true end.
Proof.
  destruct l as [|[t sep] l]; simpl; auto. rewrite !andb_true_iff. intros ((((H & _) & _) & _) & _).
  rewrite <- app_assoc. now apply starts_tuple.
Qed.
Lemma tuple_nonempty t r : tuple_ok t = true -> tuple_text t ++ r <> [].
Proof.
  unfold tuple_ok. rewrite !andb_true_iff. intros ((((H & _) & _) & _) & _).
  apply number_inv in H as (c & u & E & _). unfold tuple_text. rewrite E. discriminate.
Qed.
Lemma tuples_nonempty l : tuples_ok l = true -> tuples_text l = [] -> l = [].
Proof.
  destruct l as [|[t sep] l]; auto. simpl. rewrite !andb_true_iff. intros ((((H & _) & _) & _) & _).
  rewrite <- app_assoc. intros E. now apply tuple_nonempty in E.
Qed.

Lemma loop_exact l : forall lead fuel, forallb blank lead = true -> tuples_ok l = true -> l <> [] -> length l <= fuel ->
  parse_loop fuel (lead ++ tuples_text l) = Ok (map (fun p => tuple_vec (fst p)) l).
Proof.
  induction l as [|[t sep] l IH]; intros lead fuel Hl Hok Hne Hf; [congruence|].
  simpl in Hok. rewrite !andb_true_iff in Hok. destruct Hok as ((((Ht & Hsep) & Hfit) & Hsp) & Hok).
  cbn [tuples_text flat_map fst snd]. change (flat_map (fun p => tuple_text (fst p) ++ snd p) l) with (tuples_text l).
  rewrite <- app_assoc. destruct fuel as [|f]; [simpl in Hf; lia|].
  assert (Hnb : lead ++ tuple_text t ++ sep ++ tuples_text l <> []).
  { intros E. apply app_eq_nil in E as [_ E]. now apply tuple_nonempty in E. }
  cbn [parse_loop]. destruct (lead ++ tuple_text t ++ sep ++ tuples_text l) as [|c0 r0] eqn:E0; [congruence|].
  rewrite <- E0. rewrite vec3_exact; auto.
  - cbn [bind]. destruct l as [|p l'].
    + simpl. destruct f; reflexivity.
    + change (tuples_text (p :: l')) with ([] ++ tuples_text (p :: l')). rewrite (IH [] f); auto; [discriminate|cbn [length] in *; lia].
  - destruct l as [|p l']; [left; reflexivity|right; exact Hsp].
  - now apply tuples_start.
Qed.
Lemma coordinates_exact lead l : forallb blank lead = true -> tuples_ok l = true -> l <> [] ->
  coordinates_parse (lead ++ tuples_text l) = Ok (map (fun p => tuple_vec (fst p)) l).
Proof.
  intros Hl Hok Hne. unfold coordinates_parse. apply loop_exact; auto.
  rewrite app_length. enough (length l <= length (tuples_text l)) by lia.
  clear Hne. induction l as [|[t sep] l IH]; [simpl; lia|]. simpl in Hok. rewrite !andb_true_iff in Hok.
  destruct Hok as ((((Ht & _) & _) & _) & Hok). cbn [tuples_text flat_map fst snd length]. rewrite !app_length.
  specialize (IH Hok). change (flat_map (fun p => tuple_text (fst p) ++ snd p) l) with (tuples_text l).
  assert (length (tuple_text t) <> 0); [|lia]. intros E. apply length_zero_iff_nil in E.
  now apply (tuple_nonempty t []) in Ht; rewrite app_nil_r in Ht.
Qed.

(** * Termination *)
Lemma vec3_progress s v r : ~ In nul s -> parse_vec3 s = Ok (Some (v, r)) -> length r < length s /\ ~ In nul r.
Proof.
  intros Hn. unfold parse_vec3.
  assert (Hsk : forall f u, length (drop_while f u) <= length u /\ (~ In nul u -> ~ In nul (drop_while f u))).
  { intros f u. split; [apply drop_while_length|]. intros H K. apply H. rewrite <- (take_drop_while f u). apply in_or_app. now right. }
  set (s0 := skip s). destruct (Hsk (fun c => negb (is_nul c) && negb (starts c)) s) as [L0 N0]. fold (skip s) in L0, N0. fold s0 in L0, N0.
  destruct (take_while lon_char s0) as [|c t] eqn:El; [destruct (negb (fits [])); discriminate|].
  assert (L1 : length (drop_while lon_char s0) < length s0).
  { rewrite <- (take_drop_while lon_char s0) at 2. rewrite El, app_length. simpl. lia. }
  destruct (Hsk lon_char s0) as [_ N1].
  set (s1 := drop_while lon_char s0) in *.
  destruct (negb (fits (c :: t))); [discriminate|]. destruct (string_to_double (c :: t)) as [lonv|]; [|discriminate].
  set (s2 := skip_lat s1). assert (L2 : length s2 <= length s1 /\ (~ In nul s1 -> ~ In nul s2)) by apply Hsk.
  destruct (negb (fits (take_while tok_char s2))); [discriminate|].
  set (s3 := drop_while tok_char s2). assert (L3 : length s3 <= length s2 /\ (~ In nul s2 -> ~ In nul s3)) by apply Hsk.
  set (s4 := skip s3). assert (L4 : length s4 <= length s3 /\ (~ In nul s3 -> ~ In nul s4)) by apply Hsk.
  set (s5 := drop_while tok_char s4). assert (L5 : length s5 <= length s4 /\ (~ In nul s4 -> ~ In nul s5)) by apply Hsk.
  assert (L6 : length (skip s5) <= length s5 /\ (~ In nul s5 -> ~ In nul (skip s5))) by apply Hsk.
  assert (L7 : length (skip s4) <= length s4 /\ (~ In nul s4 -> ~ In nul (skip s4))) by apply Hsk.
  destruct (at_space s3).
  - intros H. inversion H; subst. split; [lia|tauto].
  - destruct (negb (fits (take_while tok_char s4))); [discriminate|].
    destruct (take_while tok_char s4) as [|c4 t4].
    + intros H. inversion H; subst. split; [lia|tauto].
    + destruct (string_to_double (c4 :: t4)); [|discriminate]. intros H. inversion H; subst. split; [lia|tauto].
Qed.
Lemma vec3_some s : existsb starts s = true -> ~ In nul s -> parse_vec3 s <> Ok None.
Proof.
  intros He Hn. unfold parse_vec3.
  assert (exists c t, skip s = c :: t /\ starts c = true) as (c & t & Es & Hc).
  { clear - He Hn. induction s as [|x s IH]; [discriminate|]. unfold skip. simpl.
    assert (is_nul x = false) as -> by (apply aeq_neq; intros ->; apply Hn; now left).
    simpl. destruct (starts x) eqn:E; simpl; [eauto|]. apply IH; [simpl in He; now rewrite E in He|].
    intros H. apply Hn. now right. }
  rewrite Es.
  assert (Hl : take_while lon_char (c :: t) = c :: take_while lon_char t).
  { simpl. replace (lon_char c) with true; auto. symmetry. clear - Hc. destruct c as [[] [] [] [] [] [] [] []]; vm_compute in *; congruence. }
  rewrite Hl. set (l := c :: take_while lon_char t). destruct (negb (fits l)); [discriminate|].
  change (match l with [] => Ok None | _ :: _ => match string_to_double l with None => UB | Some lonv =>
    (let s1 := skip_lat (drop_while lon_char (c :: t)) in
    let lat := take_while tok_char s1 in
    let s2 := drop_while tok_char s1 in
    if negb (fits lat) then UB else
    let b := at_space s2 in
    let latv := match lat with [] => None | _ => string_to_double lat end in
    let s3 := skip s2 in
    if b then Ok (Some ({| v_lon := lonv; v_lat := latv; v_alt := None |}, skip s3))
    else let alt := take_while tok_char s3 in let s4 := drop_while tok_char s3 in
      if negb (fits alt) then UB else
      match alt with [] => Ok (Some ({| v_lon := lonv; v_lat := latv; v_alt := None |}, skip s4))
      | _ => match string_to_double alt with None => UB | Some altv => Ok (Some ({| v_lon := lonv; v_lat := latv; v_alt := Some altv |}, skip s4)) end end)
    end end <> Ok None).
  unfold l at 1. destruct (string_to_double l); [|discriminate]. cbv zeta.
  repeat match goal with |- context [match ?x with _ => _ end] => destruct x end; discriminate.
Qed.
Lemma loop_terminates fuel : forall s, ~ In nul s -> (s = [] \/ existsb starts s = true) -> length s < fuel -> parse_loop fuel s <> Fuel.
Proof.
  induction fuel as [|f IH]; intros s Hn Hs Hl; [lia|]. cbn [parse_loop]. destruct s as [|c t]; [discriminate|].
  set (s := c :: t) in *. destruct Hs as [Hs | Hs]; [discriminate|].
  pose proof (vec3_some s Hs Hn) as H1. destruct (parse_vec3 s) as [[[v r]|]| | |] eqn:E; cbn [bind]; try congruence.
  2:{ exfalso. revert E. clear. unfold parse_vec3.
      repeat match goal with |- context [match ?x with _ => _ end] => destruct x end; discriminate. }
  destruct (vec3_progress s v r Hn E) as [Hlen Hnr].
  assert (Hr : r = [] \/ existsb starts r = true).
  { assert (Hrs : exists u, r = skip u).
    { revert E. clear. unfold parse_vec3.
      repeat match goal with |- context [match ?x with _ => _ end] => destruct x end; intros E; inversion E; eauto. }
    destruct Hrs as [u ->]. destruct (skip u) as [|x y] eqn:Eu; auto. right. unfold skip in Eu.
    apply drop_while_head in Eu. simpl. assert (is_nul x = false) as K by (apply aeq_neq; intros ->; apply Hnr; now left).
    rewrite K in Eu. simpl in Eu. apply negb_false_iff in Eu. now rewrite Eu. }
  specialize (IH r Hnr Hr ltac:(lia)). destruct (parse_loop f r); cbn [bind]; congruence.
Qed.
Lemma coordinates_terminates s : ~ In nul s -> (s = [] \/ existsb starts s = true) -> coordinates_parse s <> Fuel.
Proof. intros Hn Hs. apply loop_terminates; auto. Qed.
Lemma loop_spins s fuel : s <> [] -> existsb starts s = false -> ~ In nul s -> parse_loop fuel s = Fuel.
Proof.
  intros Hne He Hn. assert (Hsk : skip s = []).
  { clear Hne. induction s as [|c t IH]; auto. simpl in He. apply orb_false_iff in He as [H1 H2].
    unfold skip. simpl. rewrite H1. assert (is_nul c = false) as -> by (apply aeq_neq; intros ->; apply Hn; now left).
    apply IH; auto. intros H. apply Hn. now right. }
  assert (Hv : parse_vec3 s = Ok None) by (unfold parse_vec3; rewrite Hsk; reflexivity).
  induction fuel as [|f IH]; destruct s as [|c t]; try congruence; cbn [parse_loop]; try reflexivity. rewrite Hv. exact IH.
Qed.

(** * Writing and reading again *)
Definition vec_item (v : str * str * str) : item := let '(a, b, c) := v in IVec3 a b c.
Definition vec_ok (v : str * str * str) : bool :=
  let '(a, b, c) := v in number a && number b && number c && (N.of_nat (length a + length b + length c) <=? 500)%N.
Definition vec_of (v : str * str * str) : vec3 :=
  let '(a, b, c) := v in {| v_lon := a; v_lat := Some b; v_alt := Some c |}.
Definition vec_tuple (v : str * str * str) : tuple :=
  let '(a, b, c) := v in {| lon := a; w1 := []; w2 := []; lat := b; alt := Some ([], [], c) |}.
Definition lf : str := ["010"%char].
Fixpoint seps (m e : str) (vs : list (str * str * str)) : list (tuple * str) :=
  match vs with
  | [] => []
  | [v] => [(vec_tuple v, e)]
  | v :: vs' => (vec_tuple v, m) :: seps m e vs'
  end.
Lemma direct_text_app a b : direct_text (a ++ b) = direct_text a ++ direct_text b.
Proof. apply flat_map_app. Qed.
Lemma direct_text_chars s : direct_text (chars s) = s.
Proof. unfold direct_text, chars. induction s as [|c s IH]; [auto|]. cbn [map flat_map app]. now rewrite IH. Qed.

Lemma pretty_text nl ind d vs : nl <> [] -> vs <> [] ->
  direct_text (content nl ind d (map vec_item vs)) =
  (nl ++ indent ind (S d)) ++ tuples_text (seps (nl ++ indent ind (S d)) (nl ++ indent ind d) vs).
Proof.
  intros Hnl Hne. unfold content. destruct vs as [|v vs]; [congruence|]. clear Hne.
  assert (Hdoc : forall v, doc nl ind (S d) (vec_item v) = ([], chars (indent ind (S d) ++ tuple_text (vec_tuple v) ++ nl))).
  { intros [[a b] c]. cbn [vec_item doc]. f_equal. f_equal. unfold vec_tuple, tuple_text. cbn [lon lat w1 w2 alt].
    destruct nl as [|n0 nl']; [congruence|]. cbn [app]. rewrite <- ?app_assoc. reflexivity. }
  cbn [map]. rewrite Hdoc. cbn [snd]. rewrite !direct_text_app, !direct_text_chars.
  rewrite <- !app_assoc. f_equal. f_equal.
  revert v. induction vs as [|v' vs IH]; intros v.
  - cbn [map flat_map seps tuples_text fst snd direct_text app]. rewrite <- !app_assoc. now rewrite ?app_nil_r.
  - cbn [map flat_map]. rewrite Hdoc. cbn [fst snd]. rewrite app_nil_l, direct_text_app, direct_text_chars.
    change (seps (nl ++ indent ind (S d)) (nl ++ indent ind d) (v :: v' :: vs)) with
      ((vec_tuple v, nl ++ indent ind (S d)) :: seps (nl ++ indent ind (S d)) (nl ++ indent ind d) (v' :: vs)).
    cbn [tuples_text flat_map fst snd].
    change (flat_map (fun p => tuple_text (fst p) ++ snd p) (seps (nl ++ indent ind (S d)) (nl ++ indent ind d) (v' :: vs)))
      with (tuples_text (seps (nl ++ indent ind (S d)) (nl ++ indent ind d) (v' :: vs))).
    rewrite <- IH. rewrite <- !app_assoc. reflexivity.
Qed.

Lemma seps_ok m e vs : forallb blank m = true -> forallb blank e = true -> existsb (fun c => aeq c " "%char) m = true ->
  length m <= 300 -> length e <= 300 -> forallb vec_ok vs = true -> tuples_ok (seps m e vs) = true.
Proof.
  intros Hm He Hs Lm Le. induction vs as [|v vs IH]; intros Hv; [reflexivity|].
  cbn [forallb] in Hv. apply andb_true_iff in Hv as [Hv Hvs]. specialize (IH Hvs).
  assert (Ht : tuple_ok (vec_tuple v) = true /\ length (tuple_text (vec_tuple v)) <= 502).
  { destruct v as [[a b] c]. unfold vec_ok in Hv. rewrite !andb_true_iff in Hv. destruct Hv as (((Ha & Hb) & Hc) & Hl).
    split; [unfold tuple_ok, vec_tuple; cbn [lon lat w1 w2 alt forallb]; now rewrite Ha, Hb, Hc|].
    unfold vec_tuple, tuple_text. cbn [lon lat w1 w2 alt]. rewrite ?app_length. cbn [app list_ascii_of_string length]. rewrite ?app_length. cbn [length]. rewrite ?app_length. cbn [length]. lia. }
  destruct Ht as [Ht Hl].
  destruct vs as [|v' vs'].
  - cbn [seps tuples_ok]. rewrite Ht, He. unfold fits. rewrite app_length. lia.
  - change (seps m e (v :: v' :: vs')) with ((vec_tuple v, m) :: seps m e (v' :: vs')).
    cbn [tuples_ok]. rewrite Ht, Hm, IH, Hs. unfold fits. rewrite app_length.
    destruct (seps m e (v' :: vs')); lia.
Qed.
Lemma seps_vecs m e vs : map (fun p => tuple_vec (fst p)) (seps m e vs) = map vec_of vs.
Proof.
  induction vs as [|v vs IH]; [reflexivity|]. destruct vs as [|v' vs'].
  - destruct v as [[a b] c]. reflexivity.
  - change (seps m e (v :: v' :: vs')) with ((vec_tuple v, m) :: seps m e (v' :: vs')). cbn [map fst] in *. rewrite IH.
    destruct v as [[a b] c]. reflexivity.
Qed.
Lemma indent_spaces d : forallb blank (indent (S_ "  ") d) = true /\ length (indent (S_ "  ") d) = 2 * d.
Proof. induction d as [|d [IH1 IH2]]; [auto|]. split; [exact IH1|]. cbn [indent]. rewrite app_length, IH2. change (length (S_ "  ")) with 2. lia. Qed.

Lemma pretty_round_trip d vs : d <= 140 -> forallb vec_ok vs = true -> vs <> [] ->
  coordinates_parse (direct_text (content lf (S_ "  ") d (map vec_item vs))) = Ok (map vec_of vs).
Proof.
  intros Hd Hv Hne. rewrite pretty_text by (auto; discriminate).
  destruct (indent_spaces d) as [B1 L1]. destruct (indent_spaces (S d)) as [B2 L2].
  rewrite coordinates_exact.
  - now rewrite seps_vecs.
  - rewrite forallb_app, B2. reflexivity.
  - apply seps_ok; auto; rewrite ?app_length, ?L1, ?L2, ?forallb_app, ?B1, ?B2; try reflexivity; change (length lf) with 1; lia.
  - destruct vs as [|v [|]]; [congruence| |]; discriminate.
Qed.

(** Raw output: tuples separated by line feeds only. *)
Lemma raw_text vs : direct_text (content [] [] 0 (map vec_item vs)) =
  flat_map (fun v => tuple_text (vec_tuple v) ++ lf) vs.
Proof.
  rewrite content_raw. induction vs as [|v vs IH]; [reflexivity|]. cbn [map flat_map]. rewrite direct_text_app, IH. f_equal.
  destruct v as [[a b] c]. cbn [vec_item plain]. rewrite direct_text_chars. unfold vec_tuple, tuple_text. cbn [lon lat w1 w2 alt].
  cbn [app]. now rewrite <- ?app_assoc.
Qed.
Lemma raw_one v : vec_ok v = true -> coordinates_parse (direct_text (content [] [] 0 [vec_item v])) = Ok [vec_of v].
Proof.
  intros Hv. change [vec_item v] with (map vec_item [v]). rewrite raw_text. cbn [flat_map].
  change ((tuple_text (vec_tuple v) ++ lf) ++ []) with ([] ++ tuples_text [(vec_tuple v, lf)]).
  rewrite coordinates_exact; [destruct v as [[a b] c]; reflexivity|reflexivity| |discriminate].
  apply (seps_ok (lf ++ S_ " ") lf [v]); auto; try (cbn; lia). cbn [forallb]. now rewrite Hv.
Qed.
Lemma raw_two v1 v2 : vec_ok v1 = true -> vec_ok v2 = true ->
  coordinates_parse (direct_text (content [] [] 0 (map vec_item [v1; v2]))) =
  Ok [vec_of v1; (let '(_, b, c) := v2 in {| v_lon := b; v_lat := Some c; v_alt := None |})].
Proof.
  intros H1 H2. rewrite raw_text. destruct v1 as [[a b] c], v2 as [[a' b'] c'].
  unfold vec_ok in H1, H2. rewrite !andb_true_iff in H1, H2.
  destruct H1 as (((Ha & Hb) & Hc) & Hl1), H2 as (((Ha' & Hb') & Hc') & Hl2).
  cbn [flat_map]. unfold vec_tuple, tuple_text. cbn [lon lat w1 w2 alt].
  set (t2 := {| lon := b'; w1 := []; w2 := []; lat := c'; alt := None |}).
  assert (Ht2 : tuple_text t2 ++ lf = b' ++ S_ "," ++ c' ++ lf).
  { unfold t2, tuple_text. cbn [lon lat w1 w2 alt]. cbn [app]. now rewrite ?app_nil_r, <- ?app_assoc. }
  match goal with |- coordinates_parse ?x = _ =>
    replace x with (a ++ S_ "," ++ b ++ S_ "," ++ c ++ lf ++ a' ++ S_ "," ++ tuple_text t2 ++ lf) end.
  2:{ rewrite Ht2. cbn [app]. rewrite <- ?app_assoc. cbn [app]. rewrite <- ?app_assoc. now rewrite ?app_nil_r. }
  assert (Hok2 : tuple_ok t2 = true) by (unfold tuple_ok, t2; cbn [lon lat w1 w2 alt forallb]; now rewrite Hb', Hc').
  assert (Hlt2 : length (tuple_text t2) = length b' + 1 + length c').
  { unfold t2, tuple_text. cbn [lon lat w1 w2 alt]. cbn [app]. rewrite ?app_length; simpl; rewrite ?app_length; simpl; lia. }
  unfold coordinates_parse. set (fl := length _).
  assert (Hv1 : parse_vec3 (a ++ S_ "," ++ b ++ S_ "," ++ c ++ lf ++ a' ++ S_ "," ++ tuple_text t2 ++ lf) =
    Ok (Some ({| v_lon := a; v_lat := Some b; v_alt := Some c |}, tuple_text t2 ++ lf))).
  { set (q := b ++ S_ "," ++ c ++ lf ++ a' ++ S_ "," ++ tuple_text t2 ++ lf).
    change (a ++ S_ "," ++ q) with ([] ++ a ++ [] ++ ","%char :: q).
    destruct (vec3_lon [] a [] q eq_refl Ha eq_refl) as (w' & E1 & E2 & E3 & Hw' & Hlen).
    unfold parse_vec3. rewrite E2, E3. destruct w'; [|simpl in Hlen; lia].
    assert (Hf : fits (a ++ []) = true) by (unfold fits; rewrite app_nil_r; lia).
    rewrite Hf. cbv beta iota zeta delta [negb]. rewrite number_nonempty by auto. rewrite (double_of a [] Ha I).
    rewrite E1. unfold q. change (b ++ S_ "," ++ c ++ lf ++ a' ++ S_ "," ++ tuple_text t2 ++ lf) with
      ([] ++ b ++ S_ "," ++ c ++ lf ++ a' ++ S_ "," ++ tuple_text t2 ++ lf).
    rewrite skip_lat_to by auto.
    assert (Hrun : forallb tok_char b = true) by (apply num_tok; now apply number_chars).
    rewrite take_app, drop_app by (auto; reflexivity).
    assert (Hfb : fits b = true) by (unfold fits; lia). rewrite Hfb.
    change (at_space (S_ "," ++ c ++ lf ++ a' ++ S_ "," ++ tuple_text t2 ++ lf)) with false. cbv beta iota zeta delta [negb].
    assert (Eb : string_to_double b = Some b) by (rewrite <- (app_nil_r b) at 1; apply (double_of b [] Hb I)).
    assert (Em : match b with [] => None | _ :: _ => string_to_double b end = Some b) by (destruct b; [discriminate|exact Eb]).
    rewrite Em. rewrite (skip_to (S_ ",") c) by auto.
    assert (Hrun2 : forallb tok_char (c ++ lf ++ a') = true).
    { rewrite !forallb_app, (num_tok c), (num_tok a') by (now apply number_chars). reflexivity. }
    replace (c ++ lf ++ a' ++ S_ "," ++ tuple_text t2 ++ lf) with ((c ++ lf ++ a') ++ S_ "," ++ tuple_text t2 ++ lf)
      by (now rewrite <- !app_assoc).
    rewrite take_app, drop_app by (auto; reflexivity).
    assert (Hfc : fits (c ++ lf ++ a') = true) by (unfold fits; rewrite !app_length; change (length lf) with 1; lia).
    rewrite Hfc. rewrite number_nonempty by auto.
    rewrite (double_of c (lf ++ a') Hc) by reflexivity.
    rewrite (skip_rest (S_ ",")); [reflexivity|reflexivity|]. now apply starts_tuple. }
  assert (Hne : exists x y, a ++ S_ "," ++ b ++ S_ "," ++ c ++ lf ++ a' ++ S_ "," ++ tuple_text t2 ++ lf = x :: y).
  { apply number_inv in Ha as (x & y & -> & _). cbn [app]. eauto. }
  destruct Hne as (x & y & Hne). cbn [parse_loop]. rewrite Hne. rewrite <- Hne, Hv1. cbn [bind].
  assert (Hloop : parse_loop fl ([] ++ tuples_text [(t2, lf)]) = Ok [tuple_vec t2]).
  { apply (loop_exact [(t2, lf)] [] fl); auto; [|discriminate|].
    - cbn [tuples_ok]. rewrite Hok2. unfold fits. rewrite app_length, Hlt2. change (length lf) with 1.
      change (forallb blank lf) with true. cbn [andb]. lia.
    - unfold fl. rewrite !app_length. change (length lf) with 1. cbn [length]. lia. }
  cbn [app tuples_text flat_map fst snd] in Hloop. rewrite app_nil_r in Hloop. rewrite Hloop. reflexivity.
Qed.

(** * gx:coord *)
Lemma number_no_space n : number n = true -> ~ In " "%char n.
Proof.
  intros H. apply number_chars in H. rewrite forallb_forall in H. intros K. apply H in K. discriminate.
Qed.
Lemma number_gx n : number n = true -> from_string_double n = Some n.
Proof.
  intros Hn. pose proof (number_chars n Hn) as Hc. apply number_inv in Hn as (c & t & -> & Hs & _). unfold from_string_double.
  assert (isspace c = false) as K by (clear - Hs; destruct c as [[] [] [] [] [] [] [] []]; vm_compute in *; congruence).
  cbn [drop_while]. rewrite K. f_equal. rewrite <- (app_nil_r (c :: t)) at 1. apply take_app; auto. exact I.
Qed.
Lemma gx_round_trip a b c : number a = true -> number b = true -> number c = true ->
  gx_parse (gx_text a b c) = Ok {| g_lon := Some a; g_lat := Some b; g_alt := Some c |}.
Proof.
  intros Ha Hb Hc. unfold gx_parse.
  assert (E : split_string_using (gx_text a b c) (S_ " ") = Ok [a; b; c]).
  { change (S_ " ") with [" "%char]. rewrite split_string_ok.
    change (gx_text a b c) with (join [" "%char] [a; b; c]). f_equal.
    apply split_of_join; [discriminate|]. repeat constructor; now apply number_no_space. }
  rewrite E. cbn [bind gx_loop gx_set]. rewrite !number_gx by auto. reflexivity.
Qed.

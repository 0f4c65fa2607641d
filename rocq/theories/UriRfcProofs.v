(** Lemmas about [UriRfc]: taking a URI apart and putting it together. *)
From Verif Require Import Common UriRfc.

(** An optional part behind its delimiter. *)
Definition tail_of (c : ascii) (o : option str) : str := match o with Some v => c :: v | None => [] end.

Lemma existsb_in c s : existsb (aeq c) s = true <-> In c s.
Proof. rewrite existsb_exists. split; [intros (x & H & E); apply aeq_spec in E; now subst | intros H; exists c; split; [auto|apply aeq_refl]]. Qed.
Lemma existsb_notin c s : existsb (aeq c) s = false <-> ~ In c s.
Proof. rewrite <- existsb_in. destruct (existsb (aeq c) s); split; congruence. Qed.

Lemma in_first (c : ascii) s : In c s -> exists u v, s = u ++ c :: v /\ ~ In c u.
Proof.
  induction s as [|d s IH]; [intros []|]. intros H. destruct (ascii_dec d c) as [->|N]; [exists [], s; split; [auto|intros []]|].
  destruct H as [H|H]; [congruence|]. destruct (IH H) as (u & v & -> & Hu). exists (d :: u), v. split; [auto|]. intros [E|E]; [congruence|auto].
Qed.
Lemma skip_past (c : ascii) u v : skipn (S (length u)) (u ++ c :: v) = v.
Proof. rewrite skipn_app. replace (S (length u) - length u) with 1 by lia. now rewrite skipn_all2 by lia. Qed.
Lemma cut_at_app c u r : ~ In c u -> cut_at c (u ++ tail_of c r) = (u, r).
Proof.
  intros H. unfold cut_at. destruct r as [v|]; cbn [tail_of].
  - rewrite (find_char_app c u v H). f_equal; [now rewrite firstn_app, Nat.sub_diag, firstn_all, app_nil_r|].
    f_equal. rewrite skipn_app. replace (S (length u) - length u) with 1 by lia. rewrite skipn_all2 by lia. reflexivity.
  - rewrite app_nil_r. apply find_char_none in H. now rewrite H.
Qed.
Lemma cut_at_join c s u r : cut_at c s = (u, r) -> s = u ++ tail_of c r /\ ~ In c u.
Proof.
  unfold cut_at. destruct (find_char c s) as [i|] eqn:E; intros H; injection H as <- <-.
  - destruct (in_dec ascii_dec c s) as [Hi|Hi]; [|apply find_char_none in Hi; congruence].
    destruct (in_first _ _ Hi) as (a & b & -> & Ha). rewrite (find_char_app c a b Ha) in E. injection E as <-.
    change (match a ++ c :: b with [] => [] | _ :: l => skipn (length a) l end) with (skipn (S (length a)) (a ++ c :: b)). rewrite skip_past, firstn_app, Nat.sub_diag, firstn_all, app_nil_r. auto.
  - apply find_char_none in E. cbn [tail_of]. now rewrite app_nil_r.
Qed.

(** Characters outside of a set are not in a text of it. *)
Lemma escaped_ind (f : ascii -> bool) (P : str -> Prop) : P [] ->
  (forall a b r, hexdig a = true -> hexdig b = true -> escaped f r = true -> P r -> P ("%"%char :: a :: b :: r)) ->
  (forall c r, c <> "%"%char -> f c = true -> escaped f r = true -> P r -> P (c :: r)) ->
  forall s, escaped f s = true -> P s.
Proof.
  intros H0 H1 H2 s. remember (length s) as n eqn:En. assert (Hn : length s <= n) by lia. clear En. revert s Hn.
  induction n as [|n IH]; intros [|c r] Hn; cbn [length] in Hn; try lia; auto.
  cbn [escaped]. destruct (aeq c "%") eqn:E.
  - apply aeq_spec in E. subst c. destruct r as [|a [|b r]]; try discriminate. rewrite !andb_true_iff. intros ((Ha & Hb) & Hr). cbn [length] in Hn. apply H1; auto. apply IH; auto. lia.
  - apply aeq_neq in E. rewrite andb_true_iff. intros (Hc & Hr). apply H2; auto. apply IH; auto. lia.
Qed.
Lemma escaped_notin f c s : escaped f s = true -> f c = false -> c <> "%"%char -> hexdig c = false -> ~ In c s.
Proof.
  intros Hs Hf Hp Hh. revert s Hs. apply escaped_ind; [auto| |].
  - intros a b r Ha Hb _ IH [E|[E|[E|E]]]; subst; try congruence; auto.
  - intros d r _ Hd _ IH [E|E]; subst; [congruence|auto].
Qed.
Lemma escaped_app f u v : escaped f u = true -> escaped f v = true -> escaped f (u ++ v) = true.
Proof.
  intros Hu Hv. revert u Hu. apply escaped_ind; [auto| |].
  - intros a b r Ha Hb _ IH. cbn. now rewrite Ha, Hb, IH.
  - intros c r Hc Hf _ IH. cbn. apply aeq_neq in Hc. now rewrite Hc, Hf, IH.
Qed.
Lemma escaped_weaken f g s : (forall c, f c = true -> g c = true) -> escaped f s = true -> escaped g s = true.
Proof.
  intros H. revert s. apply escaped_ind; [auto| |].
  - intros a b r Ha Hb _ IH. cbn. now rewrite Ha, Hb, IH.
  - intros c r Hc Hf _ IH. cbn. apply aeq_neq in Hc. now rewrite Hc, (H _ Hf), IH.
Qed.
Lemma forallb_notin (f : ascii -> bool) c s : forallb f s = true -> f c = false -> ~ In c s.
Proof. rewrite forallb_forall. intros H E Hi. specialize (H _ Hi). congruence. Qed.

(** Segments. *)
Lemma segments_cons p : exists x l, segments p = x :: l.
Proof. destruct p as [|c r]; cbn [segments]; [eauto|]. destruct (aeq c "/"); [eauto|]. destruct (segments r); eauto. Qed.
Lemma join_segments p : join (S_ "/") (segments p) = p.
Proof.
  induction p as [|c r IH]; [auto|]. cbn [segments]. destruct (segments_cons r) as (x & l & E). rewrite E in IH |- *. destruct (aeq c "/") eqn:Ec.
  - apply aeq_spec in Ec. subst c. change (join (S_ "/") ([] :: x :: l)) with ("/"%char :: join (S_ "/") (x :: l)). now rewrite IH.
  - destruct l; cbn in IH |- *; now rewrite IH.
Qed.
Definition no_slash (s : str) : Prop := ~ In "/"%char s.
Lemma segments_app x p : no_slash x -> segments (x ++ "/"%char :: p) = x :: segments p.
Proof.
  unfold no_slash. induction x as [|c x IH]; intros H; cbn [app segments].
  - now rewrite aeq_refl.
  - destruct (aeq c "/") eqn:E; [apply aeq_spec in E; subst; exfalso; apply H; now left|]. rewrite IH; [auto|]. intros Hi; apply H; now right.
Qed.
Lemma segments_one x : no_slash x -> segments x = [x].
Proof.
  unfold no_slash. induction x as [|c x IH]; intros H; cbn [segments]; [auto|].
  destruct (aeq c "/") eqn:E; [apply aeq_spec in E; subst; exfalso; apply H; now left|]. rewrite IH; [auto|]. intros Hi; apply H; now right.
Qed.
Lemma segments_join l : l <> [] -> Forall no_slash l -> segments (join (S_ "/") l) = l.
Proof.
  induction l as [|x l IH]; [congruence|]. intros _ H. inversion H as [|y k Hx Hl]; subst. destruct l as [|y l].
  - now apply segments_one.
  - change (join (S_ "/") (x :: y :: l)) with (x ++ "/"%char :: join (S_ "/") (y :: l)). rewrite segments_app by auto. f_equal. apply IH; [congruence|auto].
Qed.
Lemma segments_no_slash p : Forall no_slash (segments p).
Proof.
  induction p as [|c r IH]; [constructor; [intros []|constructor]|]. cbn [segments]. destruct (aeq c "/") eqn:E.
  - constructor; [intros []|auto].
  - apply aeq_neq in E. destruct (segments r) as [|x l]; inversion IH; subst; constructor; auto.
    + intros [H|[]]; congruence.
    + intros [H|H]; [congruence|contradiction].
Qed.
Lemma join_app l x k : join (S_ "/") (l ++ x :: k) = match l with [] => [] | _ => join (S_ "/") l ++ S_ "/" end ++ join (S_ "/") (x :: k).
Proof.
  induction l as [|y l IH]; [auto|]. cbn [app]. destruct l as [|z l]; [cbn [app]; cbn [join]; now rewrite <- app_assoc|].
  change (join (S_ "/") (y :: (z :: l) ++ x :: k)) with (y ++ S_ "/" ++ join (S_ "/") ((z :: l) ++ x :: k)). rewrite IH.
  change (join (S_ "/") (y :: z :: l)) with (y ++ S_ "/" ++ join (S_ "/") (z :: l)). now rewrite <- !app_assoc.
Qed.
Lemma path_char_slash : path_char "/" = true.
Proof. reflexivity. Qed.
Lemma hexdig_slash a : hexdig a = true -> aeq a "/" = false.
Proof. intros H. apply aeq_neq. intros ->. vm_compute in H. discriminate. Qed.
Lemma escaped_segments p : escaped path_char p = true -> Forall (fun x => escaped path_char x = true) (segments p).
Proof.
  revert p. apply escaped_ind; [repeat constructor| |].
  - intros a b r Ha Hb _ IH. cbn [segments]. rewrite (hexdig_slash _ Ha), (hexdig_slash _ Hb). destruct (segments_cons r) as (x & l & E). rewrite E in *. cbn.
    inversion IH; subst. constructor; [|auto]. cbn. now rewrite Ha, Hb.
  - intros c r Hc Hf _ IH. cbn [segments]. destruct (aeq c "/"); [now constructor|]. destruct (segments_cons r) as (x & l & E). rewrite E in *.
    inversion IH; subst. constructor; [|auto]. cbn. apply aeq_neq in Hc. now rewrite Hc, Hf.
Qed.
Lemma escaped_join l : Forall (fun x => escaped path_char x = true) l -> escaped path_char (join (S_ "/") l) = true.
Proof.
  induction l as [|x l IH]; [auto|]. intros H. inversion H; subst. destruct l as [|y l]; [auto|].
  change (join (S_ "/") (x :: y :: l)) with (x ++ "/"%char :: join (S_ "/") (y :: l)). apply escaped_app; [auto|]. cbn [escaped].
  change (aeq "/" "%") with false. cbn iota. rewrite path_char_slash. auto.
Qed.
Lemma Forall_tl {A} (P : A -> Prop) l : Forall P l -> Forall P (tl l).
Proof. intros H; inversion H; cbn; auto. Qed.
Lemma no_dots_forall (P : str -> Prop) l : P [] -> forall out, Forall P l -> Forall P out -> Forall P (no_dots l out).
Proof.
  intros P0. induction l as [|x l IH]; intros out Hl Ho; cbn [no_dots]; [now apply Forall_rev|]. inversion Hl; subst.
  destruct (eqs x (S_ ".")); [destruct l; [apply Forall_rev; auto|auto]|].
  destruct (eqs x (S_ "..")); [destruct l; [apply Forall_rev; constructor; auto using Forall_tl|apply IH; auto using Forall_tl]|]. auto.
Qed.
Lemma no_dots_nonempty l : forall out, l <> [] -> no_dots l out <> [].
Proof.
  assert (G : forall x (k : list str), rev (x :: k) <> []) by (intros x k H; apply (f_equal (@length _)) in H; rewrite rev_length in H; discriminate).
  induction l as [|x l IH]; intros out H; [congruence|]. cbn [no_dots].
  destruct (eqs x (S_ ".")); [destruct l; [apply G|apply IH; congruence]|].
  destruct (eqs x (S_ "..")); [destruct l; [apply G|apply IH; congruence]|].
  destruct l; [apply G|apply IH; congruence].
Qed.
Definition no_dot (x : str) : Prop := x <> S_ "." /\ x <> S_ "..".
Lemma no_dots_clean l : forall out, Forall no_dot out -> Forall no_dot (no_dots l out).
Proof.
  assert (N0 : no_dot []) by (split; discriminate).
  induction l as [|x l IH]; intros out Ho; cbn [no_dots]; [now apply Forall_rev|].
  destruct (eqs x (S_ ".")) eqn:E1; [destruct l; [apply Forall_rev; auto|auto]|].
  destruct (eqs x (S_ "..")) eqn:E2; [destruct l; [apply Forall_rev; constructor; auto using Forall_tl|apply IH; auto using Forall_tl]|].
  apply IH. constructor; [|auto]. split; now apply eqs_neq.
Qed.
Lemma no_dots_id l : Forall no_dot l -> forall out, no_dots l out = rev out ++ l.
Proof.
  induction l as [|x l IH]; intros H out; cbn [no_dots]; [now rewrite app_nil_r|]. inversion H as [|? ? [H1 H2] Hl]; subst.
  apply eqs_neq in H1, H2. rewrite H1, H2, IH by auto. cbn [rev]. now rewrite <- app_assoc.
Qed.
Lemma no_dots_prefix d l : Forall no_dot d -> forall out, no_dots (d ++ l) out = no_dots l (rev d ++ out).
Proof.
  induction d as [|x d IH]; intros H out; [auto|]. inversion H as [|? ? [H1 H2] Hl]; subst. cbn [app no_dots]. apply eqs_neq in H1, H2. rewrite H1, H2, IH by auto.
  cbn [rev]. now rewrite <- app_assoc.
Qed.

(** Authorities. *)
Definition delimiter (c : ascii) : Prop := c = "/"%char \/ c = "?"%char \/ c = "#"%char \/ c = "000"%char.
Lemma split_host_notin c s r : delimiter c -> split_host s = Some r -> ~ In c s.
Proof.
  intros Hc. destruct s as [|d t]; [intros _ []|]. unfold split_host. destruct (aeq d "[") eqn:Ed.
  - apply aeq_spec in Ed. subst d. destruct (cut_at "]" t) as [h [p|]] eqn:Ec; [|discriminate]. apply cut_at_join in Ec. destruct Ec as [-> _].
    assert (K : forallb literal_char h = true -> forallb digit p = true \/ (exists p', p = ":"%char :: p' /\ forallb digit p' = true) -> ~ In c ("["%char :: h ++ tail_of "]" (Some p))).
    { intros Hh Hp Hi. destruct Hi as [Hi|Hi]; [destruct Hc as [->|[->|[->| ->]]]; discriminate|]. apply in_app_iff in Hi. destruct Hi as [Hi|[Hi|Hi]].
      - revert Hi. apply (forallb_notin _ _ _ Hh). destruct Hc as [->|[->|[->| ->]]]; reflexivity.
      - destruct Hc as [->|[->|[->| ->]]]; discriminate.
      - destruct Hp as [Hp|(p' & -> & Hp)]; [|destruct Hi as [Hi|Hi]; [destruct Hc as [->|[->|[->| ->]]]; discriminate|]]; revert Hi; apply (forallb_notin _ _ _ Hp); destruct Hc as [->|[->|[->| ->]]]; reflexivity. }
    destruct p as [|e p].
    + destruct (forallb literal_char h) eqn:Eh; [|discriminate]. intros _. apply K; auto.
    + destruct (aeq e ":") eqn:Ee; [|discriminate]. apply aeq_spec in Ee. subst e. destruct (forallb literal_char h) eqn:Eh; [|discriminate]. destruct (forallb digit p) eqn:Ep; [|discriminate].
      intros _. apply K; eauto.
  - destruct (cut_at ":" (d :: t)) as [h p] eqn:Ec. apply cut_at_join in Ec. destruct Ec as [-> _]. destruct (escaped name_char h) eqn:Eh; [|discriminate]. cbn [andb].
    intros Hp Hi. apply in_app_iff in Hi. destruct Hi as [Hi|Hi].
    + revert Hi. apply (escaped_notin _ _ _ Eh); destruct Hc as [->|[->|[->| ->]]]; try reflexivity; discriminate.
    + destruct p as [p|]; [|destruct Hi]. destruct (forallb digit p) eqn:Ep; [|discriminate]. destruct Hi as [Hi|Hi]; [destruct Hc as [->|[->|[->| ->]]]; discriminate|].
      revert Hi; apply (forallb_notin _ _ _ Ep); destruct Hc as [->|[->|[->| ->]]]; reflexivity.
Qed.
Lemma good_auth_notin c a : delimiter c -> good_auth a = true -> ~ In c a.
Proof.
  intros Hc. unfold good_auth, split_authority. destruct (cut_at "@" a) as [u [h|]] eqn:E; apply cut_at_join in E; destruct E as [-> _].
  - destruct (escaped user_char u) eqn:Eu; [|discriminate]. destruct (split_host h) as [r|] eqn:Eh; [|discriminate]. intros _ Hi. apply in_app_iff in Hi. destruct Hi as [Hi|[Hi|Hi]].
    + revert Hi. apply (escaped_notin _ _ _ Eu); destruct Hc as [->|[->|[->| ->]]]; try reflexivity; discriminate.
    + destruct Hc as [->|[->|[->| ->]]]; discriminate.
    + revert Hi. eapply split_host_notin; eauto.
  - destruct (split_host _) as [r|] eqn:Eh; [|discriminate]. intros _. eapply split_host_notin; eauto.
Qed.
Lemma good_scheme_notin c s : good_scheme s = true -> scheme_char c = false -> ~ In c s.
Proof.
  destruct s as [|d t]; [discriminate|]. cbn [good_scheme]. rewrite andb_true_iff. intros [Hd Ht] Hc [Hi|Hi].
  - subst d. unfold scheme_char in Hc. rewrite Hd in Hc. discriminate.
  - revert Hi. now apply (forallb_notin _ _ _ Ht).
Qed.

(** RFC 3986 section 3: what the path begins with. *)
Definition shaped (c : parts) : Prop :=
  match p_auth c with
  | Some _ => p_path c = [] \/ exists r, p_path c = "/"%char :: r
  | None => prefixb (S_ "//") (p_path c) = false
  end.
Lemma take_drop_app (f : ascii -> bool) u v : forallb f u = true -> match v with c :: _ => f c = false | [] => True end -> take_while f (u ++ v) = u /\ drop_while f (u ++ v) = v.
Proof.
  intros Hu Hv. induction u as [|c u IH]; cbn [app].
  - destruct v as [|c v]; [auto|]. cbn. now rewrite Hv.
  - cbn [forallb] in Hu. apply andb_true_iff in Hu. destruct Hu as [Hc Hu]. cbn [take_while drop_while]. rewrite Hc. destruct (IH Hu) as [-> ->]. auto.
Qed.
Lemma notin_forallb c s : ~ In c s -> forallb (fun d => negb (aeq d c)) s = true.
Proof. intros H. apply forallb_forall. intros d Hd. apply negb_true_iff, aeq_neq. intros ->. contradiction. Qed.

Lemma two_slashes x y p : prefixb (S_ "//") (x :: y :: p) = aeq x "/" && aeq y "/".
Proof.
  change (S_ "//") with ["/"; "/"]%char. cbn [prefixb]. rewrite andb_true_r. unfold aeq. now rewrite (Ascii.eqb_sym x), (Ascii.eqb_sym y).
Qed.
Lemma split_auth_app a p : match a with Some a => ~ In "/"%char a /\ (p = [] \/ exists r, p = "/"%char :: r) | None => prefixb (S_ "//") p = false end ->
  split_auth (match a with Some a => S_ "//" ++ a | None => [] end ++ p) = (a, p).
Proof.
  destruct a as [a|].
  - intros [Ha Hp]. change ((S_ "//" ++ a) ++ p) with ("/"%char :: "/"%char :: a ++ p). unfold split_auth. rewrite !aeq_refl. cbn [andb].
    destruct (take_drop_app (fun c => negb (aeq c "/")) a p) as [-> ->]; [now apply notin_forallb| |auto]. destruct Hp as [->|(r & ->)]; [auto|]. now rewrite aeq_refl.
  - intros H. cbn [app]. unfold split_auth. destruct p as [|x [|y p]]; auto. rewrite two_slashes in H. now rewrite H.
Qed.
Lemma split_scheme_some s r : good_scheme s = true -> split_scheme (s ++ S_ ":" ++ r) = (Some s, r).
Proof.
  intros H. unfold split_scheme. change (S_ ":" ++ r) with (tail_of ":" (Some r)). rewrite cut_at_app by (apply (good_scheme_notin _ _ H); reflexivity).
  destruct s as [|c s]; [discriminate|]. rewrite (proj2 (existsb_notin "/" (c :: s))); [auto|]. apply (good_scheme_notin _ _ H); reflexivity.
Qed.
Lemma split_scheme_none s : existsb (aeq ":") (first_segment s) = false -> split_scheme s = (None, s).
Proof.
  intros H. unfold split_scheme. destruct (cut_at ":" s) as [[|c u] [v|]] eqn:E; auto. apply cut_at_join in E. destruct E as [-> _]. destruct (existsb (aeq "/") (c :: u)) eqn:E; [auto|].
  apply existsb_notin in E. exfalso. apply existsb_notin in H. apply H. unfold first_segment. change ((c :: u) ++ tail_of ":" (Some v)) with ((c :: u) ++ ":"%char :: v).
  clear H. revert E. generalize (c :: u). intros w. induction w as [|d w IH]; intros Hw; [now left|]. cbn [app take_while]. destruct (aeq d "/") eqn:Ed.
  - apply aeq_spec in Ed. subst d. exfalso. apply Hw. now left.
  - right. apply IH. intros Hi. apply Hw. now right.
Qed.

Lemma split_recompose c : valid_parts c = true -> shaped c -> split_parts (recompose c) = c.
Proof.
  unfold valid_parts. rewrite !andb_true_iff. intros (((((Hs & Ha) & Hp) & Hq) & Hf) & Hn) Hsh.
  assert (Na : forall d, delimiter d -> ~ In d (match p_auth c with Some a => S_ "//" ++ a | None => [] end) \/ d = "/"%char).
  { intros d Hd. destruct Hd as [->|Hd]; [now right|]. left. destruct (p_auth c) as [a|]; [|intros []]. cbn in Ha. intros Hi. apply in_app_iff in Hi. destruct Hi as [Hi|Hi].
    - destruct Hi as [<-|[<-|[]]]; destruct Hd as [Hd|[Hd|Hd]]; discriminate.
    - revert Hi. apply good_auth_notin; [now right|auto]. }
  assert (Ns : forall d, scheme_char d = false -> d <> ":"%char -> ~ In d (match p_scheme c with Some s => s ++ S_ ":" | None => [] end)).
  { intros d Hd Hc. destruct (p_scheme c) as [s|]; [|intros []]. cbn in Hs. intros Hi. apply in_app_iff in Hi. destruct Hi as [Hi|[Hi|[]]]; [|congruence].
    revert Hi. now apply good_scheme_notin. }
  assert (Np : forall d, path_char d = false -> d <> "%"%char -> hexdig d = false -> ~ In d (p_path c)) by (intros; eapply escaped_notin; eauto).
  unfold recompose, split_parts.
  set (S1 := match p_scheme c with Some s => s ++ S_ ":" | None => [] end) in *.
  set (A1 := match p_auth c with Some a => S_ "//" ++ a | None => [] end) in *.
  change (match p_query c with Some q => "?"%char :: q | None => [] end) with (tail_of "?" (p_query c)).
  change (match p_fragment c with Some q => "#"%char :: q | None => [] end) with (tail_of "#" (p_fragment c)).
  replace (S1 ++ A1 ++ p_path c ++ tail_of "?" (p_query c) ++ tail_of "#" (p_fragment c)) with ((S1 ++ A1 ++ p_path c ++ tail_of "?" (p_query c)) ++ tail_of "#" (p_fragment c)) by (now rewrite <- !app_assoc).
  rewrite cut_at_app.
  2:{ rewrite !in_app_iff. intros [Hi|[Hi|[Hi|Hi]]].
      - revert Hi. apply Ns; [reflexivity|discriminate].
      - destruct (Na "#"%char) as [K|K]; [right; right; now left|auto|discriminate].
      - revert Hi. apply Np; [reflexivity|discriminate|reflexivity].
      - destruct (p_query c) as [q|]; [|destruct Hi]. destruct Hi as [Hi|Hi]; [discriminate|]. revert Hi. cbn in Hq. apply (escaped_notin _ _ _ Hq); [reflexivity|discriminate|reflexivity]. }
  replace (S1 ++ A1 ++ p_path c ++ tail_of "?" (p_query c)) with ((S1 ++ A1 ++ p_path c) ++ tail_of "?" (p_query c)) by (now rewrite <- !app_assoc).
  rewrite cut_at_app.
  2:{ rewrite !in_app_iff. intros [Hi|[Hi|Hi]].
      - revert Hi. apply Ns; [reflexivity|discriminate].
      - destruct (Na "?"%char) as [K|K]; [right; now left|auto|discriminate].
      - revert Hi. apply Np; [reflexivity|discriminate|reflexivity]. }
  assert (E : split_scheme (S1 ++ A1 ++ p_path c) = (p_scheme c, A1 ++ p_path c)).
  { unfold S1. destruct (p_scheme c) as [s|]; [rewrite <- app_assoc; now apply split_scheme_some|]. apply split_scheme_none.
    cbn [app]. unfold A1. destruct (p_auth c) as [a|]; [reflexivity|]. cbn [app]. now apply negb_true_iff. }
  rewrite E. assert (E2 : split_auth (A1 ++ p_path c) = (p_auth c, p_path c)).
  { apply split_auth_app. unfold shaped in Hsh. destruct (p_auth c) as [a|]; [|auto]. split; [|auto]. cbn in Ha. apply good_auth_notin; [now left|auto]. }
  rewrite E2. now destruct c.
Qed.
Lemma parse_recompose c : valid_parts c = true -> shaped c -> rfc_parse (recompose c) = Some c.
Proof. intros H1 H2. unfold rfc_parse. rewrite split_recompose by auto. now rewrite H1. Qed.

Lemma split_shaped s : shaped (split_parts s) /\ recompose (split_parts s) = s.
Proof.
  unfold split_parts. destruct (cut_at "#" s) as [s1 f] eqn:E1. apply cut_at_join in E1. destruct E1 as [-> _].
  destruct (cut_at "?" s1) as [s2 q] eqn:E2. apply cut_at_join in E2. destruct E2 as [-> _].
  destruct (split_scheme s2) as [sc s3] eqn:E3. assert (K3 : s2 = match sc with Some s => s ++ S_ ":" | None => [] end ++ s3).
  { unfold split_scheme in E3. destruct (cut_at ":" s2) as [[|c u] [v|]] eqn:E; try (injection E3 as <- <-; reflexivity). apply cut_at_join in E. destruct E as [-> _].
    destruct (existsb (aeq "/") (c :: u)); injection E3 as <- <-; [reflexivity|]. now rewrite <- app_assoc. }
  destruct (split_auth s3) as [au p] eqn:E4. assert (K4 : s3 = match au with Some a => S_ "//" ++ a | None => [] end ++ p /\ match au with Some _ => p = [] \/ exists r, p = "/"%char :: r | None => prefixb (S_ "//") p = false end).
  { unfold split_auth in E4. destruct s3 as [|a [|b t]]; try (injection E4 as <- <-; now split).
    - injection E4 as <- <-. split; [auto|]. change (S_ "//") with ["/"; "/"]%char. cbn [prefixb]. now rewrite andb_false_r.
    - destruct (aeq a "/" && aeq b "/") eqn:E; injection E4 as <- <-.
      + apply andb_true_iff in E. rewrite !aeq_spec in E. destruct E as [-> ->]. split.
        * change ((S_ "//" ++ take_while (fun c => negb (aeq c "/")) t) ++ drop_while (fun c => negb (aeq c "/")) t) with ("/"%char :: "/"%char :: (take_while (fun c => negb (aeq c "/")) t ++ drop_while (fun c => negb (aeq c "/")) t)). now rewrite take_drop_while.
        * destruct (drop_while (fun c => negb (aeq c "/")) t) as [|x r] eqn:Ed; [now left|]. right. apply drop_while_head in Ed. apply negb_false_iff, aeq_spec in Ed. subst. eauto.
      + split; [auto|]. now rewrite two_slashes. }
  destruct K4 as [K4 K5]. split; [exact K5|]. subst s2 s3. unfold recompose. cbn [p_scheme p_auth p_path p_query p_fragment]. unfold tail_of. now rewrite <- !app_assoc.
Qed.

Lemma valid_no_nul c : valid_parts c = true -> ~ In "000"%char (recompose c).
Proof.
  unfold valid_parts. rewrite !andb_true_iff. intros (((((Hs & Ha) & Hp) & Hq) & Hf) & _). unfold recompose. rewrite !in_app_iff. intros [Hi|[Hi|[Hi|[Hi|Hi]]]].
  - destruct (p_scheme c) as [s|]; [|destruct Hi]. apply in_app_iff in Hi. destruct Hi as [Hi|[Hi|[]]]; [|discriminate]. revert Hi. apply (good_scheme_notin _ _ Hs); reflexivity.
  - destruct (p_auth c) as [a|]; [|destruct Hi]. destruct Hi as [Hi|[Hi|Hi]]; try discriminate. revert Hi. apply good_auth_notin; [right; right; now right|auto].
  - revert Hi. apply (escaped_notin _ _ _ Hp); [reflexivity|discriminate|reflexivity].
  - destruct (p_query c) as [q|]; [|destruct Hi]. destruct Hi as [Hi|Hi]; [discriminate|]. revert Hi. apply (escaped_notin _ _ _ Hq); [reflexivity|discriminate|reflexivity].
  - destruct (p_fragment c) as [q|]; [|destruct Hi]. destruct Hi as [Hi|Hi]; [discriminate|]. revert Hi. apply (escaped_notin _ _ _ Hf); [reflexivity|discriminate|reflexivity].
Qed.
Lemma rfc_parse_inv s c : rfc_parse s = Some c -> valid_parts c = true /\ shaped c /\ recompose c = s.
Proof. unfold rfc_parse. destruct (split_shaped s) as [H1 H2]. destruct (valid_parts (split_parts s)) eqn:E; [|discriminate]. intros H; injection H as <-. auto. Qed.

(** Transforming a relative reference. *)
Lemma remove_dots_slash p : (exists r, p = "/"%char :: r) -> exists r, remove_dots p = "/"%char :: r.
Proof. intros (r & ->). cbn [remove_dots]. rewrite aeq_refl. eauto. Qed.
Lemma remove_dots_valid p : escaped path_char p = true -> escaped path_char (remove_dots p) = true.
Proof.
  intros H. destruct p as [|c r]; [auto|]. cbn [remove_dots]. destruct (aeq c "/") eqn:E; [|auto]. apply aeq_spec in E. subst c.
  cbn [escaped] in H |- *. change (aeq "/" "%") with false in H |- *. cbn iota in H |- *. rewrite path_char_slash in *. cbn [andb] in *.
  apply escaped_join, no_dots_forall; [reflexivity|now apply escaped_segments|constructor].
Qed.
Lemma directory_valid p : escaped path_char p = true -> escaped path_char (directory p) = true.
Proof.
  intros H. apply escaped_join. apply escaped_segments in H. rewrite Forall_forall in *. intros x Hx. apply in_app_iff in Hx. destruct Hx as [Hx|[<-|[]]]; [|reflexivity].
  apply H. destruct (segments_cons p) as (y & l & E). rewrite (app_removelast_last [] (l := segments p)) by (rewrite E; discriminate). apply in_app_iff. now left.
Qed.
Lemma directory_slash r : exists t, directory ("/"%char :: r) = "/"%char :: t.
Proof.
  unfold directory. cbn [segments]. rewrite aeq_refl. destruct (segments_cons r) as (x & l & E). rewrite E. change (removelast ([] :: x :: l)) with ([] :: removelast (x :: l)). cbn [app].
  destruct (removelast (x :: l) ++ [[]]) as [|y k] eqn:Ek; [destruct (app_eq_nil _ _ Ek); discriminate|]. exists (join (S_ "/") (y :: k)). reflexivity.
Qed.
Lemma merge_valid b c t : valid_parts b = true -> escaped path_char (c :: t) = true -> escaped path_char (merge_paths b (c :: t)) = true.
Proof.
  unfold valid_parts. rewrite !andb_true_iff. intros (((((_ & _) & Hp) & _) & _) & _) Ht. unfold merge_paths.
  assert (K : escaped path_char (directory (p_path b) ++ c :: t) = true) by (apply escaped_app; [now apply directory_valid|auto]).
  destruct (p_auth b); [|exact K]. destruct (p_path b) as [|d q]; [|exact K]. cbn [escaped]. change (aeq "/" "%") with false. cbn iota. now rewrite path_char_slash.
Qed.
Lemma transform_valid b r t : valid_parts b = true -> shaped b -> p_auth b <> None -> valid_parts r = true -> shaped r -> p_scheme r = None -> transform b r = Some t ->
  valid_parts t = true /\ shaped t /\ p_auth t <> None /\ p_scheme t = p_scheme b /\ p_scheme b <> None.
Proof.
  intros Hb Sb Ab Hr Sr Nr. unfold transform. destruct (p_scheme b) as [s|] eqn:Es; [|discriminate]. rewrite Nr. intros H.
  assert (Hb' := Hb). unfold valid_parts in Hb'. rewrite !andb_true_iff in Hb'. destruct Hb' as (((((Hs & Ha) & Hp) & Hq) & Hf) & _).
  assert (Hr' := Hr). unfold valid_parts in Hr'. rewrite !andb_true_iff in Hr'. destruct Hr' as (((((_ & Hra) & Hrp) & Hrq) & Hrf) & _).
  rewrite Es in Hs. unfold shaped in *. destruct (p_auth r) as [ra|] eqn:Era.
  - injection H as <-. cbn [p_scheme p_auth p_path p_query p_fragment]. split; [|split; [|split; [discriminate|split; [auto|discriminate]]]].
    + unfold valid_parts. cbn [p_scheme p_auth p_path p_query p_fragment]. rewrite Hs, Hra, Hrq, Hrf, (remove_dots_valid _ Hrp). reflexivity.
    + destruct Sr as [->|Sr]; [now left|]. right. now apply remove_dots_slash.
  - destruct (p_path r) as [|c q] eqn:Ep; injection H as <-; cbn [p_scheme p_auth p_path p_query p_fragment].
    + split; [|split; [auto|split; [auto|split; [auto|discriminate]]]]. unfold valid_parts. cbn [p_scheme p_auth p_path p_query p_fragment]. rewrite Hs, Ha, Hp, Hrf.
      destruct (p_query r); [rewrite Hrq|rewrite Hq]; reflexivity.
    + split; [|split; [|split; [auto|split; [auto|discriminate]]]].
      * unfold valid_parts. cbn [p_scheme p_auth p_path p_query p_fragment]. rewrite Hs, Ha, Hrq, Hrf. rewrite remove_dots_valid; [reflexivity|]. destruct (aeq c "/"); [auto|now apply merge_valid].
      * destruct (p_auth b) as [ab|] eqn:Eab; [|congruence]. right. apply remove_dots_slash. destruct (aeq c "/") eqn:Ec; [apply aeq_spec in Ec; subst; eauto|].
        unfold merge_paths. rewrite Eab. destruct Sb as [->|(r0 & ->)]; [eauto|]. destruct (directory_slash r0) as (t0 & ->). cbn [app]. eauto.
Qed.
Lemma no_dots_up k r : forall out, r <> [] -> no_dots (repeat (S_ "..") k ++ r) out = no_dots r (skipn k out).
Proof.
  induction k as [|k IH]; intros out Hr; [auto|]. cbn [repeat app no_dots]. change (eqs (S_ "..") (S_ ".")) with false. change (eqs (S_ "..") (S_ "..")) with true. cbn iota.
  destruct (repeat (S_ "..") k ++ r) as [|x l] eqn:E; [destruct (app_eq_nil _ _ E); congruence|]. rewrite IH by auto. destruct out; [now rewrite !skipn_nil|reflexivity].
Qed.
Lemma remove_dots_id p : Forall no_dot (segments p) -> remove_dots p = p.
Proof.
  intros H. destruct p as [|c r]; [auto|]. cbn [remove_dots]. destruct (aeq c "/") eqn:E; [|auto]. apply aeq_spec in E. subst c. cbn [segments] in H. rewrite aeq_refl in H. inversion H; subst.
  rewrite no_dots_id by auto. cbn [rev app]. now rewrite join_segments.
Qed.
Lemma remove_dots_clean p : (exists r, p = "/"%char :: r) -> Forall no_dot (segments (remove_dots p)).
Proof.
  intros (r & ->). cbn [remove_dots]. rewrite aeq_refl. cbn [segments]. rewrite aeq_refl. constructor; [split; discriminate|]. rewrite segments_join.
  - apply no_dots_clean. constructor.
  - apply no_dots_nonempty. destruct (segments_cons r) as (x & l & ->). discriminate.
  - apply no_dots_forall; [intros []|apply segments_no_slash|constructor].
Qed.

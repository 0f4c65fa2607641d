(** Properties of SplitStyles and InlineStyles. *)
From Verif Require Import Common StrMap StringsModel ColorModel AttributesModel AttributesProofs XsdTables XsdModel XmlSpec XmlSpecProofs.
From Verif Require Import SerializerModel SerializerProofs CoordModel CoordProofs HandlerModel HandlerSpec HandlerProps.
From Verif Require Import DomTables DomModel DomSpec DomProofs DomProofs2 DomParsed DomProps CloneModel CloneProofs MergeModel MergeProofs MergeProps.
From Verif Require Import IdModel IdProofs IdProps StyleModel StyleProofs StylePlain StyleProps SplitModel SplitProofs SplitProofs2 SplitProofs3 SplitProofs4 SplitProofs5.
Local Open Scope N_scope.

(** ** Specification *)
(** [x] is a style with an id, in a Document of [o]. *)
Definition shared_in (o : obj) (id : str) (x : obj) : Prop :=
  exists d, In d (features o) /\ oty d = Type_Document /\ In x (get d Type_StyleSelector) /\ id_of x = Some id.
(** A table of the shared styles: it finds one for each id. *)
Definition style_table (o : obj) (shared : list (str * obj)) : Prop :=
  (forall id x, mget id shared = Some x -> shared_in o id x) /\ (forall id x, shared_in o id x -> exists y, mget id shared = Some y).
(** No two shared styles with the same id. *)
Definition distinct_ids (o : obj) : Prop := forall id x y, shared_in o id x -> shared_in o id y -> x = y.
(** The ids SplitStyles makes up: _0, _1, ... *)
Definition made_up (id : str) : Prop := exists n, id = unique_id n.
(** A style reference into the same file, to such an id. *)
Definition refers_to_made_up (split_uri : str -> option (str * str)) (u : str) : Prop := exists id, made_up id /\ split_uri u = Some ([], id).
(** The same style, but for the attributes of the element. *)
Definition same_look (r r2 : res merger) : Prop :=
  match r, r2 with Ok m, Ok m2 => body (style m) = body (style m2) | UB, UB => True | _, _ => False end.
(** Every feature looks the same before and after. *)
Definition looks_kept (E : env) split_uri fetch (o o' : obj) : Prop := forall shared shared' highlight fuel, (max_urls <= fuel)%nat -> style_table o shared -> style_table o' shared' ->
  Forall2 (fun f f' => oty f' = oty f /\ same_look (resolve_feature E split_uri fetch shared highlight fuel f) (resolve_feature E split_uri fetch shared' highlight fuel f')) (features o) (features o').

(** ** Lemmas *)
Lemma get_slot o k x : In x (get o k) -> exists l, In l (oslots o) /\ In x l.
Proof.
  unfold get. destruct (index_of_key k _ 0) as [i|]; [|contradiction]. intros H. exists (nth i (oslots o) []). split; [|exact H]. apply nth_In.
  destruct (Nat.lt_ge_cases i (length (oslots o))) as [|Hi]; [assumption|]. rewrite nth_overflow in H by exact Hi. destruct H.
Qed.
Lemma refs_get o k x : In x (get o k) -> incl (refs x) (refs o).
Proof. intros H. apply get_slot in H as (l & Hl & Hx). now apply (refs_in o l). Qed.
Lemma features_inside o : forall f, In f (features o) -> incl (refs f) (refs o).
Proof.
  induction o as [ty ka ea tx vec sl mis unk Hsl _] using obj_all. intros f. rewrite features_eq. intros H. apply in_app_or in H as [H|H].
  - destruct (is_a _ _); [|destruct H]. destruct H as [<-|[]]. apply incl_refl.
  - apply in_flat_map in H as (c & Hc & Hf). pose proof (refs_get _ _ _ Hc) as G. apply get_slot in Hc as (l & Hl & Hx). cbn [oslots] in Hl. rewrite Forall_forall in Hsl. specialize (Hsl l Hl). rewrite Forall_forall in Hsl.
    apply (incl_tran (Hsl c Hx f Hf)). exact G.
Qed.
Lemma style_url_get f : style_url f = match get f Type_styleUrl with u :: _ => char_data u | [] => [] end.
Proof. reflexivity. Qed.
Lemma inline_get f : inline_style f = if oty f =? Type_Document then None else match get f Type_StyleSelector with s :: _ => Some s | [] => None end.
Proof. reflexivity. Qed.
Lemma Forall2_left {A B} (P : A -> B -> Prop) l l' a : Forall2 P l l' -> In a l -> exists b, In b l' /\ P a b.
Proof. induction 1 as [|x y l l' H H' IH]; [intros []|]. intros [->|Hin]; [exists y; split; [now left|exact H]|]. destruct (IH Hin) as (b & Hb & K). exists b. split; [now right|exact K]. Qed.
Lemma Forall2_right {A B} (P : A -> B -> Prop) l l' b : Forall2 P l l' -> In b l' -> exists a, In a l /\ P a b.
Proof. induction 1 as [|x y l l' H H' IH]; [intros []|]. intros [->|Hin]; [exists x; split; [now left|exact H]|]. destruct (IH Hin) as (a & Ha & K). exists a. split; [now right|exact K]. Qed.
Lemma Forall2_refine {A B} (P Q : A -> B -> Prop) l l' : Forall2 P l l' -> (forall a b, In a l -> P a b -> Q a b) -> Forall2 Q l l'.
Proof. induction 1 as [|x y l l' H H' IH]; intros G; constructor; [apply G; [now left|exact H]|]. apply IH. intros a b Ha. apply G. now right. Qed.
Lemma kept_shared M A o o' : Forall2 (own M A) (features o) (features o') -> forall id x, shared_in o id x -> shared_in o' id x.
Proof.
  intros H id x (d & Hd & Ht & Hx & Hi). destruct (Forall2_left _ _ _ _ H Hd) as (d' & Hd' & Ho). exists d'. split; [exact Hd'|].
  destruct Ho as [H1 H2 H3 _|H1 H2 H3 H4 H5|j s s2 H1 H2 H3 H4 H5 H6 H7 H8].
  - split; [congruence|]. split; [now rewrite H3|exact Hi].
  - split; [congruence|]. split; [now apply H4|exact Hi].
  - rewrite Ht in H2. discriminate.
Qed.
Lemma shared_kept M A o o' : Forall2 (own M A) (features o) (features o') -> forall id x, shared_in o' id x -> shared_in o id x \/ In x A.
Proof.
  intros H id x (d' & Hd' & Ht & Hx & Hi). destruct (Forall2_right _ _ _ _ H Hd') as (d & Hd & Ho).
  destruct Ho as [H1 H2 H3 _|H1 H2 H3 H4 H5|j s s2 H1 H2 H3 H4 H5 H6 H7 H8].
  - left. exists d. split; [exact Hd|]. split; [congruence|]. split; [now rewrite <- H3|exact Hi].
  - destruct (H5 x Hx) as [G|G]; [left|now right]. exists d. auto.
  - rewrite <- H1, Ht in H2. discriminate.
Qed.
Lemma same_look_like r r2 : like_res r r2 -> match r with Ok _ | UB => True | _ => False end -> same_look r r2.
Proof. destruct r as [m| | |], r2 as [m2| | |]; cbn; try tauto. intros [_ H] _. exact H. Qed.
Lemma result_looks E split_uri fetch o o' : result o o' -> distinct_ids o -> (forall id x, shared_in o id x -> ~ made_up id) ->
  (forall u, In u (refs o) -> ~ refers_to_made_up split_uri u) -> (forall v m id x u, fetch v = Some m -> mget id m = Some x -> In u (refs x) -> ~ refers_to_made_up split_uri u) ->
  (forall n, split_uri (S_ "#" ++ unique_id n) = Some ([], unique_id n)) -> looks_kept E split_uri fetch o o'.
Proof.
  intros (M & A & HF & HM & HA & HD & _) Hdist Hids Hrefs Hfetch Hsp shared shared' h fuel Hfuel [T1 T2] [T1' T2'].
  set (clean := fun u : str => u = [] \/ ~ refers_to_made_up split_uri u).
  assert (Hnil : clean []) by now left.
  assert (Hclean : forall x, incl (refs x) (refs o) -> clean_in clean x) by (intros x Hx u Hu; right; auto).
  assert (Hshared : forall id x, shared_in o id x -> clean_in clean x).
  { intros id x (d & Hd & _ & Hx & _). apply Hclean. apply (incl_tran (refs_get _ _ _ Hx)). now apply features_inside. }
  assert (Hsame : forall u, clean u -> find_style split_uri fetch shared u = find_style split_uri fetch shared' u).
  { intros u [->|Hu]; [reflexivity|]. unfold find_style. destruct u as [|ch u]; [reflexivity|]. destruct (split_uri (ch :: u)) as [[path [|c id]]|] eqn:Es; try reflexivity. destruct path; [|reflexivity].
    assert (Hn : ~ made_up (c :: id)) by (intros G; apply Hu; exists (c :: id); auto).
    assert (Hback : forall x, shared_in o' (c :: id) x -> shared_in o (c :: id) x).
    { intros x Hx. destruct (shared_kept _ _ _ _ HF _ _ Hx) as [G|G]; [exact G|]. exfalso. apply Hn. destruct (HA x G) as (j & Hj & _). destruct Hx as (d & _ & _ & _ & Hi). exists j. congruence. }
    destruct (mget (c :: id) shared) as [x|] eqn:E1, (mget (c :: id) shared') as [y|] eqn:E2; auto.
    - f_equal. apply (Hdist (c :: id)); [now apply T1|apply Hback; now apply T1'].
    - destruct (T2' (c :: id) x) as [y Hy]; [|congruence]. apply (kept_shared _ _ _ _ HF). now apply T1.
    - destruct (T2 (c :: id) y) as [x Hx]; [|congruence]. apply Hback. now apply T1'. }
  assert (Hfound : forall u s, clean u -> find_style split_uri fetch shared u = Some s -> clean_in clean s).
  { intros u s _. unfold find_style. destruct u as [|ch u]; [discriminate|]. destruct (split_uri (ch :: u)) as [[path [|c id]]|] eqn:Es; try discriminate. destruct path; [intros G; apply T1 in G; eapply Hshared; eauto|].
    destruct (fetch (ch :: u)) as [m|] eqn:Ef; [|discriminate]. intros G v Hv. right. eapply Hfetch; eauto. }
  apply (Forall2_refine (own M A)); [exact HF|]. intros f f' Hf Ho. pose proof (features_inside o f Hf) as Hin.
  assert (Hends : match resolve_feature E split_uri fetch shared h fuel f with Ok _ | UB => True | _ => False end).
  { pose proof (resolve_terminates E split_uri fetch shared h fuel (style_url f) (inline_style f) Hfuel) as [_ G]. unfold resolve_feature. destruct (resolve _ _ _ _ _ _ _ _); auto. }
  assert (Hu : clean (style_url f)) by (destruct (refs_url f) as [->|G]; [now left|right; apply Hrefs; now apply Hin]).
  assert (Hi : forall s, inline_style f = Some s -> clean_in clean s).
  { intros s Hs. rewrite inline_get in Hs. destruct (oty f =? Type_Document); [discriminate|]. destruct (get f Type_StyleSelector) as [|x l] eqn:Eg; [discriminate|]. injection Hs as ->. apply Hclean. apply (incl_tran (refs_get f Type_StyleSelector s ltac:(rewrite Eg; now left))). exact Hin. }
  assert (Hkept : oty f' = oty f -> get f' gU = get f gU -> inline_style f' = inline_style f -> oty f' = oty f /\ same_look (resolve_feature E split_uri fetch shared h fuel f) (resolve_feature E split_uri fetch shared' h fuel f')).
  { intros H1 H2 H3. split; [exact H1|]. apply same_look_like; [|exact Hends]. unfold resolve_feature. replace (style_url f') with (style_url f) by (rewrite !style_url_get; now rewrite H2). rewrite H3.
    apply (resolve_like E h clean Hnil split_uri split_uri fetch fetch shared shared' Hsame Hfound); auto. destruct (inline_style f); auto. }
  destruct Ho as [H1 H2 H3 _|H1 H2 H3 H4 H5|j s s2 H1 H2 H3 H4 H5 H6 H7 H8].
  - apply Hkept; auto. rewrite !inline_get, H1, H3. reflexivity.
  - apply Hkept; auto. rewrite !inline_get, H1, H2. reflexivity.
  - split; [exact H1|]. apply same_look_like; [|exact Hends]. unfold resolve_feature.
    assert (Hnd : (oty f =? Type_Document) = false) by (apply N.eqb_neq; intros G; rewrite G in H2; discriminate).
    assert (inline_style f' = None) as -> by (rewrite inline_get, H1, Hnd, H5; reflexivity). assert (I1 : inline_style f = Some s) by (rewrite inline_get, Hnd, H4; reflexivity). rewrite I1.
    assert (style_url f = []) as -> by (rewrite style_url_get, H3; reflexivity). assert (style_url f' = S_ "#" ++ unique_id j) as -> by (rewrite style_url_get, H6; reflexivity).
    apply (inline_like E h clean Hnil split_uri split_uri fetch fetch shared shared' Hsame Hfound) with (s2 := s2); auto.
    assert (Hfind : find_style split_uri fetch shared' (S_ "#" ++ unique_id j) = mget (unique_id j) shared').
    { unfold find_style. rewrite Hsp. reflexivity. }
    rewrite Hfind.
    destruct (HM _ _ H7) as [HinA Hid]. destruct (HD s2 HinA) as (d & Hd & Htd & Hxd).
    destruct (T2' (unique_id j) s2) as [y Hy]; [exists d; auto|]. rewrite Hy. f_equal.
    destruct (shared_kept _ _ _ _ HF _ _ (T1' _ _ Hy)) as [G|G]; [exfalso; apply (Hids _ _ G); now exists j|].
    destruct (HA y G) as (i & Hyi & Hmi). apply T1' in Hy as (d2 & _ & _ & _ & Hyj). congruence.
Qed.

(** C32. SplitStyles keeps the look of every feature of a file of one Document if: the shared styles have
    different ids; neither they nor any reference in the document use an id of the form _0, _1, ...; and in
    every feature (neat) the first style or style reference is a reference, or there is one style without an id and no
    reference.  neat also asks that styles and references contain no features, that the elements of the style are good (MergeProofs.v:
    MergeElements copies them), and that an Update contains no Update. *)
Theorem split_preserves : forall E split_uri fetch n o o', one_document E n -> build E n = Ok o -> split_styles E n = Ok o' ->
  distinct_ids o -> (forall id x, shared_in o id x -> ~ made_up id) -> (forall u, In u (refs o) -> ~ refers_to_made_up split_uri u) ->
  (forall v m id x u, fetch v = Some m -> mget id m = Some x -> In u (refs x) -> ~ refers_to_made_up split_uri u) ->
  (forall k, split_uri (S_ "#" ++ unique_id k) = Some ([], unique_id k)) -> looks_kept E split_uri fetch o o'.
Proof. intros E sp fe n o o' H1 H2 H3 H4 H5 H6 H7 H8. apply result_looks; auto. now apply (split_result E n). Qed.
Print Assumptions split_preserves.

(** Every style is split off: a feature which is left with a style has a reference as well.  (Less than 2^32 styles: after that the
    ids are used up.) *)
Definition shared_list (o : obj) : list obj := flat_map (fun d => if oty d =? Type_Document then get d Type_StyleSelector else []) (features o).
Theorem split_complete : forall E n o o', one_document E n -> build E n = Ok o -> split_styles E n = Ok o' -> N.of_nat (length (shared_list o')) < 2 ^ 32 ->
  forall f, In f (features o') -> oty f <> Type_Document -> get f Type_styleUrl = [] -> get f Type_StyleSelector = [].
Proof.
  intros E n o o' H1 H2 H3 Hlen f' Hf Hd Hu. destruct (split_result E n o o' H1 H2 H3) as (M & A & HF & _ & _ & HD & HI). destruct (Forall2_right _ _ _ _ HF Hf) as (f & _ & Ho).
  assert (HA : (length A <= length (shared_list o'))%nat).
  { apply NoDup_incl_length.
    - apply NoDup_nth_error. intros i j Hi Hij. destruct (nth_error A i) as [x|] eqn:Ei; [|now apply nth_error_Some in Hi]. symmetry in Hij. pose proof (HI _ _ Ei) as G1. pose proof (HI _ _ Hij) as G2. rewrite G1 in G2. apply some_id_inj in G2. lia.
    - intros x Hx. destruct (HD x Hx) as (d & D1 & D2 & D3). apply in_flat_map. exists d. rewrite D2. auto. }
  destruct Ho as [K1 K2 K3 K4|K1 K2 K3 K4 K5|j s s2 K1 K2 K3 K4 K5 K6 K7 K8]; [|congruence|exact K5]. destruct K4 as [G|[G|[G|G]]]; [|congruence|congruence|lia].
  exfalso. apply Hd. rewrite K1. pose proof (is_a_check (oty f) Type_Document (fun c => c =? Type_Document) G) as E1. cbv beta in E1. apply N.eqb_eq, E1. vm_compute. reflexivity.
Qed.
Print Assumptions split_complete.
(** A table of the shared styles as files keep it: the last style of an id. *)
Definition table (l : list obj) : list (str * obj) := fold_left (fun m x => match id_of x with Some i => mset i x m | None => m end) l [].
Lemma shared_list_in o id x : shared_in o id x <-> In x (shared_list o) /\ id_of x = Some id.
Proof.
  unfold shared_in, shared_list. split.
  - intros (d & Hd & Ht & Hx & Hi). split; [|exact Hi]. apply in_flat_map. exists d. rewrite Ht. auto.
  - intros [H Hi]. apply in_flat_map in H as (d & Hd & Hx). destruct (oty d =? Type_Document) eqn:E1; [|destruct Hx]. apply N.eqb_eq in E1. exists d. auto.
Qed.
Lemma table_ok o : style_table o (table (shared_list o)).
Proof.
  assert (G : forall l m, msorted m -> let t := fold_left (fun m x => match id_of x with Some i => mset i x m | None => m end) l m in
    (forall id x, mget id t = Some x -> mget id m = Some x \/ (In x l /\ id_of x = Some id)) /\ (forall id x, In x l -> id_of x = Some id -> exists y, mget id t = Some y) /\ (forall id x, mget id m = Some x -> exists y, mget id t = Some y)).
  { induction l as [|a l IH]; intros m Hm t; [cbn in t; split; [auto|split; [contradiction|eauto]]|].
    cbn [fold_left] in t. set (m1 := match id_of a with Some i => mset i a m | None => m end) in t.
    assert (Hm1 : msorted m1) by (unfold m1; destruct (id_of a); [now apply mset_sorted|exact Hm]). destruct (IH m1 Hm1) as (G1 & G2 & G3). fold t in G1, G2, G3.
    assert (K : forall id, mget id m1 = match id_of a with Some i => if eqs id i then Some a else mget id m | None => mget id m end) by (intros id; unfold m1; destruct (id_of a); [now rewrite mget_mset|reflexivity]).
    split; [|split].
    - intros id x Hx. destruct (G1 id x Hx) as [H|[H1 H2]]; [|right; split; [now right|exact H2]]. rewrite K in H. destruct (id_of a) as [i|] eqn:Ei; [|now left]. destruct (eqs id i) eqn:Ee; [|now left].
      injection H as <-. apply eqs_spec in Ee. subst. right. split; [now left|exact Ei].
    - intros id x [->|Hx] Hi; [|now apply (G2 id x)]. apply (G3 id x). rewrite K, Hi, eqs_refl. reflexivity.
    - intros id x Hx. destruct (id_of a) as [i|] eqn:Ei; [|apply (G3 id x); rewrite K; exact Hx]. destruct (eqs id i) eqn:Ee; [apply (G3 id a)|apply (G3 id x)]; rewrite K, Ee; auto. }
  destruct (G (shared_list o) [] msorted_nil) as (G1 & G2 & _). split.
  - intros id x Hx. destruct (G1 id x Hx) as [H|H]; [discriminate|]. now apply shared_list_in.
  - intros id x Hx. apply shared_list_in in Hx as [H1 H2]. exact (G2 id x H1 H2).
Qed.

(** Checking the hypotheses on an example. *)
Fixpoint first_child (log : list entry) : option (list entry * node * list entry) :=
  match log with [] => None | LChild c :: r => Some ([], c, r) | e :: r => match first_child r with Some (a, c, b) => Some (e :: a, c, b) | None => None end end.
Lemma first_child_spec log a c b : first_child log = Some (a, c, b) -> log = a ++ LChild c :: b /\ childless a = true.
Proof.
  revert a. induction log as [|e r IH]; intros a; cbn [first_child]; [discriminate|].
  destruct e as [x|x|x|x|u sd]; [intros H; inversion H; subst; auto|..]; destruct (first_child r) as [[[a' c'] b']|]; try discriminate; intros H; inversion H; subst; destruct (IH a' eq_refl) as [-> G]; auto.
Qed.
Definition one_documentb (E : env) (n : node) : bool :=
  let 'Node ty _ _ log := n in
  if ty =? Type_Document then neat E n
  else (ty =? Type_kml) && match first_child log with Some (a, c, b) => (nty c =? Type_Document) && childless b && neat E c | None => false end.
Lemma one_documentb_spec E n : one_documentb E n = true -> one_document E n.
Proof.
  destruct n as [ty a cd log]. unfold one_documentb. destruct (ty =? Type_Document) eqn:E1; [apply N.eqb_eq in E1; subst; now apply bare_document|].
  rewrite andb_true_iff, N.eqb_eq. intros [-> H]. destruct (first_child log) as [[[p c] q]|] eqn:E2; [|discriminate]. apply first_child_spec in E2 as [-> Hp]. rewrite !andb_true_iff, N.eqb_eq in H. destruct H as ((H1 & H2) & H3).
  destruct c as [t da dcd dlog]. cbn [nty] in H1. subst t. now apply kml_document.
Qed.
Definition starts_made_up (u : str) : bool := match split0 u with Some ([], c :: _) => aeq c "_"%char | _ => false end.
Lemma starts_made_up_spec u : starts_made_up u = false -> ~ refers_to_made_up split0 u.
Proof. unfold starts_made_up. intros H (id & (k & ->) & Hs). rewrite Hs in H. cbn in H. discriminate. Qed.
Fixpoint uniq (l : list (option str)) : bool :=
  match l with [] => true | None :: r => uniq r | Some i :: r => forallb (fun x => match x with Some j => negb (eqs i j) | None => true end) r && uniq r end.
Lemma uniq_spec (l : list obj) : uniq (map id_of l) = true -> forall id x y, In x l -> In y l -> id_of x = Some id -> id_of y = Some id -> x = y.
Proof.
  induction l as [|a l IH]; [intros _ id x y []|]. cbn [map uniq]. intros H id x y.
  assert (G : forall z, In z l -> id_of a = Some id -> id_of z = Some id -> False).
  { intros z Hz Ha Hzi. rewrite Ha in H. apply andb_true_iff in H as [H _]. rewrite forallb_forall in H. specialize (H (id_of z) (in_map id_of l z Hz)). rewrite Hzi, eqs_refl in H. discriminate. }
  assert (K : uniq (map id_of l) = true) by (destruct (id_of a); [apply andb_true_iff in H; tauto|exact H]).
  intros [->|Hx] [->|Hy] H1 H2; auto; [destruct (G y)|destruct (G x)|apply (IH K id)]; auto.
Qed.
Lemma split0_hash x : split0 (S_ "#" ++ x) = Some ([], x).
Proof. reflexivity. Qed.
Definition node_of_text (s : str) : node := match parse_text [] s with Ok (Some n) => n | _ => Node 0 None [] [] end.
Definition made_from (n : node) : obj := match build E0 n with Ok o => o | _ => create 0 end.
Definition split_from (n : node) : obj := match split_styles E0 n with Ok o => o | _ => create 0 end.
(** The styles of all features, written. *)
Definition looks (o : obj) : list (option str) := map (resolved false (table (shared_list o))) (features o).
Definition sample : node := node_of_text (S_ "<kml><Document><name>d</name><Style id=""a""><PolyStyle><fill>0</fill></PolyStyle></Style><Placemark><Style><LineStyle><width>1</width></LineStyle></Style></Placemark><Folder><Placemark><StyleMap><Pair><key>normal</key><styleUrl>#a</styleUrl></Pair></StyleMap></Placemark><Placemark><styleUrl>#a</styleUrl><Style id=""x""><LineStyle><width>2</width></LineStyle></Style></Placemark></Folder></Document></kml>").
Example split_sample : one_document E0 sample /\ build E0 sample = Ok (made_from sample) /\ split_styles E0 sample = Ok (split_from sample) /\ distinct_ids (made_from sample) /\
  (forall id x, shared_in (made_from sample) id x -> ~ made_up id) /\ (forall u, In u (refs (made_from sample)) -> ~ refers_to_made_up split0 u) /\
  looks (split_from sample) = [Some (S_ "<Style/>"); Some (S_ "<Style id=""_0""><LineStyle><width>1</width></LineStyle></Style>"); Some (S_ "<Style/>"); Some (S_ "<Style id=""a""><PolyStyle><fill>0</fill></PolyStyle></Style>"); Some (S_ "<Style id=""x""><LineStyle><width>2</width></LineStyle><PolyStyle><fill>0</fill></PolyStyle></Style>")].
Proof.
  split; [apply one_documentb_spec; vm_compute; reflexivity|]. split; [vm_compute; reflexivity|]. split; [vm_compute; reflexivity|].
  assert (H1 : uniq (map id_of (shared_list (made_from sample))) = true) by (vm_compute; reflexivity).
  assert (H2 : forallb (fun x => match id_of x with Some (c :: _) => negb (aeq c "_"%char) | _ => true end) (shared_list (made_from sample)) = true) by (vm_compute; reflexivity).
  assert (H3 : forallb (fun u => negb (starts_made_up u)) (refs (made_from sample)) = true) by (vm_compute; reflexivity).
  assert (H4 : looks (split_from sample) = [Some (S_ "<Style/>"); Some (S_ "<Style id=""_0""><LineStyle><width>1</width></LineStyle></Style>"); Some (S_ "<Style/>"); Some (S_ "<Style id=""a""><PolyStyle><fill>0</fill></PolyStyle></Style>"); Some (S_ "<Style id=""x""><LineStyle><width>2</width></LineStyle><PolyStyle><fill>0</fill></PolyStyle></Style>")]) by (vm_compute; reflexivity).
  revert H1 H2 H3 H4. generalize (made_from sample) as o. generalize (split_from sample) as o'. intros o' o H1 H2 H3 H4. split; [|split; [|split; [|exact H4]]].
  - intros id x y Hx Hy. apply shared_list_in in Hx as [Hx Ix], Hy as [Hy Iy]. now apply (uniq_spec _ H1 id).
  - intros id x Hx [k ->]. apply shared_list_in in Hx as [Hx Ix]. rewrite forallb_forall in H2. specialize (H2 x Hx). rewrite Ix in H2. discriminate.
  - intros u Hu. apply starts_made_up_spec. rewrite forallb_forall in H3. specialize (H3 u Hu). now apply negb_true_iff.
Qed.

(** The conditions are needed. *)
Definition counts (r : res merger) : list nat := match r with Ok m => map (@length obj) (oslots (style m)) | _ => [] end.
Definition all_counts (o : obj) : list (list nat) := map (fun f => counts (resolve_feature E0 split0 no_fetch (table (shared_list o)) false max_urls f)) (features o).
Lemma looks_counts_list (g g' : obj -> res merger) l l' : Forall2 (fun f f' => oty f' = oty f /\ same_look (g f) (g' f')) l l' -> map (fun f => counts (g f)) l = map (fun f => counts (g' f)) l'.
Proof.
  induction 1 as [|f f' l l' [_ Hf] Hl IH]; [reflexivity|]. cbn [map]. rewrite IH. f_equal. unfold same_look in Hf. unfold counts. destruct (g f), (g' f'); try contradiction; auto. now rewrite (body_slots _ _ Hf).
Qed.
Lemma looks_counts o o' : looks_kept E0 split0 no_fetch o o' -> all_counts o = all_counts o'.
Proof. intros H. exact (looks_counts_list _ _ _ _ (H _ _ false max_urls (le_n _) (table_ok o) (table_ok o'))). Qed.
Definition breaks (n : node) : Prop := exists o o', build E0 n = Ok o /\ split_styles E0 n = Ok o' /\ ~ looks_kept E0 split0 no_fetch o o'.
Fixpoint same_counts (a b : list (list nat)) : bool :=
  match a, b with [], [] => true | x :: a, y :: b => (if list_eq_dec Nat.eq_dec x y then true else false) && same_counts a b | _, _ => false end.
Lemma same_counts_refl a : same_counts a a = true.
Proof. induction a as [|x a IH]; [reflexivity|]. cbn [same_counts]. destruct (list_eq_dec Nat.eq_dec x x); [exact IH|contradiction]. Qed.
Lemma breaks_spec n : match build E0 n, split_styles E0 n with Ok o, Ok o' => same_counts (all_counts o) (all_counts o') | _, _ => true end = false -> breaks n.
Proof.
  unfold breaks. destruct (build E0 n) as [o| | |], (split_styles E0 n) as [o'| | |]; try discriminate. intros H. exists o, o'. split; [reflexivity|]. split; [reflexivity|]. intros K. apply looks_counts in K. rewrite K, same_counts_refl in H. discriminate.
Qed.
Ltac broken := apply breaks_spec; vm_compute; reflexivity.
(** An inline style with an id: the reference is to a made up id, the style keeps its own. *)
Theorem split_own_id_refuted : breaks (node_of_text (S_ "<Document><Placemark><Style id=""s""><LineStyle><width>1</width></LineStyle></Style></Placemark></Document>")).
Proof. broken. Qed.
Print Assumptions split_own_id_refuted.
(** A shared style with the id _0. *)
Theorem split_used_id_refuted : breaks (node_of_text (S_ "<Document><Style id=""_0""><PolyStyle><fill>0</fill></PolyStyle></Style><Placemark><styleUrl>#_0</styleUrl></Placemark><Placemark><Style><LineStyle><width>1</width></LineStyle></Style></Placemark></Document>")).
Proof. broken. Qed.
Print Assumptions split_used_id_refuted.
(** A reference to _0, which does not exist. *)
Theorem split_dangling_refuted : breaks (node_of_text (S_ "<Document><Placemark><styleUrl>#_0</styleUrl></Placemark><Placemark><Style><LineStyle><width>1</width></LineStyle></Style></Placemark></Document>")).
Proof. broken. Qed.
Print Assumptions split_dangling_refuted.
(** A style before the style reference of a feature. *)
Theorem split_late_reference_refuted : breaks (node_of_text (S_ "<Document><Style id=""a""><PolyStyle><fill>0</fill></PolyStyle></Style><Placemark><Style><LineStyle><width>1</width></LineStyle></Style><styleUrl>#a</styleUrl></Placemark></Document>")).
Proof. broken. Qed.
Print Assumptions split_late_reference_refuted.
(** Two styles in a feature. *)
Theorem split_two_styles_refuted : breaks (node_of_text (S_ "<Document><Placemark><Style><LineStyle><width>1</width></LineStyle></Style><Style><PolyStyle><fill>0</fill></PolyStyle></Style></Placemark></Document>")).
Proof. broken. Qed.
Print Assumptions split_two_styles_refuted.

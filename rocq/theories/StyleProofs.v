(** Proofs about StyleModel.v. *)
From Verif Require Import Common StrMap AttributesModel AttributesProofs XsdTables XsdModel XmlSpec HandlerModel.
From Verif Require Import DomTables DomModel DomSpec DomProofs DomProofs2 DomParsed CloneModel CloneProofs MergeModel MergeProofs IdModel IdProofs StyleModel.
Local Open Scope N_scope.

Lemma pick_map {A B} (f : A -> B) c sl k : pick c (map (map f) sl) k = map f (pick c sl k).
Proof. unfold pick. destruct (index_of_key k (c_slots c) 0); [|reflexivity]. apply nth_map_default. Qed.
Lemma selector_map {A B} (f : A -> B) ty sl : selector ty (map (map f) sl) = option_map f (selector ty sl).
Proof. unfold selector. rewrite pick_map. now destruct (pick (cls ty) sl Type_StyleSelector). Qed.
Lemma pick_in {A} c (sl : list (list A)) k x : In x (pick c sl k) -> exists l, In l sl /\ In x l.
Proof.
  unfold pick. destruct (index_of_key k (c_slots c) 0) as [i|]; [|intros []]. intros H. exists (nth i sl []). split; [|exact H].
  destruct (nth_in_or_default i sl []) as [Hi|Hi]; [exact Hi|]. rewrite Hi in H. destruct H.
Qed.
Lemma selector_in {A} ty (sl : list (list A)) x : selector ty sl = Some x -> exists l, In l sl /\ In x l.
Proof. unfold selector. destruct (pick (cls ty) sl Type_StyleSelector) eqn:E; [discriminate|]. intros H. inversion H; subst. apply (pick_in (cls ty) sl Type_StyleSelector). rewrite E. now left. Qed.

Definition pairs (s : obj) : list obj := pick (cls (oty s)) (oslots s) Type_Pair.
Definition own_selector (o : obj) : option obj := selector (oty o) (oslots o).
Section Eq.
  Variables (E : env) (highlight : bool) (url : str -> merger -> res merger).
  Definition pair_do (p : obj) (m : merger) : res merger :=
    if Bool.eqb (highlights p) highlight then
      do m' <- url (style_url p) m; match own_selector p with Some c => select E highlight url c m' | None => Ok m' end
    else Ok m.
  Lemma select_eq s m : select E highlight url s m =
    if oty s =? Type_Style then merge_in E s m
    else if oty s =? Type_StyleMap then run_all (map pair_do (pairs s)) m else Ok m.
  Proof.
    destruct s as [ty ka ea tx vec sl mis unk]. cbn [select oty]. destruct (ty =? Type_Style); [reflexivity|]. destruct (ty =? Type_StyleMap); [|reflexivity].
    rewrite pick_map. unfold pairs. cbn [oty oslots]. induction (pick (cls ty) sl Type_Pair) as [|p l IH] in m |- *; [reflexivity|]. cbn [map run_all].
    destruct p as [pt pa pe px pv psl pm pu]. rewrite selector_map. unfold pair_do at 1, own_selector. cbn [oty oslots].
    destruct (Bool.eqb _ highlight); cbn [bind]; [|apply IH]. destruct (url _ m) as [m'| | |]; cbn [bind]; auto.
    destruct (selector pt psl) as [c|]; cbn [option_map bind]; [|apply IH]. destruct (select E highlight url c m'); cbn [bind]; auto.
  Qed.
End Eq.
(** Induction over selectors. *)
Lemma selector_ind (P : obj -> Prop) : (forall s, (forall p c, In p (pairs s) -> own_selector p = Some c -> P c) -> P s) -> forall s, P s.
Proof.
  intros H. assert (G : forall s, P s /\ (forall c, own_selector s = Some c -> P c)).
  { induction s as [ty ka ea tx vec sl mis unk Hsl _] using obj_all. rewrite Forall_forall in Hsl.
    assert (Hc : forall l c, In l sl -> In c l -> P c /\ (forall c', own_selector c = Some c' -> P c')) by (intros l c Hl; specialize (Hsl l Hl); rewrite Forall_forall in Hsl; apply Hsl).
    split.
    - apply H. intros p c Hp Hc'. unfold pairs in Hp. cbn [oty oslots] in Hp. apply pick_in in Hp as (l & Hl & Hp). exact (proj2 (Hc l p Hl Hp) c Hc').
    - intros c Hc'. unfold own_selector in Hc'. cbn [oty oslots] in Hc'. apply selector_in in Hc' as (l & Hl & Hin). exact (proj1 (Hc l c Hl Hin)). }
  intros s. apply G.
Qed.

(** ** It ends *)
(** [f] gives a result or is undefined; nothing but style URLs is counted. *)
Definition ends (f : merger -> res merger) (b : nat) : Prop := forall m, (budget m <= b)%nat ->
  match f m with
  | Ok m' => (length (followed m') + budget m' = length (followed m) + budget m /\ budget m' <= budget m)%nat
  | UB => True
  | _ => False
  end.
Definition agree (f g : merger -> res merger) (b : nat) : Prop := forall m, (budget m <= b)%nat -> f m = g m.
Section Ends.
  Variables (E : env) (highlight : bool) (url1 url2 : str -> merger -> res merger) (b : nat).
  Hypothesis H1 : forall u, ends (url1 u) b.
  Hypothesis H2 : forall u, agree (url1 u) (url2 u) b.
  Lemma run_all_ends l : Forall (fun f => ends f b) l -> ends (run_all l) b.
  Proof.
    induction 1 as [|f l Hf Hl IH]; intros m Hm; cbn [run_all]; [auto|]. specialize (Hf m Hm). destruct (f m) as [m'| | |]; cbn [bind]; auto.
    assert (Hm' : (budget m' <= b)%nat) by lia. specialize (IH m' Hm'). destruct (run_all l m'); auto. lia.
  Qed.
  Lemma run_all_agree {A} (f g : A -> merger -> res merger) l : (forall x, In x l -> ends (f x) b) -> (forall x, In x l -> agree (f x) (g x) b) -> agree (run_all (map f l)) (run_all (map g l)) b.
  Proof.
    induction l as [|x l IH]; intros He Ha m Hm; cbn [map run_all]; [reflexivity|]. rewrite <- (Ha x (or_introl eq_refl) m Hm). pose proof (He x (or_introl eq_refl) m Hm) as Hx. destruct (f x m) as [m'| | |]; cbn [bind]; auto.
    apply IH; [intros y Hy; apply He; now right|intros y Hy; apply Ha; now right|lia].
  Qed.
  Lemma select_ends s : ends (select E highlight url1 s) b /\ agree (select E highlight url1 s) (select E highlight url2 s) b.
  Proof.
    induction s as [s IH] using selector_ind.
    assert (Hp : forall p, In p (pairs s) -> ends (pair_do E highlight url1 p) b /\ agree (pair_do E highlight url1 p) (pair_do E highlight url2 p) b).
    { intros p Hin. split; intros m Hm; unfold pair_do; destruct (Bool.eqb (highlights p) highlight); try reflexivity; [|now split| ].
      - pose proof (H1 (style_url p) m Hm) as Hu. destruct (url1 (style_url p) m) as [m'| | |]; cbn [bind]; auto. destruct (own_selector p) as [c|] eqn:Ec; [|exact Hu].
        destruct (IH p c Hin Ec) as [He _]. specialize (He m' ltac:(lia)). destruct (select E highlight url1 c m'); auto. lia.
      - rewrite <- (H2 (style_url p) m Hm). pose proof (H1 (style_url p) m Hm) as Hu. destruct (url1 (style_url p) m) as [m'| | |]; cbn [bind]; auto. destruct (own_selector p) as [c|] eqn:Ec; [|reflexivity].
        destruct (IH p c Hin Ec) as [_ Ha]. apply Ha. lia. }
    split; intros m Hm; rewrite !select_eq.
    - destruct (oty s =? Type_Style). { unfold merge_in. destruct (merge E s (style m)); [|exact I]. cbn [with_style followed budget]. lia. }
      destruct (oty s =? Type_StyleMap); [|lia]. apply run_all_ends; [|exact Hm]. apply Forall_forall. intros f Hf. apply in_map_iff in Hf as (p & <- & Hin). now apply Hp.
    - destruct (oty s =? Type_Style); [reflexivity|]. destruct (oty s =? Type_StyleMap); [|reflexivity]. apply run_all_agree; auto; intros p Hin; now apply Hp.
  Qed.
End Ends.
Section Url.
  Variables (E : env) (split_uri : str -> option (str * str)) (fetch : str -> option (list (str * obj))) (shared : list (str * obj)) (highlight : bool).
  Let go := merge_url E split_uri fetch shared highlight.
  Lemma url_ends fuel : forall b u, (b <= fuel)%nat -> ends (go fuel u) b /\ forall fuel2, (b <= fuel2)%nat -> agree (go fuel u) (go fuel2 u) b.
  Proof.
    induction fuel as [|fuel IH]; intros b u Hb.
    - assert (b = 0)%nat by lia. subst b. split.
      + intros m Hm. unfold go. cbn [merge_url]. destruct (budget m) eqn:Eb; [rewrite Eb; auto|lia].
      + intros fuel2 _ m Hm. unfold go. destruct fuel2; cbn [merge_url]; destruct (budget m) eqn:Eb; auto; lia.
    - assert (Hsel : forall s, ends (select E highlight (go fuel) s) (b - 1) /\ forall fuel2, (b - 1 <= fuel2)%nat -> agree (select E highlight (go fuel) s) (select E highlight (go fuel2) s) (b - 1)).
      { intros s. split; [|intros fuel2 H2].
        - apply (select_ends E highlight (go fuel) (go fuel) (b - 1)); [intros u'; apply IH; lia|intros u' m _; reflexivity].
        - apply (select_ends E highlight (go fuel) (go fuel2) (b - 1)); intros u'; apply IH; lia. }
      split.
      + intros m Hm. unfold go. cbn [merge_url]. destruct (budget m) as [|k] eqn:Ek; [lia|]. destruct (find_style split_uri fetch shared u) as [s|].
        * pose proof (proj1 (Hsel s)) as Hs. specialize (Hs {| budget := k; followed := followed m ++ [u]; style := style m |}). cbn [budget followed] in Hs. specialize (Hs ltac:(lia)).
          unfold go in Hs. destruct (select E highlight _ s _) as [m'| | |]; auto. rewrite app_length in Hs. cbn [length] in Hs. lia.
        * cbn [followed budget]. rewrite app_length. cbn [length]. lia.
      + intros fuel2 H2 m Hm. unfold go. destruct fuel2 as [|fuel2]; cbn [merge_url]; destruct (budget m) as [|k] eqn:Ek; auto; [lia|].
        destruct (find_style split_uri fetch shared u) as [s|]; [|reflexivity]. apply (proj2 (Hsel s)); cbn [budget]; lia.
  Qed.
  (** The result of a StyleMerger whatever the depth of calls allowed, and the number of style URLs followed. *)
  Lemma resolve_ends fuel u s : (max_urls <= fuel)%nat ->
    match resolve E split_uri fetch shared highlight fuel u s with Ok m => (length (followed m) <= max_urls)%nat | UB => True | _ => False end /\
    resolve E split_uri fetch shared highlight fuel u s = resolve E split_uri fetch shared highlight max_urls u s.
  Proof.
    intros Hf. unfold resolve. destruct (url_ends fuel max_urls u Hf) as [He Ha]. specialize (Ha max_urls (le_n _) (fresh max_urls) (le_n _)). specialize (He (fresh max_urls) (le_n _)). unfold go in He, Ha. rewrite <- Ha.
    destruct (merge_url E split_uri fetch shared highlight fuel u (fresh max_urls)) as [m| | |]; cbn [bind]; auto. cbn [fresh followed budget length] in He. destruct s as [s|]; [|split; [lia|reflexivity]].
    assert (Hs : ends (select E highlight (go fuel) s) max_urls /\ agree (select E highlight (go fuel) s) (select E highlight (go max_urls) s) max_urls).
    { apply select_ends; intros u'; apply url_ends; auto. }
    destruct Hs as [Hs1 Hs2]. specialize (Hs1 m ltac:(lia)). split.
    - unfold go in Hs1. destruct (select E highlight _ s m); auto. lia.
    - apply Hs2. lia.
  Qed.
End Url.

(** ** Which styles apply, in which order, and how many style URLs lead to them, without a limit *)
Section Layers.
  Variables (find : str -> option obj) (highlight : bool).
  Inductive from_url : str -> list obj -> nat -> Prop :=
  | url_none u : find u = None -> from_url u [] 1
  | url_some u s L n : find u = Some s -> from_selector s L n -> from_url u L (S n)
  with from_selector : obj -> list obj -> nat -> Prop :=
  | sel_style s : oty s = Type_Style -> from_selector s [s] 0
  | sel_map s L n : oty s = Type_StyleMap -> from_pairs (pairs s) L n -> from_selector s L n
  with from_pairs : list obj -> list obj -> nat -> Prop :=
  | pairs_nil : from_pairs [] [] 0
  | pairs_other p r L n : highlights p <> highlight -> from_pairs r L n -> from_pairs (p :: r) L n
  | pairs_here p r L1 n1 L2 n2 L3 n3 : highlights p = highlight -> from_url (style_url p) L1 n1 -> from_own (own_selector p) L2 n2 -> from_pairs r L3 n3 ->
      from_pairs (p :: r) (L1 ++ L2 ++ L3) (n1 + n2 + n3)
  with from_own : option obj -> list obj -> nat -> Prop :=
  | own_none : from_own None [] 0
  | own_some s L n : from_selector s L n -> from_own (Some s) L n.
End Layers.
Scheme from_url_ind' := Induction for from_url Sort Prop
  with from_selector_ind' := Induction for from_selector Sort Prop
  with from_pairs_ind' := Induction for from_pairs Sort Prop
  with from_own_ind' := Induction for from_own Sort Prop.
Combined Scheme layers_ind from from_url_ind', from_selector_ind', from_pairs_ind', from_own_ind'.
(** The styles merged one over the other. *)
Definition merges (E : env) (L : list obj) (t : obj) : option obj := fold_left (fun t s => match t with Some t => merge E s t | None => None end) L (Some t).
Lemma merges_none E L : fold_left (fun t s => match t with Some t => merge E s t | None => None end) L None = None.
Proof. induction L; auto. Qed.
Lemma merges_app E L1 L2 t : merges E (L1 ++ L2) t = match merges E L1 t with Some t' => merges E L2 t' | None => None end.
Proof. unfold merges. rewrite fold_left_app. destruct (fold_left _ L1 (Some t)); [reflexivity|]. apply merges_none. Qed.
Section Follow.
  Variables (E : env) (split_uri : str -> option (str * str)) (fetch : str -> option (list (str * obj))) (shared : list (str * obj)) (highlight : bool).
  Let go := merge_url E split_uri fetch shared highlight.
  Definition does (f : nat -> merger -> res merger) (L : list obj) (n : nat) : Prop := forall fuel m r, (n <= budget m)%nat -> (budget m <= fuel)%nat -> merges E L (style m) = Some r ->
    exists m', f fuel m = Ok m' /\ style m' = r /\ (budget m' + n = budget m)%nat.
  Lemma layers_followed :
    (forall u L n, from_url (find_style split_uri fetch shared) highlight u L n -> does (fun fuel => go fuel u) L n) /\
    (forall s L n, from_selector (find_style split_uri fetch shared) highlight s L n -> does (fun fuel => select E highlight (go fuel) s) L n) /\
    (forall l L n, from_pairs (find_style split_uri fetch shared) highlight l L n -> does (fun fuel => run_all (map (pair_do E highlight (go fuel)) l)) L n) /\
    (forall o L n, from_own (find_style split_uri fetch shared) highlight o L n ->
       does (fun fuel m => match o with Some c => select E highlight (go fuel) c m | None => Ok m end) L n).
  Proof.
    apply layers_ind.
    - intros u Hu fuel m r Hn Hf Hm. inversion Hm; subst r. unfold go. destruct fuel as [|fuel]; [lia|]. cbn [merge_url]. destruct (budget m) as [|b] eqn:Eb; [lia|]. rewrite Hu.
      eexists. split; [reflexivity|]. cbn [style budget]. split; [reflexivity|lia].
    - intros u s L n Hu _ IH fuel m r Hn Hf Hm. unfold go. destruct fuel as [|fuel]; [lia|]. cbn [merge_url]. destruct (budget m) as [|b] eqn:Eb; [lia|]. rewrite Hu.
      destruct (IH fuel {| budget := b; followed := followed m ++ [u]; style := style m |} r) as (m' & H1 & H2 & H3); cbn [budget style] in *; try lia; auto. exists m'. split; [exact H1|]. split; [exact H2|lia].
    - intros s Hs fuel m r Hn Hf Hm. rewrite select_eq, Hs. rewrite N.eqb_refl. unfold merge_in. unfold merges in Hm. cbn [fold_left] in Hm. rewrite Hm. eexists. split; [reflexivity|]. split; [reflexivity|]. cbn [with_style budget]. lia.
    - intros s L n Hs _ IH fuel m r Hn Hf Hm. rewrite select_eq, Hs. change (Type_StyleMap =? Type_Style) with false. rewrite N.eqb_refl. cbv iota. now apply IH.
    - intros fuel m r Hn Hf Hm. inversion Hm; subst r. exists m. split; [reflexivity|split; [reflexivity|lia]].
    - intros p r0 L n Hp _ IH fuel m r Hn Hf Hm. cbn [map run_all]. unfold pair_do at 1. destruct (Bool.eqb (highlights p) highlight) eqn:Eb; [apply Bool.eqb_prop in Eb; contradiction|]. cbn [bind]. now apply IH.
    - intros p r0 L1 n1 L2 n2 L3 n3 Hp _ IH1 _ IH2 _ IH3 fuel m r Hn Hf Hm. cbn [map run_all]. unfold pair_do at 1. rewrite Hp, Bool.eqb_reflx. rewrite !merges_app in Hm.
      destruct (merges E L1 (style m)) as [t1|] eqn:E1; [|discriminate]. destruct (IH1 fuel m t1 ltac:(lia) Hf E1) as (m1 & R1 & S1 & B1). rewrite R1. cbn [bind]. rewrite <- S1, merges_app in Hm.
      destruct (merges E L2 (style m1)) as [t2|] eqn:E2; [|discriminate]. destruct (IH2 fuel m1 t2 ltac:(lia) ltac:(lia) E2) as (m2 & R2 & S2 & B2). rewrite R2. cbn [bind]. rewrite <- S2 in Hm.
      destruct (IH3 fuel m2 r ltac:(lia) ltac:(lia) Hm) as (m3 & R3 & S3 & B3). exists m3. split; [exact R3|]. split; [exact S3|lia].
    - intros fuel m r Hn Hf Hm. inversion Hm; subst r. exists m. split; [reflexivity|split; [reflexivity|lia]].
    - intros s L n _ IH. exact IH.
  Qed.
  Lemma resolve_layers u o L1 n1 L2 n2 fuel r :
    from_url (find_style split_uri fetch shared) highlight u L1 n1 -> from_own (find_style split_uri fetch shared) highlight o L2 n2 -> (n1 + n2 <= max_urls)%nat -> (max_urls <= fuel)%nat ->
    merges E (L1 ++ L2) (create Type_Style) = Some r -> exists m, resolve E split_uri fetch shared highlight fuel u o = Ok m /\ style m = r.
  Proof.
    intros H1 H2 Hn Hf Hm. destruct layers_followed as (G1 & _ & _ & G2). rewrite merges_app in Hm. destruct (merges E L1 (create Type_Style)) as [t1|] eqn:E1; [|discriminate].
    destruct (G1 _ _ _ H1 fuel (fresh max_urls) t1) as (m1 & R1 & S1 & B1); cbn [fresh budget style] in *; try lia; auto. unfold resolve. unfold go in R1. rewrite R1. cbn [bind]. rewrite <- S1 in Hm.
    destruct (G2 _ _ _ H2 fuel m1 r ltac:(lia) ltac:(lia) Hm) as (m2 & R2 & S2 & _). exists m2. split; [exact R2|exact S2].
  Qed.
End Follow.

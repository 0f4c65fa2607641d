(** Properties of resolving styles. *)
From Verif Require Import Common StrMap StringsModel ColorModel AttributesModel AttributesProofs XsdTables XsdModel XmlSpec XmlSpecProofs.
From Verif Require Import SerializerModel SerializerProofs CoordModel CoordProofs HandlerModel HandlerSpec HandlerProps.
From Verif Require Import DomTables DomModel DomSpec DomProofs DomProofs2 DomParsed DomProps CloneModel CloneProofs MergeModel MergeProofs MergeProps.
From Verif Require Import IdModel IdProps StyleModel StyleProofs StylePlain.
Local Open Scope N_scope.

(** The last of some values which is set. *)
Definition topmost {A} (l : list (option A)) : option A := fold_left (fun d v => match v with Some _ => v | None => d end) l None.
Lemma topmost_fold {A} (l : list (option A)) d : fold_left (fun d v => match v with Some _ => v | None => d end) l d = over (topmost l) d.
Proof.
  unfold topmost. revert d. induction l as [|v l IH]; intros d; [reflexivity|]. cbn [fold_left]. rewrite IH, (IH (match v with Some _ => v | None => None end)).
  destruct v; cbn [over]; [now destruct (fold_left _ l None)|]. now destruct (fold_left _ l None).
Qed.
Lemma merges_plain E L : numbers_stable E -> Forall (fun s => plain E s /\ oty s = Type_Style) L -> forall t, plain E t -> oty t = Type_Style ->
  exists r, merges E L t = Some r /\ plain E r /\ oty r = Type_Style /\
    (forall p f, is_simple f = true -> value p f r = over (topmost (map (value p f) L)) (value p f t)) /\
    (forall p k, attribute p k r = over (topmost (map (attribute p k) L)) (attribute p k t)).
Proof.
  intros HE. induction 1 as [|s L [Hs1 Hs2] HL IH]; intros t Ht Htt.
  - exists t. unfold merges. cbn. auto.
  - destruct (plain_merge E HE s t Hs1 Ht ltac:(congruence)) as (r & Hr & Hp & Hrt).
    destruct (merge_correct E s t HE (proj1 Hs1) (proj1 Ht) (plain_mergeable E s t Hs1 Ht ltac:(congruence))) as (r' & Hr' & _ & V & A & _). assert (r' = r) by congruence. subst r'.
    destruct (IH r Hp ltac:(congruence)) as (q & Hq & Hqp & Hqt & Vq & Aq). exists q. split; [unfold merges; cbn [fold_left]; rewrite Hr; exact Hq|]. split; [exact Hqp|]. split; [exact Hqt|].
    assert (G : forall A (v : option A) l d, over (topmost l) (over v d) = over (topmost (v :: l)) d).
    { intros T v l d. unfold topmost at 2. cbn [fold_left]. rewrite topmost_fold. destruct (topmost l); [reflexivity|]. now destruct v. }
    split.
    + intros p f Hf. rewrite (Vq p f Hf), (V p f Hf). cbn [map]. apply G.
    + intros p k. rewrite (Aq p k), (A p k). cbn [map]. apply G.
Qed.
Lemma create_plain E : plain E (create Type_Style).
Proof. repeat split; vm_compute; reflexivity. Qed.
Lemma create_empty p : (forall f, value p f (create Type_Style) = None) /\ (forall k, attribute p k (create Type_Style) = None).
Proof.
  assert (C : forall ty, child ty (create Type_Style) = None) by (intros ty; reflexivity).
  split; intros x; unfold value, attribute; destruct p as [|ty p]; try (cbn [at_path]; now rewrite C). reflexivity.
Qed.
Lemma layers_styles find h :
  (forall u L n, from_url find h u L n -> Forall (fun s => oty s = Type_Style) L) /\ (forall s L n, from_selector find h s L n -> Forall (fun s => oty s = Type_Style) L) /\
  (forall l L n, from_pairs find h l L n -> Forall (fun s => oty s = Type_Style) L) /\ (forall o L n, from_own find h o L n -> Forall (fun s => oty s = Type_Style) L).
Proof. apply layers_ind; intros; auto. apply Forall_app. split; auto. apply Forall_app. auto. Qed.

(** C28. The style of a feature: the styles its styleUrl leads to, then those of its own selector, are merged one
    over the other: every value and attribute of the result is that of the last of these styles which
    has one, and is unset if none has. *)
Theorem resolve_precedence : forall E split_uri fetch shared highlight fuel f L1 n1 L2 n2, numbers_stable E -> (max_urls <= fuel)%nat ->
  from_url (find_style split_uri fetch shared) highlight (style_url f) L1 n1 ->
  from_own (find_style split_uri fetch shared) highlight (inline_style f) L2 n2 ->
  (n1 + n2 <= max_urls)%nat -> Forall (plain E) (L1 ++ L2) ->
  exists m, resolve_feature E split_uri fetch shared highlight fuel f = Ok m /\ oty (style m) = Type_Style /\
    (forall p f, is_simple f = true -> value p f (style m) = topmost (map (value p f) (L1 ++ L2))) /\
    (forall p k, attribute p k (style m) = topmost (map (attribute p k) (L1 ++ L2))).
Proof.
  intros E sp fe sh h fuel f L1 n1 L2 n2 HE Hf H1 H2 Hn HL.
  assert (HT : Forall (fun s => oty s = Type_Style) (L1 ++ L2)) by (destruct (layers_styles (find_style sp fe sh) h) as (T1 & _ & _ & T2); apply Forall_app; split; eauto).
  assert (HB : Forall (fun s => plain E s /\ oty s = Type_Style) (L1 ++ L2)) by (rewrite Forall_forall in *; auto).
  destruct (merges_plain E (L1 ++ L2) HE HB (create Type_Style) (create_plain E) eq_refl) as (r & Hr & _ & Hrt & V & A).
  destruct (resolve_layers E sp fe sh h (style_url f) _ L1 n1 L2 n2 fuel r H1 H2 Hn Hf Hr) as (m & Hm & Hs). exists m. split; [exact Hm|]. rewrite Hs. split; [exact Hrt|]. split.
  - intros p g Hg. rewrite (V p g Hg), (proj1 (create_empty p)). now destruct (topmost _).
  - intros p k. rewrite (A p k), (proj2 (create_empty p)). now destruct (topmost _).
Qed.
Print Assumptions resolve_precedence.
(** A shared style and an inline style. *)
Theorem resolve_inline_over_shared : forall E split_uri fetch shared highlight fuel f s o, numbers_stable E -> (max_urls <= fuel)%nat ->
  find_style split_uri fetch shared (style_url f) = Some s -> oty s = Type_Style -> inline_style f = Some o -> oty o = Type_Style ->
  plain E s -> plain E o ->
  exists m, resolve_feature E split_uri fetch shared highlight fuel f = Ok m /\
    (forall p f, is_simple f = true -> value p f (style m) = over (value p f o) (value p f s)) /\
    (forall p k, attribute p k (style m) = over (attribute p k o) (attribute p k s)).
Proof.
  intros E sp fe sh h fuel f s o HE Hf Hs Hst Ho Hot Ps Po.
  destruct (resolve_precedence E sp fe sh h fuel f [s] 1 [o] 0 HE Hf) as (m & Hm & _ & V & A).
  - apply url_some with s; [exact Hs|]. now apply sel_style.
  - rewrite Ho. apply own_some. now apply sel_style.
  - unfold max_urls. lia.
  - constructor; [exact Ps|]. constructor; [exact Po|]. constructor.
  - exists m. split; [exact Hm|]. split.
    + intros p g Hg. rewrite (V p g Hg). cbn [app map topmost fold_left]. unfold topmost. cbn [fold_left]. destruct (value p g o); [reflexivity|]. now destruct (value p g s).
    + intros p k. rewrite (A p k). unfold topmost. cbn [app map fold_left]. destruct (attribute p k o); [reflexivity|]. now destruct (attribute p k s).
Qed.
Print Assumptions resolve_inline_over_shared.

(** C29. Whatever the styles refer to: resolving ends, with the same result for every allowed depth of calls not
    less than the limit, and follows at most that many style URLs.  (UB stands for a merge outside of
    MergeModel.v.) *)
Theorem resolve_terminates : forall E split_uri fetch shared highlight fuel u s, (max_urls <= fuel)%nat ->
  resolve E split_uri fetch shared highlight fuel u s = resolve E split_uri fetch shared highlight max_urls u s /\
  match resolve E split_uri fetch shared highlight fuel u s with Ok m => (length (followed m) <= 5)%nat | UB => True | Throw | Fuel => False end.
Proof. intros. destruct (resolve_ends E split_uri fetch shared highlight fuel u s H) as [H1 H2]. split; [exact H2|]. destruct (resolve _ _ _ _ _ _ _ _); auto; contradiction. Qed.
Print Assumptions resolve_terminates.

(** C28. A Document has no style of its own: the shared styles in it do not change how it is resolved. *)
Theorem resolve_document : forall E split_uri fetch shared highlight fuel f L n, numbers_stable E -> (max_urls <= fuel)%nat ->
  oty f = Type_Document -> from_url (find_style split_uri fetch shared) highlight (style_url f) L n -> (n <= max_urls)%nat -> Forall (plain E) L ->
  exists m, resolve_feature E split_uri fetch shared highlight fuel f = Ok m /\ oty (style m) = Type_Style /\
    (forall p f, is_simple f = true -> value p f (style m) = topmost (map (value p f) L)) /\
    (forall p k, attribute p k (style m) = topmost (map (attribute p k) L)).
Proof.
  intros E sp fe sh h fuel f L n HE Hf Ht Hu Hn Hp.
  assert (Hi : inline_style f = None) by (unfold inline_style; now rewrite Ht).
  pose proof (resolve_precedence E sp fe sh h fuel f L n [] 0%nat HE Hf Hu) as R. rewrite app_nil_r in R. apply R; [|lia|exact Hp].
  rewrite Hi. constructor.
Qed.
Print Assumptions resolve_document.

(** C30. References which lead to at most five style URLs in all are followed. *)
Theorem url_limit_total : forall E split_uri fetch shared highlight fuel u o L1 n1 L2 n2 r, (max_urls <= fuel)%nat ->
  from_url (find_style split_uri fetch shared) highlight u L1 n1 -> from_own (find_style split_uri fetch shared) highlight o L2 n2 -> (n1 + n2 <= 5)%nat ->
  merges E (L1 ++ L2) (create Type_Style) = Some r -> exists m, resolve E split_uri fetch shared highlight fuel u o = Ok m /\ style m = r.
Proof. intros. eapply resolve_layers; eauto. Qed.
Print Assumptions url_limit_total.
(** A splitting of simple URLs; the shared styles of a Document. *)
Definition split0 (u : str) : option (str * str) :=
  Some (take_while (fun c => negb (aeq c "#"%char)) u, tl (drop_while (fun c => negb (aeq c "#"%char)) u)).
Definition styles_of (o : obj) : list (str * obj) :=
  fold_left (fun m s => match find_value (S_ "id") (oka s) with Some i => mset i s m | None => m end) (pick (cls (oty o)) (oslots o) Type_StyleSelector) [].
Definition feature_of (o : obj) : obj := hd (create 0) (pick (cls (oty o)) (oslots o) Type_Feature).
Definition no_fetch : str -> option (list (str * obj)) := fun _ => None.
Definition wide : list (str * obj) := styles_of (doc_obj (S_ "<Document><Style id=""a""><LineStyle><width>1</width></LineStyle></Style><Style id=""b""><LabelStyle><scale>3</scale></LabelStyle></Style><StyleMap id=""m""><Pair><styleUrl>#a</styleUrl></Pair><Pair><styleUrl>#a</styleUrl></Pair><Pair><styleUrl>#a</styleUrl></Pair><Pair><styleUrl>#a</styleUrl></Pair><Pair><styleUrl>#b</styleUrl></Pair></StyleMap></Document>")).
Definition style_of (i : str) (m : list (str * obj)) : obj := match mget i m with Some s => s | None => create 0 end.
Lemma flat_pairs find h l : forall L, forallb (fun p => Bool.eqb (highlights p) h && match own_selector p with None => true | Some _ => false end) l = true ->
  map (fun p => find (style_url p)) l = map Some L -> Forall (fun s => oty s = Type_Style) L -> from_pairs find h l L (length L).
Proof.
  induction l as [|p l IH]; intros [|x L] Hl HL HT; try discriminate; [apply pairs_nil|]. cbn [forallb map] in *. apply andb_true_iff in Hl as [Hp Hl]. apply andb_true_iff in Hp as [Hh Ho].
  apply Bool.eqb_prop in Hh. inversion HT as [|y z T1 T2]; subst y z. assert (H1 : find (style_url p) = Some x) by congruence. assert (H2 : map (fun p => find (style_url p)) l = map Some L) by congruence.
  change (x :: L) with ([x] ++ [] ++ L). change (length ([x] ++ [] ++ L)) with (1 + 0 + length L)%nat. apply pairs_here; auto.
  - apply url_some with x; [exact H1|]. now apply sel_style.
  - destruct (own_selector p); [discriminate|]. apply own_none.
Qed.
Definition at_most_two (find : str -> option obj) : Prop :=
  forall v m p s, find v = Some m -> oty m = Type_StyleMap -> In p (pairs m) -> find (style_url p) = Some s -> oty s = Type_Style.
Definition flatb (m : list (str * obj)) : bool :=
  forallb (fun e => if oty (snd e) =? Type_StyleMap then
    forallb (fun p => match find_style split0 no_fetch m (style_url p) with Some s => oty s =? Type_Style | None => true end) (pairs (snd e)) else true) m.
Lemma flatb_spec m : flatb m = true -> at_most_two (find_style split0 no_fetch m).
Proof.
  intros G v x p s Hv Hx Hp Hs.
  assert (Hsh : exists id, mget id m = Some x).
  { unfold find_style in Hv. destruct v; [discriminate|]. unfold split0 in Hv. destruct (tl _); [discriminate|]. destruct (take_while _ _); [eauto|]. discriminate. }
  destruct Hsh as (id & Hid). apply mget_in in Hid. unfold flatb in G. rewrite forallb_forall in G. specialize (G _ Hid). cbn [snd] in G. rewrite Hx, N.eqb_refl in G.
  rewrite forallb_forall in G. specialize (G p Hp). rewrite Hs in G. now apply N.eqb_eq.
Qed.
(** A StyleMap whose pairs refer to styles, not to further style maps, can lose the later ones. *)
Theorem url_limit_nesting_refuted : ~ forall E split_uri fetch shared highlight u L n r,
  at_most_two (find_style split_uri fetch shared) ->
  from_url (find_style split_uri fetch shared) highlight u L n -> merges E L (create Type_Style) = Some r ->
  exists m, resolve E split_uri fetch shared highlight max_urls u None = Ok m /\ style m = r.
Proof.
  assert (Hf : flatb wide = true) by (vm_compute; reflexivity). apply flatb_spec in Hf.
  assert (Fm : find_style split0 no_fetch wide (S_ "#m") = Some (style_of (S_ "m") wide)) by (vm_compute; reflexivity).
  assert (Tm : oty (style_of (S_ "m") wide) = Type_StyleMap) by (vm_compute; reflexivity).
  assert (Ta : Forall (fun s => oty s = Type_Style) (map (fun i => style_of i wide) [S_ "a"; S_ "a"; S_ "a"; S_ "a"; S_ "b"])) by (repeat constructor; vm_compute; reflexivity).
  assert (Hp : forallb (fun p => Bool.eqb (highlights p) false && match own_selector p with None => true | Some _ => false end) (pairs (style_of (S_ "m") wide)) = true) by (vm_compute; reflexivity).
  assert (Hq : map (fun p => find_style split0 no_fetch wide (style_url p)) (pairs (style_of (S_ "m") wide)) = map Some (map (fun i => style_of i wide) [S_ "a"; S_ "a"; S_ "a"; S_ "a"; S_ "b"])) by (vm_compute; reflexivity).
  assert (V : match merges E0 (map (fun i => style_of i wide) [S_ "a"; S_ "a"; S_ "a"; S_ "a"; S_ "b"]) (create Type_Style) with Some r => value [Type_LabelStyle] Type_scale r | None => None end = Some (S_ "3")) by (vm_compute; reflexivity).
  assert (W : match resolve E0 split0 no_fetch wide false max_urls (S_ "#m") None with Ok m => value [Type_LabelStyle] Type_scale (style m) | _ => Some [] end = None) by (vm_compute; reflexivity).
  revert Hf Fm Tm Ta Hp Hq V W. generalize (S_ "3") as v3. generalize (map (fun i => style_of i wide) [S_ "a"; S_ "a"; S_ "a"; S_ "a"; S_ "b"]) as L. generalize (style_of (S_ "m") wide) as M. generalize wide as w.
  intros w M L v3 Hf Fm Tm Ta Hp Hq V W H.
  destruct (merges E0 L (create Type_Style)) as [r|] eqn:Er; [|discriminate].
  destruct (H E0 split0 no_fetch w false (S_ "#m") L (S (length L)) r Hf) as (m & Hm & Hr).
  - apply url_some with M; [exact Fm|]. apply sel_map; [exact Tm|]. now apply flat_pairs.
  - exact Er.
  - rewrite Hm in W. congruence.
Qed.
Print Assumptions url_limit_nesting_refuted.

Definition plainb (E : env) (o : obj) : bool := goodb E o && plain_style o.
Lemma plainb_plain E o : plainb E o = true -> plain E o.
Proof. unfold plainb. rewrite andb_true_iff. intros [H1 H2]. split; auto. now apply goodb_good. Qed.
Definition doc1 : obj := doc_obj (S_ "<Document><Style id=""a""><LineStyle><color>ff0000ff</color><width>1</width></LineStyle><PolyStyle><fill>0</fill></PolyStyle></Style><Style id=""b""><LabelStyle><scale>3</scale></LabelStyle></Style><StyleMap id=""m""><Pair><key>normal</key><styleUrl>#a</styleUrl></Pair><Pair><key>highlight</key><styleUrl>#b</styleUrl><Style><LabelStyle><color>ff00ff00</color></LabelStyle></Style></Pair></StyleMap><Placemark><styleUrl>#m</styleUrl><Style><LineStyle><width>7</width></LineStyle></Style></Placemark></Document>").
Definition resolved (h : bool) (m : list (str * obj)) (f : obj) : option str :=
  match resolve_feature E0 split0 no_fetch m h max_urls f with Ok m => match write_raw (style m) with Ok w => Some w | _ => None end | _ => None end.
(** A style map, both states, and an inline style. *)
Example resolve_sample :
  forallb (fun e => negb (oty (snd e) =? Type_Style) || plainb E0 (snd e)) (styles_of doc1) = true /\
  resolved false (styles_of doc1) (feature_of doc1) = Some (S_ "<Style id=""a""><LineStyle><color>ff0000ff</color><width>7</width></LineStyle><PolyStyle><fill>0</fill></PolyStyle></Style>") /\
  resolved true (styles_of doc1) (feature_of doc1) = Some (S_ "<Style id=""b""><LabelStyle><color>ff00ff00</color><scale>3</scale></LabelStyle><LineStyle><width>7</width></LineStyle></Style>").
Proof. repeat split; vm_compute; reflexivity. Qed.
(** Style maps which refer to each other. *)
Definition doc2 : obj := doc_obj (S_ "<Document><StyleMap id=""m""><Pair><styleUrl>#n</styleUrl></Pair><Pair><styleUrl>#m</styleUrl></Pair></StyleMap><StyleMap id=""n""><Pair><styleUrl>#m</styleUrl></Pair></StyleMap><Placemark><styleUrl>#m</styleUrl></Placemark></Document>").
Example resolve_cycle : exists m, resolve_feature E0 split0 no_fetch (styles_of doc2) false max_urls (feature_of doc2) = Ok m /\ followed m = [S_ "#m"; S_ "#n"; S_ "#m"; S_ "#n"; S_ "#m"].
Proof.
  destruct (resolve_feature E0 split0 no_fetch (styles_of doc2) false max_urls (feature_of doc2)) as [m| | |] eqn:Em; [|vm_compute in Em; discriminate..].
  exists m. split; [reflexivity|]. assert (G : match resolve_feature E0 split0 no_fetch (styles_of doc2) false max_urls (feature_of doc2) with Ok m => followed m | _ => [] end = [S_ "#m"; S_ "#n"; S_ "#m"; S_ "#n"; S_ "#m"]) by (vm_compute; reflexivity).
  now rewrite Em in G.
Qed.
(** The hypotheses of resolve_inline_over_shared. *)
Definition doc3 : obj := doc_obj (S_ "<Document><Style id=""a""><LineStyle><color>ff0000ff</color><width>1</width></LineStyle></Style><Placemark><styleUrl>#a</styleUrl><Style><LineStyle><width>7</width></LineStyle></Style></Placemark></Document>").
Example inline_over_shared_sample : exists s o,
  find_style split0 no_fetch (styles_of doc3) (style_url (feature_of doc3)) = Some s /\ oty s = Type_Style /\ inline_style (feature_of doc3) = Some o /\ oty o = Type_Style /\ plain E0 s /\ plain E0 o.
Proof.
  exists (style_of (S_ "a") (styles_of doc3)). exists (match inline_style (feature_of doc3) with Some o => o | None => create 0 end).
  split; [vm_compute; reflexivity|]. split; [vm_compute; reflexivity|]. split; [vm_compute; reflexivity|]. split; [vm_compute; reflexivity|].
  split; apply plainb_plain; vm_compute; reflexivity.
Qed.

(** C83. A style map of another file whose pair refers to a style of its own file: the style of the file at hand
    is used, here none. *)
Definition remote : list (str * obj) := styles_of (doc_obj (S_ "<Document><Style id=""a""><LineStyle><width>1</width></LineStyle></Style><StyleMap id=""m""><Pair><styleUrl>#a</styleUrl></Pair></StyleMap></Document>")).
Definition fetch_remote (u : str) : option (list (str * obj)) := match split0 u with Some (p, _) => if eqs p (S_ "r.kml") then Some remote else None | None => None end.
Theorem remote_style_map_refuted : ~ forall E split_uri fetch shared id path m other r,
  split_uri (path ++ S_ "#" ++ id) = Some (path, id) -> split_uri (S_ "#" ++ id) = Some ([], id) -> fetch (path ++ S_ "#" ++ id) = Some other ->
  resolve E split_uri fetch other false max_urls (S_ "#" ++ id) None = Ok r ->
  resolve E split_uri fetch shared false max_urls (path ++ S_ "#" ++ id) None = Ok m -> forall p f, value p f (style m) = value p f (style r).
Proof.
  intros H.
  assert (V : match resolve E0 split0 fetch_remote remote false max_urls (S_ "#" ++ S_ "m") None with Ok r => value [Type_LineStyle] Type_width (style r) | _ => None end = Some (S_ "1")) by (vm_compute; reflexivity).
  assert (W : match resolve E0 split0 fetch_remote [] false max_urls (S_ "r.kml" ++ S_ "#" ++ S_ "m") None with Ok r => value [Type_LineStyle] Type_width (style r) | _ => Some [] end = None) by (vm_compute; reflexivity).
  assert (S1 : split0 (S_ "r.kml" ++ S_ "#" ++ S_ "m") = Some (S_ "r.kml", S_ "m")) by (vm_compute; reflexivity).
  assert (S2 : split0 (S_ "#" ++ S_ "m") = Some ([], S_ "m")) by (vm_compute; reflexivity).
  assert (S3 : fetch_remote (S_ "r.kml" ++ S_ "#" ++ S_ "m") = Some remote) by (vm_compute; reflexivity).
  pose proof (fun m r => H E0 split0 fetch_remote [] (S_ "m") (S_ "r.kml") m remote r S1 S2 S3) as G. clear H S1 S2 S3.
  revert V W G. generalize (resolve E0 split0 fetch_remote remote false max_urls (S_ "#" ++ S_ "m") None) as x. generalize (resolve E0 split0 fetch_remote [] false max_urls (S_ "r.kml" ++ S_ "#" ++ S_ "m") None) as y.
  intros y x V W G. destruct x as [r| | |]; try discriminate. destruct y as [m| | |]; try discriminate.
  specialize (G m r eq_refl eq_refl [Type_LineStyle] Type_width). congruence.
Qed.
Print Assumptions remote_style_map_refuted.
(** C28. The state of a pair of a style map: it is that of the highlighted style exactly if its key says so. *)
Theorem pair_state : forall p, highlights p = true <-> exists k r, get p Type_key = k :: r /\ char_data k = S_ "highlight".
Proof.
  intros p. unfold highlights, get, pick. destruct (index_of_key Type_key (c_slots (cls (oty p))) 0) as [i|]; [|split; [discriminate|intros (? & ? & H & _); discriminate]].
  destruct (nth i (oslots p) []) as [|k r]; [split; [discriminate|intros (? & ? & H & _); discriminate]|]. rewrite eqs_spec. split; [intros H; eauto|intros (k' & r' & [= <- <-] & H); exact H].
Qed.
Print Assumptions pair_state.

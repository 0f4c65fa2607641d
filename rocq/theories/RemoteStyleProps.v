(** Styles of other files (C83): when they resolve as in their own file. *)
From Verif Require Import Common StrMap StringsModel ColorModel AttributesModel AttributesProofs XsdTables XsdModel XmlSpec XmlSpecProofs.
From Verif Require Import SerializerModel SerializerProofs CoordModel CoordProofs HandlerModel HandlerSpec HandlerProps.
From Verif Require Import DomTables DomModel DomSpec DomProofs DomProofs2 DomParsed DomProps CloneModel CloneProofs MergeModel MergeProofs MergeProps.
From Verif Require Import IdModel IdProps StyleModel StyleProofs StylePlain StyleProps UriTextModel.

(** Specification: the style URLs that resolving a selector comes across. *)
Inductive refers (find : str -> option obj) (h : bool) : obj -> str -> Prop :=
| refers_pair s p u : oty s = Type_StyleMap -> In p (pairs s) -> highlights p = h -> u = style_url p -> refers find h s u
| refers_url s p s' u : oty s = Type_StyleMap -> In p (pairs s) -> highlights p = h -> find (style_url p) = Some s' -> refers find h s' u -> refers find h s u
| refers_own s p s' u : oty s = Type_StyleMap -> In p (pairs s) -> highlights p = h -> own_selector p = Some s' -> refers find h s' u -> refers find h s u.

Lemma layers_same find1 find2 h :
  (forall u L n, from_url find1 h u L n -> find1 u = find2 u -> (forall s v, find1 u = Some s -> refers find1 h s v -> find1 v = find2 v) -> from_url find2 h u L n) /\
  (forall s L n, from_selector find1 h s L n -> (forall v, refers find1 h s v -> find1 v = find2 v) -> from_selector find2 h s L n) /\
  (forall l L n, from_pairs find1 h l L n -> (forall p, In p l -> highlights p = h -> find1 (style_url p) = find2 (style_url p) /\
      (forall s v, find1 (style_url p) = Some s -> refers find1 h s v -> find1 v = find2 v) /\ (forall s v, own_selector p = Some s -> refers find1 h s v -> find1 v = find2 v)) -> from_pairs find2 h l L n) /\
  (forall o L n, from_own find1 h o L n -> (forall s v, o = Some s -> refers find1 h s v -> find1 v = find2 v) -> from_own find2 h o L n).
Proof.
  apply layers_ind.
  - intros u Hu Hf _. apply url_none. congruence.
  - intros u s L n Hu _ IH Hf Hv. apply (url_some _ _ u s); [congruence|]. apply IH. intros v. now apply Hv.
  - intros s Hs _. now apply sel_style.
  - intros s L n Hs _ IH Hv. apply sel_map; [exact Hs|]. apply IH. intros p Hp Hh. split; [apply Hv; eapply refers_pair; eauto|].
    split; intros s' v H1 H2; apply Hv; [eapply refers_url|eapply refers_own]; eauto.
  - intros _. constructor.
  - intros p r L n Hp _ IH Hv. apply pairs_other; [exact Hp|]. apply IH. intros q Hq. apply Hv. now right.
  - intros p r L1 n1 L2 n2 L3 n3 Hp _ IH1 _ IH2 _ IH3 Hv. destruct (Hv p (or_introl eq_refl) Hp) as (V1 & V2 & V3). apply pairs_here; auto. apply IH3. intros q Hq. apply Hv. now right.
  - intros _. constructor.
  - intros s L n _ IH Hv. constructor. apply IH. intros v. now apply Hv.
Qed.
Lemma find_remote split_uri fetch shared path id other : split_uri (path ++ S_ "#" ++ id) = Some (path, id) -> path <> [] -> id <> [] ->
  fetch (path ++ S_ "#" ++ id) = Some other -> find_style split_uri fetch shared (path ++ S_ "#" ++ id) = mget id other.
Proof.
  intros Hs Hp Hi Hf. unfold find_style. rewrite Hs, Hf. destruct path as [|c path]; [congruence|]. destruct id; [congruence|]. reflexivity.
Qed.
Lemma find_local split_uri fetch shared id : split_uri (S_ "#" ++ id) = Some ([], id) -> id <> [] -> find_style split_uri fetch shared (S_ "#" ++ id) = mget id shared.
Proof. intros Hs Hi. unfold find_style. rewrite Hs. destruct id; [congruence|]. reflexivity. Qed.

(** C83. A style URL into another file resolves as the style of that file does in that file, if every style URL it comes across there means
    the same in both files; [fetch] and [fetch'] are how each of the two files fetches others. *)
Theorem remote_style_same : forall E split_uri fetch fetch' shared other h path id s L n, numbers_stable E ->
  split_uri (path ++ S_ "#" ++ id) = Some (path, id) -> split_uri (S_ "#" ++ id) = Some ([], id) -> path <> [] -> id <> [] ->
  fetch (path ++ S_ "#" ++ id) = Some other -> mget id other = Some s ->
  from_selector (find_style split_uri fetch' other) h s L n -> (S n <= max_urls)%nat -> Forall (plain E) L ->
  (forall v, refers (find_style split_uri fetch' other) h s v -> find_style split_uri fetch' other v = find_style split_uri fetch shared v) ->
  exists m r, resolve E split_uri fetch shared h max_urls (path ++ S_ "#" ++ id) None = Ok m /\ resolve E split_uri fetch' other h max_urls (S_ "#" ++ id) None = Ok r /\ style m = style r.
Proof.
  intros E sp fe fe' sh ot h path id s L n HE S1 S2 Np Ni Hf Hid Hl Hn HL Hv.
  assert (U1 : from_url (find_style sp fe sh) h (path ++ S_ "#" ++ id) L (S n)).
  { eapply url_some; [rewrite (find_remote sp fe sh path id ot); eauto|]. exact (proj1 (proj2 (layers_same _ _ h)) s L n Hl Hv). }
  assert (U2 : from_url (find_style sp fe' ot) h (S_ "#" ++ id) L (S n)) by (eapply url_some; [rewrite find_local; eauto|exact Hl]).
  assert (HT : Forall (fun s => oty s = Type_Style) L) by (destruct (layers_styles (find_style sp fe sh) h) as (T1 & _); eauto).
  assert (HB : Forall (fun s => plain E s /\ oty s = Type_Style) L) by (rewrite Forall_forall in *; auto).
  destruct (merges_plain E L HE HB (create Type_Style) (create_plain E) eq_refl) as (r & Hr & _). rewrite <- (app_nil_r L) in Hr.
  destruct (resolve_layers E sp fe sh h _ None L (S n) [] 0 max_urls r U1 (own_none _ _) ltac:(lia) (le_n _) Hr) as (m1 & M1 & M2).
  destruct (resolve_layers E sp fe' ot h _ None L (S n) [] 0 max_urls r U2 (own_none _ _) ltac:(lia) (le_n _) Hr) as (m2 & M3 & M4).
  exists m1, m2. split; [exact M1|]. split; [exact M3|congruence].
Qed.
Print Assumptions remote_style_same.
(** C83. In particular a Style of another file, which comes across no style URL, always does. *)
Theorem remote_style_alone : forall E split_uri fetch fetch' shared other h path id s, numbers_stable E ->
  split_uri (path ++ S_ "#" ++ id) = Some (path, id) -> split_uri (S_ "#" ++ id) = Some ([], id) -> path <> [] -> id <> [] ->
  fetch (path ++ S_ "#" ++ id) = Some other -> mget id other = Some s -> oty s = Type_Style -> plain E s ->
  exists m r, resolve E split_uri fetch shared h max_urls (path ++ S_ "#" ++ id) None = Ok m /\ resolve E split_uri fetch' other h max_urls (S_ "#" ++ id) None = Ok r /\ style m = style r.
Proof.
  intros E sp fe fe' sh ot h path id s HE S1 S2 Np Ni Hf Hid Ht Hp. eapply (remote_style_same E sp fe fe' sh ot h path id s [s] 0); eauto.
  - now apply sel_style.
  - unfold max_urls. lia.
  - intros v Hv. exfalso. assert (K : Type_Style <> Type_StyleMap) by discriminate. inversion Hv; subst; congruence.
Qed.
Print Assumptions remote_style_alone.
(** Hypotheses met: a style and a style map of another file, which refers to a style of a third one. *)
Definition other_file : list (str * obj) := styles_of (doc_obj (S_ "<Document><Style id=""a""><LineStyle><width>1</width></LineStyle></Style><StyleMap id=""m""><Pair><styleUrl>r.kml#a</styleUrl></Pair></StyleMap></Document>")).
Example remote_sample : let fetch u := match split0 u with Some (p, _) => if eqs p (S_ "r.kml") then Some remote else if eqs p (S_ "o.kml") then Some other_file else None | None => None end in
  match resolve E0 split0 fetch [] false max_urls (S_ "o.kml#m") None, resolve E0 split0 fetch other_file false max_urls (S_ "#m") None with
  | Ok m, Ok r => value [Type_LineStyle] Type_width (style m) = Some (S_ "1") /\ style m = style r /\ followed m = [S_ "o.kml#m"; S_ "r.kml#a"]
  | _, _ => False
  end /\ split0 (S_ "o.kml#a") = Some (S_ "o.kml", S_ "a") /\ match mget (S_ "a") other_file with Some s => oty s = Type_Style /\ plainb E0 s = true | None => False end.
Proof. vm_compute. repeat split. Qed.
(** C83. Refuted for links in a style: the link of an icon is copied as it is, though it is relative to the file the style is in, and so leads elsewhere. *)
Definition icon_file : list (str * obj) := styles_of (doc_obj (S_ "<Document><Style id=""a""><IconStyle><Icon><href>i.png</href></Icon></IconStyle></Style></Document>")).
Theorem remote_icon_refuted : exists base path m, resolve E0 split0 (fun _ => Some icon_file) [] false max_urls (path ++ S_ "#a") None = Ok m /\
  value [Type_IconStyle; Type_IconStyleIcon] Type_href (style m) = Some (S_ "i.png") /\
  exists file, resolve_uri base path = Some file /\ resolve_uri file (S_ "i.png") = Some (S_ "http://h/styles/i.png") /\ resolve_uri base (S_ "i.png") = Some (S_ "http://h/i.png").
Proof.
  exists (S_ "http://h/doc.kml"), (S_ "styles/s.kml").
  destruct (resolve E0 split0 (fun _ => Some icon_file) [] false max_urls (S_ "styles/s.kml" ++ S_ "#a") None) as [m| | |] eqn:E; [|vm_compute in E; discriminate|vm_compute in E; discriminate|vm_compute in E; discriminate].
  exists m. split; [reflexivity|]. split.
  - assert (V : match resolve E0 split0 (fun _ => Some icon_file) [] false max_urls (S_ "styles/s.kml" ++ S_ "#a") None with Ok m => value [Type_IconStyle; Type_IconStyleIcon] Type_href (style m) | _ => None end = Some (S_ "i.png")) by (vm_compute; reflexivity).
    rewrite E in V. exact V.
  - exists (S_ "http://h/styles/s.kml"). repeat split; vm_compute; reflexivity.
Qed.
Print Assumptions remote_icon_refuted.

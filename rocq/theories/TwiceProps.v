(** Splitting or inlining the styles of what was written by this library (C117): doing it again changes nothing. *)
From Verif Require Import Common StrMap StringsModel ColorModel AttributesModel AttributesProofs XsdTables XsdModel XsdProofs XmlSpec XmlSpecProofs SerializerModel SerializerProofs CoordModel HandlerModel HandlerSpec HandlerProofs HandlerProofs2 HandlerProps.
From Verif Require Import DomTables DomModel DomSpec DomProofs DomProofs2 DomParsed CloneModel CloneProofs MergeModel MergeProofs IdModel StyleModel StyleProofs SplitModel SplitProofs SplitProofs2 SplitProofs3 SplitProofs4 SplitProofs5.
From Verif Require Import FileProps InlineProofs DomProps StyleProps SplitProps InlineProps BareSpec BareProps SplitTotalProps StyleSameProps.
Local Open Scope N_scope.

(** [k] is a child of [o], in its place or misplaced. *)
Definition child_of (o k : obj) : Prop := (exists l, In l (oslots o) /\ In k l) \/ In k (omis o).
(** An element of type [p] somewhere in [o] has the child [k]. *)
Inductive part : obj -> N -> obj -> Prop :=
| part_here o k : child_of o k -> part o (oty o) k
| part_deeper o c p k : child_of o c -> part c p k -> part o p k.
Section Written.
  Variables (E : env) (nl ind : str).
  (** The tree of the parser has no children but those of the element. *)
  Inductive mirrors : node -> obj -> Prop :=
  | mirror ty a cd log o : oty o = ty -> (forall c, In (LChild c) log -> exists k, child_of o k /\ build E c = Ok k /\ mirrors c k) -> mirrors (Node ty a cd log) o.
  Definition reads2 (d : nat) (p : N) (o : obj) : Prop :=
    exists n a ks, elem_of nl ind d (ser o) = (n, a, ks) /\ known_type p n = Some (oty o) /\ build E (reader_node (oty o) n a ks) = Ok o /\ mirrors (reader_node (oty o) n a ks) o.
  Lemma reads2_children d p l : Forall (fun o => reads2 d p o) l ->
    exists ns, Forall2 (fun n c => build E n = Ok c /\ mirrors n c) ns l /\
      flat_map (fun k => flat_map (received keep_all p) (snd (SerializerProofs.doc nl ind d k))) (map ser l) = map LChild ns.
  Proof.
    induction 1 as [|o l (n & a & ks & He & Hk & Hb & Hm) Hl (ns & H1 & H2)]; [exists []; split; [constructor|reflexivity]|].
    exists (reader_node (oty o) n a ks :: ns). split; [constructor; auto|]. cbn [map flat_map]. rewrite H2.
    rewrite (rec_doc nl ind p d (ser o) n a ks (ser_is_elem o) He). rewrite (rec_elem p n a ks (oty o) Hk). reflexivity.
  Qed.
  Lemma self_no_child ty t c : ~ In (LChild c) (self_entry ty t).
  Proof. unfold self_entry. destruct (self_parsed ty); cbn; intuition discriminate. Qed.
  Lemma keeps_mirrors o : forall d p, keeps E nl ind d p o = true -> reads2 d p o.
  Proof.
    induction o as [ty ka ea tx vec sl mis unk IHsl IHmis] using obj_ind2. intros d p Hk.
    destruct (keeps_reads E nl ind _ d p Hk) as (n & a & kx & He & Hkt & Hb). exists n, a, kx. split; [exact He|]. split; [exact Hkt|]. split; [exact Hb|]. clear Hb.
    pose proof Hk as Hkeep. cbn [keeps] in Hk. apply andb_true_iff in Hk as [Hname Hk].
    destruct (known_type p (tag_name ty)) as [t|] eqn:Ek; [|discriminate]. apply N.eqb_eq in Hname. subst t. cbn [oty] in *.
    destruct (is_simple ty) eqn:Es.
    { pose proof (keeps_field E nl ind d p _ Hkeep Es) as Hf. rewrite Hf in He. cbn [oty char_data otext] in He. cbn [field ser elem_of] in He. rewrite Es in He. injection He as <- <- <-.
      unfold reader_node. destruct (ty =? Type_description); constructor; [reflexivity|intros c []|reflexivity|]. rewrite rec_chars. intros c Hc. now apply self_no_child in Hc. }
    pose proof (description_simple' ty Es) as Hdesc.
    destruct (ty =? Type_coordinates) eqn:Ec.
    { cbn [ser elem_of oty] in He. rewrite Es, Ec in He. injection He as <- <- <-. unfold reader_node. rewrite Hdesc, vec_chars. constructor; [reflexivity|]. intros c Hc. now apply self_no_child in Hc. }
    rewrite !andb_true_iff in Hk.
    destruct Hk as ((((((((((Hv & Hcr) & Hat) & Htx) & Hsn) & Hfit) & Hall) & Hmis) & Hunk) & Hks) & Hkm).
    apply nilb_eq in Hv. subst vec. set (o := Obj ty ka ea tx [] sl mis unk) in *.
    assert (Hser : ser o = IElem ty (out_attributes o)
      (own_content ty tx ++ map ser (flat_map (pick (cls ty) sl) (c_ser (cls ty))) ++ map ser mis ++ map IUnknown unk)).
    { unfold o. cbn [ser]. rewrite Es, Ec, flat_map_pick. reflexivity. }
    set (slotted := flat_map (pick (cls ty) sl) (c_ser (cls ty))) in *.
    assert (Hsl : forall c, In c slotted -> exists l, In l sl /\ In c l).
    { intros c Hc. unfold slotted in Hc. apply in_flat_map in Hc as (k & _ & Hc). apply pick_in in Hc as (l & Hl & Hc). eauto. }
    assert (Hsr : Forall (fun c => reads2 (S d) ty c) slotted).
    { apply Forall_forall. intros c Hc. destruct (Hsl c Hc) as (l & Hl & Hcl).
      rewrite Forall_forall in IHsl. specialize (IHsl l Hl). rewrite Forall_forall in IHsl. apply IHsl; auto.
      rewrite forallb_forall in Hks. specialize (Hks l Hl). rewrite forallb_forall in Hks. auto. }
    assert (Hmr : Forall (fun c => reads2 (S d) ty c) mis).
    { apply Forall_forall. intros c Hc. rewrite Forall_forall in IHmis. apply IHmis; auto. rewrite forallb_forall in Hkm. auto. }
    destruct (reads2_children _ _ _ Hsr) as (ns & Hns & Hns').
    destruct (reads2_children _ _ _ Hmr) as (ms & Hms & Hms').
    set (ks := own_content ty tx ++ map ser slotted ++ map ser mis ++ map IUnknown unk) in *.
    rewrite Hser in He. cbn [elem_of] in He. injection He as <- <- <-. unfold reader_node. rewrite Hdesc.
    assert (Hrec : flat_map (received keep_all ty) (content nl ind d ks) = map LChild ns ++ map LChild ms ++ map LUnknown unk).
    { rewrite (rec_content nl ind ty d ks). unfold ks. rewrite !flat_map_app. rewrite own_rec, Hns', Hms', unknown_rec by exact Hunk. reflexivity. }
    rewrite Hrec. constructor; [reflexivity|]. intros c Hc. rewrite !in_app_iff in Hc.
    assert (F : forall l (ns : list node), Forall2 (fun n c => build E n = Ok c /\ mirrors n c) ns l -> In (LChild c) (map LChild ns) -> exists k, In k l /\ build E c = Ok k /\ mirrors c k).
    { intros l ns0. induction 1 as [|n0 k0 ns1 l1 [B1 B2] _ IH]; [intros []|]. cbn [map]. intros [G|G]; [injection G as <-; exists k0; repeat split; auto; now left|]. destruct (IH G) as (k & K1 & K2 & K3). exists k. repeat split; auto. now right. }
    destruct Hc as [[Hc|[Hc|Hc]]|Hc].
    - destruct (F _ _ Hns Hc) as (k & K1 & K2 & K3). exists k. repeat split; auto. left. exact (Hsl k K1).
    - destruct (F _ _ Hms Hc) as (k & K1 & K2 & K3). exists k. repeat split; auto. now right.
    - apply in_map_iff in Hc as (u & Hu & _). discriminate.
    - now apply self_no_child in Hc.
  Qed.
  Lemma mirrors_ty n o : mirrors n o -> oty o = nty n.
  Proof. now intros [ty a cd log o' H _]. Qed.
  Lemma mirrors_split n : forall o, mirrors n o -> is_a (oty o) Type_Update = false -> (forall p k, part o p k -> is_a (oty k) Type_Update = false) ->
    (forall p k, part o p k -> non_document_feature p = true -> is_a (oty k) Type_StyleSelector = false) -> no_own_styles n = true.
  Proof.
    induction n as [ty a cd log IH] using node_all. intros o Hm Hu Hup Hst. inversion Hm as [ty' a' cd' log' o' Ht Hlog]; subst. cbn [no_own_styles]. rewrite Hu. apply forallb_forall. intros e He.
    destruct e as [c|x|x|x|u sd]; auto. destruct (Hlog c He) as (k & K1 & K2 & K3). pose proof (part_here o k K1) as P.
    rewrite (IH c He k K3 (Hup _ _ P)); [|intros p x Hp; apply (Hup p x); now apply part_deeper with (c := k)|intros p x Hp; apply (Hst p x); now apply part_deeper with (c := k)].
    rewrite andb_true_r. apply negb_true_iff. destruct (non_document_feature (oty o)) eqn:En; [|apply andb_false_r]. rewrite <- (mirrors_ty _ _ K3), (Hst _ _ P En). reflexivity.
  Qed.
  Lemma mirrors_inline n : forall o, mirrors n o -> is_a (oty o) Type_Update = false -> (forall p k, part o p k -> is_a (oty k) Type_Update = false) ->
    (forall p k, part o p k -> is_a p Type_Document = true -> is_a (oty k) Type_StyleSelector = true -> id_of k = None) -> no_shared_styles E n = true.
  Proof.
    induction n as [ty a cd log IH] using node_all. intros o Hm Hu Hup Hst. inversion Hm as [ty' a' cd' log' o' Ht Hlog]; subst. cbn [no_shared_styles]. rewrite Hu. apply forallb_forall. intros e He.
    destruct e as [c|x|x|x|u sd]; auto. destruct (Hlog c He) as (k & K1 & K2 & K3). pose proof (part_here o k K1) as P.
    rewrite (IH c He k K3 (Hup _ _ P)); [|intros p x Hp; apply (Hup p x); now apply part_deeper with (c := k)|intros p x Hp; apply (Hst p x); now apply part_deeper with (c := k)].
    rewrite andb_true_r, K2. apply negb_true_iff. destruct (is_a (oty o) Type_Document) eqn:En; [|reflexivity]. rewrite <- (mirrors_ty _ _ K3). destruct (is_a (oty k) Type_StyleSelector) eqn:ES; [|reflexivity]. rewrite (Hst _ _ P En ES). reflexivity.
  Qed.
End Written.
(** Reading a text, with its styles split or inlined: SplitStyles and InlineStyles of the text (style_splitter.cc:114-121, style_inliner.cc:109-115). *)
Definition split_kml (E : env) (s : str) : res (option obj) := do r <- parse_text [] s; match r with Some n => do o <- split_styles E n; Ok (Some o) | None => Ok None end.
Definition inline_kml (E : env) (split_uri : str -> option (str * str)) (s : str) : res (option obj) := do r <- parse_text [] s; match r with Some n => do o <- inline_styles E split_uri n; Ok (Some o) | None => Ok None end.
(** C117. An element without Updates whose features have no styles of their own is given back by splitting the text it is written as: splitting a second time changes nothing. *)
Theorem split_written : forall E nl ind o ty a ks, forallb wsp nl = true -> forallb wsp ind = true ->
  ser o = IElem ty a ks -> keeps E nl ind 0 Type_Unknown o = true -> readable (ser o) = true -> regular (XElem (tag_name ty) a (content nl ind 0 ks)) ->
  is_a (oty o) Type_Update = false -> (forall p k, part o p k -> is_a (oty k) Type_Update = false) ->
  (forall p k, part o p k -> non_document_feature p = true -> is_a (oty k) Type_StyleSelector = false) ->
  exists s, write nl ind o = Ok s /\ split_kml E s = Ok (Some o).
Proof.
  intros E nl ind o ty a ks Hnl Hind Hs Hk Hr Hreg H1 H2 H3. destruct (keeps_mirrors E nl ind o 0%nat Type_Unknown Hk) as (n & a' & ks' & He & Hkt & Hb & Hm).
  unfold write. rewrite Hs in *. cbn [elem_of] in He. inversion He; subst n a' ks'.
  destruct (serialize_reads nl ind ty a ks Hnl Hind Hr) as (s & Hw & Ht). exists s. split; [exact Hw|].
  unfold split_kml. rewrite (parse_text_builds_tree s _ Ht Hreg). cbn [bind]. rewrite (tree_elem _ _ _ _ Hkt). rewrite split_nothing, Hb; [reflexivity|]. now apply (mirrors_split E _ o).
Qed.
Print Assumptions split_written.
(** C117. The same for inlining and an element whose Documents have no styles with an id. *)
Theorem inline_written : forall E split_uri nl ind o ty a ks, forallb wsp nl = true -> forallb wsp ind = true ->
  ser o = IElem ty a ks -> keeps E nl ind 0 Type_Unknown o = true -> readable (ser o) = true -> regular (XElem (tag_name ty) a (content nl ind 0 ks)) ->
  is_a (oty o) Type_Update = false -> (forall p k, part o p k -> is_a (oty k) Type_Update = false) ->
  (forall p k, part o p k -> is_a p Type_Document = true -> is_a (oty k) Type_StyleSelector = true -> id_of k = None) ->
  exists s, write nl ind o = Ok s /\ inline_kml E split_uri s = Ok (Some o).
Proof.
  intros E split_uri nl ind o ty a ks Hnl Hind Hs Hk Hr Hreg H1 H2 H3. destruct (keeps_mirrors E nl ind o 0%nat Type_Unknown Hk) as (n & a' & ks' & He & Hkt & Hb & Hm).
  unfold write. rewrite Hs in *. cbn [elem_of] in He. inversion He; subst n a' ks'.
  destruct (serialize_reads nl ind ty a ks Hnl Hind Hr) as (s & Hw & Ht). exists s. split; [exact Hw|].
  unfold inline_kml. rewrite (parse_text_builds_tree s _ Ht Hreg). cbn [bind]. rewrite (tree_elem _ _ _ _ Hkt). rewrite inline_nothing, Hb; [reflexivity|]. now apply (mirrors_inline E _ o).
Qed.
Print Assumptions inline_written.

(** Checking the hypotheses on an example. *)
Fixpoint partsb (P : N -> obj -> bool) (o : obj) : bool :=
  let 'Obj ty _ _ _ _ sl mis _ := o in forallb (fun l => forallb (fun k => P ty k && partsb P k) l) sl && forallb (fun k => P ty k && partsb P k) mis.
Lemma partsb_spec P o : partsb P o = true -> forall p k, part o p k -> P p k = true.
Proof.
  intros H p k Hp. induction Hp as [o k Hc|o c p k Hc Hp IH].
  - destruct o as [ty ka ea tx vec sl mis unk]. cbn [partsb] in H. apply andb_prop in H as [H1 H2]. rewrite forallb_forall in H1, H2. cbn [oty]. destruct Hc as [(l & Hl & Hk)|Hk]; cbn [oslots omis] in *.
    + specialize (H1 l Hl). rewrite forallb_forall in H1. specialize (H1 k Hk). now apply andb_prop in H1 as [? _].
    + specialize (H2 k Hk). now apply andb_prop in H2 as [? _].
  - apply IH. destruct o as [ty ka ea tx vec sl mis unk]. cbn [partsb] in H. apply andb_prop in H as [H1 H2]. rewrite forallb_forall in H1, H2. destruct Hc as [(l & Hl & Hk)|Hk]; cbn [oslots omis] in *.
    + specialize (H1 l Hl). rewrite forallb_forall in H1. specialize (H1 c Hk). now apply andb_prop in H1 as [_ ?].
    + specialize (H2 c Hk). now apply andb_prop in H2 as [_ ?].
Qed.
Definition got (r : res (option obj)) : obj := match r with Ok (Some o) => o | _ => create 0 end.
Definition both : str := S_ "<kml><Document><Style id=""a""><PolyStyle><fill>0</fill></PolyStyle></Style><Folder><Placemark><name>p</name><styleUrl>#a</styleUrl></Placemark><Placemark><Style><LineStyle><width>1</width></LineStyle></Style></Placemark></Folder></Document></kml>".
(** The hypotheses on the element, as a test. *)
Definition writtenb (o : obj) : bool :=
  match ser o with IElem ty a ks => keeps E0 CoordProofs.lf (S_ "  ") 0 Type_Unknown o && readable (ser o) && regularb (XElem (tag_name ty) a (content CoordProofs.lf (S_ "  ") 0 ks)) | _ => false end &&
  negb (is_a (oty o) Type_Update) && partsb (fun _ k => negb (is_a (oty k) Type_Update)) o.
(** What splitting and inlining give for a file with a shared style and a style of a feature satisfies the hypotheses; the file itself does not. *)
Example twice_sample :
  (let o := got (split_kml E0 both) in writtenb o && partsb (fun p k => negb (non_document_feature p && is_a (oty k) Type_StyleSelector)) o) = true /\
  (let o := got (inline_kml E0 split0 both) in writtenb o && partsb (fun p k => negb (is_a p Type_Document && is_a (oty k) Type_StyleSelector && match id_of k with Some _ => true | None => false end)) o) = true /\
  got (split_kml E0 both) <> got (read_kml E0 both) /\ got (inline_kml E0 split0 both) <> got (read_kml E0 both) /\
  match write_pretty (got (split_kml E0 both)) with Ok w => split_kml E0 w | _ => Ok None end = split_kml E0 both /\
  match write_pretty (got (inline_kml E0 split0 both)) with Ok w => inline_kml E0 split0 w | _ => Ok None end = inline_kml E0 split0 both.
Proof.
  split; [vm_compute; reflexivity|]. split; [vm_compute; reflexivity|]. split; [vm_compute; discriminate|]. split; [vm_compute; discriminate|]. split; vm_compute; reflexivity.
Qed.

(** Properties of the functions for Atom feeds (C87). *)
From Verif Require Import Common StrMap StringsModel StringsProps AttributesModel XsdTables XsdModel XmlSpec XmlSpecProofs NsSpec HandlerModel HandlerSpec HandlerProps.
From Verif Require Import SerializerModel SerializerProofs CoordModel DomTables DomModel DomSpec DomProofs DomProps SplitProofs2 NsModel NsProps AtomModel.
Local Open Scope N_scope.

(** [x] is the first element of [l] with the property. *)
Definition first_of {A} (P : A -> Prop) (l : list A) (x : A) : Prop :=
  exists l1 l2, l = l1 ++ x :: l2 /\ P x /\ forall y, In y l1 -> ~ P y.
Lemma find_first {A} (f : A -> bool) (P : A -> Prop) (l : list A) : (forall x, f x = true <-> P x) ->
  match List.find f l with Some x => first_of P l x | None => forall x, In x l -> ~ P x end.
Proof.
  intros H. induction l as [|a l IH]; cbn [List.find]; [intros x []|]. destruct (f a) eqn:E.
  - exists [], l. split; [reflexivity|]. split; [now apply H|intros y []].
  - assert (Ha : ~ P a) by (intros G; apply H in G; congruence). destruct (List.find f l) as [x|].
    + destruct IH as (l1 & l2 & -> & Hx & Hn). exists (a :: l1), l2. split; [reflexivity|]. split; [assumption|]. intros y [<-|Hy]; auto.
    + intros x [<-|Hx]; auto.
Qed.
(** The relation of a link ends with this text; the other attributes used. *)
Definition attribute_ends (o : obj) (k suffix : str) : Prop := suffix <> [] /\ exists u, mget k (oka o) = Some (u ++ suffix).
Lemma ends_attribute o k e : string_ends_with (att_value_of o k) e = true <-> attribute_ends o k e.
Proof.
  unfold att_value_of, attribute_ends. rewrite ends_with_iff_suffix. destruct (mget k (oka o)) as [v|].
  - split; intros [H [u Hu]]; split; auto; exists u; [now rewrite Hu|now inversion Hu].
  - split; intros [H [u Hu]]; [|discriminate]. destruct u; [cbn in Hu; subst; congruence|discriminate].
Qed.
Lemma of_rel_spec l rel : link_is_of_rel l rel = true <-> attribute_ends l (S_ "rel") rel.
Proof.
  unfold link_is_of_rel. rewrite andb_true_iff, ends_attribute, negb_true_iff. split; [tauto|]. intros H. split; [|assumption]. destruct H as [H _]. now apply eqs_neq.
Qed.
(** C87. The URL of a relation is the href of the first link which has an href and whose rel ends with it. *)
Theorem rel_url_correct : forall o rel, match find_rel_url o rel with
  | Some u => exists l, first_of (fun l => mget (S_ "href") (oka l) <> None /\ attribute_ends l (S_ "rel") rel) (get o Type_AtomLink) l /\ mget (S_ "href") (oka l) = Some u
  | None => forall l, In l (get o Type_AtomLink) -> ~ (mget (S_ "href") (oka l) <> None /\ attribute_ends l (S_ "rel") rel)
  end.
Proof.
  intros o rel. unfold find_rel_url. pose proof (find_first (fun l => has_att l (S_ "href") && link_is_of_rel l rel) (fun l => mget (S_ "href") (oka l) <> None /\ attribute_ends l (S_ "rel") rel) (get o Type_AtomLink)) as H.
  destruct (List.find _ _) as [l|]; cbn [option_map].
  - exists l. assert (G : forall x, has_att x (S_ "href") && link_is_of_rel x rel = true <-> mget (S_ "href") (oka x) <> None /\ attribute_ends x (S_ "rel") rel).
    { intros x. rewrite andb_true_iff, of_rel_spec. unfold has_att. destruct (mget (S_ "href") (oka x)); split; intros [H1 H2]; split; auto; congruence. }
    specialize (H G). split; [assumption|]. destruct H as (_ & _ & _ & [H _] & _). unfold att_value_of. destruct (mget (S_ "href") (oka l)); [reflexivity|congruence].
  - apply H. intros x. rewrite andb_true_iff, of_rel_spec. unfold has_att. destruct (mget (S_ "href") (oka x)); split; intros [H1 H2]; split; auto; congruence.
Qed.
Print Assumptions rel_url_correct.
(** C87. The link of a relation and a mime type: the first with this type whose rel ends with the relation; a link without a type has the empty one. *)
Theorem link_correct : forall o rel mime,
  let P l := attribute_ends l (S_ "rel") rel /\ (mget (S_ "type") (oka l) = Some mime \/ mget (S_ "type") (oka l) = None /\ mime = []) in
  match find_link o rel mime with Some l => first_of P (get o Type_AtomLink) l | None => forall l, In l (get o Type_AtomLink) -> ~ P l end.
Proof.
  intros o rel mime P. unfold find_link. apply find_first. intros l. unfold P. rewrite andb_true_iff, of_rel_spec, eqs_spec. unfold att_value_of. destruct (mget (S_ "type") (oka l)) as [v|].
  - split; intros [H1 H2]; split; auto; [left; congruence|destruct H2 as [H2|[H2 _]]; congruence].
  - split; intros [H1 H2]; split; auto; destruct H2 as [H2|[_ H2]]; congruence.
Qed.
Print Assumptions link_correct.
Theorem category_correct : forall o scheme,
  match find_category o scheme with
  | Some c => first_of (fun c => attribute_ends c (S_ "scheme") scheme) (get o Type_AtomCategory) c
  | None => forall c, In c (get o Type_AtomCategory) -> ~ attribute_ends c (S_ "scheme") scheme
  end.
Proof.
  intros o scheme. unfold find_category. apply find_first. intros c. rewrite andb_true_iff, ends_attribute. split; [tauto|]. intros H. split; [|assumption].
  destruct H as [_ [u Hu]]. unfold has_att. now rewrite Hu.
Qed.
Print Assumptions category_correct.
(** C87. The entry with a title is the first one; an entry without a title has the empty one. *)
Theorem entry_by_title_correct : forall feed title,
  match find_entry_by_title feed title with
  | Some e => first_of (fun e => field_value e Type_atomTitle = title) (get feed Type_AtomEntry) e
  | None => forall e, In e (get feed Type_AtomEntry) -> field_value e Type_atomTitle <> title
  end.
Proof. intros feed title. unfold find_entry_by_title. apply find_first. intros e. apply eqs_spec. Qed.
Print Assumptions entry_by_title_correct.
(** C87. Following the next link: what ParseAtom gives for the contents of the URL of the relation next, if it is a feed. *)
Theorem next_feed_correct : forall http parse feed f, get_next_feed http parse feed = Some f <->
  exists u t, find_rel_url feed (S_ "next") = Some u /\ http u = Some t /\ parse t = Some f /\ oty f = Type_AtomFeed.
Proof.
  intros http parse feed f. unfold get_next_feed, get_and_parse_feed, as_feed. split.
  - destruct (find_rel_url feed (S_ "next")) as [u|]; [|discriminate]. destruct (http u) as [t|] eqn:E; [|discriminate]. destruct (parse t) as [x|] eqn:Ep; [|discriminate].
    destruct (N.eqb_spec (oty x) Type_AtomFeed); [|discriminate]. intros H; inversion H; subst. eauto 10.
  - intros (u & t & -> & -> & -> & ->). now rewrite N.eqb_refl.
Qed.
Print Assumptions next_feed_correct.

(** ** Features of entries *)
Lemma sized_create ty : sized (create ty).
Proof. unfold sized, create. cbn [oslots oty]. now rewrite map_length. Qed.
(** C87. The entry made for a feature has its name as title and its description as summary, and gives the feature back. *)
Theorem entry_for_feature_correct : forall f, is_a (oty f) Type_Feature = true ->
  let e := create_entry_for_feature f in
  oty e = Type_AtomEntry /\ field_value e Type_atomTitle = field_value f Type_name /\ field_value e Type_atomSummary = field_value f Type_description /\
  get_entry_feature e = Some f /\ get_content_src e = None /\ find_rel_url e (S_ "self") = None.
Proof.
  intros f Hf e. unfold e, create_entry_for_feature, create_basic_entry. set (e1 := put (create Type_AtomEntry) Type_atomTitle _).
  assert (S1 : sized e1) by apply put_sized, sized_create. assert (T1 : oty e1 = Type_AtomEntry) by apply put_type.
  set (e2 := put e1 Type_atomSummary _). assert (S2 : sized e2) by now apply put_sized. assert (T2 : oty e2 = Type_AtomEntry) by (unfold e2; rewrite put_type; exact T1).
  set (c := [set_mis (create Type_AtomContent) [f]]).
  assert (G : forall k, get (put e2 Type_AtomContent c) k = if Type_AtomContent =? k then c else if Type_atomSummary =? k then [field Type_atomSummary (field_value f Type_description)]
    else if Type_atomTitle =? k then [field Type_atomTitle (field_value f Type_name)] else get (create Type_AtomEntry) k).
  { intros k. rewrite put_get by exact S2. rewrite T2. change (match index_of_key Type_AtomContent (c_slots (cls Type_AtomEntry)) 0 with Some _ => true | None => false end) with true. rewrite andb_true_r.
    destruct (Type_AtomContent =? k); [reflexivity|]. unfold e2. rewrite put_get by exact S1. rewrite T1.
    change (match index_of_key Type_atomSummary (c_slots (cls Type_AtomEntry)) 0 with Some _ => true | None => false end) with true. rewrite andb_true_r.
    destruct (Type_atomSummary =? k); [reflexivity|]. unfold e1. rewrite put_get by apply sized_create.
    change (match index_of_key Type_atomTitle (c_slots (cls (oty (create Type_AtomEntry)))) 0 with Some _ => true | None => false end) with true. now rewrite andb_true_r. }
  split; [rewrite put_type; exact T2|]. unfold field_value, get_entry_feature, get_content_src, find_rel_url. rewrite !G.
  split; [reflexivity|]. split; [reflexivity|]. split; [|split; reflexivity].
  change (Type_AtomContent =? Type_AtomContent) with true. cbv beta iota. unfold c. cbn [omis set_mis create]. now rewrite Hf.
Qed.
Print Assumptions entry_for_feature_correct.
(** The features of a feed: for each entry whose content begins with a feature, that feature with a link to the URL of the relation self, if there is one. *)
Definition feature_of_entry (e : obj) : list obj :=
  match get_entry_feature e with
  | Some f => [match find_rel_url e (S_ "self") with Some u => put f Type_AtomLink [set_ka (create Type_AtomLink) [(S_ "href", u)]] | None => f end]
  | None => []
  end.
(** C87. The features of the entries are appended to the container in the order of the entries, nothing else of it changes; the entries keep their other contents. *)
Theorem feed_features_correct : forall feed container, sized container -> (oty container = Type_Document \/ oty container = Type_Folder) ->
  let c := snd (get_feed_features false feed container) in
  oty c = oty container /\ get c Type_Feature = get container Type_Feature ++ flat_map feature_of_entry (get feed Type_AtomEntry) /\
  (forall k, k <> Type_Feature -> get c k = get container k).
Proof.
  intros feed container Hs Hc c. unfold c, get_feed_features. cbn [snd]. split; [apply put_type|].
  assert (Hi : match index_of_key Type_Feature (c_slots (cls (oty container))) 0 with Some _ => true | None => false end = true).
  { destruct Hc as [-> | ->]; reflexivity. }
  assert (Hl : flat_map (fun x => match snd x with Some f => [f] | None => [] end) (map clone_entry_feature (get feed Type_AtomEntry)) = flat_map feature_of_entry (get feed Type_AtomEntry)).
  { induction (get feed Type_AtomEntry) as [|e l IH]; [reflexivity|]. cbn [map flat_map]. rewrite IH. f_equal. unfold clone_entry_feature, feature_of_entry, linked_feature.
    destruct (get_entry_feature e); reflexivity. }
  rewrite Hl. split.
  - rewrite put_get by assumption. rewrite Hi, N.eqb_refl. reflexivity.
  - intros k Hk. rewrite put_get by assumption. destruct (N.eqb_spec Type_Feature k); [congruence|reflexivity].
Qed.
Print Assumptions feed_features_correct.

(** ** Resource ids *)
Lemma skip_to (a : str) c b : skipn (length a + 1) (a ++ c :: b) = b.
Proof. rewrite skipn_app, skipn_all2 by lia. replace (length a + 1 - length a)%nat with 1%nat by lia. reflexivity. Qed.
Lemma first_to (a : str) b : firstn (length a) (a ++ b) = a.
Proof. now rewrite firstn_app, Nat.sub_diag, firstn_all, app_nil_r. Qed.
Lemma hack_parse_spec u k v r : ~ In "|"%char u -> ~ In ">"%char k -> ~ In "<"%char v ->
  hack_parse_element (u ++ "|"%char :: k ++ ">"%char :: v ++ "<"%char :: r) = Some (k, v).
Proof.
  intros Hu Hk Hv. unfold hack_parse_element. rewrite (find_char_app _ _ _ Hu), skip_to, (find_char_app _ _ _ Hk).
  assert (G : skipn (length u + 1 + length k + 1) (u ++ "|"%char :: k ++ ">"%char :: v ++ "<"%char :: r) = v ++ "<"%char :: r).
  { replace (length u + 1 + length k + 1)%nat with (length (u ++ "|"%char :: k) + 1)%nat by (rewrite app_length; cbn [length]; lia).
    replace (u ++ "|"%char :: k ++ ">"%char :: v ++ "<"%char :: r) with ((u ++ "|"%char :: k) ++ ">"%char :: v ++ "<"%char :: r) by (now rewrite <- app_assoc). apply skip_to. }
  cbv zeta. rewrite G, (find_char_app _ _ _ Hv). now rewrite !first_to.
Qed.
(** An unknown element without attributes and with text only, as the handler keeps it when a namespace aware parse reports its name. *)
Definition unknown_element (u k v : str) : str := raw (XElem (expat_name u k) [] (map XChar v)) ++ ["010"%char].
Lemma raw_text v : flat_map raw (map XChar v) = v.
Proof. induction v as [|c v IH]; [reflexivity|]. cbn [map flat_map raw app]. now rewrite IH. Qed.
Lemma hack_parse_unknown u k v : u <> [] -> ~ In "|"%char u -> ~ In ">"%char k -> ~ In "<"%char v -> hack_parse_element (unknown_element u k v) = Some (k, v).
Proof.
  intros Hn Hu Hk Hv. unfold unknown_element, expat_name. destruct u as [|c u]; [congruence|]. set (w := c :: u) in *. cbn [raw flat_map app]. rewrite raw_text.
  change (S_ "<" ++ (w ++ "|"%char :: k) ++ S_ ">" ++ v ++ S_ "</" ++ (w ++ "|"%char :: k) ++ S_ ">") with ("<"%char :: (w ++ "|"%char :: k) ++ ">"%char :: v ++ "<"%char :: "/"%char :: (w ++ "|"%char :: k) ++ S_ ">").
  replace (("<"%char :: (w ++ "|"%char :: k) ++ ">"%char :: v ++ "<"%char :: "/"%char :: (w ++ "|"%char :: k) ++ S_ ">") ++ ["010"%char])
    with (("<"%char :: w) ++ "|"%char :: k ++ ">"%char :: v ++ "<"%char :: ("/"%char :: (w ++ "|"%char :: k) ++ S_ ">" ++ ["010"%char])).
  - apply hack_parse_spec; auto. intros [H|H]; [discriminate|contradiction].
  - cbn [app]. f_equal. rewrite <- !app_assoc. cbn [app]. rewrite <- !app_assoc. cbn [app]. rewrite <- !app_assoc. cbn [app]. now rewrite <- !app_assoc.
Qed.
(** C87. The resource id of an entry is the text of its first unknown element called resourceId, if the unknown elements of the entry are elements with text only. *)
Theorem resource_id_correct : forall entry l,
  ounk entry = map (fun e => unknown_element (fst (fst e)) (snd (fst e)) (snd e)) l ->
  (forall u k v, In (u, k, v) l -> u <> [] /\ ~ In "|"%char u /\ ~ In ">"%char k /\ ~ In "<"%char v) ->
  get_gd_resource_id entry = option_map snd (List.find (fun e => eqs (snd (fst e)) (S_ "resourceId")) l).
Proof.
  intros entry l He Hl. unfold get_gd_resource_id. rewrite He. clear He. induction l as [|[[u k] v] l IH]; [reflexivity|]. cbn [map gd_resource_id_in fst snd].
  destruct (Hl u k v (or_introl eq_refl)) as (H1 & H2 & H3 & H4). rewrite hack_parse_unknown by assumption. cbn [List.find fst snd].
  destruct (eqs k (S_ "resourceId")); [reflexivity|]. apply IH. intros u' k' v' Hi. apply Hl. now right.
Qed.
Print Assumptions resource_id_correct.
Definition entry_of (s : str) : obj := match atom_object E0 s with Some o => o | None => create 0 end.
Definition entry_parsed (s : str) : obj := match parse_text [] s with Ok (Some n) => match build E0 n with Ok o => o | _ => create 0 end | _ => create 0 end.
Example resource_id_sample : ounk (entry_of gd_text) = [unknown_element (S_ "http://schemas.google.com/g/2005") (S_ "resourceId") (S_ "document:1")] /\
  get_gd_resource_id (entry_of gd_text) = Some (S_ "document:1").
Proof. split; vm_compute; reflexivity. Qed.
(** C87. The resource id is not found if its element has an attribute, or if the entry was read by Parse; an element called resourceId of another namespace is taken for it. *)
Definition gd_att_text : str := S_ "<entry xmlns=""http://www.w3.org/2005/Atom"" xmlns:gd=""http://schemas.google.com/g/2005""><gd:resourceId x=""1"">document:1</gd:resourceId></entry>".
Definition gd_plain_text : str := S_ "<atom:entry xmlns:atom=""http://www.w3.org/2005/Atom"" xmlns:gd=""http://schemas.google.com/g/2005""><gd:resourceId>document:1</gd:resourceId></atom:entry>".
Definition gd_other_text : str := S_ "<entry xmlns=""http://www.w3.org/2005/Atom"" xmlns:o=""urn:other""><o:resourceId>x</o:resourceId></entry>".
Theorem resource_id_refuted :
  oty (entry_of gd_att_text) = Type_AtomEntry /\ get_gd_resource_id (entry_of gd_att_text) = None /\
  oty (entry_parsed gd_plain_text) = Type_AtomEntry /\ get_gd_resource_id (entry_parsed gd_plain_text) = None /\
  get_gd_resource_id (entry_of gd_plain_text) = Some (S_ "document:1") /\
  get_gd_resource_id (entry_of gd_other_text) = Some (S_ "x").
Proof. repeat split; vm_compute; reflexivity. Qed.
Print Assumptions resource_id_refuted.

(** ** Samples and violations *)
Definition feed2 : str := S_ "<feed xmlns=""http://www.w3.org/2005/Atom"" xmlns:k=""http://www.opengis.net/kml/2.2""><link rel=""http://h#self"" href=""http://h/feed""/><link rel=""next"" href=""http://h/feed2""/><entry><title>one</title><link rel=""edit"" href=""e""/><link rel=""self"" href=""http://h/1""/><content><k:Placemark><k:name>p</k:name></k:Placemark></content></entry><entry><title>two</title></entry><entry><title>three</title><content><k:Folder/></content></entry></feed>".
Definition written (o : obj) : str := match write_raw o with Ok s => s | _ => [] end.
Example feed_sample : oty (entry_of feed2) = Type_AtomFeed /\ find_rel_url (entry_of feed2) (S_ "self") = Some (S_ "http://h/feed") /\ find_rel_url (entry_of feed2) (S_ "next") = Some (S_ "http://h/feed2") /\
  find_rel_url (entry_of feed2) (S_ "edit") = None /\ option_map (fun e => field_value e Type_atomTitle) (find_entry_by_title (entry_of feed2) (S_ "two")) = Some (S_ "two") /\
  sized (create Type_Folder) /\
  written (snd (get_feed_features false (entry_of feed2) (create Type_Folder))) = S_ "<Folder><Placemark><name>p</name><atom:link href=""http://h/1""/></Placemark><Folder/></Folder>".
Proof. split; [vm_compute; reflexivity|]. split; [vm_compute; reflexivity|]. split; [vm_compute; reflexivity|]. split; [vm_compute; reflexivity|]. split; [vm_compute; reflexivity|]. split; [apply sized_create|]. vm_compute. reflexivity. Qed.
(** C87. An entry made for a feature, written and read again, gives the feature. *)
Definition park : obj := put (put (create Type_Placemark) Type_name [field Type_name (S_ "n")]) Type_description [field Type_description (S_ "d")].
Example entry_written_sample : written (create_entry_for_feature park) = S_ "<atom:entry><atom:title>n</atom:title><atom:summary>d</atom:summary><atom:content><Placemark><name>n</name><description>d</description></Placemark></atom:content></atom:entry>" /\
  get_entry_feature (entry_parsed (written (create_entry_for_feature park))) = Some park.
Proof. split; vm_compute; reflexivity. Qed.
(** C87. The features a feed gives are not copies: the feed itself is changed. *)
Theorem feed_changed_refuted :
  let feed' := fst (get_feed_features false (entry_of feed2) (create Type_Folder)) in
  written feed' <> written (entry_of feed2) /\
  (exists e f, first_of (fun e => get_entry_feature e <> None) (get feed' Type_AtomEntry) e /\ get_entry_feature e = Some f /\
     nth_error (get (snd (get_feed_features false (entry_of feed2) (create Type_Folder))) Type_Feature) 0 = Some f).
Proof.
  split; [vm_compute; discriminate|]. eexists. eexists. split; [|split].
  - exists [], (tl (get (fst (get_feed_features false (entry_of feed2) (create Type_Folder))) Type_AtomEntry)). split; [vm_compute; reflexivity|]. split; [vm_compute; discriminate|intros y []].
  - vm_compute. reflexivity.
  - vm_compute. reflexivity.
Qed.
Print Assumptions feed_changed_refuted.
(** C87. A second container gets nothing: the features have a parent then. *)
Theorem feed_twice_refuted : forall feed container, snd (get_feed_features true feed container) = container.
Proof. reflexivity. Qed.
Print Assumptions feed_twice_refuted.
(** C87. The container's link is not set to that of the feed, which has one. *)
Theorem container_link_refuted : exists feed u, find_rel_url feed (S_ "self") = Some u /\
  forall container, sized container -> (oty container = Type_Document \/ oty container = Type_Folder) -> get (snd (get_feed_features false feed container)) Type_AtomLink = get container Type_AtomLink.
Proof.
  exists (entry_of feed2), (S_ "http://h/feed"). split; [vm_compute; reflexivity|]. intros container Hs Hc. destruct (feed_features_correct (entry_of feed2) container Hs Hc) as (_ & _ & H). apply H. discriminate.
Qed.
Print Assumptions container_link_refuted.
(** C87. A feature which is not the first KML element of the content is not found. *)
Definition second_text : str := S_ "<entry xmlns=""http://www.w3.org/2005/Atom"" xmlns:k=""http://www.opengis.net/kml/2.2""><content><k:Style/><k:Placemark/></content></entry>".
Theorem entry_feature_second_refuted : written (entry_of second_text) = S_ "<atom:entry><atom:content><Style/><Placemark/></atom:content></atom:entry>" /\ get_entry_feature (entry_of second_text) = None.
Proof. split; vm_compute; reflexivity. Qed.
Print Assumptions entry_feature_second_refuted.

(** C87. The basic link has exactly the given href, rel and type, the basic entry exactly the given title and summary. *)
Theorem basic_link_written : forall href rel type,
  ser (create_basic_link href rel type) = IElem Type_AtomLink [(S_ "href", href); (S_ "rel", rel); (S_ "type", type)] [].
Proof. intros. vm_compute. reflexivity. Qed.
Print Assumptions basic_link_written.
Theorem basic_entry_written : forall title summary,
  ser (create_basic_entry title summary) = IElem Type_AtomEntry [] [IField Type_atomTitle title; IField Type_atomSummary summary].
Proof. intros. vm_compute. reflexivity. Qed.
Print Assumptions basic_entry_written.

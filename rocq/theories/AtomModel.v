(** Model of src/kml/convenience/atom_util.cc on the elements of DomModel.v.  Elements are values there; where the code changes an element others
    point to, the functions here give the changed owner too. *)
From Verif Require Import Common StrMap StringsModel AttributesModel XsdTables XsdModel HandlerModel SerializerModel DomTables DomModel.
Local Open Scope N_scope.

(** Getters of atom.h, feature.h: the value of a field or attribute, empty if there is none. *)
Definition field_value (o : obj) (k : N) : str := match get o k with v :: _ => char_data v | [] => [] end.
Definition att_value_of (o : obj) (k : str) : str := match mget k (oka o) with Some v => v | None => [] end.
Definition has_att (o : obj) (k : str) : bool := match mget k (oka o) with Some _ => true | None => false end.
(** atom_util.cc:48-54 CreateBasicEntry, 57-65 CreateBasicLink. *)
Definition create_basic_entry (title summary : str) : obj :=
  put (put (create Type_AtomEntry) Type_atomTitle [field Type_atomTitle title]) Type_atomSummary [field Type_atomSummary summary].
Definition create_basic_link (href rel type : str) : obj :=
  set_ka (create Type_AtomLink) (mset (S_ "type") type (mset (S_ "rel") rel (mset (S_ "href") href []))).
(** atom_util.cc:68-85 CreateEntryForFeature; the content is given the feature by Element::AddElement (element.cc:53-55). *)
Definition create_entry_for_feature (f : obj) : obj :=
  put (create_basic_entry (field_value f Type_name) (field_value f Type_description)) Type_AtomContent [set_mis (create Type_AtomContent) [f]].
(** atom_util.cc:88-96 GetContentSrc. *)
Definition get_content_src (entry : obj) : option str :=
  match get entry Type_AtomContent with c :: _ => mget (S_ "src") (oka c) | [] => None end.
(** atom_util.cc:99-103 LinkIsOfRel. *)
Definition link_is_of_rel (link : obj) (rel : str) : bool := negb (eqs rel []) && string_ends_with (att_value_of link (S_ "rel")) rel.
(** atom_util.cc:106-118 FindCategoryByScheme. *)
Definition find_category (o : obj) (scheme : str) : option obj :=
  List.find (fun c => has_att c (S_ "scheme") && string_ends_with (att_value_of c (S_ "scheme")) scheme) (get o Type_AtomCategory).
(** atom_util.cc:121-134 FindRelUrl. *)
Definition find_rel_url (o : obj) (rel : str) : option str :=
  option_map (fun l => att_value_of l (S_ "href")) (List.find (fun l => has_att l (S_ "href") && link_is_of_rel l rel) (get o Type_AtomLink)).
(** atom_util.cc:137-148 FindLink. *)
Definition find_link (o : obj) (rel mime : str) : option obj :=
  List.find (fun l => link_is_of_rel l rel && eqs (att_value_of l (S_ "type")) mime) (get o Type_AtomLink).
(** atom_util.cc:151-159 GetEntryFeature. *)
Definition get_entry_feature (entry : obj) : option obj :=
  match get entry Type_AtomContent with
  | c :: _ => match omis c with f :: _ => if is_a (oty f) Type_Feature then Some f else None | [] => None end
  | [] => None
  end.
(** atom_util.cc:162-173 CloneEntryFeature: the entry afterwards, and the feature, which is the one in the entry. *)
Definition linked_feature (entry f : obj) : obj :=
  match find_rel_url entry (S_ "self") with
  | Some href => put f Type_AtomLink [set_ka (create Type_AtomLink) [(S_ "href", href)]]
  | None => f
  end.
Definition clone_entry_feature (entry : obj) : obj * option obj :=
  match get_entry_feature entry with
  | None => (entry, None)
  | Some f =>
      let f' := linked_feature entry f in
      (match get entry Type_AtomContent with
       | c :: _ => put entry Type_AtomContent [set_mis c (f' :: tl (omis c))]
       | [] => entry
       end, Some f')
  end.
(** atom_util.cc:176-187 GetFeedFeatures: the feed and the container afterwards.  [parented]: the features of the entries have a parent already, then
    add_feature (container.cc:45-47, element.h:200-208) does not take them; a feature which was parsed inside of content has none. *)
Definition get_feed_features (parented : bool) (feed container : obj) : obj * obj :=
  let r := map clone_entry_feature (get feed Type_AtomEntry) in
  (put feed Type_AtomEntry (map fst r),
   if parented then container
   else put container Type_Feature (get container Type_Feature ++ flat_map (fun x => match snd x with Some f => [f] | None => [] end) r)).
(** atom_util.cc:190-199 FindEntryByTitle. *)
Definition find_entry_by_title (feed : obj) (title : str) : option obj :=
  List.find (fun e => eqs (field_value e Type_atomTitle) title) (get feed Type_AtomEntry).
(** atom_util.cc:222-238 HackParseElement. *)
Definition hack_parse_element (s : str) : option (str * str) :=
  match find_char "|"%char s with
  | None => None
  | Some pipe =>
      match find_char ">"%char (skipn (pipe + 1) s) with
      | None => None
      | Some g =>
          let gt := (pipe + 1 + g)%nat in
          match find_char "<"%char (skipn (gt + 1) s) with
          | None => None
          | Some l => Some (firstn g (skipn (pipe + 1) s), firstn l (skipn (gt + 1) s))
          end
      end
  end.
(** atom_util.cc:243-259 GetGdResourceId. *)
Fixpoint gd_resource_id_in (l : list str) : option str :=
  match l with
  | [] => None
  | s :: r => match hack_parse_element s with
              | Some (k, v) => if eqs k (S_ "resourceId") then Some v else gd_resource_id_in r
              | None => gd_resource_id_in r
              end
  end.
Definition get_gd_resource_id (entry : obj) : option str := gd_resource_id_in (ounk entry).
(** atom_util.cc:202-219 GetAndParseFeed, GetNextFeed: [http] is SendRequest of the client, [parse] is ParseAtom. *)
Definition as_feed (o : option obj) : option obj := match o with Some x => if oty x =? Type_AtomFeed then Some x else None | None => None end.
Definition get_and_parse_feed (http : str -> option str) (parse : str -> option obj) (url : str) : option obj :=
  match http url with Some t => as_feed (parse t) | None => None end.
Definition get_next_feed (http : str -> option str) (parse : str -> option obj) (feed : obj) : option obj :=
  match find_rel_url feed (S_ "next") with Some url => get_and_parse_feed http parse url | None => None end.

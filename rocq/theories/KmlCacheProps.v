(** Property theorems about fetching files and data through the KML cache (C98, C99). *)
From Verif Require Import Common StrMap StringsModel PathModel UriModel UriProps KmzModel KmzProps NetCacheModel XsdTables DomTables DomModel FindModel KmlCacheModel.
Local Open Scope N_scope.

Section Sound.
  Variable item : Type.
  Variable fetch_url : str -> option str.
  Variable create : str -> option item.
  Variable max_size : N.
  (** A cache which holds only what the network gives. *)
  Definition sound (c : cache item) : Prop := msorted (cmap item c) /\
    forall u i, look_up item u c = Some i -> exists d, fetch_url u = Some d /\ create d = Some i.
  Definition direct (u : str) : option item := match fetch_url u with Some d => create d | None => None end.
  Lemma removed_look_up c u i : look_up item u (snd (remove_oldest item c)) = Some i -> look_up item u c = Some i.
  Proof.
    unfold remove_oldest. destruct (cmap item c) as [|first r] eqn:E; [auto|]. cbn [snd]. unfold look_up. cbn [cmap]. rewrite <- E, mget_mdel.
    destruct (eqs u _); [discriminate|auto].
  Qed.
  Lemma removed_sorted c : msorted (cmap item c) -> msorted (cmap item (snd (remove_oldest item c))).
  Proof. intros H. unfold remove_oldest. destruct (cmap item c) as [|first r] eqn:E; cbn [snd cmap]; [now rewrite E|]. rewrite <- E in *. now apply mdel_sorted. Qed.
  Lemma save_look_up c u i v j : msorted (cmap item c) -> look_up item v (snd (save item max_size u i c)) = Some j ->
    (v = u /\ i = Some j) \/ look_up item v c = Some j.
  Proof.
    intros Hs. unfold save. destruct (look_up item u c) as [x|] eqn:E; [right; assumption|]. set (c' := if size item c =? max_size then snd (remove_oldest item c) else c).
    assert (Hs' : msorted (cmap item c')). { unfold c'. destruct (_ =? _); auto. now apply removed_sorted. }
    cbn [snd]. unfold look_up at 1. cbn [cmap]. rewrite mget_mset by exact Hs'. destruct (eqs v u) eqn:Ev.
    - apply eqs_spec in Ev. intros H. left. auto.
    - intros H. right. unfold c' in H. destruct (size item c =? max_size); [now apply removed_look_up|exact H].
  Qed.
  Lemma save_sorted c u i : msorted (cmap item c) -> msorted (cmap item (snd (save item max_size u i c))).
  Proof.
    intros Hs. unfold save. destruct (look_up item u c); [exact Hs|]. cbn [snd cmap]. apply mset_sorted. destruct (_ =? _); auto. now apply removed_sorted.
  Qed.
  Lemma save_self c u i : msorted (cmap item c) -> look_up item u c = None -> look_up item u (snd (save item max_size u i c)) = i.
  Proof.
    intros Hs E. unfold save. rewrite E. set (c' := if size item c =? max_size then snd (remove_oldest item c) else c). cbn [snd]. unfold look_up. cbn [cmap]. rewrite mget_mset, eqs_refl; [reflexivity|].
    unfold c'. destruct (_ =? _); auto. now apply removed_sorted.
  Qed.
  Lemma fetch_sound c u : sound c -> let r := fetch item fetch_url create max_size u c in
    fst (fst r) = direct u /\ sound (snd r) /\ look_up item u (snd r) = direct u.
  Proof.
    intros [Hs Hl]. unfold fetch. destruct (look_up item u c) as [i|] eqn:E.
    - cbn [fst snd]. destruct (Hl u i E) as (d & Hd & Hi). unfold direct. rewrite Hd, Hi. split; [reflexivity|]. split; [split; assumption|exact E].
    - destruct (fetch_url u) as [d|] eqn:Ed.
      + pose proof (save_look_up c u (create d)) as HL. pose proof (save_sorted c u (create d) Hs) as HS. pose proof (save_self c u (create d) Hs E) as HV.
        assert (Ho : fst (save item max_size u (create d) c) = true) by (unfold save; now rewrite E).
        destruct (save item max_size u (create d) c) as [ok c']. cbn [fst snd] in *. subst ok. unfold direct. rewrite Ed. split; [reflexivity|]. split; [|exact HV].
        split; [exact HS|]. intros v j Hj. destruct (HL v j Hs Hj) as [[-> Hi]|Hi]; [eauto|auto].
      + cbn [fst snd]. unfold direct. rewrite Ed. split; [reflexivity|]. split; [split; assumption|exact E].
  Qed.
End Sound.

Section Fetching.
  Variable parse : str -> option uri.
  Variable resolve : str -> str -> option str.
  Variable fetch_url : str -> option str.
  Variable open_kmz : str -> option archive.
  Variable file : Type.
  Variable make_file : str -> str -> option file.
  Variable max : N.
  Variable max_size : N.
  Local Notation caches := (caches file).
  Local Notation archives := (archives file).
  Local Notation files := (files file).
  Local Notation kmls := (kmls file).
  Local Notation made := (made file).
  Local Notation relative := (create_relative parse resolve).
  (** ** Specification: fetching without any cache *)
  Definition kmz_at (u : str) : option archive := match fetch_url u with Some d => open_kmz d | None => None end.
  Local Notation plain_fetch := (do_fetch parse resolve fetch_url kmz_at max).
  Local Notation cached := (do_fetch_cached parse resolve fetch_url open_kmz file max max_size).
  Local Notation data_of := (fetch_data parse resolve fetch_url open_kmz file max max_size).
  Local Notation kml_of := (fetch_kml parse resolve fetch_url open_kmz file make_file max max_size).
  Local Notation uses := (use_all parse resolve fetch_url open_kmz file make_file max max_size).
  (** What is at the place a reference names: the file of that URL, the named file of an archive, or the document
      of an archive. *)
  Definition content_at (u : kml_uri) : option str :=
    if k_is_kmz u then
      match kmz_at (k_kmz_url u) with
      | Some a => match k_path_in_kmz u with [] => option_map fst (read_kml max a) | p => read_file max a p end
      | None => None
      end
    else fetch_url (k_url u).
  (** The URL of what is there. *)
  Definition place_of (u : kml_uri) (k : str) : Prop :=
    k = k_url u \/ exists a d p, k_is_kmz u = true /\ k_path_in_kmz u = [] /\ kmz_at (k_kmz_url u) = Some a /\ read_kml max a = Some (d, p) /\ k = k_kmz_url u ++ S_ "/" ++ p.

  (** ** Proofs *)
  Definition known_file (k : str) (f : file_ptr file) : Prop :=
    exists n b t u d, relative b t = Some u /\ plain_fetch n u = Ok (Some (d, k)) /\ make_file d k = Some (snd f).
  Definition good (s : caches) : Prop :=
    sound archive fetch_url open_kmz (archives s) /\ sound str fetch_url Some (files s) /\
    msorted (cmap _ (kmls s)) /\ (forall k f, look_up _ k (kmls s) = Some f -> known_file k f) /\ (forall k f, look_up _ k (kmls s) = Some f -> fst f < made s).
  Lemma good_nothing : good (no_caches file).
  Proof. repeat split; try apply msorted_nil; try (intros; discriminate). Qed.
  Lemma cached_plain n : forall u s, good s ->
    match cached n u s with
    | Ok (x, s') => plain_fetch n u = Ok x /\ good s' /\ kmls s' = kmls s /\ made s' = made s
    | Fuel => plain_fetch n u = Fuel
    | _ => False
    end.
  Proof.
    induction n as [|n IH]; intros u s Hg; cbn [do_fetch_cached do_fetch]; [reflexivity|]. destruct Hg as (Ha & Hf & Hk). destruct (k_is_kmz u).
    - unfold fetch_kmz. pose proof (fetch_sound archive fetch_url open_kmz max_size (archives s) (k_kmz_url u) Ha) as HF. cbv zeta in HF.
      destruct (fetch archive fetch_url open_kmz max_size (k_kmz_url u) (archives s)) as [[x b] c]. cbn [fst snd] in HF. destruct HF as (Hx & Hc & Hl).
      change (direct archive fetch_url open_kmz (k_kmz_url u)) with (kmz_at (k_kmz_url u)) in *. subst x.
      set (s1 := {| KmlCacheModel.archives := c; KmlCacheModel.files := files s; KmlCacheModel.kmls := kmls s; KmlCacheModel.made := made s |}).
      assert (Hg1 : good s1) by (split; [exact Hc|split; [exact Hf|exact Hk]]).
      destruct (kmz_at (k_kmz_url u)) as [a|] eqn:Ea; [|repeat split; auto; apply Hg1].
      unfold fetch_from_cache. change (archives s1) with c. rewrite Hl. destruct (fetch_from_archive max a u) as [y|]; [repeat split; auto; apply Hg1|].
      destruct (relative (k_kmz_url u) (k_target u)) as [r|]; [|repeat split; auto; apply Hg1].
      specialize (IH r s1 Hg1). destruct (cached n r s1) as [[y s2]| | |]; cbn [bind fst snd]; try contradiction.
      + destruct IH as (Hp & Hg2 & Hk2 & Hm2). rewrite Hp. cbn [bind]. repeat split; auto; try apply Hg2.
      + rewrite IH. reflexivity.
    - unfold fetch_file. pose proof (fetch_sound str fetch_url Some max_size (files s) (k_url u) Hf) as HF. cbv zeta in HF.
      destruct (fetch str fetch_url Some max_size (k_url u) (files s)) as [[x b] c]. cbn [fst snd] in HF. destruct HF as (Hx & Hc & Hl).
      unfold direct in Hx. assert (Hx' : x = fetch_url (k_url u)) by (rewrite Hx; now destruct (fetch_url (k_url u))). subst x.
      rewrite Hx'. split; [reflexivity|]. split; [|split; reflexivity]. split; [exact Ha|split; [exact Hc|exact Hk]].
  Qed.

  (** A reference's place is determined by its URL. *)
  Lemma same_place b t u b' t' v : relative b t = Some u -> relative b' t' = Some v -> k_url u = k_url v ->
    k_is_kmz u = k_is_kmz v /\ k_kmz_url u = k_kmz_url v /\ k_path_in_kmz u = k_path_in_kmz v.
  Proof.
    unfold create_relative. destruct (parse t); [|discriminate]. destruct (resolve b t) as [x|]; [|discriminate]. destruct (parse x) as [y|] eqn:Ex; [|discriminate].
    destruct (parse t'); [|discriminate]. destruct (resolve b' t') as [x'|]; [|discriminate]. destruct (parse x') as [y'|] eqn:Ex'; [|discriminate].
    intros H H' E. assert (x = x'). { destruct (kmz_split (fetchable y)) as [[]|]; destruct (kmz_split (fetchable y')) as [[]|]; injection H as <-; injection H' as <-; exact E. }
    subst x'. rewrite Ex in Ex'. injection Ex' as <-. destruct (kmz_split (fetchable y)) as [[]|]; injection H as <-; injection H' as <-; auto.
  Qed.
  Lemma same_content b t u b' t' v : relative b t = Some u -> relative b' t' = Some v -> k_url u = k_url v -> content_at u = content_at v.
  Proof. intros H H' E. destruct (same_place _ _ _ _ _ _ H H' E) as (E1 & E2 & E3). unfold content_at. now rewrite E, E1, E2, E3. Qed.
  Lemma plain_found n u d : content_at u = Some d -> exists k, plain_fetch (S n) u = Ok (Some (d, k)) /\ place_of u k.
  Proof.
    unfold content_at, place_of. cbn [do_fetch]. destruct (k_is_kmz u).
    - destruct (kmz_at (k_kmz_url u)) as [a|]; [|discriminate]. unfold fetch_from_archive. destruct (k_path_in_kmz u) as [|c p].
      + destruct (read_kml max a) as [[d' p]|] eqn:Er; [|discriminate]. cbn [option_map fst]. intros [= ->]. eexists. split; [reflexivity|]. right. exists a, d, p. auto.
      + intros ->. eauto.
    - intros ->. eauto.
  Qed.
  Lemma plain_cases n u d k : plain_fetch n u = Ok (Some (d, k)) ->
    (content_at u = Some d /\ place_of u k) \/
    (content_at u = None /\ exists m r, relative (k_kmz_url u) (k_target u) = Some r /\ k = k_url r /\ exists k', plain_fetch m r = Ok (Some (d, k'))).
  Proof.
    destruct n as [|n]; [discriminate|]. destruct (content_at u) as [d'|] eqn:Ec.
    - destruct (plain_found n u d' Ec) as (k' & -> & Hp). intros [= -> ->]. auto.
    - intros H. right. split; [reflexivity|]. revert Ec H. unfold content_at. cbn [do_fetch]. destruct (k_is_kmz u).
      + destruct (kmz_at (k_kmz_url u)) as [a|]; [|discriminate]. unfold fetch_from_archive.
        assert (HH : forall x : option (str * str), x = None -> match x with Some y => Ok (Some y) | None =>
           match relative (k_kmz_url u) (k_target u) with None => Ok None | Some r => do z <- plain_fetch n r; Ok (match z with Some (e, _) => Some (e, k_url r) | None => None end) end end = Ok (Some (d, k)) ->
           exists m r, relative (k_kmz_url u) (k_target u) = Some r /\ k = k_url r /\ exists k', plain_fetch m r = Ok (Some (d, k'))).
        { intros x ->. destruct (relative (k_kmz_url u) (k_target u)) as [r|]; [|discriminate]. destruct (plain_fetch n r) as [[[e k']|]| | |] eqn:Er; cbn [bind]; try discriminate.
          intros [= -> <-]. exists n, r. split; [reflexivity|]. split; [reflexivity|]. now exists k'. }
        intros H1 H2. eapply HH; [|exact H2]. destruct (k_path_in_kmz u) as [|c p].
        * destruct (read_kml max a) as [[]|]; [discriminate|reflexivity].
        * now rewrite H1.
      + intros ->. discriminate.
  Qed.
  (** Fetching a KML file, in terms of fetching without caches. *)
  Lemma kml_plain n b t s : good s ->
    match kml_of n b t s with
    | Ok (x, s') => good s' /\
        match relative b t with
        | None => x = None /\ s' = s
        | Some u =>
            (exists f, look_up _ (k_url u) (kmls s) = Some f /\ x = Some f /\ s' = s) \/
            (look_up _ (k_url u) (kmls s) = None /\ exists y, plain_fetch n u = Ok y /\
               match y with
               | None => x = None /\ kmls s' = kmls s /\ made s' = made s
               | Some (d, k) =>
                   match make_file d k with
                   | None => x = None /\ kmls s' = kmls s /\ made s' = made s
                   | Some f => x = Some (made s, f) /\ made s' = made s + 1 /\ kmls s' = snd (save _ max_size k (Some (made s, f)) (kmls s))
                   end
               end)
        end
    | Fuel => exists u, relative b t = Some u /\ plain_fetch n u = Fuel
    | _ => False
    end.
  Proof.
    intros Hg. unfold fetch_kml. destruct (relative b t) as [u|] eqn:Eu; [|auto]. destruct (look_up _ (k_url u) (kmls s)) as [f|] eqn:El.
    - split; [exact Hg|]. left. exists f. auto.
    - pose proof (cached_plain n u s Hg) as HC. destruct (cached n u s) as [[y s1]| | |]; cbn [bind fst snd]; try contradiction; [|eauto].
      destruct HC as (Hp & Hg1 & Hk & Hm). destruct y as [[d k]|].
      + destruct (make_file d k) as [f|] eqn:Ef.
        * split; [|right; split; [reflexivity|]; exists (Some (d, k)); split; [exact Hp|]; rewrite Ef; cbn [KmlCacheModel.kmls KmlCacheModel.made]; rewrite Hk, Hm; auto].
          destruct Hg1 as (Ha & Hf & Hs & Hl & Hn). split; [exact Ha|]. split; [exact Hf|]. cbn [KmlCacheModel.kmls KmlCacheModel.made]. split; [now apply save_sorted|]. split.
          -- intros k' f' H. apply save_look_up in H; [|exact Hs]. destruct H as [[-> [= <-]]|H]; [|now apply Hl]. exists n, b, t, u, d. auto.
          -- intros k' f' H. apply save_look_up in H; [|exact Hs]. destruct H as [[-> [= <-]]|H]; [cbn [fst]; lia|]. specialize (Hn _ _ H). lia.
        * split; [exact Hg1|]. right. split; [reflexivity|]. exists (Some (d, k)). rewrite Ef. auto.
      + split; [exact Hg1|]. right. split; [reflexivity|]. exists None. auto.
  Qed.
  Lemma data_plain n b t s : good s ->
    match data_of n b t s with
    | Ok (x, s') => fetch_data_relative parse resolve fetch_url kmz_at max n b t = Ok x /\ good s' /\ kmls s' = kmls s /\ made s' = made s
    | Fuel => fetch_data_relative parse resolve fetch_url kmz_at max n b t = Fuel
    | _ => False
    end.
  Proof.
    intros Hg. unfold fetch_data, fetch_data_relative. destruct (relative b t) as [u|]; [|auto]. pose proof (cached_plain n u s Hg) as HC.
    destruct (cached n u s) as [[y s1]| | |]; cbn [bind fst snd]; try contradiction.
    - destruct HC as (-> & HC). auto.
    - now rewrite HC.
  Qed.
  Lemma uses_good n l : forall s s', good s -> uses n l s = Ok s' -> good s'.
  Proof.
    induction l as [|o l IH]; intros s s' Hg; cbn [use_all]; [intros [= <-]; exact Hg|]. destruct o as [b t|b t]; cbn [use_cache].
    - pose proof (kml_plain n b t s Hg) as HK. destruct (kml_of n b t s) as [[x s1]| | |]; cbn [bind snd]; try discriminate. apply IH. apply HK.
    - pose proof (data_plain n b t s Hg) as HK. destruct (data_of n b t s) as [[x s1]| | |]; cbn [bind snd]; try discriminate. apply IH. apply HK.
  Qed.

  (** ** The cache as used by applications *)
  (** A state of the cache which some sequence of uses leads to. *)
  Definition reached (s : caches) : Prop := exists n l, uses n l (no_caches file) = Ok s.
  Lemma reached_good s : reached s -> good s.
  Proof. intros (n & l & H). eapply uses_good; [apply good_nothing|exact H]. Qed.

(** C98. Whatever was fetched before, data fetched through the cache is the data fetched without any cache;
      and the same for the icon of an overlay, which is fetched relative to the file the overlay is in. *)
Theorem cached_data_same n b t s : reached s ->
    (do r <- data_of n b t s; Ok (fst r)) = fetch_data_relative parse resolve fetch_url kmz_at max n b t.
  Proof.
    intros Hr. pose proof (data_plain n b t s (reached_good s Hr)) as HD. destruct (data_of n b t s) as [[x s1]| | |]; cbn [bind fst]; try contradiction.
    - symmetry. apply HD.
    - symmetry. exact HD.
  Qed.
Theorem cached_icon_same n url o s : reached s ->
    (do r <- fetch_icon parse resolve fetch_url open_kmz file max max_size n url o s; Ok (fst r)) =
    match get_icon_parent_href o with Some h => fetch_data_relative parse resolve fetch_url kmz_at max n url h | None => Ok None end.
  Proof. intros Hr. unfold fetch_icon. destruct (get_icon_parent_href o) as [h|]; [now apply cached_data_same|reflexivity]. Qed.

(** C99. A file returned by the cache was made of content that is at its URL: of what a fetch without caches of
      some reference gives, and with the URL this fetch reports. *)
Theorem cached_kml_genuine n b t s f s' : reached s -> kml_of n b t s = Ok (Some f, s') ->
    exists m b0 t0 u d k, relative b0 t0 = Some u /\ plain_fetch m u = Ok (Some (d, k)) /\ make_file d k = Some (snd f).
  Proof.
    intros Hr H. apply reached_good in Hr. pose proof (kml_plain n b t s Hr) as HK. rewrite H in HK. destruct HK as [Hg HK].
    destruct (relative b t) as [u|] eqn:Eu; [|destruct HK; discriminate]. destruct HK as [(g & Hg1 & [= <-] & ->)|(Hn & y & Hy & HK)].
    - destruct Hr as (_ & _ & _ & Hl & _). destruct (Hl _ _ Hg1) as (m & b0 & t0 & v & d & H1 & H2 & H3). exists m, b0, t0, v, d, (k_url u). auto.
    - destruct y as [[d k]|]; [|destruct HK; discriminate]. destruct (make_file d k) as [g|] eqn:Ef; [|destruct HK; discriminate]. destruct HK as ([= ->] & _).
      exists n, b, t, u, d, k. auto.
  Qed.
  (** URLs of documents of archives, which are put together from the archive's URL and the name of the document,
      are taken apart the same way. *)
  Definition documents_split : Prop := forall b t u a d p b' t' v,
    relative b t = Some u -> k_is_kmz u = true -> k_path_in_kmz u = [] -> kmz_at (k_kmz_url u) = Some a -> read_kml max a = Some (d, p) ->
    relative b' t' = Some v -> k_url v = k_kmz_url u ++ S_ "/" ++ p -> k_is_kmz v = true /\ k_kmz_url v = k_kmz_url u /\ k_path_in_kmz v = p.
  (** The same for one reference. *)
  Definition split_at (v : kml_uri) : Prop := forall b t u a d p,
    relative b t = Some u -> k_is_kmz u = true -> k_path_in_kmz u = [] -> kmz_at (k_kmz_url u) = Some a -> read_kml max a = Some (d, p) ->
    k_url v = k_kmz_url u ++ S_ "/" ++ p -> k_is_kmz v = true /\ k_kmz_url v = k_kmz_url u /\ k_path_in_kmz v = p.
  Lemma content_at_split n b t s u d : split_at u -> reached s -> relative b t = Some u -> content_at u = Some d ->
    exists x s' k, kml_of (S n) b t s = Ok (x, s') /\ option_map snd x = make_file d k /\ place_of u k.
  Proof.
    intros Hds Hr Hu Hc. apply reached_good in Hr. pose proof (kml_plain (S n) b t s Hr) as HK. destruct (plain_found n u d Hc) as (k & Hk & Hp).
    destruct (kml_of (S n) b t s) as [[x s']| | |]; try contradiction.
    - exists x, s'. destruct HK as [_ HK]. rewrite Hu in HK. destruct HK as [(f & Hl & -> & _)|(_ & y & Hy & HK)].
      + exists (k_url u). split; [reflexivity|]. split; [|now left]. cbn [option_map]. destruct Hr as (_ & _ & _ & Hkn & _). destruct (Hkn _ _ Hl) as (m & b0 & t0 & v & e & H1 & H2 & H3).
        rewrite <- H3. f_equal. destruct (plain_cases _ _ _ _ H2) as [[He [Hpl|(a & d1 & p & Hz & Hpath & Ha & Hrk & Hpl)]]|(_ & m' & r & H4 & H5 & k' & H6)].
        * rewrite (same_content _ _ _ _ _ _ Hu H1 Hpl) in Hc. congruence.
        * destruct (Hds _ _ _ _ _ _ H1 Hz Hpath Ha Hrk Hpl) as (E1 & E2 & E3).
          unfold content_at in He, Hc. rewrite E1, E2, Ha, E3 in Hc. rewrite Hz, Ha, Hpath, Hrk in He. cbn [option_map fst] in He. injection He as <-.
          unfold read_kml in Hrk. destruct (find_first_of (S_ ".kml") (map fst a)) as [q|] eqn:Eq; [|discriminate]. destruct (read_file max a q) as [w|] eqn:Ew; [|discriminate]. injection Hrk as <- <-.
          destruct q as [|c q]; [|congruence]. exfalso. unfold find_first_of in Eq. apply List.find_some in Eq. destruct Eq as [_ Eq]. vm_compute in Eq. discriminate.
        * rewrite (same_content _ _ _ _ _ _ Hu H4 H5) in Hc. destruct m' as [|m']; [discriminate|]. destruct (plain_found m' r d Hc) as (k2 & Hk2 & _). congruence.
      + exists k. split; [reflexivity|]. split; [|exact Hp]. assert (y = Some (d, k)) by congruence. subst y. destruct (make_file d k) as [f|]; destruct HK as (-> & _); reflexivity.
    - destruct HK as (v & Hv & HF). congruence.
  Qed.
(** C99. If there is content at the place a reference names, then, whatever was fetched before, the file
      returned is made of that content, and of no other. *)
Theorem cached_kml_content n b t s u d : documents_split -> reached s -> relative b t = Some u -> content_at u = Some d ->
    exists x s' k, kml_of (S n) b t s = Ok (x, s') /\ option_map snd x = make_file d k /\ place_of u k.
  Proof. intros Hds Hr Hu. apply content_at_split; auto. intros b' t' v a e p H1 H2 H3 H4 H5 H6. eapply Hds; eauto. Qed.
(** C99. A file that reports the URL it was asked for is returned itself when it is asked for again. *)
Theorem cached_kml_again n b t s f s' u : reached s -> kml_of n b t s = Ok (Some f, s') -> relative b t = Some u ->
    (k_is_kmz u = false \/ exists c p a d, k_path_in_kmz u = c :: p /\ kmz_at (k_kmz_url u) = Some a /\ read_file max a (c :: p) = Some d) ->
    forall m, kml_of m b t s' = Ok (Some f, s').
  Proof.
    intros Hr H Hu Hc m. apply reached_good in Hr. pose proof (kml_plain n b t s Hr) as HK. rewrite H, Hu in HK. destruct HK as [_ HK].
    unfold fetch_kml. rewrite Hu. destruct HK as [(g & Hg1 & [= <-] & ->)|(Hn & y & Hy & HK)]; [now rewrite Hg1|].
    destruct y as [[d k]|]; [|destruct HK; discriminate]. assert (k = k_url u).
    { destruct n as [|n]; [discriminate|]. cbn [do_fetch] in Hy. destruct (k_is_kmz u).
      - destruct Hc as [Hc|(c & p & a & e & Hp & Ha & Hf)]; [discriminate|]. rewrite Ha in Hy. unfold fetch_from_archive in Hy. rewrite Hp, Hf in Hy. now injection Hy.
      - destruct (fetch_url (k_url u)); [|discriminate]. now injection Hy. }
    subst k. destruct (make_file d (k_url u)) as [g|]; [|destruct HK; discriminate]. destruct HK as ([= ->] & _ & ->). destruct Hr as (_ & _ & Hs & _). now rewrite save_self.
  Qed.
(** C99. A link is fetched relative to the URL of the file it is in. *)
Theorem cached_link n url o s :
    fetch_link parse resolve fetch_url open_kmz file make_file max max_size n url o s =
    match get_link_parent_href o with Some h => kml_of n url h s | None => Ok (None, s) end.
  Proof. reflexivity. Qed.

(** C99. Fetching an absolute URL is fetching it from any base, as long as the base makes no difference to what the URL is. *)
Theorem cached_absolute n b u s : resolve b u = resolve u u ->
    fetch_kml_absolute parse resolve fetch_url open_kmz file make_file max max_size n u s = kml_of n b u s.
  Proof. intros H. unfold fetch_kml_absolute, fetch_kml, create_relative. now rewrite H. Qed.
End Fetching.
Print Assumptions cached_absolute.
Print Assumptions cached_data_same.
Print Assumptions cached_icon_same.
Print Assumptions cached_kml_genuine.
Print Assumptions cached_kml_content.
Print Assumptions cached_kml_again.
Print Assumptions cached_link.

(** ** A small network *)
Module SmallNet.
  Definition site := S_ "http://h/".
  Definition uparse (s : str) : option uri :=
    Some (if prefixb site s then {| u_scheme := S_ "http"; u_user := []; u_host := S_ "h"; u_port := []; u_path := skipn 9 s; u_query := None; u_fragment := None |}
          else {| u_scheme := []; u_user := []; u_host := []; u_port := []; u_path := s; u_query := None; u_fragment := None |}).
  Fixpoint dir (s : str) : str := match s with [] => [] | c :: r => if existsb (Ascii.eqb (Ascii.ascii_of_nat 47)) s then c :: dir r else [] end.
  Definition uresolve (base target : str) : option str := Some (if prefixb site target then target else dir base ++ target).
  Definition net (u : str) : option str :=
    if eqs u (S_ "http://h/a.kmz") then Some (S_ "A") else if eqs u (S_ "http://h/c.kmz") then Some (S_ "C") else if eqs u (S_ "http://h/d.kml") then Some (S_ "D") else None.
  Definition unzip (d : str) : option archive :=
    if eqs d (S_ "A") then Some [(S_ "doc.kml", S_ "<a/>")] else if eqs d (S_ "C") then Some [(S_ "doc.kml", S_ "<c/>"); (S_ "i.png", S_ "picture")] else None.
  Definition mk (d k : str) : option (str * str) := Some (d, k).
  Definition kml := fetch_kml uparse uresolve net unzip (str * str) mk 1000 10 5%nat.
  Definition data := fetch_data uparse uresolve net unzip (str * str) 1000 10 5%nat.
  Definition fresh := no_caches (str * str).
  Definition absolute (u : str) := kml u u.
End SmallNet.
Import SmallNet.

Example small_splits : documents_split uparse uresolve net unzip 1000.
Proof.
  intros b t u a d p b' t' v _ _ _ Ha Hd Hv. unfold kmz_at, net in Ha.
  destruct (eqs (k_kmz_url u) (S_ "http://h/a.kmz")) eqn:E1; [|destruct (eqs (k_kmz_url u) (S_ "http://h/c.kmz")) eqn:E2; [|destruct (eqs (k_kmz_url u) (S_ "http://h/d.kml")) eqn:E3; discriminate]].
  - apply eqs_spec in E1. rewrite E1. injection Ha as <-. vm_compute in Hd. injection Hd as <- <-. intros Hk. unfold create_relative, uparse, uresolve in Hv.
    match type of Hv with context[kmz_split (fetchable (if prefixb site ?x then _ else _))] => set (y := x) in * end. assert (y = S_ "http://h/a.kmz/doc.kml").
    { destruct (kmz_split _) as [[]|]; injection Hv as <-; exact Hk. } rewrite H in Hv. vm_compute in Hv. injection Hv as <-. split; [|split]; reflexivity.
  - apply eqs_spec in E2. rewrite E2. injection Ha as <-. vm_compute in Hd. injection Hd as <- <-. intros Hk. unfold create_relative, uparse, uresolve in Hv.
    match type of Hv with context[kmz_split (fetchable (if prefixb site ?x then _ else _))] => set (y := x) in * end. assert (y = S_ "http://h/c.kmz/doc.kml").
    { destruct (kmz_split _) as [[]|]; injection Hv as <-; exact Hk. } rewrite H in Hv. vm_compute in Hv. injection Hv as <-. split; [|split]; reflexivity.
Qed.
(** The document of an archive, asked for by its own URL, is returned itself the second time. *)
Example small_again : exists s, absolute (S_ "http://h/a.kmz/doc.kml") fresh = Ok (Some (0, (S_ "<a/>", S_ "http://h/a.kmz/doc.kml")), s) /\
  absolute (S_ "http://h/a.kmz/doc.kml") s = Ok (Some (0, (S_ "<a/>", S_ "http://h/a.kmz/doc.kml")), s).
Proof. eexists. split; vm_compute; reflexivity. Qed.
Example small_data : exists s, data (S_ "http://h/c.kmz/doc.kml") (S_ "i.png") fresh = Ok (Some (S_ "picture"), s).
Proof. eexists. vm_compute. reflexivity. Qed.

(** C99. Refuted for the URL of an archive: its document is kept under another URL than the one asked for, so that
    asking again parses it again and gives another file each time. *)
Theorem archive_again_refuted : exists u d s1 s2, absolute u fresh = Ok (Some (0, d), s1) /\ absolute u s1 = Ok (Some (1, d), s2).
Proof. exists (S_ "http://h/a.kmz"). do 3 eexists. split; vm_compute; reflexivity. Qed.
Print Assumptions archive_again_refuted.
(** C99. Refuted for an archive linked to from a document in another archive beside it: the file gets the URL of
    the archive, not of the document in it, so its own references are taken to be beside the archive. *)
Theorem linked_archive_refuted : exists base target u s1 s2 s3 s4,
  kml base target fresh = Ok (Some (0, (S_ "<c/>", u)), s1) /\ data u (S_ "i.png") s1 = Ok (None, s2) /\
  absolute u fresh = Ok (Some (0, (S_ "<c/>", u ++ S_ "/doc.kml")), s3) /\ data (u ++ S_ "/doc.kml") (S_ "i.png") s3 = Ok (Some (S_ "picture"), s4).
Proof. exists (S_ "http://h/a.kmz/doc.kml"), (S_ "c.kmz"), (S_ "http://h/c.kmz"). do 4 eexists. split; [|split; [|split]]; vm_compute; reflexivity. Qed.
Print Assumptions linked_archive_refuted.

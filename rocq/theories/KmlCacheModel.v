(** Model of engine/kml_cache.cc, engine/kmz_cache.cc and engine/link_util.{h,cc} with the caches they use
    (base/net_cache.h, NetCacheModel.v).  The network is a function of the URL. *)
From Verif Require Import Common StrMap StringsModel PathModel UriModel KmzModel NetCacheModel XsdTables DomTables DomModel FindModel.
Local Open Scope N_scope.

Section KmlCache.
  (** uriparser. *)
  Variable parse : str -> option uri.
  Variable resolve : str -> str -> option str.
  (** NetFetcher::FetchUrl. *)
  Variable fetch_url : str -> option str.
  (** KmzFile::OpenFromString (kmz_file.cc:66-72): None if the data is no zip file. *)
  Variable open_kmz : str -> option archive.
  (** KmlFile::CreateFromStringWithUrl (kml_file.cc:58-68): the file for some content and URL, or NULL. *)
  Variable file : Type.
  Variable make_file : str -> str -> option file.
  (** ZipFile's limit on the size of a file. *)
  Variable max : N.
  (** The size given to the KmlCache (kml_cache.cc:36-39). *)
  Variable max_size : N.

  (** kmz_cache.h:45-80, kml_cache.h:92-95: the cache of KMZ files, that of other files (a MemoryFile is its
      content, memory_file.h:40-55) and that of KML files.  A KmlFilePtr is the number of the KmlFile in the
      order of creation and the file; [made] is how many were created. *)
  Definition file_ptr := (N * file)%type.
  Record caches := { archives : cache archive; files : cache str; kmls : cache file_ptr; made : N }.
  Definition no_caches : caches := {| archives := empty_cache archive; files := empty_cache str; kmls := empty_cache file_ptr; made := 0 |}.

  (** NetCache::Fetch of KMZ files and of other files. *)
  Definition fetch_kmz (u : str) (s : caches) : option archive * caches :=
    let '((a, _), c) := fetch archive fetch_url open_kmz max_size u (archives s) in
    (a, {| archives := c; files := files s; kmls := kmls s; made := made s |}).
  Definition fetch_file (u : str) (s : caches) : option str * caches :=
    let '((a, _), c) := fetch str fetch_url Some max_size u (files s) in
    (a, {| archives := archives s; files := c; kmls := kmls s; made := made s |}).

  (** kmz_cache.cc:127-153 FetchFromCache: content and the URL of [u] afterwards. *)
  Definition fetch_from_cache (u : kml_uri) (s : caches) : option (str * str) :=
    match look_up archive (k_kmz_url u) (archives s) with
    | Some a => fetch_from_archive max a u
    | None => None
    end.
  (** kmz_cache.cc:77-125 DoFetchAndReturnUrl: content and URL reported.  [Fuel]: it calls itself more often than
      the fuel. *)
  Fixpoint do_fetch_cached (fuel : nat) (u : kml_uri) (s : caches) : res (option (str * str) * caches) :=
    match fuel with
    | O => Fuel
    | S n =>
        if k_is_kmz u then
          let '(k, s) := fetch_kmz (k_kmz_url u) s in
          match k with
          | None => Ok (None, s)
          | Some _ =>
              match fetch_from_cache u s with
              | Some x => Ok (Some x, s)
              | None =>
                  match create_relative parse resolve (k_kmz_url u) (k_target u) with
                  | None => Ok (None, s)
                  | Some r =>
                      do y <- do_fetch_cached n r s;
                      Ok (match fst y with Some (d, _) => Some (d, k_url r) | None => None end, snd y)
                  end
              end
          end
        else
          let '(d, s) := fetch_file (k_url u) s in
          Ok (match d with Some d => Some (d, k_url u) | None => None end, s)
    end.
  (** kml_cache.cc:76-85 FetchDataRelative. *)
  Definition fetch_data (fuel : nat) (base target : str) (s : caches) : res (option str * caches) :=
    match create_relative parse resolve base target with
    | None => Ok (None, s)
    | Some u => do y <- do_fetch_cached fuel u s; Ok (option_map fst (fst y), snd y)
    end.
  (** kml_cache.cc:41-66 FetchKmlRelative.  The result of Save is ignored there too. *)
  Definition fetch_kml (fuel : nat) (base target : str) (s : caches) : res (option file_ptr * caches) :=
    match create_relative parse resolve base target with
    | None => Ok (None, s)
    | Some u =>
        match look_up file_ptr (k_url u) (kmls s) with
        | Some f => Ok (Some f, s)
        | None =>
            do y <- do_fetch_cached fuel u s;
            let s := snd y in
            Ok (match fst y with
                | None => (None, s)
                | Some (d, url) =>
                    match make_file d url with
                    | None => (None, s)
                    | Some f =>
                        let p := (made s, f) in
                        (Some p, {| archives := archives s; files := files s; kmls := snd (save file_ptr max_size url (Some p) (kmls s)); made := made s + 1 |})
                    end
                end)
        end
    end.
  (** kml_cache.cc:69-74 FetchKmlAbsolute. *)
  Definition fetch_kml_absolute (fuel : nat) (url : str) (s : caches) : res (option file_ptr * caches) := fetch_kml fuel url url s.

  (** link_util.cc:34-56 FetchLink and FetchIcon: [url] is that of the KML file, which has this cache. *)
  Definition fetch_link (fuel : nat) (url : str) (networklink : obj) (s : caches) : res (option file_ptr * caches) :=
    match get_link_parent_href networklink with Some href => fetch_kml fuel url href s | None => Ok (None, s) end.
  Definition fetch_icon (fuel : nat) (url : str) (overlay : obj) (s : caches) : res (option str * caches) :=
    match get_icon_parent_href overlay with Some href => fetch_data fuel url href s | None => Ok (None, s) end.

  (** A use of the cache. *)
  Inductive use := UseKml (base target : str) | UseData (base target : str).
  Definition use_cache (fuel : nat) (o : use) (s : caches) : res caches :=
    match o with
    | UseKml b t => do y <- fetch_kml fuel b t s; Ok (snd y)
    | UseData b t => do y <- fetch_data fuel b t s; Ok (snd y)
    end.
  Fixpoint use_all (fuel : nat) (l : list use) (s : caches) : res caches :=
    match l with [] => Ok s | o :: r => do s <- use_cache fuel o s; use_all fuel r s end.
End KmlCache.

(** Model of KMZ archives and of fetching through the KMZ cache:
    src/kml/engine/kmz_file.cc, src/kml/engine/kmz_cache.cc, src/kml/base/zip_file.cc. *)
From Verif Require Import Common StringsModel PathModel UriModel.

(** An archive is the list of its entries in order (zip_file.cc 86-111 reads the table of
    contents in that order); UnzipProps.v proves that the bytes of a ZIP archive are read as such a
    list. *)
Definition archive := list (str * str).

(** libkml_unzLocateFile (UnzipModel.v): the first entry of that name. *)
Definition locate (a : archive) (p : str) : option str :=
  option_map snd (List.find (fun e => eqs (fst e) p) a).

(** KmzFile::ReadFile, kmz_file.cc 110-112, ZipFile::GetEntry, zip_file.cc 173-224. *)
Definition read_file (max : N) (a : archive) (p : str) : option str :=
  get_entry (map fst a) (locate a) max p.

(** KmzFile::ReadKmlAndGetPath, kmz_file.cc 88-104: contents and path. *)
Definition read_kml (max : N) (a : archive) : option (str * str) :=
  match find_first_of (S_".kml") (map fst a) with
  | None => None
  | Some p => match read_file max a p with None => None | Some d => Some (d, p) end
  end.

(** KmzFile::AddFile, kmz_file.cc 135-137, ZipFile::AddEntry, zip_file.cc 226-246, on an archive
    opened for writing, when minizip reports no error. Simplification: a path with a NUL byte, which c_str would cut, is kept whole. *)
Definition add_file (a : archive) (data path : str) : option archive :=
  if add_entry_accepts path then Some (a ++ [(path, data)]) else None.

(** KmzFile::AddFileList, kmz_file.cc 140-189. [normalize] is NormalizeHref (uriparser),
    [read] is File::ReadFileToString of the path joined to the base. Returns the error count,
    the set of stored names and the archive. *)
Fixpoint add_file_list (normalize read : str -> option str) (stored : list str) (files : list str)
    (errs : nat) (a : archive) : nat * list str * archive :=
  match files with
  | [] => (errs, stored, a)
  | f :: fs =>
      match normalize (h_path (href_parse f)) with
      | None => add_file_list normalize read stored fs (errs + 1) a
      | Some n =>
          if eqs (firstn 2 n) (S_"..") then add_file_list normalize read stored fs (errs + 1) a
          else if existsb (eqs n) stored then add_file_list normalize read stored fs errs a
          else
            match read n with
            | None => add_file_list normalize read (n :: stored) fs (errs + 1) a
            | Some d =>
                match add_file a d n with
                | None => add_file_list normalize read (n :: stored) fs (errs + 1) a
                | Some a' => add_file_list normalize read (n :: stored) fs errs a'
                end
            end
      end
  end.

(** KmzFile::CreateFromElement, kmz_file.cc 220-246: the written document, then the local
    files it refers to. [links] is GetRelativeLinks of the document. *)
Definition kmz_create (normalize read : str -> option str) (kml : str) (links : list str) : archive :=
  match add_file [] kml (S_"doc.kml") with
  | None => []
  | Some a => snd (add_file_list normalize read [] links 0 a)
  end.

Section Fetch.
  (** Oracles. uriparser: [parse], [resolve]. The network: [get_file] is the memory file cache
      and [get_kmz] the archive cache over a fetcher that is a function of the URL (kmz_cache.h
      45-90); caching is transparent (see the NetCache theorems) and an archive just fetched is
      found in the cache. *)
  Variable parse : str -> option uri.
  Variable resolve : str -> str -> option str.
  Variable get_file : str -> option str.
  Variable get_kmz : str -> option archive.
  Variable max : N.

  (** KmzCache::FetchFromCache, kmz_cache.cc 127-153, with the archive at hand: content and the URL of
      [u] afterwards, which set_path_in_kmz (kml_uri_internal.h 91-94) changes when the document of
      the archive was asked for. *)
  Definition fetch_from_archive (a : archive) (u : kml_uri) : option (str * str) :=
    match k_path_in_kmz u with
    | [] => match read_kml max a with Some (d, p) => Some (d, k_kmz_url u ++ S_"/" ++ p) | None => None end
    | p => match read_file max a p with Some d => Some (d, k_url u) | None => None end
    end.

  (** KmzCache::DoFetchAndReturnUrl, kmz_cache.cc 77-125: content and the URL reported. The
      call at the end is recursive; [Fuel] is a recursion deeper than the fuel. *)
  Fixpoint do_fetch (fuel : nat) (u : kml_uri) : res (option (str * str)) :=
    match fuel with
    | 0 => Fuel
    | S n =>
        if k_is_kmz u then
          match get_kmz (k_kmz_url u) with
          | None => Ok None
          | Some a =>
              match fetch_from_archive a u with
              | Some x => Ok (Some x)
              | None =>
                  match create_relative parse resolve (k_kmz_url u) (k_target u) with
                  | None => Ok None
                  | Some r =>
                      do x <- do_fetch n r;
                      Ok (match x with Some (d, _) => Some (d, k_url r) | None => None end)
                  end
              end
          end
        else Ok (match get_file (k_url u) with Some d => Some (d, k_url u) | None => None end)
    end.

  (** KmlCache::FetchDataRelative, kml_cache.cc 76-85. *)
  Definition fetch_data_relative (fuel : nat) (base target : str) : res (option str) :=
    match create_relative parse resolve base target with
    | None => Ok None
    | Some u => do x <- do_fetch fuel u; Ok (option_map fst x)
    end.

  (** KmlCache::FetchKmlAbsolute, kml_cache.cc 69-74, up to the parse of the contents and the
      lookup in the cache of parsed files, which is empty. *)
  Definition fetch_absolute (fuel : nat) (url : str) : res (option str) := fetch_data_relative fuel url url.
End Fetch.

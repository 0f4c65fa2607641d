(** Archives on the disk: ZipFile::OpenFromFile, ZipFile::Create, KmzFile::WriteKmz and KmzFile::CreateFromElement. *)
From Verif Require Import Common StringsModel PathModel KmzModel UnzipModel DiskModel.
Local Open Scope N_scope.

Section KmzDisk.
  Variable place : str -> option N.
  (** ZipFile::OpenFromFile (zip_file.cc:64-73): the data and the table of contents, None for NULL. *)
  Definition open_from_file (d : disk) (path : str) : res (option (str * list str)) :=
    if exists_ place d path then
      do r <- DiskModel.read_file place d path (Some []);
      match r with
      | (true, Some x) => do t <- zip_open x; Ok (match t with Some toc => Some (x, toc) | None => None end)
      | _ => Ok None
      end
    else Ok None.
  (** Reading a linked file (kmz_file.cc:175-180). *)
  Definition disk_read (d : disk) (base f : str) : option str :=
    match DiskModel.read_file place d (join_paths base f) (Some []) with Ok (true, Some x) => Some x | _ => None end.
  (** KmzFile::CreateFromElement (kmz_file.cc:224-246), with [links] the relative links of the document; with none of them also WriteKmz
      (192-201).  zipOpen (zip_file.cc:77) empties the file or creates it, the archive is in it after zipClose (zip_file.cc:47-51); [zip] is what
      minizip writes for a list of files.  Simplification: nothing of it is in the file before. *)
  Definition create_kmz (zip : archive -> str) (normalize : str -> option str) (d : disk) (base kml : str) (links : list str) (path : str) : bool * disk :=
    match write_file place d [] path with
    | (false, d1) => (false, d1)
    | (true, d1) => let d2 := snd (write_file place d1 (zip (kmz_create normalize (disk_read d1 base) kml links)) path) in (exists_ place d2 path, d2)
    end.
End KmzDisk.

(** KmzFile::CreateFromKmlFilepath: an archive made from a file on the disk. *)
From Verif Require Import Common StringsModel PathModel KmzModel DomModel DiskModel KmzDiskModel.
Local Open Scope N_scope.

(** KmzFile::CreateFromKmlFilepath (kmz_file.cc:204-221) with CreateFromKmlFile (249-253) and CreateFromElement.  [parse] is
    KmlFile::CreateFromStringWithUrl (kml_file.cc:58-67), None for NULL, which CreateFromKmlFile dereferences; [write] is SerializePretty, [links] is
    GetRelativeLinks, empty if it fails.  CreateFromElement gives false for an empty path (227-229), which is the only use of a path here. *)
Definition create_from_kml_filepath (place : str -> option N) (zip : archive -> str) (normalize : str -> option str) (parse : str -> res (option obj)) (write : obj -> res str)
    (links : str -> list str) (d : disk) (kml_path path : str) : res (bool * disk) :=
  match path, kml_path with
  | [], _ | _, [] => Ok (false, d)
  | _, _ =>
      do r <- DiskModel.read_file place d kml_path (Some []);
      match r with
      | (true, Some x) =>
          let base := fst (split_file_path kml_path) in
          do o <- parse x;
          match o with
          | None => UB
          | Some o => do w <- write o; Ok (create_kmz place zip normalize d base w (links w) path)
          end
      | _ => Ok (false, d)
      end
  end.

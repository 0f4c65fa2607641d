(** KmlFile::CreateFromParse: data that are a KML text or an archive. *)
From Verif Require Import Common PathModel UnzipModel.
Local Open Scope N_scope.

(** unzip.h:60 with zip_file.cc:41 and 91. *)
Definition max_uncompressed : N := 2147483647.
Section FromParse.
  Variables (zst : Type) (z_init : zst) (z_step : zst -> str -> N -> zst * str * str * Z).
  Variable A : Type.
  Variable parse : str -> res (option A).
  (** KmlFile::OpenAndParseKmz (kml_file.cc:83-91) with KmzFile::ReadKml (kmz_file.cc:88-108): None for false.  [parse] is ParseFromString
      (103-131). *)
  Definition open_and_parse (d : str) : res (option A) :=
    do t <- zip_open d;
    match t with
    | None => Ok None
    | Some toc =>
        match find_first_of (S_ ".kml") toc with
        | None => Ok None
        | Some p =>
            do e <- zip_get zst z_init z_step true d toc max_uncompressed p;
            match e with None => Ok None | Some s => parse s end
        end
    end.
  (** KmlFile::CreateFromParse and _CreateFromParse (kml_file.cc:45-55 and 71-78); what is made, None for NULL. *)
  Definition create_from_parse (d : str) : res (option A) := if is_zip_data d then open_and_parse d else parse d.
End FromParse.

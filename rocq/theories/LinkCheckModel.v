(** Model of checking the links of an archive: KmzCheckLinks of src/kml/convenience/kmz_check_links.cc. *)
From Verif Require Import Common XmlSpec XmlSpecProofs UriModel KmzModel HandlerModel FileModel.

(** engine/href.h:53-55 IsRelative. *)
Definition is_relative (s : str) : bool := let h := href_parse s in eqs (h_scheme h) [] && eqs (h_net_loc h) [].
(** kmz_check_links.cc:52-63, the loop: ret and missing_links (a vector was supplied). *)
Fixpoint check_each (max : N) (a : archive) (l : list str) (ret : bool) (missing : list str) : bool * list str :=
  match l with
  | [] => (ret, missing)
  | u :: r =>
      if is_relative u then
        match read_file max a (h_path (href_parse u)) with
        | Some _ => check_each max a r ret missing
        | None => check_each max a r false (missing ++ [u])
        end
      else check_each max a r ret missing
  end.
(** kmz_check_links.cc:40-65.  [xml_tree] stands for expat; a document which is not well-formed makes GetLinks fail. *)
Definition check_links (max : N) (a : archive) : res (bool * list str) :=
  match read_kml max a with
  | None => Ok (false, [])
  | Some (kml, _) =>
      match xml_tree kml with
      | None => Ok (false, [])
      | Some t => do r <- get_links t; Ok (match r with None => (false, []) | Some l => check_each max a l true [] end)
      end
  end.

(** Model of path handling (src/kml/base/file.cc) and of archive entry names (src/kml/base/zip_file.cc). *)
From Verif Require Import Common StringsModel.

(** std::string::find_last_of(chars): index of the last byte satisfying [p]. *)
Fixpoint find_last (p : ascii -> bool) (s : str) : option nat :=
  match s with
  | [] => None
  | c :: t => match find_last p t with
              | Some i => Some (S i)
              | None => if p c then Some 0 else None
              end
  end.
Definition is_sep (c : ascii) : bool := aeq c "/"%char || aeq c "\"%char.

(** file.cc:77-87 JoinPaths with kSeparator '/' (file.cc:37, non-Windows build). *)
Definition join_paths (p1 p2 : str) : str :=
  match p1, p2 with
  | [], _ => p2
  | _, [] => p1
  | _, _ => if aeq (last p1 " "%char) "/"%char then p1 ++ p2 else p1 ++ S_ "/" ++ p2
  end.
(** file.cc:89-105 SplitFilePath: (base directory, file name).  For npos, found+1 wraps to 0. *)
Definition split_file_path (p : str) : str * str :=
  match find_last is_sep p with
  | None => (S_ ".", p)
  | Some 0 => (firstn 1 p, skipn 1 p)
  | Some n => (firstn n p, skipn (n + 1) p)
  end.

(** zip_file.cc:122-124 IsZipData. *)
Definition zip_magic : str := S_ "PK" ++ ["003"%char; "004"%char].
Definition is_zip_data (d : str) : bool := eqs (firstn 4 d) zip_magic.
(** zip_file.cc:126-139 FindFirstOf (non-NULL output pointer). *)
Definition find_first_of (ext : str) (toc : list str) : option str :=
  List.find (fun f => string_ends_with f ext) toc.
(** zip_file.cc:150-158 IsInToc. *)
Definition is_in_toc (p : str) (toc : list str) : bool := existsb (fun f => eqs f p) toc.
(** zip_file.cc:171-218 GetEntry, up to the minizip calls: [lookup] is what minizip finds for the
    name (uncompressed bytes), [max] is max_uncompressed_file_size_ (zip_file.h:112). *)
Definition get_entry (toc : list str) (lookup : str -> option str) (max : N) (p : str) : option str :=
  if is_in_toc p toc then
    match lookup p with
    | Some d => let n := N.of_nat (length d) in
                if (n =? 0)%N || (max <? n)%N then None else Some d
    | None => None
    end
  else None.
(** zip_file.cc:220-226 AddEntry, the name test (minizip is not modelled). *)
Definition add_entry_accepts (p : str) : bool :=
  negb (existsb is_sep (firstn 1 p) || eqs (firstn 2 p) (S_ "..")).

(** Model of the wrapper of the uriparser library, src/kml/base/uri_parser.cc, and of the functions of
    src/kml/engine/kml_uri.cc on top of it, on texts. What the library itself does with URIs is RFC 3986 ([UriRfc]); what
    it does with file names is written down here from its documentation (functions uriUnixFilenameToUriStringA and
    the like of include/uriparser/Uri.h, which is not part of /repo). *)
From Verif Require Import Common UriModel UriRfc.

(** std::string::c_str() read as a C string, uri_parser.cc 102-104 and the like: up to the first NUL. *)
Definition c_string (s : str) : str := take_while (fun c => negb (aeq c (chr 0))) s.

(** uri_parser.cc 228-275, GetScheme, GetHost, GetPort, GetPath, GetQuery, GetFragment: the text of each; those of
    an absent one leave the output as it is, here empty. The library keeps the host of an IP literal without its
    brackets. A path is kept as its segments, so a leading slash is not in what GetPath gives. *)
Definition opt_text (o : option str) : str := match o with Some s => s | None => [] end.
Definition without_slash (p : str) : str := match p with c :: r => if aeq c "/" then r else p | [] => [] end.
Definition components (c : parts) : uri :=
  let a := match p_auth c with Some a => split_authority a | None => None end in
  {| u_scheme := opt_text (p_scheme c);
     u_user := match a with Some a => opt_text (a_user a) | None => [] end;
     u_host := match a with Some a => a_host a | None => [] end;
     u_port := match a with Some a => opt_text (a_port a) | None => [] end;
     u_path := without_slash (p_path c); u_query := p_query c; u_fragment := p_fragment c |}.

(** UriParser::CreateFromParse, uri_parser.cc 71-78, and Parse, 102-110. *)
Definition uri_parse (s : str) : option uri := option_map components (rfc_parse (c_string s)).
(** ResolveUri, kml_uri.cc 76-81: CreateResolvedUri, uri_parser.cc 80-93, Resolve 117-121 and ToString 123-145. *)
Definition resolve_uri (base relative : str) : option str := rfc_resolve (c_string base) (c_string relative).
(** SplitUri, kml_uri.cc 125-154, as style_merger.cc 88-93 and style_inliner.cc 83-86 call it: path and fragment. *)
Definition split_uri (s : str) : option (str * str) :=
  option_map (fun u => (u_path u, opt_text (u_fragment u))) (uri_parse s).
(** SplitUriFragment, kml_uri.cc 164-171. *)
Definition split_uri_fragment (s : str) : option str := match uri_parse s with Some u => u_fragment u | None => None end.
(** GetFetchableUri, kml_uri.cc 173-204, on a text. *)
Definition get_fetchable (s : str) : option str := option_map fetchable (uri_parse s).

(** uriUnixFilenameToUriStringA and uriWindowsFilenameToUriStringA, escaping: letters, digits and -._~ stay, all
    other bytes become % and two hexadecimal digits, letters in upper case. *)
Definition hex_digit (n : N) : ascii := if (n <? 10)%N then chr (48 + n) else chr (55 + n).
Definition escape_byte (c : ascii) : str :=
  if unreserved c then [c] else "%"%char :: hex_digit (code c / 16) :: hex_digit (code c mod 16) :: [].
(** Each piece between separators is escaped; separators become slashes. The first piece of an absolute Windows
    name is copied ([first]). *)
Fixpoint escape_name (sep : ascii) (first : bool) (s : str) : str :=
  match s with
  | [] => []
  | c :: r => if aeq c sep then "/"%char :: escape_name sep false r
              else (if first then [c] else escape_byte c) ++ escape_name sep first r
  end.
Definition unix_to_uri (s : str) : str :=
  (if prefixb (S_ "/") s then S_ "file://" else []) ++ escape_name "/" false s.
Definition windows_to_uri (s : str) : str :=
  let network := prefixb (S_ "\\") s in
  let drive := match s with _ :: c :: _ => aeq c ":" | _ => false end in
  (if network then S_ "file:" else if drive then S_ "file:///" else []) ++ escape_name "\" (network || drive) s.

(** uriUriStringToUnixFilenameA and uriUriStringToWindowsFilenameA: the prefix is skipped, percent escapes are
    replaced (what is no escape stays), and for Windows slashes become backslashes. *)
Definition hex_value (c : ascii) : N :=
  (if digit c then code c - 48 else if between 65 70 c then code c - 55 else code c - 87)%N.
Fixpoint unescape (s : str) : str :=
  match s with
  | [] => []
  | c :: r =>
      match r with
      | a :: b :: r' => if aeq c "%" && hexdig a && hexdig b then chr (16 * hex_value a + hex_value b) :: unescape r' else c :: unescape r
      | _ => c :: unescape r
      end
  end.
Definition unix_from_uri (s : str) : str :=
  unescape (skipn (if prefixb (S_ "file://") s then 7 else if prefixb (S_ "file:/") s then 5 else 0) s).
Definition windows_from_uri (s : str) : str :=
  map (fun c => if aeq c "/" then "\"%char else c)
    (if prefixb (S_ "file:///") s then unescape (skipn 8 s)
     else if prefixb (S_ "file://") s then S_ "\\" ++ unescape (skipn 7 s)
     else unescape (skipn (if prefixb (S_ "file:") s && negb (prefixb (S_ "file:/") s) then 5 else 0) s)).

(** A size as an int, uri_parser.cc 161, 177, 201, 217. *)
Definition to_int (n : N) : Z := let k := (Z.of_N n mod 4294967296)%Z in if (k <? 2147483648)%Z then k else (k - 4294967296)%Z.
Definition is_int (z : Z) : bool := ((-2147483648 <=? z) && (z <=? 2147483647))%Z.
Definition slen (s : str) : N := N.of_nat (length s).
(** malloc of [cap] bytes, then a call that writes [n] bytes and gives [out]: if [cap] is negative, that is as a size_t more
    than there is, malloc gives NULL, which the library refuses. Writing more than was allocated is undefined. *)
Definition write_into (cap : Z) (n : N) (out : str) : res (option str) :=
  if (cap <? 0)%Z then Ok None else if (cap <? Z.of_N n)%Z then UB else Ok (Some (c_string out)).
(** UnixFilenameToUri and WindowsFilenameToUri, uri_parser.cc 196-210, 212-226: [extra] + 3 times the size + 1; signed
    arithmetic that overflows is undefined. *)
Definition to_uri (extra : Z) (conv : str -> str) (f : str) : res (option str) :=
  let k := to_int (slen f) in
  if is_int (3 * k) && is_int (extra + 3 * k) && is_int (extra + 3 * k + 1)
  then let out := conv (c_string f) in write_into (extra + 3 * k + 1) (slen out + 1) out
  else UB.
Definition unix_filename_to_uri : str -> res (option str) := to_uri 7 unix_to_uri.
Definition windows_filename_to_uri : str -> res (option str) := to_uri 8 windows_to_uri.
(** FilenameToUri, uri_parser.cc 188-194: by whether there is a backslash. *)
Definition filename_to_uri (f : str) : res (option str) :=
  if existsb (aeq "\") f then windows_filename_to_uri f else unix_filename_to_uri f.
(** UriToUnixFilename and UriToWindowsFilename, uri_parser.cc 156-170, 172-186: the size of the URI + 1. *)
Definition from_uri (conv : str -> str) (u : str) : res (option str) :=
  let k := to_int (slen u) in
  if is_int (k + 1) then let out := conv (c_string u) in write_into (k + 1) (slen out + 1) out else UB.
Definition uri_to_unix_filename : str -> res (option str) := from_uri unix_from_uri.
Definition uri_to_windows_filename : str -> res (option str) := from_uri windows_from_uri.
(** UriToFilename, uri_parser.cc 147-154, where WIN32 is not defined. *)
Definition uri_to_filename : str -> res (option str) := uri_to_unix_filename.
(** NormalizeHref, kml_uri.cc 90-111. [normalize] is NormalizeUri, 83-88. *)
Definition normalize_href (normalize : str -> option str) (f : str) : res (option str) :=
  do u <- filename_to_uri f;
  match u with
  | None => Ok None
  | Some u => match normalize u with None => Ok None | Some n => uri_to_filename n end
  end.

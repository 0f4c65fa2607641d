(** RFC 3986, the standard the uriparser library implements (include/uriparser/Uri.h of that library,
    which is not part of /repo; src/kml/base/uri_parser.cc 26-30 includes it). Written from the
    text of the standard; the examples of its section 5.4 are checked at the end. Simplifications: an
    IP literal is hexadecimal digits, colons and dots in brackets, whatever their number; dot segments are only
    removed from paths that begin with a slash (all paths below an authority do). *)
From Verif Require Import Common.

(** RFC 3986 appendix A: ALPHA, DIGIT, HEXDIG, unreserved, sub-delims. *)
Definition between (lo hi : N) (c : ascii) : bool := ((lo <=? code c) && (code c <=? hi))%N.
Definition digit (c : ascii) : bool := between 48 57 c.
Definition alpha (c : ascii) : bool := between 65 90 c || between 97 122 c.
Definition hexdig (c : ascii) : bool := digit c || between 65 70 c || between 97 102 c.
Definition unreserved (c : ascii) : bool := alpha c || digit c || existsb (aeq c) (S_ "-._~").
Definition sub_delim (c : ascii) : bool := existsb (aeq c) (S_ "!$&'()*+,;=").
(** pchar, a character of a path, of a query or fragment, of a user, of a registered name, of an
    IP literal, of a scheme after the first (percent escapes apart). *)
Definition pchar (c : ascii) : bool := unreserved c || sub_delim c || existsb (aeq c) (S_ ":@").
Definition path_char (c : ascii) : bool := pchar c || aeq c "/".
Definition query_char (c : ascii) : bool := pchar c || existsb (aeq c) (S_ "/?").
Definition user_char (c : ascii) : bool := unreserved c || sub_delim c || aeq c ":".
Definition name_char (c : ascii) : bool := unreserved c || sub_delim c.
Definition literal_char (c : ascii) : bool := hexdig c || existsb (aeq c) (S_ ":.").
Definition scheme_char (c : ascii) : bool := alpha c || digit c || existsb (aeq c) (S_ "+-.").

(** RFC 3986 section 2.1: characters of a set and percent escapes. *)
Fixpoint escaped (f : ascii -> bool) (s : str) : bool :=
  match s with
  | [] => true
  | c :: r =>
      if aeq c "%" then match r with a :: b :: r' => hexdig a && hexdig b && escaped f r' | _ => false end
      else f c && escaped f r
  end.

(** RFC 3986 section 5.2.2: the five components; an absent one is not an empty one. *)
Record parts := { p_scheme : option str; p_auth : option str; p_path : str; p_query : option str; p_fragment : option str }.

(** What is before the first [c], and what is behind it. *)
Definition cut_at (c : ascii) (s : str) : str * option str :=
  match find_char c s with Some i => (firstn i s, Some (skipn (S i) s)) | None => (s, None) end.

(** RFC 3986 appendix B, the regular expression there: the fragment is behind the first number sign, the query behind the
    first question mark before it; the scheme is before the first colon if there is no slash before it (and something else is); the
    authority goes from two slashes to the next slash. *)
Definition split_scheme (s : str) : option str * str :=
  match cut_at ":" s with
  | (c :: u, Some v) => if existsb (aeq "/") (c :: u) then (None, s) else (Some (c :: u), v)
  | _ => (None, s)
  end.
Definition split_auth (s : str) : option str * str :=
  match s with
  | a :: b :: t =>
      if aeq a "/" && aeq b "/" then (Some (take_while (fun c => negb (aeq c "/")) t), drop_while (fun c => negb (aeq c "/")) t)
      else (None, s)
  | _ => (None, s)
  end.
Definition split_parts (s : str) : parts :=
  let '(s1, f) := cut_at "#" s in
  let '(s2, q) := cut_at "?" s1 in
  let '(sc, s3) := split_scheme s2 in
  let '(au, p) := split_auth s3 in
  {| p_scheme := sc; p_auth := au; p_path := p; p_query := q; p_fragment := f |}.

(** RFC 3986 section 3.2: user, host and port of an authority. The last is without its brackets if the host
    is an IP literal, and whether it is one is given. *)
Record authority := { a_user : option str; a_literal : bool; a_host : str; a_port : option str }.
Definition split_host (s : str) : option (bool * str * option str) :=
  match s with
  | c :: t =>
      if aeq c "[" then
        match cut_at "]" t with
        | (h, Some []) => if forallb literal_char h then Some (true, h, None) else None
        | (h, Some (d :: p)) => if aeq d ":" && forallb literal_char h && forallb digit p then Some (true, h, Some p) else None
        | _ => None
        end
      else let '(h, p) := cut_at ":" s in
           if escaped name_char h && match p with Some p => forallb digit p | None => true end then Some (false, h, p) else None
  | [] => Some (false, [], None)
  end.
Definition split_authority (s : str) : option authority :=
  match cut_at "@" s with
  | (u, Some h) =>
      if escaped user_char u then option_map (fun '(l, h, p) => {| a_user := Some u; a_literal := l; a_host := h; a_port := p |}) (split_host h)
      else None
  | (_, None) => option_map (fun '(l, h, p) => {| a_user := None; a_literal := l; a_host := h; a_port := p |}) (split_host s)
  end.

(** RFC 3986 appendix A: scheme, query, fragment, and path-noscheme. *)
Definition opt_all {A} (f : A -> bool) (o : option A) : bool := match o with Some a => f a | None => true end.
Definition good_scheme (s : str) : bool := match s with c :: t => alpha c && forallb scheme_char t | [] => false end.
Definition good_auth (s : str) : bool := match split_authority s with Some _ => true | None => false end.
Definition first_segment (p : str) : str := take_while (fun c => negb (aeq c "/")) p.
Definition valid_parts (c : parts) : bool :=
  opt_all good_scheme (p_scheme c) && opt_all good_auth (p_auth c) && escaped path_char (p_path c) &&
  opt_all (escaped query_char) (p_query c) && opt_all (escaped query_char) (p_fragment c) &&
  match p_scheme c, p_auth c with None, None => negb (existsb (aeq ":") (first_segment (p_path c))) | _, _ => true end.

(** A text that is a URI reference, with its components. *)
Definition rfc_parse (s : str) : option parts := let c := split_parts s in if valid_parts c then Some c else None.

(** RFC 3986 section 5.3, component recomposition. *)
Definition recompose (c : parts) : str :=
  match p_scheme c with Some s => s ++ S_ ":" | None => [] end ++
  match p_auth c with Some a => S_ "//" ++ a | None => [] end ++
  p_path c ++
  match p_query c with Some q => "?"%char :: q | None => [] end ++
  match p_fragment c with Some f => "#"%char :: f | None => [] end.

(** The segments of a path. *)
Fixpoint segments (p : str) : list str :=
  match p with
  | [] => [[]]
  | c :: r => if aeq c "/" then [] :: segments r
              else match segments r with x :: l => (c :: x) :: l | [] => [[c]] end
  end.
(** RFC 3986 section 5.2.4, remove dot segments: the segments behind the first slash, in turn; [out] are those kept, the last
    one first. *)
Fixpoint no_dots (l out : list str) : list str :=
  match l with
  | [] => rev out
  | x :: l' =>
      if eqs x (S_ ".") then match l' with [] => rev ([] :: out) | _ => no_dots l' out end
      else if eqs x (S_ "..") then match l' with [] => rev ([] :: tl out) | _ => no_dots l' (tl out) end
      else no_dots l' (x :: out)
  end.
Definition remove_dots (p : str) : str :=
  match p with
  | c :: r => if aeq c "/" then "/"%char :: join (S_ "/") (no_dots (segments r) []) else p
  | [] => []
  end.
(** RFC 3986 section 5.2.3, merge paths: all but what is behind the last slash of the path of the base. *)
Definition directory (p : str) : str := join (S_ "/") (removelast (segments p) ++ [[]]).
Definition merge_paths (b : parts) (r : str) : str :=
  match p_auth b, p_path b with
  | Some _, [] => "/"%char :: r
  | _, p => directory p ++ r
  end.
(** RFC 3986 section 5.2.2, transform references. A base without a scheme is not one: uriparser then gives
    URI_ERROR_ADDBASE_REL_BASE. *)
Definition transform (b r : parts) : option parts :=
  match p_scheme b with
  | None => None
  | Some _ =>
      Some match p_scheme r, p_auth r, p_path r with
      | Some s, a, p => {| p_scheme := Some s; p_auth := a; p_path := remove_dots p; p_query := p_query r; p_fragment := p_fragment r |}
      | None, Some a, p => {| p_scheme := p_scheme b; p_auth := Some a; p_path := remove_dots p; p_query := p_query r; p_fragment := p_fragment r |}
      | None, None, [] =>
          {| p_scheme := p_scheme b; p_auth := p_auth b; p_path := p_path b;
             p_query := match p_query r with Some q => Some q | None => p_query b end; p_fragment := p_fragment r |}
      | None, None, c :: t =>
          {| p_scheme := p_scheme b; p_auth := p_auth b;
             p_path := remove_dots (if aeq c "/" then c :: t else merge_paths b (c :: t)); p_query := p_query r; p_fragment := p_fragment r |}
      end
  end.

(** The examples of RFC 3986 sections 5.4.1 and 5.4.2. *)
Definition rfc_base : str := S_ "http://a/b/c/d;p?q".
Definition rfc_resolve (b r : str) : option str :=
  match rfc_parse b, rfc_parse r with
  | Some b, Some r => option_map recompose (transform b r)
  | _, _ => None
  end.
Definition rfc_table : list (str * str) :=
  [(S_ "g:h", S_ "g:h"); (S_ "g", S_ "http://a/b/c/g"); (S_ "./g", S_ "http://a/b/c/g"); (S_ "g/", S_ "http://a/b/c/g/");
   (S_ "/g", S_ "http://a/g"); (S_ "//g", S_ "http://g"); (S_ "?y", S_ "http://a/b/c/d;p?y"); (S_ "g?y", S_ "http://a/b/c/g?y");
   (S_ "#s", S_ "http://a/b/c/d;p?q#s"); (S_ "g#s", S_ "http://a/b/c/g#s"); (S_ "g?y#s", S_ "http://a/b/c/g?y#s");
   (S_ ";x", S_ "http://a/b/c/;x"); (S_ "g;x", S_ "http://a/b/c/g;x"); (S_ "g;x?y#s", S_ "http://a/b/c/g;x?y#s");
   (S_ "", S_ "http://a/b/c/d;p?q"); (S_ ".", S_ "http://a/b/c/"); (S_ "./", S_ "http://a/b/c/"); (S_ "..", S_ "http://a/b/");
   (S_ "../", S_ "http://a/b/"); (S_ "../g", S_ "http://a/b/g"); (S_ "../..", S_ "http://a/"); (S_ "../../", S_ "http://a/");
   (S_ "../../g", S_ "http://a/g"); (S_ "../../../g", S_ "http://a/g"); (S_ "../../../../g", S_ "http://a/g");
   (S_ "/./g", S_ "http://a/g"); (S_ "/../g", S_ "http://a/g"); (S_ "g.", S_ "http://a/b/c/g."); (S_ ".g", S_ "http://a/b/c/.g");
   (S_ "g..", S_ "http://a/b/c/g.."); (S_ "..g", S_ "http://a/b/c/..g"); (S_ "./../g", S_ "http://a/b/g"); (S_ "./g/.", S_ "http://a/b/c/g/");
   (S_ "g/./h", S_ "http://a/b/c/g/h"); (S_ "g/../h", S_ "http://a/b/c/h"); (S_ "g;x=1/./y", S_ "http://a/b/c/g;x=1/y");
   (S_ "g;x=1/../y", S_ "http://a/b/c/y"); (S_ "g?y/./x", S_ "http://a/b/c/g?y/./x"); (S_ "g?y/../x", S_ "http://a/b/c/g?y/../x");
   (S_ "g#s/./x", S_ "http://a/b/c/g#s/./x"); (S_ "g#s/../x", S_ "http://a/b/c/g#s/../x"); (S_ "http:g", S_ "http:g")].
Example rfc_examples : forallb (fun '(r, t) => match rfc_resolve rfc_base r with Some u => eqs u t | None => false end) rfc_table = true.
Proof. reflexivity. Qed.
(** The examples of section 1.1.2 are URIs; these are none. *)
Example rfc_uris : forallb (fun s => match rfc_parse s with Some c => eqs (recompose c) s | None => false end)
  [S_ "ftp://ftp.is.co.za/rfc/rfc1808.txt"; S_ "http://www.ietf.org/rfc/rfc2396.txt"; S_ "ldap://[2001:db8::7]/c=GB?objectClass?one";
   S_ "mailto:John.Doe@example.com"; S_ "news:comp.infosystems.www.servers.unix"; S_ "tel:+1-816-555-1212"; S_ "telnet://192.0.2.16:80/";
   S_ "urn:oasis:names:specification:docbook:dtd:xml:4.1.2"] = true.
Proof. reflexivity. Qed.
Example rfc_no_uris : forallb (fun s => match rfc_parse s with Some _ => false | None => true end)
  [S_ "a b"; S_ "%zz"; S_ ":a"; S_ "1a:b"; S_ "http://a:b/"; S_ "a#b#c"; S_ "http://[::1"; S_ "http://a[/"; S_ "C:\a"] = true.
Proof. reflexivity. Qed.

(** Model of the href and KMZ URL helpers: src/kml/engine/href.cc, src/kml/engine/kml_uri.cc.
    The third party uriparser library (src/kml/base/uri_parser.cc is a thin wrapper) is an
    oracle: a URI is given by the components that library found in it. *)
From Verif Require Import Common.

(** class Href, src/kml/engine/href.h 58-130: the four components it keeps. *)
Record href := { h_scheme : str; h_net_loc : str; h_path : str; h_fragment : str }.

(** Href::ParseScheme, href.cc 31-39: the scheme and the offset after it (0: no scheme). *)
Definition parse_scheme (s : str) : str * nat :=
  match find (S_"://") s with
  | None | Some 0 => ([], 0)
  | Some css => (firstn css s, css + 3)
  end.

(** Href::ParseNetLoc, href.cc 42-50. *)
Definition parse_net_loc (s : str) : str * nat :=
  match find_char "/"%char s with
  | None => ([], 0)
  | Some slash => (firstn slash s, slash + 1)
  end.

(** Href::Parse, href.cc 53-69. std::string::substr(pos, n) takes at most n bytes from pos;
    the code passes an end position as n. All pos are at most the size, so nothing throws. *)
Definition href_parse (s : str) : href :=
  let '(scheme, net_loc_start) := parse_scheme s in
  let '(net_loc, path_start) :=
    match net_loc_start with
    | 0 => ([], 0)
    | _ => let '(n, k) := parse_net_loc (skipn net_loc_start s) in (n, k + net_loc_start)
    end in
  let '(fragment, path_end) :=
    match find_char "#"%char s with
    | Some pound => (skipn (pound + 1) s, pound)
    | None => ([], length s)
    end in
  {| h_scheme := scheme; h_net_loc := net_loc;
     h_path := firstn path_end (skipn path_start s); h_fragment := fragment |}.

(** KmzSplit, kml_uri.cc 206-222, with both output pointers given; [None] is false, in which
    case the outputs are untouched. *)
Definition kmz_split (u : str) : option (str * str) :=
  match find (S_".kmz") u with
  | None => None
  | Some kmz =>
      Some (firstn (kmz + 4) u,
            if (kmz + 4 <? length u)%nat then skipn (kmz + 4 + 1) u else [])
  end.

(** The components uriparser finds in a URI (uri_parser.cc 228-275). The query and fragment
    can be absent or empty; the others are empty when absent. GetPath joins the segments with
    slashes, without the leading one. *)
Record uri := { u_scheme : str; u_user : str; u_host : str; u_port : str; u_path : str;
                u_query : option str; u_fragment : option str }.

(** GetFetchableUri, kml_uri.cc 173-204, appended to an empty string. *)
Definition fetchable (u : uri) : str :=
  (match u_scheme u, u_host u with
   | [], _ | _, [] => []
   | sc, h => sc ++ S_"://" ++ h ++
              (match u_port u with [] => [] | p => S_":" ++ p end) ++ S_"/"
   end) ++ u_path u.

(** class KmlUri, src/kml/engine/kml_uri.h: what the caches use. *)
Record kml_uri := { k_target : str; k_url : str; k_is_kmz : bool; k_kmz_url : str; k_path_in_kmz : str }.

(** KmlUri::CreateRelative, kml_uri.cc 49-71. [parse] is UriParser::CreateFromParse, [resolve]
    is ResolveUri. [None] is NULL. *)
Definition create_relative (parse : str -> option uri) (resolve : str -> str -> option str)
    (base target : str) : option kml_uri :=
  match parse target with
  | None => None
  | Some _ =>
      match resolve base target with
      | None => None
      | Some url =>
          match parse url with
          | None => None
          | Some u =>
              match kmz_split (fetchable u) with
              | Some (kmz, path) => Some {| k_target := target; k_url := url; k_is_kmz := true; k_kmz_url := kmz; k_path_in_kmz := path |}
              | None => Some {| k_target := target; k_url := url; k_is_kmz := false; k_kmz_url := []; k_path_in_kmz := [] |}
              end
          end
      end
  end.

(** ResolveModelTargetHref, kml_uri.cc 224-244. *)
Definition resolve_model_target (resolve : str -> str -> option str) (base geom target : str) : option str :=
  match resolve base geom with
  | None => None
  | Some g => resolve g target
  end.

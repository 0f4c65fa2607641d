(** The Google services (kml/convenience/google_doc_list.cc, google_picasa_web.cc, google_spreadsheets.cc and the start of google_maps_data.cc). *)
From Verif Require Import Common StrMap StringsModel PathModel AttributesModel XsdTables XsdModel HandlerModel SerializerModel DomTables DomModel CloneModel IdModel.
From Verif Require Import NamespaceModel AtomModel HttpModel FindModel MapsModel.
Local Open Scope N_scope.

(** The constants of a service: google_doc_list.cc:39-43,87, google_picasa_web.cc:35-41,67, google_spreadsheets.cc:35-39,55, google_maps_data.cc:40-44,61. *)
Inductive service := DocList | PicasaWeb | Spreadsheets | MapsData.
Definition service_name (s : service) : str :=
  match s with DocList => S_ "writely" | PicasaWeb => S_ "lh2" | Spreadsheets => S_ "wise" | MapsData => S_ "local" end.
Definition default_scope (s : service) : str :=
  match s with
  | DocList => S_ "http://docs.google.com" | PicasaWeb => S_ "http://picasaweb.google.com"
  | Spreadsheets => S_ "http://spreadsheets.google.com" | MapsData => S_ "http://maps.google.com"
  end.
Definition metafeed_path (s : service) : str :=
  match s with
  | DocList => S_ "/feeds/default/private/full" | PicasaWeb => S_ "/data/feed/api/user/default"
  | Spreadsheets => S_ "/feeds/spreadsheets/private/full" | MapsData => meta_feed_uri
  end.
Definition scope_variable (s : service) : str :=
  match s with
  | DocList => S_ "GOOGLE_DOC_LIST_SCOPE" | PicasaWeb => S_ "GOOGLE_PICASA_WEB_SCOPE"
  | Spreadsheets => S_ "GOOGLE_SPREADSHEETS_DATA_SCOPE" | MapsData => S_ "GOOGLE_MAPS_DATA_SCOPE"
  end.
(** google_doc_list.cc:53, google_picasa_web.cc:51, google_spreadsheets.cc:49, google_maps_data.cc:51. *)
Definition gdata_version (s : service) : str :=
  match s with DocList => S_ "3.0" | PicasaWeb => S_ "2" | Spreadsheets => S_ "3.0" | MapsData => S_ "2.0" end.

(** A service object: its scope_ and its http_client_. *)
Record running := { r_service : service; r_scope : str; r_client : client }.
(** Create of the four classes (google_doc_list.cc:46-57 and the same in the others) with GetScope (google_doc_list.cc:69-91); [getenv] is the environment,
    None as client is NULL. The Windows branch of GetScope is left out. *)
Definition get_scope (getenv : str -> option str) (s : service) : str :=
  match getenv (scope_variable s) with Some v => v | None => default_scope s end.
Definition start (getenv : str -> option str) (s : service) (c : option client) : option running :=
  match c with
  | None => None
  | Some c => Some {| r_service := s; r_scope := get_scope getenv s; r_client := add_header c (S_ "GData-Version") (gdata_version s) |}
  end.

(** What a caller can ask a service for. The requests of GoogleMapsData are those of MapsModel.v. *)
Inductive ask :=
  | MetaFeed
  | Upload (data mimetype : str)
  | Download (entry : obj) (format : str)
  | FeatureFeed (uri : str)
  | PostMedia (slug mimetype data : str).
(** GetMetaFeedXml (google_doc_list.cc:102-105, google_picasa_web.cc:81-84, google_spreadsheets.cc:83-86, google_maps_data.cc:93-96), UploadSpreadsheet
    (google_doc_list.cc:115-122), DownloadSpreadsheet (google_spreadsheets.cc:96-107), GetFeatureFeedXml (google_maps_data.cc:121-125), PostMedia
    (google_maps_data.cc:339-357). None: the member does not exist in the class, or returns false without a request. *)
Definition request_for (r : running) (a : ask) : option request :=
  match a, r_service r with
  | MetaFeed, s => Some {| q_method := HTTP_GET; q_uri := r_scope r ++ metafeed_path s; q_headers := []; q_data := None |}
  | Upload d m, DocList => Some {| q_method := HTTP_POST; q_uri := r_scope r ++ metafeed_path DocList; q_headers := content_type m; q_data := Some d |}
  | Download e f, Spreadsheets => download_spreadsheet (r_scope r) e f
  | FeatureFeed u, MapsData => Some {| q_method := HTTP_GET; q_uri := u; q_headers := []; q_data := None |}
  | PostMedia slug m d, MapsData => Some (post_media (r_scope r) slug m d)
  | _, _ => None
  end.
(** What reaches the network: http_client.cc:112-133, the headers of the client and after them the headers of the request. *)
Definition wire := (N * str * headers * option str)%type.
Definition on_the_wire (c : client) (q : request) : wire := (q_method q, q_uri q, append_headers (q_headers q) (c_headers c), q_data q).
(** A caller asking a service for one thing after the other, and logging in again in between. *)
Inductive step := Ask (a : ask) | Login (service email password : str).
Fixpoint session (send : headers -> N -> str -> str -> option str) (r : running) (l : list step) : list wire :=
  match l with
  | [] => []
  | Ask a :: l => match request_for r a with Some q => [on_the_wire (r_client r) q] | None => [] end ++ session send r l
  | Login s e p :: l =>
      (HTTP_POST, login_url, c_headers (r_client r), Some (login_data (c_app (r_client r)) s e p)) ::
      session send {| r_service := r_service r; r_scope := r_scope r; r_client := snd (login send (r_client r) s e p) |} l
  end.
(** GetMetaFeed (google_doc_list.cc:107-113): [answer] is what SendRequest gives for a request, [parse] is ParseAtom. *)
Definition get_meta_feed (answer : wire -> option str) (parse : str -> option obj) (r : running) : option obj :=
  match request_for r MetaFeed with
  | None => None
  | Some q => match answer (on_the_wire (r_client r) q) with Some t => as_feed (parse t) | None => None end
  end.

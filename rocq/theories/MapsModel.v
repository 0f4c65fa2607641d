(** Model of src/kml/convenience/google_maps_data.cc and the download URI of google_spreadsheets.cc on the elements of DomModel.v. *)
From Verif Require Import Common StrMap StringsModel PathModel AttributesModel XsdTables XsdModel HandlerModel SerializerModel DomTables DomModel CloneModel IdModel.
From Verif Require Import NamespaceModel AtomModel HttpModel FindModel.
Local Open Scope N_scope.

(** google_maps_data.cc:106-119 GetFeatureFeedUri is GetContentSrc of AtomModel.v; 136-145 GetEntryFeature is get_entry_feature there. *)
Definition get_feature_feed_uri (map_entry : obj) : option str := get_content_src map_entry.
(** container.cc:45-47 add_feature of a feature without parent. *)
Definition add_to_container (container f : obj) : obj := put container Type_Feature (get container Type_Feature ++ [f]).
(** google_maps_data.cc:147-168 GetMapKml: the number and the container afterwards; Clone may be undefined (CloneModel.v). *)
Fixpoint map_kml_loop (E : env) (entries : list obj) (container : obj) (n : nat) : cres (nat * obj) :=
  match entries with
  | [] => Done (n, container)
  | e :: r =>
      match get_entry_feature e with
      | Some f => cbind (clone E f) (fun f' => map_kml_loop E r (add_to_container container f') (S n))
      | None => map_kml_loop E r container n
      end
  end.
Definition get_map_kml (E : env) (feed container : obj) : cres (nat * obj) := map_kml_loop E (get feed Type_AtomEntry) container 0.
(** google_maps_data.cc:170-186 CreateDocumentOfMapFeatures; None: [fuel] rounds of the loop did not end it. *)
Fixpoint document_loop (E : env) (http : str -> option str) (parse : str -> option obj) (fuel : nat) (feed document : obj) : option (cres obj) :=
  match fuel with
  | O => None
  | S fuel =>
      match get_map_kml E feed document with
      | Done (_, d) => match get_next_feed http parse feed with Some f => document_loop E http parse fuel f d | None => Some (Done d) end
      | Cyclic => Some Cyclic
      | Undefined => Some Undefined
      end
  end.
Definition create_document_of_map_features E http parse fuel feed := document_loop E http parse fuel feed (create Type_Document).

(** What SendRequest (http_client.h:78-82) is called with. *)
Record request := { q_method : N; q_uri : str; q_headers : headers; q_data : option str }.
(** base/mimetypes.cc:30-33. *)
Definition atom_mime : str := S_ "application/atom+xml".
Definition csv_mime : str := S_ "text/csv".
Definition kml_mime : str := S_ "application/vnd.google-earth.kml+xml".
Definition content_type (t : str) : headers := push_header (S_ "Content-Type") t [].
(** google_maps_data.cc:44. *)
Definition meta_feed_uri : str := S_ "/maps/feeds/maps/default/full".
(** kml_file.cc:133-165 CreateFromImport fails if an id occurs twice; then SerializeToString with the default encoding (kml_file.cc:42). *)
Definition create_from_import (o : obj) : option obj := match dup_ids o with [] => Some o | _ => None end.
Definition file_text (o : obj) : res str := do r <- serialize_to_string (S_ "utf-8") (Some o); Ok (snd r).
(** google_maps_data.cc:188-209 CreateMap; None: false without a request. *)
Definition create_map (scope title summary : str) : res (option request) :=
  match create_from_import (create_basic_entry title summary) with
  | None => Ok None
  | Some o => do t <- file_text o;
              Ok (Some {| q_method := HTTP_POST; q_uri := scope ++ meta_feed_uri; q_headers := content_type atom_mime; q_data := Some t |})
  end.
(** google_maps_data.cc:211-242 AddFeature; the file is used without a test for NULL. *)
Definition feature_entry (f : obj) : obj :=
  put (create_basic_entry (field_value f Type_name) (field_value f Type_description)) Type_AtomContent
    [set_ka (set_mis (create Type_AtomContent) [f]) [(S_ "type", kml_mime)]].
Definition add_feature (uri : str) (f : obj) : res request :=
  match create_from_import (feature_entry f) with
  | None => UB
  | Some o => do t <- file_text o; Ok {| q_method := HTTP_POST; q_uri := uri; q_headers := content_type atom_mime; q_data := Some t |}
  end.
(** google_maps_data.cc:244-267 PostPlacemarks: the requests made, and the result when [send] is what SendRequest returns. *)
Definition has_geometry (p : obj) : bool := match get p Type_Geometry with [] => false | _ => true end.
Definition posted (root : obj) : list obj :=
  if oty root =? Type_Placemark then [root] else filter has_geometry (get_elements_by_id root Type_Placemark).
Fixpoint all_ok {A B} (f : A -> res B) (l : list A) : res (list B) :=
  match l with [] => Ok [] | x :: r => do y <- f x; do ys <- all_ok f r; Ok (y :: ys) end.
Definition post_placemarks (send : request -> bool) (root : obj) (uri : str) : res (list request * nat) :=
  do qs <- all_ok (add_feature uri) (posted root); Ok (qs, length (filter send qs)).
(** google_maps_data.cc:277-292 GetSearchFeedUri. *)
Definition get_search_feed_uri (map_entry : obj) : option str :=
  match get_feature_feed_uri map_entry with
  | None => None
  | Some u => match find_last (aeq "/"%char) u with Some i => Some (firstn (i + 1) u ++ S_ "snippet") | None => None end
  end.
(** google_maps_data.cc:294-302 GetSearchFeed. *)
Definition search_request (search_feed_uri parameters : str) : request :=
  {| q_method := HTTP_GET; q_uri := search_feed_uri ++ S_ "?" ++ parameters; q_headers := []; q_data := None |}.
(** google_maps_data.cc:304-315 AppendBoxParameter with the texts of the numbers. *)
Definition append_box_parameter (north south east west parameters : str) : str :=
  parameters ++ S_ "box=" ++ west ++ S_ "," ++ south ++ S_ "," ++ east ++ S_ "," ++ north.
(** google_maps_data.cc:339-357 PostMedia, with 359-368 PostCsv, PostKml. *)
Definition post_media (scope slug type data : str) : request :=
  {| q_method := HTTP_POST; q_uri := scope ++ meta_feed_uri; q_headers := push_header (S_ "Slug") slug (content_type type); q_data := Some data |}.
Definition post_csv (scope title data : str) : request := post_media scope title csv_mime data.
Definition post_kml (scope title data : str) : request := post_media scope title kml_mime data.
(** google_maps_data.cc:370-382 GetKmlUri. *)
Definition get_kml_uri (map_entry : obj) : option str := option_map (fun a => a ++ S_ "&output=kml") (find_rel_url map_entry (S_ "alternate")).
(** google_spreadsheets.cc:97-108 DownloadSpreadsheet; None: false without a request. *)
Definition download_spreadsheet (scope : str) (entry : obj) (format : str) : option request :=
  option_map (fun id => {| q_method := HTTP_GET; q_uri := scope ++ S_ "/feeds/download/spreadsheets/Export?key=" ++ id ++ S_ "&exportFormat=" ++ format;
                           q_headers := []; q_data := None |}) (get_gd_resource_id entry).

(** The Google services. *)
From Verif Require Import Common StrMap StringsModel PathModel AttributesModel XsdTables XsdModel HandlerModel SerializerModel DomTables DomModel CloneModel IdModel.
From Verif Require Import NamespaceModel AtomModel HttpModel FindModel MapsModel ServicesModel.
Local Open Scope N_scope.

(** How often a header occurs, and what its values are. *)
Definition values (name : str) (h : headers) : list str := map snd (filter (fun kv => eqs name (fst kv)) h).
Definition wire_headers (w : wire) : headers := snd (fst w).
Definition wire_uri (w : wire) : str := snd (fst (fst w)).
Definition wire_method (w : wire) : N := fst (fst (fst w)).
Definition wire_data (w : wire) : option str := snd w.
Lemma values_app name a b : values name (a ++ b) = values name a ++ values name b.
Proof. unfold values. now rewrite filter_app, map_app. Qed.

(** C103. Every request of a session with a service, the logins included, is sent with the headers the client had, first, and one GData-Version header with the version of the service. *)
Theorem service_headers : forall getenv send s c r l, start getenv s (Some c) = Some r -> values (S_ "GData-Version") (c_headers c) = [] ->
  forall w, In w (session send r l) -> (exists h, wire_headers w = c_headers c ++ h) /\ values (S_ "GData-Version") (wire_headers w) = [gdata_version s].
Proof.
  intros getenv send s c r l Hs Hc.
  assert (H : forall l r, r_service r = s -> (exists h, c_headers (r_client r) = c_headers c ++ h) -> values (S_ "GData-Version") (c_headers (r_client r)) = [gdata_version s] ->
              forall w, In w (session send r l) -> (exists h, wire_headers w = c_headers c ++ h) /\ values (S_ "GData-Version") (wire_headers w) = [gdata_version s]).
  { clear r l Hs Hc. induction l as [|[a|sv e p] l IH]; intros r Hr Hh Hv w Hw; cbn [session] in Hw.
    - destruct Hw.
    - apply in_app_iff in Hw as [Hw|Hw]; [|now apply (IH r)].
      destruct (request_for r a) as [q|] eqn:Q; [|destruct Hw]. destruct Hw as [<-|[]].
      unfold on_the_wire, wire_headers, append_headers. cbn [fst snd]. destruct Hh as [h Hh]. split.
      + exists (h ++ q_headers q). now rewrite Hh, app_assoc.
      + rewrite values_app, Hv.
        assert (values (S_ "GData-Version") (q_headers q) = []) as ->; [|reflexivity].
        destruct a; cbn [request_for] in Q.
        * injection Q as <-. reflexivity.
        * destruct (r_service r); try discriminate. injection Q as <-. reflexivity.
        * destruct (r_service r); try discriminate. unfold download_spreadsheet in Q. destruct (get_gd_resource_id entry); [|discriminate]. injection Q as <-. reflexivity.
        * destruct (r_service r); try discriminate. injection Q as <-. reflexivity.
        * destruct (r_service r); try discriminate. injection Q as <-. reflexivity.
    - destruct Hw as [<-|Hw].
      + unfold wire_headers. cbn [fst snd]. auto.
      + revert Hw. apply IH; cbn [r_service r_client]; [exact Hr| |].
        * destruct Hh as [h Hh]. unfold login. destruct (send _ _ _ _) as [t|]; [|exists h; exact Hh]. destruct (find _ _); [|exists h; exact Hh].
          cbn [snd c_headers]. unfold push_header. rewrite Hh. rewrite <- app_assoc. eexists. reflexivity.
        * unfold login. destruct (send _ _ _ _) as [t|]; [|exact Hv]. destruct (find _ _); [|exact Hv].
          cbn [snd c_headers]. unfold push_header. rewrite values_app, Hv. reflexivity. }
  unfold start in Hs. injection Hs as <-. apply H; cbn [r_service r_client]; [reflexivity| |].
  - unfold add_header. cbn [c_headers]. unfold push_header. eauto.
  - unfold add_header. cbn [c_headers]. unfold push_header. rewrite values_app, Hc. reflexivity.
Qed.
Print Assumptions service_headers.

(** C103. A request goes to an address inside the scope of the service, or to one the caller gave; only uploads have a body, which is sent as it is. *)
Theorem service_addresses : forall r a q, request_for r a = Some q ->
  ((exists path, q_uri q = r_scope r ++ "/"%char :: path) \/ a = FeatureFeed (q_uri q)) /\
  match a with
  | Upload d m => q_method q = HTTP_POST /\ q_data q = Some d /\ q_headers q = [(S_ "Content-Type", m)]
  | PostMedia slug m d => q_method q = HTTP_POST /\ q_data q = Some d /\ q_headers q = [(S_ "Content-Type", m); (S_ "Slug", slug)]
  | _ => q_method q = HTTP_GET /\ q_data q = None /\ q_headers q = []
  end.
Proof.
  intros r a q Q. destruct a; cbn [request_for] in Q.
  - injection Q as <-. split; [left|auto]. cbn [q_uri]. destruct (r_service r); eexists; reflexivity.
  - destruct (r_service r); try discriminate. injection Q as <-. split; [left; eexists; reflexivity|auto].
  - destruct (r_service r); try discriminate. unfold download_spreadsheet in Q. destruct (get_gd_resource_id entry); [|discriminate]. injection Q as <-.
    split; [left; eexists; reflexivity|auto].
  - destruct (r_service r); try discriminate. injection Q as <-. split; [now right|auto].
  - destruct (r_service r); try discriminate. injection Q as <-. split; [left; eexists; reflexivity|auto].
Qed.
Print Assumptions service_addresses.

(** C103. The scope is what the environment says, else that of the service; there is a service object exactly if there is a client. *)
Theorem service_scope : forall getenv s c, match start getenv s c with
  | Some r => c <> None /\ r_service r = s /\
      ((getenv (scope_variable s) = Some (r_scope r)) \/ (getenv (scope_variable s) = None /\ r_scope r = default_scope s))
  | None => c = None
  end.
Proof.
  intros getenv s [c|]; cbn [start]; [|reflexivity]. cbn [r_service r_scope]. split; [discriminate|]. split; [reflexivity|].
  unfold get_scope. destruct (getenv (scope_variable s)); auto.
Qed.
Print Assumptions service_scope.

(** C103. The four services have different names, variables, scopes and feeds, so that one does not answer for another. *)
Theorem services_distinct : forall s t, service_name s = service_name t \/ scope_variable s = scope_variable t \/ default_scope s = default_scope t \/ metafeed_path s = metafeed_path t -> s = t.
Proof. intros s t H. destruct s, t; try reflexivity; destruct H as [H|[H|[H|H]]]; discriminate H. Qed.
Print Assumptions services_distinct.
(** C103. The names by which the services are known to the login service. *)
Theorem service_names : map service_name [DocList; PicasaWeb; Spreadsheets; MapsData] = [S_ "writely"; S_ "lh2"; S_ "wise"; S_ "local"].
Proof. reflexivity. Qed.
Print Assumptions service_names.
(** C103. The environment variables that change the addresses of the services. *)
Theorem service_variables : forall getenv s c r x, start getenv s (Some c) = Some r ->
  getenv (match s with DocList => S_ "GOOGLE_DOC_LIST_SCOPE" | PicasaWeb => S_ "GOOGLE_PICASA_WEB_SCOPE" | Spreadsheets => S_ "GOOGLE_SPREADSHEETS_DATA_SCOPE" | MapsData => S_ "GOOGLE_MAPS_DATA_SCOPE" end) = Some x ->
  r_scope r = x.
Proof. intros getenv s c r x [= <-] H. cbn [r_scope]. unfold get_scope. destruct s; cbn [scope_variable]; now rewrite H. Qed.
Print Assumptions service_variables.
(** C103. The address of the feed of each service, and the scope it has without an environment. *)
Theorem meta_feed_address : forall r q, request_for r MetaFeed = Some q ->
  q_uri q = r_scope r ++ match r_service r with
                         | DocList => S_ "/feeds/default/private/full" | PicasaWeb => S_ "/data/feed/api/user/default"
                         | Spreadsheets => S_ "/feeds/spreadsheets/private/full" | MapsData => S_ "/maps/feeds/maps/default/full"
                         end.
Proof. intros r q [= <-]. destruct r as [s sc c]. cbn. now destruct s. Qed.
Print Assumptions meta_feed_address.
Theorem service_version : forall getenv s c r, start getenv s (Some c) = Some r -> c_headers c = [] ->
  c_headers (r_client r) = [(S_ "GData-Version", match s with DocList => S_ "3.0" | PicasaWeb => S_ "2" | Spreadsheets => S_ "3.0" | MapsData => S_ "2.0" end)].
Proof. intros getenv s c r [= <-] H. cbn [r_client]. unfold add_header. cbn [c_headers]. rewrite H. now destruct s. Qed.
Print Assumptions service_version.
Theorem default_addresses : forall c s r q, start (fun _ => None) s (Some c) = Some r -> request_for r MetaFeed = Some q ->
  q_uri q = match s with
            | DocList => S_ "http://docs.google.com/feeds/default/private/full" | PicasaWeb => S_ "http://picasaweb.google.com/data/feed/api/user/default"
            | Spreadsheets => S_ "http://spreadsheets.google.com/feeds/spreadsheets/private/full" | MapsData => S_ "http://maps.google.com/maps/feeds/maps/default/full"
            end.
Proof. intros c s r q [= <-] [= <-]. now destruct s. Qed.
Print Assumptions default_addresses.
(** C103. The environment variable of each service. *)
Theorem scope_variables : forall getenv s v c r, getenv (match s with DocList => S_ "GOOGLE_DOC_LIST_SCOPE" | PicasaWeb => S_ "GOOGLE_PICASA_WEB_SCOPE"
    | Spreadsheets => S_ "GOOGLE_SPREADSHEETS_DATA_SCOPE" | MapsData => S_ "GOOGLE_MAPS_DATA_SCOPE" end) = Some v -> start getenv s (Some c) = Some r -> r_scope r = v.
Proof. intros getenv s v c r H [= <-]. cbn [r_scope]. unfold get_scope. destruct s; cbn [scope_variable]; now rewrite H. Qed.
Print Assumptions scope_variables.

(** C103. The feed is the parsed answer if the answer is a feed, and nothing otherwise. *)
Theorem meta_feed_correct : forall answer parse r f, get_meta_feed answer parse r = Some f <->
  exists t, answer (HTTP_GET, r_scope r ++ metafeed_path (r_service r), c_headers (r_client r), None) = Some t /\ parse t = Some f /\ oty f = Type_AtomFeed.
Proof.
  intros answer parse r f. unfold get_meta_feed. cbn [request_for]. unfold on_the_wire, append_headers. cbn [q_method q_uri q_headers q_data]. rewrite app_nil_r.
  destruct (answer _) as [t|].
  - unfold as_feed. split.
    + intros H. exists t. destruct (parse t) as [x|]; [|discriminate]. destruct (N.eqb_spec (oty x) Type_AtomFeed); [|discriminate]. injection H as <-. auto.
    + intros (t' & H & Hp & Ht). injection H as <-. rewrite Hp. apply N.eqb_eq in Ht. now rewrite Ht.
  - split; [discriminate|]. intros (t & H & _). discriminate.
Qed.
Print Assumptions meta_feed_correct.

(** C103. A client which was made for one service and is given to another sends both versions, the one of the first service first. *)
Theorem service_version_refuted : exists c, let r c := start (fun _ => None) Spreadsheets (Some c) in
  exists r1 w, r (r_client c) = Some r1 /\ session (fun _ _ _ _ => None) r1 [Ask MetaFeed] = [w] /\ values (S_ "GData-Version") (wire_headers w) = [S_ "2"; S_ "3.0"].
Proof.
  exists {| r_service := PicasaWeb; r_scope := []; r_client := add_header (new_client (S_ "app")) (S_ "GData-Version") (gdata_version PicasaWeb) |}.
  cbn zeta. eexists. eexists. split; [reflexivity|]. split; [reflexivity|]. vm_compute. reflexivity.
Qed.
Print Assumptions service_version_refuted.
(** C103. A variable which is set but empty does not leave the default: the address is then no address of a host. *)
Theorem service_empty_scope_refuted : forall s c, exists r q, start (fun _ => Some []) s (Some c) = Some r /\ request_for r MetaFeed = Some q /\ q_uri q = metafeed_path s.
Proof. intros s c. eexists. eexists. split; [reflexivity|]. split; reflexivity. Qed.
Print Assumptions service_empty_scope_refuted.
(** C103. The key of a spreadsheet and the format are not escaped: different requests of the caller can be the same address. *)
Definition keyed (id : str) : obj := set_unk (create Type_AtomEntry) [S_ "<gd|resourceId>" ++ id ++ S_ "</gd|resourceId>"].
Theorem download_address_refuted : exists e1 f1 e2 f2 i1 i2, get_gd_resource_id e1 = Some i1 /\ get_gd_resource_id e2 = Some i2 /\ i1 <> i2 /\
  forall scope, option_map q_uri (download_spreadsheet scope e1 f1) = option_map q_uri (download_spreadsheet scope e2 f2).
Proof.
  exists (keyed (S_ "k")), (S_ "csv&exportFormat=pdf"), (keyed (S_ "k&exportFormat=csv")), (S_ "pdf"), (S_ "k"), (S_ "k&exportFormat=csv").
  split; [reflexivity|]. split; [reflexivity|]. split; [discriminate|]. intros scope. unfold download_spreadsheet, keyed. reflexivity.
Qed.
Print Assumptions download_address_refuted.
Lemma before_amp : forall a b x y, ~ In "&"%char a -> ~ In "&"%char b -> a ++ "&"%char :: x = b ++ "&"%char :: y -> a = b /\ x = y.
Proof.
  induction a as [|c a IH]; intros [|d b] x y Ha Hb H; cbn [app] in H.
  - inversion H. auto.
  - inversion H; subst. destruct Hb. now left.
  - inversion H; subst. destruct Ha. now left.
  - inversion H; subst. destruct (IH b x y) as [-> ->]; auto; intros G; [apply Ha|apply Hb]; now right.
Qed.
(** C103. Keys without an ampersand are told apart, and so are the formats asked for. *)
Theorem download_address_distinct : forall scope e1 f1 e2 f2 i1 i2 q1 q2, get_gd_resource_id e1 = Some i1 -> get_gd_resource_id e2 = Some i2 ->
  ~ In "&"%char i1 -> ~ In "&"%char i2 -> download_spreadsheet scope e1 f1 = Some q1 -> download_spreadsheet scope e2 f2 = Some q2 -> q_uri q1 = q_uri q2 -> i1 = i2 /\ f1 = f2.
Proof.
  intros scope e1 f1 e2 f2 i1 i2 q1 q2 G1 G2 A1 A2 D1 D2 H. unfold download_spreadsheet in *. rewrite G1 in D1. rewrite G2 in D2. injection D1 as <-. injection D2 as <-.
  cbn [q_uri] in H. apply app_inv_head in H. apply (app_inv_head (S_ "/feeds/download/spreadsheets/Export?key=")) in H.
  apply before_amp in H as [-> H]; [|assumption|assumption]. apply (app_inv_head (S_ "exportFormat=")) in H. auto.
Qed.
Print Assumptions download_address_distinct.

(** The hypotheses hold: a session of a client that logs in, then asks. *)
Example session_sample :
  match start (fun _ => None) DocList (Some (new_client (S_ "app"))) with
  | Some r => map (fun w => (wire_method w, wire_uri w, wire_headers w)) (session (fun _ _ _ _ => Some (S_ "Auth=DQ" ++ ["010"%char])) r [Login (S_ "writely") (S_ "me") (S_ "pw"); Ask (Upload (S_ "a,b") (S_ "text/csv")); Ask (FeatureFeed (S_ "u"))])
  | None => []
  end =
  [(HTTP_POST, S_ "https://www.google.com/accounts/ClientLogin", [(S_ "User-Agent", S_ "app GData-C++/1.0"); (S_ "GData-Version", S_ "3.0")]);
   (HTTP_POST, S_ "http://docs.google.com/feeds/default/private/full",
    [(S_ "User-Agent", S_ "app GData-C++/1.0"); (S_ "GData-Version", S_ "3.0"); (S_ "Authorization", S_ "GoogleLogin auth=DQ"); (S_ "Content-Type", S_ "text/csv")])].
Proof. reflexivity. Qed.

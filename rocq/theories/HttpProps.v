(** Properties of the HTTP client (C90). *)
From Verif Require Import Common StringsModel StringsProofs StringsProps HttpModel.
Local Open Scope N_scope.

(** C90. Headers are looked up by their exact name, the first one counts. *)
Theorem header_found : forall name h, match find_header name h with
  | Some v => exists h1 h2, h = h1 ++ (name, v) :: h2 /\ forall w, ~ In (name, w) h1
  | None => forall w, ~ In (name, w) h
  end.
Proof.
  intros name h. induction h as [|[n v] r IH]; cbn [find_header]; [intros w []|]. destruct (eqs name n) eqn:E.
  - apply eqs_spec in E. subst n. exists [], r. split; [reflexivity|intros w []].
  - apply eqs_neq in E. destruct (find_header name r) as [x|].
    + destruct IH as (h1 & h2 & -> & H). exists ((n, v) :: h1), h2. split; [reflexivity|]. intros w [G|G]; [congruence|now apply (H w)].
    + intros w [G|G]; [congruence|now apply (IH w)].
Qed.
Print Assumptions header_found.
(** C90. A header that is added is found if there is none of that name already; other headers are not affected. *)
Theorem header_added : forall h name value other, find_header other (push_header name value h) =
  match find_header other h with Some v => Some v | None => if eqs other name then Some value else None end.
Proof. intros h name value other. unfold push_header. induction h as [|[n v] r IH]; cbn [app find_header]; [destruct (eqs other name); reflexivity|]. now destruct (eqs other n). Qed.
Print Assumptions header_added.
Theorem headers_appended : forall src dest name, find_header name (append_headers src dest) = match find_header name dest with Some v => Some v | None => find_header name src end.
Proof. intros src dest name. unfold append_headers. induction dest as [|[n v] r IH]; cbn [app find_header]; [reflexivity|]. now destruct (eqs name n). Qed.
Print Assumptions headers_appended.
(** C90. A new client names the program, and this library, in each request. *)
Theorem client_named : forall app, find_header (S_ "User-Agent") (c_headers (new_client app)) = Some (app ++ S_ " GData-C++/1.0") /\ length (c_headers (new_client app)) = 1%nat.
Proof. intros app. split; reflexivity. Qed.
Print Assumptions client_named.

(** ** Requests: lines *)
Definition line (s : str) : str := s ++ ["010"%char].
(** C90. The text of a request: the line with method and URI, the headers of the client and those of the request in their order. *)
Theorem request_text : forall c m ms uri h response, method_string m = Some ms ->
  send_request c m uri h response = Ok (response ++ line (ms ++ S_ " " ++ uri) ++ flat_map line (map (fun kv => fst kv ++ S_ ": " ++ snd kv) (c_headers c ++ match h with Some h => h | None => [] end))).
Proof.
  intros c m ms uri h response Hm. unfold send_request. rewrite Hm. f_equal. f_equal. unfold line. rewrite <- !app_assoc. do 4 f_equal. rewrite map_app, flat_map_app.
  assert (G : forall l, flat_map (fun kv => format_header kv ++ ["010"%char]) l = flat_map (fun s : str => s ++ ["010"%char]) (map (fun kv : str * str => fst kv ++ S_ ": " ++ snd kv) l)).
  { induction l as [|kv l IH]; [reflexivity|]. cbn [flat_map map]. now rewrite IH. }
  now rewrite !G.
Qed.
Print Assumptions request_text.
(** C90. Each method of RFC 2616 has its name; the others are undefined behaviour. *)
Theorem request_defined_iff : forall c m uri h response, (exists t, send_request c m uri h response = Ok t) <-> 1 <= m <= 8.
Proof.
  intros c m uri h response. unfold send_request. split.
  - intros [t Ht]. unfold method_string in Ht. destruct (N.leb_spec 1 m); destruct (N.leb_spec m 8); cbn [andb] in Ht; try discriminate. lia.
  - intros H. unfold method_string. destruct (N.leb_spec 1 m); [|lia]. destruct (N.leb_spec m 8); [|lia]. cbn [andb].
    destruct (nth_error _ (N.to_nat (m - 1))) eqn:E; [eauto|]. apply nth_error_None in E. cbn [length] in E. lia.
Qed.
Print Assumptions request_defined_iff.
Theorem request_none_refuted : forall c uri h response, send_request c 0 uri h response = UB.
Proof. reflexivity. Qed.
Print Assumptions request_none_refuted.
Example request_sample : send_request (add_header (new_client (S_ "app")) (S_ "A") (S_ "b")) HTTP_GET (S_ "http://h/") (Some [(S_ "C", S_ "d")]) [] =
  Ok (line (S_ "GET http://h/") ++ line (S_ "User-Agent: app GData-C++/1.0") ++ line (S_ "A: b") ++ line (S_ "C: d")).
Proof. reflexivity. Qed.

(** ** Login *)
Lemma find_at p u v : p <> [] -> (forall j, (j < length u)%nat -> prefixb p (skipn j (u ++ p ++ v)) = false) -> find p (u ++ p ++ v) = Some (length u).
Proof. intros _ H. now apply find_app_intro. Qed.
(** C90. A login makes one request, with the headers of the client: the name of the user, the password, the name of the program and the service are posted to the
    address of the login service over a secure connection. *)
Theorem login_request : forall send send' c service email password,
  (let data := S_ "Email=" ++ email ++ S_ "&Passwd=" ++ password ++ S_ "&accountType=HOSTED_OR_GOOGLE&source=" ++ c_app c ++ S_ "&service=" ++ service in
   send (c_headers c) HTTP_POST (S_ "https://www.google.com/accounts/ClientLogin") data = send' (c_headers c) HTTP_POST (S_ "https://www.google.com/accounts/ClientLogin") data) ->
  login send c service email password = login send' c service email password.
Proof. intros send send' c service email password H. unfold login. cbv zeta in H. change (send (c_headers c) HTTP_POST login_url (login_data (c_app c) service email password) =
    send' (c_headers c) HTTP_POST login_url (login_data (c_app c) service email password)) in H. now rewrite H. Qed.
Print Assumptions login_request.
(** C90. After a login the token is what follows the first Auth= of the response, without the newline at its end; it is sent with every request. *)
Theorem login_correct : forall send c service email password u token,
  send (c_headers c) HTTP_POST login_url (login_data (c_app c) service email password) = Some (u ++ S_ "Auth=" ++ token ++ ["010"%char]) ->
  ~ occurs (S_ "Auth=") (u ++ S_ "Auth") ->
  let '(ok, c') := login send c service email password in
  ok = true /\ c_token c' = token /\ c_app c' = c_app c /\ c_headers c' = c_headers c ++ [(S_ "Authorization", S_ "GoogleLogin auth=" ++ token)].
Proof.
  intros send c service email password u token Hs Ho. unfold login. rewrite Hs.
  assert (Hf : find (S_ "Auth=") (u ++ S_ "Auth=" ++ token ++ ["010"%char]) = Some (length u)).
  { apply find_app_intro. intros j Hj. destruct (prefixb (S_ "Auth=") (skipn j (u ++ S_ "Auth=" ++ token ++ ["010"%char]))) eqn:E; [|reflexivity]. exfalso. apply Ho.
    apply prefixb_spec in E as [r Er].
    assert (Ha : firstn (length u + 4) (u ++ S_ "Auth=" ++ token ++ ["010"%char]) = u ++ S_ "Auth").
    { rewrite firstn_app. rewrite firstn_all2 by lia. replace (length u + 4 - length u)%nat with 4%nat by lia. reflexivity. }
    exists (firstn j (u ++ S_ "Auth")). exists (firstn (length u + 4 - j - 5) r). rewrite <- Ha. rewrite firstn_firstn. replace (Nat.min j (length u + 4)) with j by lia.
    rewrite <- (firstn_skipn j (u ++ S_ "Auth=" ++ token ++ ["010"%char])) at 1. rewrite firstn_app. rewrite firstn_firstn.
    assert (Lj : length (firstn j (u ++ S_ "Auth=" ++ token ++ ["010"%char])) = j) by (rewrite firstn_length, app_length; lia). rewrite Lj.
    replace (Nat.min (length u + 4) j) with j by lia. f_equal. rewrite Er. rewrite firstn_app.
    change (length (S_ "Auth=")) with 5%nat. rewrite firstn_all2 by (change (length (S_ "Auth=")) with 5%nat; lia). reflexivity. }
  rewrite Hf. split; [reflexivity|]. replace (skipn (length u + 5) (u ++ S_ "Auth=" ++ token ++ ["010"%char])) with (token ++ ["010"%char]).
  2: { rewrite skipn_app. rewrite skipn_all2 by lia. replace (length u + 5 - length u)%nat with 5%nat by lia. reflexivity. }
  cbn [c_token c_app c_headers]. rewrite app_length. cbn [length]. rewrite Nat.add_sub. rewrite firstn_app, Nat.sub_diag, firstn_all. cbn [firstn]. rewrite app_nil_r. auto.
Qed.
Print Assumptions login_correct.
(** C90. Without a response or without a token in it nothing changes. *)
Theorem login_failed : forall send c service email password,
  (forall r, send (c_headers c) HTTP_POST login_url (login_data (c_app c) service email password) = Some r -> ~ occurs (S_ "Auth=") r) ->
  login send c service email password = (false, c).
Proof.
  intros send c service email password H. unfold login. destruct (send _ _ _ _) as [r|]; [|reflexivity]. specialize (H r eq_refl). apply find_none in H. now rewrite H.
Qed.
Print Assumptions login_failed.
Definition answer (s : str) : headers -> N -> str -> str -> option str := fun _ _ _ _ => Some s.
Example login_sample : snd (login (answer (S_ "SID=x" ++ ["010"%char] ++ S_ "Auth=DQAA" ++ ["010"%char])) (new_client (S_ "app")) (S_ "local") (S_ "me") (S_ "secret")) =
  {| c_app := S_ "app"; c_token := S_ "DQAA"; c_headers := [(S_ "User-Agent", S_ "app GData-C++/1.0"); (S_ "Authorization", S_ "GoogleLogin auth=DQAA")] |}.
Proof. reflexivity. Qed.
(** C90. Lines after the token become part of the token and of the header; without a newline at the end the last character of the token is lost; LAuth= is taken for Auth=. *)
Theorem login_token_refuted :
  c_token (snd (login (answer (S_ "Auth=t" ++ ["010"%char] ++ S_ "X-Evil: 1" ++ ["010"%char])) (new_client []) [] [] [])) = S_ "t" ++ ["010"%char] ++ S_ "X-Evil: 1" /\
  c_token (snd (login (answer (S_ "Auth=token")) (new_client []) [] [] [])) = S_ "toke" /\
  c_token (snd (login (answer (S_ "LAuth=no" ++ ["010"%char] ++ S_ "Auth=yes" ++ ["010"%char])) (new_client []) [] [] [])) = S_ "no" ++ ["010"%char] ++ S_ "Auth=yes".
Proof. split; [|split]; reflexivity. Qed.
Print Assumptions login_token_refuted.
(** C90. Different credentials can give the same request, as nothing is escaped. *)
Theorem login_data_refuted : exists e1 p1 e2 p2, (e1, p1) <> (e2, p2) /\ forall app service, login_data app service e1 p1 = login_data app service e2 p2.
Proof.
  exists (S_ "me"), (S_ "a&Passwd=b"), (S_ "me&Passwd=a"), (S_ "b"). split; [discriminate|reflexivity].
Qed.
Print Assumptions login_data_refuted.
(** C90. Credentials without an ampersand are told apart. *)
Lemma prefix_free : forall a b x y, ~ In "&"%char a -> ~ In "&"%char b -> a ++ "&"%char :: x = b ++ "&"%char :: y -> a = b /\ x = y.
Proof.
  induction a as [|c a IH]; intros [|d b] x y Ha Hb H; cbn [app] in H.
  - inversion H. auto.
  - inversion H; subst. destruct Hb. now left.
  - inversion H; subst. destruct Ha. now left.
  - inversion H; subst. destruct (IH b x y) as [-> ->]; auto; intros G; [apply Ha|apply Hb]; now right.
Qed.
Theorem login_data_distinct : forall app service e1 p1 e2 p2, ~ In "&"%char (e1 ++ p1 ++ e2 ++ p2) -> login_data app service e1 p1 = login_data app service e2 p2 -> e1 = e2 /\ p1 = p2.
Proof.
  intros app service e1 p1 e2 p2 Hn H. rewrite !in_app_iff in Hn. unfold login_data in H. apply app_inv_head in H.
  assert (He : e1 = e2 /\ S_ "Passwd=" ++ p1 ++ S_ "&accountType=" ++ S_ "HOSTED_OR_GOOGLE" ++ S_ "&source=" ++ app ++ S_ "&service=" ++ service = S_ "Passwd=" ++ p2 ++ S_ "&accountType=" ++ S_ "HOSTED_OR_GOOGLE" ++ S_ "&source=" ++ app ++ S_ "&service=" ++ service).
  { apply prefix_free; [tauto|tauto|exact H]. }
  destruct He as [-> H2]. split; [reflexivity|]. apply app_inv_head in H2.
  apply (prefix_free p1 p2 (S_ "accountType=" ++ S_ "HOSTED_OR_GOOGLE" ++ S_ "&source=" ++ app ++ S_ "&service=" ++ service) (S_ "accountType=" ++ S_ "HOSTED_OR_GOOGLE" ++ S_ "&source=" ++ app ++ S_ "&service=" ++ service)); [tauto|tauto|exact H2].
Qed.
Print Assumptions login_data_distinct.
(** C90. After a second login the old token comes first. *)
Theorem login_again_refuted : let c1 := snd (login (answer (S_ "Auth=old" ++ ["010"%char])) (new_client []) [] [] []) in let c2 := snd (login (answer (S_ "Auth=new" ++ ["010"%char])) c1 [] [] []) in
  c_token c2 = S_ "new" /\ find_header (S_ "Authorization") (c_headers c2) = Some (S_ "GoogleLogin auth=old").
Proof. split; reflexivity. Qed.
Print Assumptions login_again_refuted.
(** C90. Names of headers do not depend on case, but the lookup does. *)
Theorem header_case_refuted : find_header (S_ "content-type") [(S_ "Content-Type", S_ "text/csv")] = None.
Proof. reflexivity. Qed.
Print Assumptions header_case_refuted.
(** C90. The names of the methods are those of RFC 2616, 9.2 to 9.9, in this order. *)
Theorem method_names : map method_string [0; 1; 2; 3; 4; 5; 6; 7; 8] =
  [None; Some (S_ "OPTIONS"); Some (S_ "GET"); Some (S_ "HEAD"); Some (S_ "POST"); Some (S_ "PUT"); Some (S_ "DELETE"); Some (S_ "TRACE"); Some (S_ "CONNECT")] /\
  forall m, 8 < m -> method_string m = None.
Proof.
  split; [vm_compute; reflexivity|]. intros m H. unfold method_string. destruct (N.leb_spec m 8); [lia|]. now rewrite andb_false_r.
Qed.
Print Assumptions method_names.

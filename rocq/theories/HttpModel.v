(** The HTTP client (kml/convenience/http_client.cc). *)
From Verif Require Import Common.
Local Open Scope N_scope.

(** http_client.h:39-40 StringPairVector. *)
Definition headers := list (str * str).
Definition HTTP_GET : N := 2.
Definition HTTP_POST : N := 4.
(** http_client.cc:35-60 HttpMethod::GetMethodString: NULL for HTTP_NONE (0) and for numbers outside of the enumeration. *)
Definition method_string (m : N) : option str :=
  if (1 <=? m) && (m <=? 8) then
    nth_error [S_ "OPTIONS"; S_ "GET"; S_ "HEAD"; S_ "POST"; S_ "PUT"; S_ "DELETE"; S_ "TRACE"; S_ "CONNECT"] (N.to_nat (m - 1))
  else None.
(** http_client.cc:137-143 PushHeader, 162-169 AppendHeaders. *)
Definition push_header (name value : str) (h : headers) : headers := h ++ [(name, value)].
Definition append_headers (src dest : headers) : headers := dest ++ src.
(** http_client.cc:146-157 FindHeader. *)
Fixpoint find_header (name : str) (h : headers) : option str :=
  match h with
  | [] => None
  | (n, v) :: r => if eqs name n then Some v else find_header name r
  end.
(** http_client.cc:160-162 FormatHeader. *)
Definition format_header (kv : str * str) : str := fst kv ++ S_ ": " ++ snd kv.

(** http_client.h:130-140: application_name_, auth_token_ and headers_. *)
Record client := { c_app : str; c_token : str; c_headers : headers }.
(** http_client.cc:66-71 HttpClient. *)
Definition new_client (app : str) : client :=
  {| c_app := app; c_token := []; c_headers := push_header (S_ "User-Agent") (app ++ S_ " GData-C++/" ++ S_ "1.0") [] |}.
(** http_client.cc:73-76 AddHeader. *)
Definition add_header (c : client) (name value : str) : client := {| c_app := c_app c; c_token := c_token c; c_headers := push_header name value (c_headers c) |}.
(** http_client.cc:112-133 SendRequest: the default implementation appends the request to the response. Appending a NULL pointer is undefined. *)
Definition send_request (c : client) (m : N) (uri : str) (h : option headers) (response : str) : res str :=
  match method_string m with
  | None => UB
  | Some ms => Ok (response ++ ms ++ S_ " " ++ uri ++ ["010"%char] ++ flat_map (fun kv => format_header kv ++ ["010"%char]) (c_headers c) ++
                   flat_map (fun kv => format_header kv ++ ["010"%char]) (match h with Some h => h | None => [] end))
  end.
(** http_client.cc:79-109 Login; [send] is SendRequest of a derived class: the response to a POST of the data, or None if it returns false.
    [token.size() - 1] of an empty token is npos. *)
Definition login_url : str := S_ "https://www.google.com/accounts/ClientLogin".
Definition login_data (app service email password : str) : str :=
  S_ "Email=" ++ email ++ S_ "&Passwd=" ++ password ++ S_ "&accountType=" ++ S_ "HOSTED_OR_GOOGLE" ++ S_ "&source=" ++ app ++ S_ "&service=" ++ service.
Definition login (send : headers -> N -> str -> str -> option str) (c : client) (service email password : str) : bool * client :=
  match send (c_headers c) HTTP_POST login_url (login_data (c_app c) service email password) with
  | None => (false, c)
  | Some response =>
      match find (S_ "Auth=") response with
      | None => (false, c)
      | Some i =>
          let token := skipn (i + 5) response in
          let token := firstn (length token - 1) token in
          (true, {| c_app := c_app c; c_token := token; c_headers := push_header (S_ "Authorization") (S_ "GoogleLogin auth=" ++ token) (c_headers c) |})
      end
  end.

(** Response.v: from what an endpoint decided to the HTTP response (endpoint.py:65-78, 381-479), and the
    variants of the userinfo (oidc/userinfo.py:54-107) and discovery (oidc/discovery.py:17-36) endpoints. *)
From Verif Require Import Base Types Ctx.

Definition headers := list (string * string).

(** util.py:13 *)
Definition nocache : headers := [("Pragma", "no-cache"); ("Cache-Control", "no-store")].

(** endpoint.py:65-71 *)
Definition set_content_type (hs : headers) (ct : string) : headers :=
  if existsb (fun h => String.eqb (fst h) "Content-type" && String.eqb (snd h) ct) hs then hs
  else filter (fun h => negb (String.eqb (fst h) "Content-type")) hs ++ [("Content-type", ct)].

(** endpoint.py:74-78 *)
Definition fragment_encoding (return_type : list string) : bool :=
  match return_type with ["code"] => false | _ => true end.

(** The serialisations of oidcmsg's Message *)
Record encoding := mkEnc { to_json : msg -> string; to_urlencoded : msg -> string }.

(** Message.request (oidcmsg) *)
Definition msg_request (en : encoding) (m : msg) (uri : string) (fragment : bool) : string :=
  if fragment then (uri ++ "#" ++ to_urlencoded en m)%string
  else if contains "?" uri then (uri ++ "&" ++ to_urlencoded en m)%string
  else (uri ++ "?" ++ to_urlencoded en m)%string.

(** The attributes of an endpoint that matter here, and its construct (endpoint.py:356-379) *)
Record endp := mkEP {
  ep_placement : string; ep_response_format : string; ep_request_format : string;
  ep_construct : msg -> result msg }.

(** The keyword arguments of do_response. For return_type and response_placement None stands also for a value
    that is None; the Python tests do not tell the two apart. *)
Record kwargs := mkKw {
  kw_error_description : option val;
  kw_response_msg : option string;
  kw_response_placement : option string;
  kw_content_type : option string;
  kw_fragment_enc : option bool;
  kw_return_type : option (list string);
  kw_return_uri : option string;
  kw_http_headers : option headers;
  kw_cookie : option val }.

Inductive body := Nothing | Text (s : string) | Object (m : msg).
(** [rs_given]: the list of headers the caller passed, after the call (extend works in place) *)
Record response := mkRs {
  rs_placement : option string; rs_body : body; rs_headers : headers; rs_cookie : option val; rs_given : option headers }.

(** endpoint.py:411-418 *)
Definition msg_content_type (ep : endp) (kw : kwargs) : string :=
  match kw_content_type kw with
  | Some ct => ct
  | None =>
      if String.eqb (ep_response_format ep) "json" then "application/json"
      else if smem (ep_request_format ep) ["jws"; "jwe"; "jose"] then "application/jose"
      else "application/x-www-form-urlencoded"
  end.

(** endpoint.py:422-454: content type and body *)
Definition place (en : encoding) (ep : endp) (kw : kwargs) (m : msg) : result (string * body) :=
  match kw_content_type kw with
  | Some ct => Ok (ct, Nothing)
  | None =>
      if String.eqb (ep_placement ep) "body" then
        if String.eqb (ep_response_format ep) "json" then Ok ("application/json; charset=utf-8", Text (to_json en m))
        else if smem (ep_request_format ep) ["jws"; "jwe"; "jose"] then Ok ("application/jose; charset=utf-8", Object m)
        else Ok ("application/x-www-form-urlencoded", Text (to_urlencoded en m))
      else if String.eqb (ep_placement ep) "url" then
        let fragment :=
          match kw_fragment_enc kw with
          | Some b => b
          | None => match kw_return_type kw with
                    | Some (x :: l) => fragment_encoding (x :: l)
                    | _ => false
                    end
          end in
        match kw_return_uri kw with
        | Some uri => Ok ("", Text (msg_request en m uri fragment))
        | None => Raise EKey
        end
      else Raise EValue
  end.

(** endpoint.py:381-479 *)
Definition do_response (en : encoding) (ep : endp) (response_args : msg) (error : string) (kw : kwargs) : result response :=
  let* r :=
    if nonempty error then
      let m := match kw_error_description kw with
               | Some d => [("error", VStr error); ("error_description", d)]
               | None => [("error", VStr error)]
               end in
      let* cb := place en ep kw m in Ok (cb, None)
    else match kw_response_msg kw with
         | Some t => Ok (msg_content_type ep kw, Text t, kw_response_placement kw)
         | None => let* m := ep_construct ep response_args in
                   let* cb := place en ep kw m in Ok (cb, None)
         end in
  let '(ct, b, pl) := r in
  let hs :=
    if nonempty ct then
      match kw_http_headers kw with Some hs => set_content_type hs ct | None => [("Content-type", ct)] end
    else match kw_http_headers kw with Some hs => hs | None => [] end in
  (* extend changes the caller's list when hs is that list *)
  let same := negb (nonempty ct) ||
    match kw_http_headers kw with
    | Some given => existsb (fun h => String.eqb (fst h) "Content-type" && String.eqb (snd h) ct) given
    | None => false
    end in
  Ok (mkRs (match pl with Some p => if nonempty p then Some p else None | None => None end) b (hs ++ nocache)
        (kw_cookie kw)
        (match kw_http_headers kw with
         | Some given => Some (if same then given ++ nocache else given)
         | None => None
         end)).

(** oidc/userinfo.py:54-107. [pack sign enc]: JWT(..).pack(response_args, recv=client_id). EValue stands for the MissingValue. *)
Definition userinfo_response (en : encoding) (ep : endp) (db : cdb)
    (pack : string -> option val -> option (val * val) -> msg -> result string)
    (response_args : msg) (error : string) (client_id : string) (kw : kwargs) : result response :=
  if nonempty error then do_response en ep response_args error kw
  else if negb (nonempty client_id) then Raise EValue
  else match dget client_id db with
  | None => Raise EKey
  | Some cinfo =>
      let sign := dget "userinfo_signed_response_alg" cinfo in
      let encrypt :=
        match dget "userinfo_encrypted_response_enc" cinfo, dget "userinfo_encrypted_response_alg" cinfo with
        | Some e, Some a => Some (e, a)
        | _, _ => None
        end in
      let* r :=
        match sign, encrypt with
        | None, None => Ok (to_json en response_args, "application/json")
        | _, _ => let* t := pack client_id sign encrypt response_args in Ok (t, "application/jwt")
        end in
      let '(t, ct) := r in
      Ok (mkRs None (Text t) ([("Content-type", ct)] ++ nocache) None (kw_http_headers kw))
  end.

(** oidc/discovery.py:17-36; [t] is the JSON of the JRD *)
Definition discovery_response (t : string) : response :=
  mkRs None (Text t) [("Content-type", "application/json")] None None.

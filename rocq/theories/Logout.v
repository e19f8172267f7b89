(** Logout.v: the end_session endpoint (oidc/session.py). *)
From Verif Require Import Base Monad Types SessionKey Database Manager Ctx World Uri AuthnBroker ClientAuthn.
Local Open Scope Z_scope.

(** What the endpoint takes from outside: the issuer, provider_info, the keyword arguments of the endpoint
    (None: not configured), urllib; [lo_sign alg payload recv]: JWT(..).pack; [lo_encrypt]: _encrypt_sid
    (see below); [lo_post url data]: the status of httpc.post. *)
Record lo_env := mkLO {
  lo_issuer : string; lo_provider : msg;
  lo_path : option string; lo_verify_url : option string; lo_alg : option string;
  lo_url : urllib;
  lo_sign : val -> msg -> val -> result string;
  lo_encrypt : string -> result string;
  lo_post : string -> string -> result Z }.

(** ** Session ids in logout tokens *)
Section Sid.
  (** AES_GCMEncrypter(key).encrypt(msg, iv): text and tag in one; decrypt(ctx, iv, tag); split_ctx_and_tag; b64e and
      b64d *)
  Variables (gcm : string -> string -> string -> string) (ungcm : string -> string -> string -> string -> option string).
  Variables (cut_tag : string -> string * string) (b64 : string -> string) (unb64 : string -> option string).
  (** oidc/session.py:95-98; [iv] is made once, when the endpoint is (93) *)
  Definition encrypt_sid (symkey iv sid : string) : string := b64 (gcm symkey iv sid).
  (** oidc/session.py:100-104 *)
  Definition decrypt_sid (symkey iv m : string) : result string :=
    let* x := of_option EValue (unb64 m) in
    of_option EOther (ungcm symkey iv (fst (cut_tag x)) (snd (cut_tag x))).
End Sid.

(** ** Notifications *)
(** urlencode(d, doseq=True) of a dict of lists *)
Definition flat (d : dict (list string)) : list (string * string) :=
  flat_map (fun kv => map (fun s => (fst kv, s)) (snd kv)) d.

(** oidc/session.py:35-69. The URI is a str. (p._replace(query="").geturl() is the base with the fragment, if there is one.) *)
Definition iframe (u : urllib) (cinfo : msg) (iss sid : string) : result (option string) :=
  match dget "frontchannel_logout_uri" cinfo with
  | None => Ok None
  | Some v =>
      let* uri := match v with VStr s => Ok s | _ => Raise EType end in
      if match dget "frontchannel_logout_session_required" cinfo with Some v => truthy v | None => false end then
        let own q := dset "sid" [sid] (dset "iss" [iss] q) in
        let* r := if contains "?" uri then
                    let* p := ul_split u uri in
                    Ok ((up_base p ++ (if nonempty (up_fragment p) then "#" ++ up_fragment p else ""))%string,
                        own (ul_qs u (up_query p)))
                  else Ok (uri, own []) in
        Ok (Some ("<iframe src=""" ++ fst r ++ "?" ++ ul_encode u (flat (snd r)) ++ """>")%string)
      else Ok (Some ("<iframe src=""" ++ uri ++ """>")%string)
  end.

Definition BACK_CHANNEL_LOGOUT_EVENT : string := "http://schemas.openid.net/event/backchannel-logout".

(** oidc/session.py:106-141: the URI and the logout token *)
Definition back_channel (e : lo_env) (cinfo : msg) (sid : string) : result (option (string * string)) :=
  match dget "backchannel_logout_uri" cinfo with
  | None => Ok None
  | Some v =>
      let* uri := match v with VStr s => Ok s | _ => Raise EType end in
      let* enc := lo_encrypt e sid in
      let payload := [("sid", VStr enc); ("events", VDict [(BACK_CHANNEL_LOGOUT_EVENT, VDict [])])] in
      let* alg := match dget "id_token_signed_response_alg" cinfo with
                  | Some a => Ok a
                  | None => let* l := dsub "id_token_signing_alg_values_supported" (lo_provider e) in
                            match l with
                            | VList (a :: _) => Ok a
                            | VList [] => Raise EIndex
                            | _ => Raise EType
                            end
                  end in
      let* cid := dsub "client_id" cinfo in
      let* t := lo_sign e alg payload cid in
      Ok (Some (uri, t))
  end.

(** oidc/session.py:143-146 *)
Fixpoint clean_sessions (sids : list string) : W unit :=
  match sids with
  | [] => ret tt
  | sid :: sids' => in_db (revoke_client_session sid) ;;; clean_sessions sids'
  end.

(** res: the members blu and flu *)
Record notes := mkNotes { no_back : dict (string * string); no_front : dict string }.
Definition add_back (c : string) (o : option (string * string)) (n : notes) : notes :=
  match o with Some x => mkNotes (dset c x (no_back n)) (no_front n) | None => n end.
(** ([if _spec]: a text with an iframe is never empty) *)
Definition add_front (c : string) (o : option string) (n : notes) : notes :=
  match o with Some x => mkNotes (no_back n) (dset c x (no_front n)) | None => n end.

(** what is done for one client: oidc/session.py:160-173, 204-215. The bool: it has a logout URI. *)
Definition note_client (e : lo_env) (clients : cdb) (c sid : string) (n : notes) : result (bool * notes) :=
  let* cinfo := dsub c clients in
  if dmem "backchannel_logout_uri" cinfo then
    let* s := back_channel e cinfo sid in Ok (true, add_back c s n)
  else if dmem "frontchannel_logout_uri" cinfo then
    let* s := iframe (lo_url e) cinfo (lo_issuer e) sid in Ok (true, add_front c s n)
  else Ok (false, n).

(** oidc/session.py:159-173 *)
Fixpoint note_clients (e : lo_env) (clients : cdb) (uid : string) (cs : list string) (sids : list string) (n : notes)
  : result (list string * notes) :=
  match cs with
  | [] => Ok (sids, n)
  | c :: cs' =>
      let sid := session_key [uid; c] in
      let* r := note_client e clients c sid n in
      note_clients e clients uid cs' (if fst r : bool then sids ++ [sid] else sids) (snd r)
  end.

(** oidc/session.py:148-182 *)
Definition logout_all_clients (e : lo_env) (sid : string) : W notes :=
  i <-- in_db (get_session_info sid true true false false false) ;;
  clients <-- gets w_cdb ;;
  subs <-- lift (match in_usi i with Some x => subordinate x | None => Raise EKey end) ;;
  '(sids, n) <-- lift (note_clients e clients (in_uid i) subs [] (mkNotes [] [])) ;;
  clean_sessions sids ;;;
  ret n.

(** oidc/session.py:198-218 *)
Definition logout_from_client (e : lo_env) (sid : string) : W notes :=
  i <-- in_db (get_session_info sid false false true false false) ;;
  clients <-- gets w_cdb ;;
  '(_, n) <-- lift (note_client e clients (in_cid i) sid (mkNotes [] [])) ;;
  clean_sessions [sid] ;;;
  ret n.

(** oidc/session.py:371-389: the requests made, in order, until one ends in an exception. (The status is only logged.) *)
Fixpoint post_all (e : lo_env) (l : list (string * (string * string))) : list (string * string) * result unit :=
  match l with
  | [] => ([], Ok tt)
  | (_, (url, t)) :: l' =>
      let data := ("logout_token=" ++ t)%string in
      match lo_post e url data with
      | Ok _ => let (sent, r) := post_all e l' in ((url, data) :: sent, r)
      | Raise x => ([(url, data)], Raise x)
      end
  end.

(** oidc/session.py:365-391: the iframes, with the requests made *)
Definition do_verified_logout (e : lo_env) (sid : string) (alla : bool) (w : world)
  : result (list string) * list (string * string) * world :=
  match (if alla then logout_all_clients e sid else logout_from_client e sid) w with
  | (Raise x, w') => (Raise x, [], w')
  | (Ok n, w') =>
      let (sent, r) := post_all e (no_back n) in
      (let* _ := r in Ok (map snd (no_front n)), sent, w')
  end.

(** ** The request *)
(** What is in the signed token the user is sent away with, and where they are sent. *)
Record ending := mkEnd { en_payload : msg; en_location : string }.

(** oidc/session.py:220-317. [cookie]: what get_cookie_value gives for the session cookie (Cookie.v); [decode]: b64d and
    json.loads. Simplification: state and post_logout_redirect_uri are strs. *)
Definition end_session (e : lo_env) (cookie : result (option (string * string * string))) (decode : string -> result val)
           (request : msg) : W ending :=
  if dmem "post_logout_redirect_uri" request && negb (dmem "id_token_hint" request) then raise EInvalidRequest
  else
    part <-- lift (match cookie with
                   | Raise EIndex => Raise EInvalidRequest
                   | Raise EKey | Raise EAttr => Ok None
                   | x => x
                   end) ;;
    match part with
    | None => raise EValue
    | Some (v, _, _) =>
        info <-- lift (decode v) ;;
        i <-- catch (sid <-- lift (match info with
                                   | VDict d => match dget "sid" d with
                                                | Some (VStr s) => Ok s
                                                | Some _ => Raise EAttr
                                                | None => Raise EKey
                                                end
                                   | _ => Raise EType
                                   end) ;;
                     in_db (get_session_info sid false false true false false))
                    is_key_error (raise EValue) ;;
        (if dmem "id_token_hint" request then
           t <-- lift (match dget (verified "id_token_hint") request with
                       | None => Raise EKey
                       | Some (VDict d) => Ok d
                       | Some _ => Raise EType
                       end) ;;
           aud <-- lift (dsub "aud" t) ;;
           b <-- lift (val_in (VStr (in_cid i)) aud) ;;
           if negb b then raise EValue
           else
             sub <-- lift (dsub "sub" t) ;;
             g <-- in_db (match in_grant i with Some x => as_grant x | None => raise EKey end) ;;
             if negb (val_eqb sub (VStr (g_sub g))) then raise EValue else ret tt
         else ret tt) ;;;
        clients <-- gets w_cdb ;;
        _ <-- lift (dsub (in_cid i) clients) ;;
        '(uri, plur) <-- (match dget "post_logout_redirect_uri" request with
                          | None =>
                              p <-- lift (of_option EKey (lo_path e)) ;;
                              ret (if ends_with "/" (lo_issuer e) then (lo_issuer e ++ p)%string
                                   else (lo_issuer e ++ "/" ++ p)%string, false)
                          | Some _ =>
                              lift (verify_uri (lo_url e) clients request "post_logout_redirect_uri" (Some (in_cid i))) ;;;
                              u <-- lift (msub_str "post_logout_redirect_uri" request) ;;
                              ret (u, true)
                          end) ;;
        let payload := [("sid", VStr (in_sid i))] in
        '(uri, payload) <-- (if (plur : bool) && dmem "state" request then
                               s <-- lift (msub_str "state" request) ;;
                               ret ((uri ++ "?" ++ ul_encode (lo_url e) [("state", s)])%string, dset "state" (VStr s) payload)
                             else ret (uri, payload)) ;;
        let payload := dset "redirect_uri" (VStr uri) payload in
        alg <-- lift (of_option EKey (lo_alg e)) ;;
        t <-- lift (lo_sign e (VStr alg) payload (VStr (lo_issuer e))) ;;
        url <-- lift (of_option EKey (lo_verify_url e)) ;;
        ret (mkEnd payload (url ++ "?" ++ ul_encode (lo_url e) [("sjwt", t)])%string)
    end.

(** ** Parsing *)
(** A request as it comes in: a dict, another mapping, or a str. *)
Inductive given := GDict (m : msg) | GOther (m : msg) | GText (s : string).

(** oidc/session.py:319-363. [e]: client_authentication is called without naming the endpoint, so ep_named e is false unless the
    caller adds that keyword. [verify]: request_cls(..).verify, with the request as it leaves it; [alg_of]: the alg of the
    header of the verified id_token_hint. A str is only looked at by client_authentication if there are methods to
    try; simplification: as one without parameters. *)
Definition parse_end_session (o : outside) (ep : ep) (of_token : val -> result val) (aka : dict string)
           (verify : msg -> result (option msg)) (alg_of : val -> result val) (supported : result val)
           (request : given) (auth : authz_data) : ST castate (msg + string) :=
  let cls := match request with GDict _ => "dict" | GOther _ => "Message" | GText _ => "str" end%string in
  let rq := match request with GDict m | GOther m => m | GText _ => [] end in
  let text := match request with GText s => nonempty s | _ => false end in
  r <-- client_authentication o ep cls of_token aka rq auth ;;
  rq <-- match r with
         | None => ret rq
         | Some ai => if text then raise EType
                      else c <-- lift (of_option EKey (ai_client ai)) ;;
                           t <-- lift (of_option EKey (ai_token ai)) ;;
                           ret (dset "access_token" t (dset "client_id" c rq))
         end ;;
  match request with
  | GText (String _ _ as s) => ret (inr s)
  | GOther (_ :: _) => ret (inl rq)
  | _ =>
      v <-- lift (verify rq) ;;
      match v with
      | None => raise EInvalidRequest
      | Some m =>
          match dget (verified "id_token_hint") m with
          | None => ret (inl m)
          | Some h =>
              a <-- lift (alg_of h) ;;
              l <-- lift supported ;;
              b <-- lift (val_in a l) ;;
              if (b : bool) then ret (inl m) else raise EOther
          end
      end
  end.

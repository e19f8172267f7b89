(** Registration.v: dynamic client registration (oidc/registration.py) and reading a registration
    (oidc/read_registration.py).

    Not modelled: logging, the cookie of process_request:466-472 and database syncing. A response that is an
    error (ResponseMessage with "error") is an exception here: process_request turns every exception into such a
    response (registration.py:454-461), and the texts are left out. *)
From Verif Require Import Base Types Monad Ctx Uri ClientAuthn.
Local Open Scope Z_scope.

(** registration.py:29-46, in order *)
Definition preference2provider : list (string * string) :=
  [("request_object_signing_alg", "request_object_signing_alg_values_supported");
   ("request_object_encryption_alg", "request_object_encryption_alg_values_supported");
   ("request_object_encryption_enc", "request_object_encryption_enc_values_supported");
   ("userinfo_signed_response_alg", "userinfo_signing_alg_values_supported");
   ("userinfo_encrypted_response_alg", "userinfo_encryption_alg_values_supported");
   ("userinfo_encrypted_response_enc", "userinfo_encryption_enc_values_supported");
   ("id_token_signed_response_alg", "id_token_signing_alg_values_supported");
   ("id_token_encrypted_response_alg", "id_token_encryption_alg_values_supported");
   ("id_token_encrypted_response_enc", "id_token_encryption_enc_values_supported");
   ("default_acr_values", "acr_values_supported");
   ("subject_type", "subject_types_supported");
   ("token_endpoint_auth_method", "token_endpoint_auth_methods_supported");
   ("token_endpoint_auth_signing_alg", "token_endpoint_auth_signing_alg_values_supported");
   ("response_types", "response_types_supported");
   ("grant_types", "grant_types_supported")]%string.

(** The configuration and what is outside: urllib, RegistrationRequest.verify (it may raise, or change the
    request), whether there is a key for a signing algorithm (alg2keytype and the key jar,
    registration.py:226-236; true if none is needed), keyjar.load_keys (it may raise), GET and json.loads of a sector
    identifier URI, the path of the registration_read endpoint if there is one, the keyword arguments on
    expiry, the names in RegistrationResponse.c_param. *)
Record rconf := mkRC {
  rc_url : urllib;
  rc_provider : msg;
  rc_verify : msg -> result msg;
  rc_has_key : val -> result bool;
  rc_load : string -> val -> val -> result unit;
  rc_fetch : val -> result val;
  rc_read_path : option string;
  rc_expires : bool;
  rc_expires_in : Z;
  rc_params : list string }.

(** What one call draws: client ids until one is free, salt, registration access token, secret, and the time. *)
Record draw := mkDraw {
  dr_ids : list string;
  dr_salt : string;
  dr_rat : string;
  dr_secret : string;
  dr_now : Z }.

(** The state: client database and JWT ids, registration access tokens, the symmetric keys added to the key jar per
    client, and the jwks_uri and jwks loaded per client. *)
Record rgstate := mkRG {
  rg_ca : castate;
  rg_rat : dict string;
  rg_sym : dict (list string);
  rg_jwks : dict (val * val) }.
Definition rg_cdb (s : rgstate) : cdb := ca_cdb (rg_ca s).
Definition set_cdb (f : cdb -> cdb) (s : rgstate) : rgstate :=
  mkRG (mkCA (f (ca_cdb (rg_ca s))) (ca_jti (rg_ca s))) (rg_rat s) (rg_sym s) (rg_jwks s).

Fixpoint chars (s : string) : list string :=
  match s with EmptyString => [] | String c s' => String c EmptyString :: chars s' end.
(** [for x in v] *)
Definition iter_val (v : val) : result (list val) :=
  match v with
  | VList l => Ok l
  | VStr s => Ok (map VStr (chars s))
  | VDict d => Ok (map (fun kv => VStr (fst kv)) d)
  | _ => Raise EType
  end.
Definition as_str (e : exn) (v : val) : result string :=
  match v with VStr s => Ok s | _ => Raise e end.

(** [[f(x) for x in l]] *)
Fixpoint rmap {A B} (f : A -> result B) (l : list A) : result (list B) :=
  match l with
  | [] => Ok []
  | x :: l' => let* y := f x in let* r := rmap f l' in Ok (y :: r)
  end.

(** registration.py:61-69; sets are lists compared by [set_eqb] *)
Definition sp_sets (v : val) : result (list (list string)) :=
  match v with
  | VList l => rmap (fun x => let* s := as_str EAttr x in Ok (split " " s)) l
  | VStr s => Ok (map (fun x => [x]) (split " " s))
  | _ => Raise EAttr
  end.
(** registration.py:51-74 *)
Definition match_sp_sep (first second : val) : result bool :=
  let* one := sp_sets first in
  let* other := sp_sets second in
  Ok (forallb (fun rt => existsb (set_eqb rt) other) one).

(** registration.py:77-85 *)
Fixpoint verify_url (u : urllib) (part : urlparts) (urlset : list val) : result bool :=
  match urlset with
  | [] => Ok false
  | VList [reg; _] :: urlset' =>
      let* reg := as_str EType reg in
      let* p := ul_split u reg in
      if String.eqb (up_scheme part) (up_scheme p) && String.eqb (up_netloc part) (up_netloc p) then Ok true
      else verify_url u part urlset'
  | VList _ :: _ => Raise EValue
  | _ :: _ => Raise EType
  end.

(** registration.py:94-119. [pair_uri]: one of redirect_uris, [frag_uri]: one of request_uris. *)
Definition pair_uri (u : urllib) (e : val) : result val :=
  match e with
  | VList [base; query] => let* s := join_query u base query in Ok (VStr s)
  | _ => Raise EValue
  end.
Definition frag_uri (e : val) : result val :=
  match e with
  | VList [base; frag] =>
      if truthy frag then
        let* b := as_str EType base in let* f := as_str EType frag in Ok (VStr (b ++ "#" ++ f)%string)
      else Ok base
  | _ => Raise EValue
  end.
Definition comb_pairs (u : urllib) (param : string) (args : msg) : result msg :=
  match dget param args with
  | None => Ok args
  | Some v => let* l := iter_val v in let* r := rmap (pair_uri u) l in Ok (dset param (VList r) args)
  end.
Definition comb_uri (u : urllib) (args : msg) : result msg :=
  let* args := comb_pairs u "redirect_uris" args in
  let* args := comb_pairs u "post_logout_redirect_uris" args in
  match truthy_get "request_uris" args with
  | None => Ok args
  | Some v => let* l := iter_val v in let* r := rmap frag_uri l in Ok (dset "request_uris" (VList r) args)
  end.

(** registration.py:138-150: one preference. [set(a).issubset(set(b))]; elements that cannot be hashed raise
    TypeError. *)
Definition hashable (v : val) : bool := match v with VList _ | VDict _ => false | _ => true end.
Definition match_pref (provider : msg) (pref prov : string) (v : val) : result unit :=
  let* supported := dsub prov provider in
  let* ok :=
    if smem pref ["response_types"; "default_acr_values"]%string then match_sp_sep v supported
    else match v with
         | VStr _ => val_in v supported
         | _ =>
             let* a := iter_val v in
             let* b := iter_val supported in
             if forallb hashable a && forallb hashable b then Ok (forallb (fun x => existsb (val_eqb x) b) a)
             else Raise EType
         end in
  if ok : bool then Ok tt else Raise ECapabilitiesMisMatch.
Fixpoint match_prefs (provider : msg) (prefs : list (string * string)) (rq : msg) : result unit :=
  match prefs with
  | [] => Ok tt
  | (pref, prov) :: prefs' =>
      let* _ := match dget pref rq with
                | Some v => match_pref provider pref prov v
                | None => Ok tt
                end in
      match_prefs provider prefs' rq
  end.
Definition match_client_request (c : rconf) (rq : msg) : result unit :=
  match_prefs (rc_provider c) preference2provider rq.

(** registration.py:260-307, the body of the loop *)
Definition is_web (scheme : string) : bool := smem scheme ["http"; "https"]%string.
Definition verify_redirect_uri (u : urllib) (client_type : val) (must_https : bool) (v : val) : result val :=
  let* uri := as_str EType v in
  let* p := ul_split u uri in
  let* custom :=
    if val_eqb client_type (VStr "native") then
      if negb (is_web (up_scheme p)) then Ok true
      else if String.eqb (up_scheme p) "http"
              && match up_host p with Some h => smem h ["localhost"; "127.0.0.1"]%string | None => false end
      then Ok false
      else Raise EInvalidRedirectURI
    else if must_https && negb (String.eqb (up_scheme p) "https") then Raise EInvalidRedirectURI
    else if negb (is_web (up_scheme p)) then Raise EInvalidRedirectURI
    else if nonempty (up_fragment p) then Raise EInvalidRedirectURI
    else Ok false in
  if custom : bool then Ok (VList [VStr uri; VDict []])
  else
    let* bq := split_uri u uri in
    Ok (VList [VStr (fst bq); if truthy (snd bq) then snd bq else VDict []]).
Definition verify_redirect_uris (u : urllib) (rq : msg) : result (list val) :=
  let client_type := dget_or "application_type" (VStr "web") rq in
  let must_https :=
    val_eqb client_type (VStr "web")
    && negb (val_eqb (dget_or "response_types" VNone rq) (VList [VStr "code"])) in
  let* uris := dsub "redirect_uris" rq in
  let* l := iter_val uris in
  rmap (verify_redirect_uri u client_type must_https) l.

(** registration.py:309-344 *)
Definition verify_sector_identifier (c : rconf) (rq : msg) : result (val * val) :=
  let* si_url := dsub "sector_identifier_uri" rq in
  let* si_redirects := rc_fetch c si_url in
  let* _ := match dget "redirect_uris" rq with
            | Some uris =>
                let* l := iter_val uris in
                let* oks := rmap (fun uri => val_in uri si_redirects) l in
                if forallb (fun b : bool => b) oks then Ok tt else Raise EOther
            | None => Ok tt
            end in
  Ok (si_redirects, si_url).

(** registration.py:163-173, 184-199: the lists of URIs that are stored split *)
Definition post_logout_uri (u : urllib) (v : val) : result val :=
  let* uri := as_str EType v in
  let* p := ul_split u uri in
  if nonempty (up_fragment p) then Raise EOther
  else let* bq := split_uri u uri in Ok (VList [VStr (fst bq); snd bq]).
Definition request_uri (u : urllib) (v : val) : result val :=
  let* uri := as_str EType v in
  let* p := ul_split u uri in
  if nonempty (up_query p) then Raise EOther
  else if nonempty (up_fragment p) then Ok (vstrs (split "#" uri))
  else Ok (VList [VStr uri; VStr ""]).

(** [if item in request: cinfo[item] = f(request[item])] *)
Definition when_in {A} (k : string) (rq : msg) (f : val -> result A) (none : A) : result A :=
  match dget k rq with Some v => f v | None => Ok none end.

(** registration.py:212-220 *)
Definition legal_url (u : urllib) (rq : msg) (item : string) (cinfo : msg) : result msg :=
  when_in item rq (fun v =>
    let* url := as_str EType v in
    let* p := ul_split u url in
    let* regs := dsub "redirect_uris" cinfo in
    let* l := iter_val regs in
    let* ok := verify_url u p l in
    if ok : bool then Ok (dset item v cinfo) else Raise EOther) cinfo.

(** registration.py:222-240 *)
Definition key_for (c : rconf) (rq : msg) (item prov : string) (cinfo : msg) : result msg :=
  when_in item rq (fun v =>
    let* supported := dsub prov (rc_provider c) in
    let* known := val_in v supported in
    if known : bool then
      let* has := rc_has_key c v in
      if has : bool then Ok cinfo else Ok (ddel item cinfo)
    else Ok cinfo) cinfo.

(** registration.py:159-161: every member of the request that is not to be ignored is taken over *)
Definition take_over (ignore : list string) (rq cinfo : msg) : msg :=
  dupdate cinfo (filter (fun kv => negb (smem (fst kv) ignore)) rq).

(** registration.py:152-245: the new client information *)
Definition client_info (c : rconf) (rq : msg) (ignore : list string) (cinfo : msg) : result msg :=
  let u := rc_url c in
  let cinfo := take_over ignore rq cinfo in
  let* cinfo := when_in "post_logout_redirect_uris" rq (fun v =>
    let* l := iter_val v in let* r := rmap (post_logout_uri u) l in
    Ok (dset "post_logout_redirect_uris" (VList r) cinfo)) cinfo in
  let* cinfo := when_in "redirect_uris" rq (fun _ =>
    let* r := verify_redirect_uris u rq in Ok (dset "redirect_uris" (VList r) cinfo)) cinfo in
  let* cinfo := when_in "request_uris" rq (fun v =>
    let* l := iter_val v in let* r := rmap (request_uri u) l in
    Ok (dset "request_uris" (VList r) cinfo)) cinfo in
  let* cinfo := when_in "sector_identifier_uri" rq (fun _ =>
    let* si := verify_sector_identifier c rq in
    Ok (dset "sector_id" (snd si) (dset "si_redirects" (fst si) cinfo))) cinfo in
  let* cinfo := legal_url u rq "policy_uri" cinfo in
  let* cinfo := legal_url u rq "logo_uri" cinfo in
  let* cinfo := legal_url u rq "tos_uri" cinfo in
  let* cinfo := key_for c rq "id_token_signed_response_alg" "id_token_signing_alg_values_supported" cinfo in
  key_for c rq "userinfo_signed_response_alg" "userinfo_signing_alg_values_supported" cinfo.

(** registration.py:152-257, with the loading of keys (242-255) *)
Definition do_client_registration (c : rconf) (rq : msg) (client_id : string) (ignore : list string) : ST rgstate msg :=
  db <-- gets rg_cdb ;;
  old <-- lift (dsub client_id db) ;;
  cinfo <-- lift (client_info c rq ignore old) ;;
  let jwks_uri := dget_or "jwks_uri" (VStr "") rq in
  let jwks := dget_or "jwks" VNone rq in
  lift (rc_load c client_id jwks_uri jwks) ;;;
  modify (fun s => mkRG (rg_ca s) (rg_rat s) (rg_sym s) (dset client_id (jwks_uri, jwks) (rg_jwks s))) ;;;
  ret cinfo.

(** registration.py:346-354 *)
Definition add_registration_api (c : rconf) (d : draw) (client_id : string) (cinfo : msg) : ST rgstate msg :=
  match rc_read_path c with
  | None => ret cinfo
  | Some path =>
      modify (fun s => mkRG (rg_ca s) (dset (dr_rat d) client_id (rg_rat s)) (rg_sym s) (rg_jwks s)) ;;;
      ret (dset "registration_client_uri" (VStr (path ++ "?client_id=" ++ client_id)%string)
            (dset "registration_access_token" (VStr (dr_rat d)) cinfo))
  end.

(** registration.py:356-373 *)
Definition secret_expires_at (c : rconf) (d : draw) : Z :=
  if rc_expires c then dr_now d + rc_expires_in c else 0.
Definition add_client_secret (c : rconf) (d : draw) (cinfo : msg) : msg :=
  let cinfo := dset "client_secret" (VStr (dr_secret d)) cinfo in
  let eat := secret_expires_at c d in
  if eat =? 0 then cinfo else dset "client_secret_expires_at" (VInt eat) cinfo.

(** registration.py:394-399: draw until the id is not in use. With the draws used up the loop goes on:
    [None]. *)
Definition new_client_id (db : cdb) (ids : list string) : option string :=
  find (fun i => negb (dmem i db)) ids.

(** Message.rm_blanks (oidcmsg): members with an empty value are removed *)
Definition rm_blanks (rq : msg) : msg := filter (fun kv => truthy (snd kv)) rq.

(** registration.py:393-405 *)
Definition choose_id (d : draw) (new_id : bool) (rq : msg) : ST rgstate (string * msg) :=
  if new_id then
    db <-- gets rg_cdb ;;
    match new_client_id db (dr_ids d) with
    | Some i => ret (i, ddel "client_id" rq)
    | None => raise ERecursion
    end
  else
    match truthy_get "client_id" rq with
    | Some (VStr i) => ret (i, rq)
    | Some _ => raise EType
    | None => raise EValue
    end.

(** registration.py:375-452 *)
Definition ignored : list string := ["redirect_uris"; "policy_uri"; "logo_uri"; "tos_uri"]%string.
Definition client_registration_setup (c : rconf) (d : draw) (new_id set_secret : bool) (rq : msg) : ST rgstate msg :=
  rq <-- lift (rc_verify c rq) ;;
  let rq := rm_blanks rq in
  lift (match_client_request c rq) ;;;
  '(client_id, rq) <-- choose_id d new_id rq ;;
  let cinfo := [("client_id", VStr client_id); ("client_salt", VStr (dr_salt d))]%string in
  cinfo <-- add_registration_api c d client_id cinfo ;;
  let cinfo := if new_id then dset "client_id_issued_at" (VInt (dr_now d)) cinfo else cinfo in
  let cinfo := if set_secret then add_client_secret c d cinfo else cinfo in
  modify (set_cdb (dset client_id cinfo)) ;;;
  cinfo <-- do_client_registration c rq client_id ignored ;;
  args <-- lift (comb_uri (rc_url c) (filter (fun kv => smem (fst kv) (rc_params c)) cinfo)) ;;
  (if set_secret && nonempty (dr_secret d)
   then modify (fun s => mkRG (rg_ca s) (rg_rat s)
                  (dset client_id (dget_or client_id [] (rg_sym s) ++ [dr_secret d]) (rg_sym s)) (rg_jwks s))
   else ret tt) ;;;
  modify (set_cdb (dset client_id cinfo)) ;;;
  ret args.

(** ** Reading: read_registration.py:18-25. The token is used as key. *)
Definition client_id_of_rat (rat : dict string) (rq : msg) (token : val) : result val :=
  match dget "client_id" rq with
  | Some v =>
      match token with
      | VStr t => let* i := dsub t rat in Ok (if val_eqb v (VStr i) then v else VStr "")
      | VList _ | VDict _ => Raise EType
      | _ => Raise EKey
      end
  | None => Ok (VStr "")
  end.
(** read_registration.py:27-37 *)
Definition read_process (c : rconf) (db : cdb) (rq : msg) : result msg :=
  let* v := dsub "client_id" rq in
  match v with
  | VStr i => let* info := dsub i db in comb_uri (rc_url c) (filter (fun kv => smem (fst kv) (rc_params c)) info)
  | VList _ | VDict _ => Raise EType
  | _ => Raise EKey
  end.
(** [parse_request] and then [process_request]. Message has no required members: its verification finds nothing. *)
Definition registration_read (c : rconf) (o : outside) (e : ep) (aka : dict string) (rq : msg) (auth : authz_data)
  : ST rgstate msg :=
  fun s =>
    match parse_auth o e "Message" (client_id_of_rat (rg_rat s)) aka rq auth (rg_ca s) with
    | (Raise x, ca) => (Raise x, mkRG ca (rg_rat s) (rg_sym s) (rg_jwks s))
    | (Ok (rq', _), ca) =>
        (read_process c (ca_cdb ca) rq', mkRG ca (rg_rat s) (rg_sym s) (rg_jwks s))
    end.

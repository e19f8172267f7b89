(** Threads.v: calls cut in two, for schedules in which another thread runs in between: the code exchange
    and the check of a client assertion. *)
From Verif Require Import Base Monad Types ClientAuthn SessionKey Token Grant Database Manager Ctx UserInfo World Minting TokenEndpoint.
Local Open Scope Z_scope.

Section Cut.
  Variable sid_of : string -> result string.
  Variable cx : ctx.
  Variable make_id_token : store -> string -> ST cdb string.

  (** Where a thread is when it has made the tokens and not yet counted the use of the code *)
  Record waiting := mkWaiting { wa_sid : string; wa_code : string; wa_grant : grant; wa_ar : msg; wa_resp : msg }.

  (** oidc/token.py:82-145. [inl]: the call has ended. *)
  Definition code_begin (m1 m2 : minting) (issue_refresh : option bool) (req : msg) : W (answer + waiting) :=
    gt <-- lift (msub_str "grant_type" req) ;;
    if negb (String.eqb gt "authorization_code") then ret (inl (AError "invalid_request" "Unknown grant_type"))
    else if negb (dmem "code" req) then ret (inl (AError "invalid_request" "Missing code"))
    else
      raw <-- lift (msub_str "code" req) ;;
      let access_code := blank_to_plus raw in
      '(i, g) <-- in_db (session_by sid_of access_code) ;;
      let code := get_token access_code g in
      ar <-- the_request (g_authreq g) ;;
      mismatch <-- (match dget "redirect_uri" ar with
                    | Some u => u' <-- lift (dsub "redirect_uri" req) ;; ret (negb (val_eqb u' u))
                    | None => ret false
                    end) ;;
      if mismatch : bool then ret (inl (AError "invalid_request" "redirect_uri mismatch"))
      else
        let refresh := match issue_refresh with Some b => b | None => smem "offline_access" (g_scope g) end in
        let resp := [("token_type", VStr "Bearer"); ("scope", vstrs (g_scope g))] in
        '(o, g1) <-- endpoint_mint cx m1 (in_sid i) g "access_token" code ;;
        at_ <-- the_token o ;;
        let resp := dset "expires_in" (VInt (t_expires_at at_ - mt_clock m1))
                      (dset "access_token" (VStr (t_value at_)) resp) in
        '(g2, resp) <-- (if refresh then
                           '(o, g2) <-- endpoint_mint cx m2 (in_sid i) g1 "refresh_token" code ;;
                           rt <-- the_token o ;;
                           ret (g2, dset "refresh_token" (VStr (t_value rt)) resp)
                         else ret (g1, resp)) ;;
        (match code with Some _ => ret tt | None => raise EAttr end) ;;;
        ret (inr (mkWaiting (in_sid i) access_code g2 ar resp)).

  (** oidc/token.py:146-166 *)
  Definition code_finish (x : waiting) : W answer :=
    in_db (mset (wa_sid x) (EGrant (upd_token (wa_code x) register_usage (wa_grant x)))) ;;;
    scope <-- lift (dsub "scope" (wa_ar x)) ;;
    openid <-- lift (val_in (VStr "openid") scope) ;;
    if openid : bool then add_id_token make_id_token (wa_sid x) (wa_resp x) else ret (AOk (wa_resp x) None).
End Cut.

(** ** client_authn.py:185-236, cut between the test whether the JWT id was seen (228) and the note that it
    was (231) *)
Definition jws_begin (o : outside) (e : ep) (private : bool) (rq : msg) : ST castate jwt :=
  s <-- lift (msub_str "client_assertion" rq) ;;
  j <-- lift (o_unpack o s) ;;
  db <-- gets ca_cdb ;;
  lift (key_check o private j db) ;;;
  lift (aud_check e j) ;;;
  match jw_jti j with
  | None | Some "" => ret j
  | Some t =>
      iss <-- lift (of_option EKey (jw_iss j)) ;;
      seen <-- gets ca_jti ;;
      if dmem (iss ++ ":" ++ t)%string seen then raise EMultipleUsage else ret j
  end.
Definition jws_finish (o : outside) (private : bool) (j : jwt) : ST castate auth_info :=
  match jw_jti j with
  | None | Some "" => ret tt
  | Some t =>
      iss <-- lift (of_option EKey (jw_iss j)) ;;
      modify (fun s => mkCA (ca_cdb s) (dset (iss ++ ":" ++ t)%string (o_now o) (ca_jti s)))
  end ;;;
  iss <-- lift (of_option EKey (jw_iss j)) ;;
  ret (mkAI (Some (VStr iss)) None (tag (if private then MPrivateJwt else MSecretJwt))).

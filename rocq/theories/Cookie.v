(** Cookie.v: signed and encrypted cookies (cookie.py). *)
From Verif Require Import Base Types PyInt LV.

(** A morsel of a SimpleCookie: its value and the attributes set on it. Simplification: of the attributes,
    expires is kept as seconds since the epoch; Secure is always true and left out. *)
Record morsel := mkMorsel {
  mo_value : string; mo_path : option string; mo_domain : option string;
  mo_expires : option Z; mo_same_site : option string; mo_http_only : bool }.
(** http.cookies.SimpleCookie *)
Definition simple_cookie := dict morsel.

(** The part of a CookieDealer (cookie.py:337-384) used below: keys and default values. *)
Record dealer := mkDealer {
  d_sign : option string; d_enc : option string;
  d_path : string; d_domain : string; d_max_age : Z }.

Section Crypto.
  (** HMAC over bytes; [verify] may also raise in some versions of cryptojwt, which refuses as well *)
  Variables (mac_sign : string -> string -> string) (mac_verify : string -> string -> string -> bool).
  (** AES-GCM: [gcm_enc key iv text] gives ciphertext and tag; InvalidTag is [None] *)
  Variables (gcm_enc : string -> string -> string -> string * string)
            (gcm_dec : string -> string -> string -> string -> option string).
  (** base64; decoding may raise binascii.Error *)
  Variables (b64 : string -> string) (unb64 : string -> option string).
  Definition b64dec (s : string) : result string := of_option EBinascii (unb64 s).

  (** cookie.py:55-105, with a non-empty time stamp (all callers give one: cookie.py:213-214).
      [iv] is random. *)
  Definition sign_enc_payload (iv load timestamp : string) (sign_key enc_key : option string) : result string :=
    let mac := match sign_key with Some k => mac_sign k (load ++ timestamp) | None => "" end in
    match enc_key with
    | Some k =>
        if negb (existsb (Nat.eqb (slen k)) [16; 24; 32]) then Raise EValue
        else
          let msg := if nonempty mac then lv_pack [load; timestamp; b64 mac] else lv_pack [load; timestamp] in
          let (ctx, tag) := gcm_enc k iv msg in
          Ok (join "|" [timestamp; b64 iv; b64 ctx; b64 tag])
    | None => Ok (join "|" [timestamp; load; b64 mac])
    end.

  (** cookie.py:108-157 (parts is not None here). VerificationError is [EOther]. *)
  Definition ver_dec_content (parts : list string) (sign_key enc_key : option string)
    : result (option (string * string)) :=
    match parts with
    | [timestamp; load; b64_mac] =>
        let* mac := b64dec b64_mac in
        let* k := of_option EAttr sign_key in
        if mac_verify k (load ++ timestamp) mac then Ok (Some (load, timestamp)) else Raise EOther
    | [_; b_iv; b_ctx; b_tag] =>
        let* iv := b64dec b_iv in
        let* ctx := b64dec b_ctx in
        let* tag := b64dec b_tag in
        let* k := of_option EAttr enc_key in
        match gcm_dec k iv ctx tag with
        | None => Ok None
        | Some msg =>
            let* p := lv_unpack msg in
            match p with
            | [] | [_] => Raise EIndex
            | [load; timestamp; m] =>
                let* mac := b64dec m in
                let* k := of_option EAttr sign_key in
                if mac_verify k (load ++ timestamp) mac then Ok (Some (load, timestamp)) else Ok None
            | load :: timestamp :: _ => Ok (Some (load, timestamp))
            end
        end
    | _ => Ok None
    end.

  (** cookie.py:160-241 and 244-288: one morsel. [now] is the clock, [expire] is never given. *)
  Definition make_cookie (now : Z) (iv name load : string) (d : dealer) (path domain : option string)
             (timestamp : string) (max_age : Z) (same_site : string) (http_only : bool) : result simple_cookie :=
    let timestamp := if nonempty timestamp then timestamp else py_str now in
    let* v := sign_enc_payload iv load timestamp (d_sign d) (d_enc d) in
    Ok [(name, mkMorsel v path domain
                 (if (max_age =? 0)%Z then None else Some (now + max_age)%Z)
                 (if nonempty same_site then Some same_site else None) http_only)].

  (** cookie.py:399-460 with a value that is a str *)
  Definition create_cookie (now : Z) (iv : string) (d : dealer) (value typ name : string) (ttl : Z) (kill : bool)
             (same_site : string) (http_only : bool) : result simple_cookie :=
    let ttl := if kill then (-1)%Z else if (ttl <? 0)%Z then d_max_age d else ttl in
    let domain := if nonempty (d_domain d) && negb (smem (d_domain d) ["localhost"; "127.0.0.1"; "0.0.0.0"])
                  then Some (d_domain d) else None in
    let path := if nonempty (d_path d) then Some (d_path d) else None in
    let timestamp := py_str now in
    make_cookie now iv name (join "::" [value; timestamp; typ]) d path domain timestamp ttl same_site http_only.

  (** cookie.py:386-397 *)
  Definition delete_cookie (now : Z) (iv : string) (d : dealer) (name : string) : result simple_cookie :=
    create_cookie now iv d "" "" name (-1) true "" true.

  (** SimpleCookie(header).get(name): the value found for the name in the text of a Cookie header *)
  Variable header_value : string -> string -> option string.

  (** cookie.py:291-334; a morsel is falsy only when it is missing or empty *)
  Definition parse_cookie (d : dealer) (name kaka : string) : result (option (string * string)) :=
    if negb (nonempty kaka) then Ok None
    else match header_value name kaka with
         | None => Ok None
         | Some v => ver_dec_content (split "|" v) (d_sign d) (d_enc d)
         end.

  (** cookie.py:462-486: [None] cannot be unpacked (TypeError, caught); a load that is not three
      pieces is a ValueError (not caught). *)
  Definition get_cookie_value (d : dealer) (name kaka : string) : result (option (string * string * string)) :=
    match parse_cookie d name kaka with
    | Raise e => match e with EType | EAssertion => Ok None | _ => Raise e end
    | Ok None => Ok None
    | Ok (Some (info, timestamp)) =>
        match split "::" info with
        | [value; ts; typ] => if String.eqb timestamp ts then Ok (Some (value, ts, typ)) else Ok None
        | _ => Raise EValue
        end
    end.

  (** cookie.py:573-580: the new value of each appended cookie is its own name. *)
  Definition append_cookie (kaka1 kaka2 : simple_cookie) : simple_cookie :=
    fold_left (fun acc nm => let (name, m) := nm : string * morsel in
                 dset name (mkMorsel name (mo_path m) (mo_domain m) (mo_expires m) (mo_same_site m) (mo_http_only m)) acc)
              kaka2 kaka1.

  (** oidc/session.py:393-408 *)
  Definition kill_cookies (now : Z) (iv1 iv2 : string) (d : dealer) (sman_name session_name : string) : result simple_cookie :=
    let* k1 := create_cookie now iv1 d "none" "session" sman_name 0 false "" true in
    let* k2 := create_cookie now iv2 d "none" "session" session_name 0 false "" true in
    Ok (append_cookie k1 k2).
End Crypto.

(** cookie.py:547-562; [origin] is scheme://netloc of the redirect_uri *)
Definition compute_session_state (sha256hex : string -> string) (opbs salt client_id origin : string) : string :=
  (sha256hex (client_id ++ " " ++ origin ++ " " ++ opbs ++ " " ++ salt) ++ "." ++ salt)%string.

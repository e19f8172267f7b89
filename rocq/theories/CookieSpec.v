(** CookieSpec.v: what a server made, and what the MAC and the cipher guarantee about it. *)
From Verif Require Import Base Types PyInt LV Cookie.

(** [made v t ty]: the server made a cookie with value [v] and type [ty] at time [t]. *)
Definition log := string -> Z -> string -> Prop.

(** The payload of a cookie: value, time stamp, type *)
Definition payload_of (v : string) (t : Z) (ty : string) : string := join "::" [v; py_str t; ty].

(** Nobody but the server can make a MAC or a sealed text: what verifies or opens under the server's keys
    is what the server signed or sealed for some cookie in the log. *)
Record unforgeable (made : log) (d : dealer)
    (mac_verify : string -> string -> string -> bool)
    (gcm_dec : string -> string -> string -> string -> option string) (b64 : string -> string)
    (mac_sign : string -> string -> string) : Prop := {
  u_mac : forall k m sig, d_sign d = Some k -> mac_verify k m sig = true ->
      exists v t ty, made v t ty /\ m = (payload_of v t ty ++ py_str t)%string;
  u_gcm : forall k iv c tag m, d_enc d = Some k -> gcm_dec k iv c tag = Some m ->
      exists v t ty, made v t ty /\
        (m = lv_pack [payload_of v t ty; py_str t] \/
         exists sk, d_sign d = Some sk /\
           m = lv_pack [payload_of v t ty; py_str t; b64 (mac_sign sk (payload_of v t ty ++ py_str t)%string)])
}.

(** Values and types without the separator: base64 text and fixed words, as all callers use. *)
Definition plain_value (v : string) : Prop := contains "::" v = false /\ (forall p, v <> (p ++ ":")%string).
Definition plain_type (ty : string) : Prop := contains "::" ty = false.
Definition plain_log (made : log) : Prop := forall v t ty, made v t ty -> plain_value v /\ plain_type ty.

(** base64 text has no white space *)
Definition b64_text (b64 : string -> string) : Prop := forall x, rstrip (b64 x) = b64 x.

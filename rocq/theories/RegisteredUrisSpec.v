(** RegisteredUrisSpec.v: what the other addresses of a registered client may be (OpenID Connect Dynamic Client Registration, section 2 and 5). *)
From Verif Require Import Base Types Ctx Uri ClientAuthn Registration RegistrationSpec.

(** The registration of [rq], carried out as [rq'], gave the client [i] the record [info] and was answered with [args]. *)
Definition registers (c : rconf) (d : draw) (new_id set_secret : bool) (rq : msg) (s : rgstate) (rq' info args : msg) : Prop :=
  exists s' i, client_registration_setup c d new_id set_secret rq s = (Ok args, s') /\ effective c new_id rq rq' /\
    given_id new_id d (rg_cdb s) rq' i /\ dget i (rg_cdb s') = Some info.

(** The two addresses are of one site. *)
Definition same_site (u : urllib) (url other : string) : Prop :=
  exists p q, ul_split u url = Ok p /\ ul_split u other = Ok q /\ up_scheme p = up_scheme q /\ up_netloc p = up_netloc q.
(** The site of one of the recorded redirect URIs *)
Definition of_the_client (u : urllib) (info : msg) (url : string) : Prop :=
  exists l base query, dget "redirect_uris" info = Some (VList l) /\ In (VList [VStr base; query]) l /\ same_site u url base.

(** What is recorded for a post_logout_redirect_uri: no fragment, address and query apart *)
Definition post_logout_ok (u : urllib) (v e : val) : Prop :=
  exists uri p, v = VStr uri /\ ul_split u uri = Ok p /\ up_fragment p = ""%string /\
    e = VList [VStr (up_base p); if nonempty (up_query p) then vquery (ul_qs u (up_query p)) else VStr ""].
(** What is shown for a request_uri: it has no query and is shown as given; a mark at the end with nothing behind it may be left out *)
Definition request_uri_shown (u : urllib) (v e : val) : Prop :=
  exists uri p shown, v = VStr uri /\ ul_split u uri = Ok p /\ up_query p = ""%string /\ e = VStr shown /\ (shown = uri \/ uri = (shown ++ "#")%string).

(** What is shown for a post_logout_redirect_uri: its address with the parameters of its query *)
Definition parameters_of (q : dict (list string)) : list (string * string) := flat_map (fun kv => map (pair (fst kv)) (snd kv)) q.
Definition post_logout_shown (u : urllib) (v e : val) : Prop :=
  exists uri p, v = VStr uri /\ ul_split u uri = Ok p /\
    e = VStr (if nonempty (up_query p) && negb (is_nil (ul_qs u (up_query p)))
              then up_base p ++ "?" ++ ul_encode u (parameters_of (ul_qs u (up_query p))) else up_base p).

(** The members with an algorithm to sign with, and the list of the provider each is compared with *)
Definition signing_algs : list (string * string) :=
  [("id_token_signed_response_alg", "id_token_signing_alg_values_supported");
   ("userinfo_signed_response_alg", "userinfo_signing_alg_values_supported")]%string.

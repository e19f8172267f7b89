(** AuthzEndpointSpec.v: what is said about authorization responses. *)
From Verif Require Import Base Types SessionKey Token Grant GrantSpec Database DatabaseSpec Authz Response ResponseHeadSpec.
Local Open Scope Z_scope.

(** an error response; a successful one *)
Definition failed (m : msg) : Prop := exists v, dget "error" m = Some v.
Definition has (k : string) (m : msg) : Prop := exists v, dget k m = Some v.
Definition lacks (k : string) (m : msg) : Prop := dget k m = None.

(** The page with the form is sent as the body, as HTML. *)
Definition as_page (resp : response) : Prop :=
  rs_placement resp = Some "body"%string /\ In ("Content-type", "text/html")%string (rs_headers resp).
(** The response is a redirect to [uri] with [text] added to the fragment, and nothing to the query *)
Definition in_fragment (uri text : string) (resp : response) : Prop :=
  exists loc, rs_body resp = Text loc /\ query_of loc = query_of uri /\
    (free "#" uri -> fragment_of loc = Some text).
(** The response is a redirect to [uri] with [text] added to the query, and no fragment *)
Definition in_query (uri text : string) (resp : response) : Prop :=
  exists loc, rs_body resp = Text loc /\ fragment_of loc = None /\
    query_of loc = Some (match query_of uri with Some q => q ++ "&" ++ text | None => text end)%string.

(** The address of the response is the redirect_uri of the request, if it has one. *)
Definition addressed (request : msg) (uri : string) : Prop :=
  forall v, dget "redirect_uri" request = Some v -> v = VStr uri.

(** The token [t] of type [ty] has just been made at time [clock], from [source], with the lifetime that the
    grant's usage rules give. *)
Definition made (clock : Z) (rules : grules) (ty : string) (source : option token) (t : token) : Prop :=
  t_type t = ty /\ of_type ty (t_class t) /\ t_based_on t = option_map t_value source /\
  t_revoked t = false /\ t_used t = 0 /\ t_issued_at t = clock /\ t_not_before t = 0 /\
  t_expires_at t = match dget ty (gr_types rules) with
                   | Some (mkURules _ _ (Some n)) => if n =? 0 then 0 else clock + n
                   | _ => 0
                   end.
(** At most one token, in the response under [name] *)
Definition reported (name : string) (m : msg) (l : list token) : Prop :=
  match l with
  | [] => lacks name m
  | [t] => dget name m = Some (VStr (t_value t))
  | _ => False
  end.

(** The client session before and after: at most the note of the last ID Token differs. *)
Definition noted (idt : option val) (old new : option entry) : Prop :=
  match idt with
  | None => new = old
  | Some v => exists i, old = Some (EInfo i) /\
      new = Some (EInfo (mkSInfo (si_kind i) (si_id i) (si_sub i) (si_revoked i) (dset "id_token" v (si_extra i))))
  end.

(** The grant [g'] is [g] after the authorization of [request] for client [c]: with scope, resources, usage rules
    and lifetime set, whatever was issued, and the rest as before. *)
Record authorized (rules : option grules) (lifetime : option Z) (clock : Z) (c : string) (request : msg) (g g' : grant) : Prop := {
  au_id : g_id g' = g_id g;
  au_sub : g_sub g' = g_sub g;
  au_request : g_authreq g' = g_authreq g;
  au_authn : g_authn g' = g_authn g;
  au_issued_at : g_issued_at g' = g_issued_at g;
  au_not_before : g_not_before g' = g_not_before g;
  au_revoked : g_revoked g' = g_revoked g;
  au_scope : exists scopes, mget_list "scope" request = Some scopes /\ g_scope g' = (match scopes with [] => g_scope g | _ => scopes end);
  au_resources : g_resources g' = [c];
  au_rules : g_rules g' = (match rules with Some r => r | None => g_rules g end);
  au_expires : g_expires_at g' = (match lifetime with Some n => clock + n | None => g_expires_at g end) }.

(** The grant [g'] is [g] with whatever was issued: nothing of the request is in it, nor of the configuration. *)
Record passed (g g' : grant) : Prop := {
  pa_id : g_id g' = g_id g;
  pa_sub : g_sub g' = g_sub g;
  pa_request : g_authreq g' = g_authreq g;
  pa_authn : g_authn g' = g_authn g;
  pa_issued_at : g_issued_at g' = g_issued_at g;
  pa_not_before : g_not_before g' = g_not_before g;
  pa_revoked : g_revoked g' = g_revoked g;
  pa_scope : g_scope g' = g_scope g;
  pa_claims : g_claims g' = g_claims g;
  pa_resources : g_resources g' = g_resources g;
  pa_rules : g_rules g' = g_rules g;
  pa_expires : g_expires_at g' = g_expires_at g }.
(** What the handler [h] makes of a grant *)
Definition decided (h : authorizer) (rules : option grules) (lifetime : option Z) (clock : Z) (c : string) (request : msg) (g g' : grant) : Prop :=
  match h with
  | AHandling => authorized rules lifetime clock c request g g'
  | AImplicit _ => passed g g'
  end.

(** RedirectedSpec.v: where an answer of the authorization endpoint sends the browser. *)
From Verif Require Import Base Types Response FormPost AuthzEndpoint AuthzEndpointSpec SetupAuth.

(** The response sends the browser to [uri]: it is a redirect to it, with something added, or a page with a form that is posted to it. *)
Definition sends_to (uri : string) (resp : response) : Prop :=
  (exists sep text, rs_body resp = Text (uri ++ sep ++ text) /\ In sep ["?"; "&"; "#"]%string) \/
  (as_page resp /\ exists members, rs_body resp = Text (form_post uri members)).
(** The response that is made of what the endpoint returns. The page where the user logs in is not among them. *)
Definition answered (en : encoding) (a : answer) (resp : response) : Prop :=
  match a with
  | AError info => respond_error en authorization_endpoint info = Ok resp
  | AInteraction _ _ _ => False
  | AResponse r => respond en authorization_endpoint r = Ok resp
  end.

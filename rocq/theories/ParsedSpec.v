(** ParsedSpec.v: where the response to a request that has been let through goes. *)
From Verif Require Import Base Types Ctx Uri UriSpec.

(** The only URI registered for the client, put together from its parts *)
Definition only_one (u : urllib) (l : list val) (uri : string) : Prop :=
  exists b q, l = [entry b q] /\
    ((truthy q = false /\ uri = b) \/ exists d ps, q = VDict d /\ pairs_of d = Ok ps /\ uri = (b ++ "?" ++ ul_encode u ps)%string).

(** The redirect_uri of the request is one that is registered for the client it names. *)
Definition goes_to_registered (u : urllib) (db : cdb) (m : msg) : Prop :=
  exists c uri l, dget "client_id" m = Some (VStr c) /\ dget "redirect_uri" m = Some (VStr uri) /\
    registered db c "redirect_uris" l /\ (matches u l (ul_unquote u uri) \/ only_one u l uri).
(** It is empty, and the request does not name a client of the provider. *)
Definition goes_nowhere (db : cdb) (m : msg) : Prop :=
  dget "redirect_uri" m = Some (VStr "") /\ forall c, dget "client_id" m = Some (VStr c) -> dget c db = None.

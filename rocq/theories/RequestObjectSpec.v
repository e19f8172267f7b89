(** RequestObjectSpec.v: the algorithms of request objects. *)
From Verif Require Import Base Monad Types Ctx Uri AuthzRequest RequestObject.
Local Open Scope Z_scope.

(** The names of RFC 7518 *)
Definition signing_names : list string :=
  ["HS256"; "HS384"; "HS512"; "RS256"; "RS384"; "RS512"; "ES256"; "ES384"; "ES512"; "PS256"; "PS384"; "PS512"; "none"].

(** The client has registered [a] for the parameter [reg]. *)
Definition has_registered (db : cdb) (c reg : string) (a : string) : Prop :=
  exists cinfo, dget c db = Some cinfo /\ dget reg cinfo = Some (VStr a).
(** It has registered nothing for it, and the provider has the list [l] for [sup]. *)
Definition leaves_open (db : cdb) (pinfo : msg) (c reg sup : string) (l : list string) : Prop :=
  (exists cinfo, dget c db = Some cinfo /\ dget reg cinfo = None) /\ dget sup pinfo = Some (VList (map VStr l)).

(** At [uri] there is an object of client [c], with these headers. *)
Definition found (f : fetcher) (c uri : string) (o : robject) : Prop :=
  exists text, fo_get f uri = Ok (200, text) /\ fo_read f (Some c) text = Ok o.
(** The algorithm an object says it is signed with; RS256 if it says nothing *)
Definition signed_with (o : robject) (alg : string) : Prop :=
  exists jws, ro_jws o = Some jws /\ (dget "alg" jws = Some (VStr alg) \/ (dget "alg" jws = None /\ alg = "RS256"%string)).
(** The signature's own header says nothing about encryption (RFC 7515 has no such member). *)
Definition plain_header (o : robject) : Prop := exists jws, ro_jws o = Some jws /\ (dget "enc" jws = None \/ dget "enc" jws = Some VNone).

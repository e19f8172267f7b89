(** UriSpec.v: when a redirect URI is one of the registered ones. *)
From Verif Require Import Base Types Uri.

(** the query (a dict of lists, or something empty) has the parameter [k] with the value [s] *)
Definition has_param (query : val) (k s : string) : Prop :=
  exists d l, query = VDict d /\ dget k d = Some (VList l) /\ In (VStr s) l.
Definition same_params (q r : val) : Prop := forall k s, has_param q k s <-> has_param r k s.

(** the query part of a URI *)
Definition query_of (u : urllib) (p : urlparts) : val :=
  if nonempty (up_query p) then vquery (ul_qs u (up_query p)) else VStr "".

(** the list of URIs registered for client [c] under [names] (e.g. redirect_uris) *)
Definition registered (db : dict msg) (c names : string) (l : list val) : Prop :=
  exists info, dget c db = Some info /\ dget names info = Some (VList l).

Definition entry (base : string) (q : val) : val := VList [VStr base; q].

(** a URI that is, up to the order and repetition of its parameters, one of the registered ones *)
Definition matches (u : urllib) (l : list val) (uri : string) : Prop :=
  exists p q, ul_split u uri = Ok p /\ up_fragment p = ""%string /\
    In (entry (up_base p) q) l /\ same_params (query_of u p) q.

(** what parse_qs gives: every name once, with at least one value *)
Definition proper_query (q : dict (list string)) : Prop :=
  NoDup (dkeys q) /\ forall k l, In (k, l) q -> l <> [].
(** a registered URI as registration and configuration write them: with no query part, or the result of parse_qs *)
Definition proper_entry (e : val) : Prop :=
  exists b q, e = entry b q /\ (q = VStr "" \/ q = VNone \/ exists d, q = vquery d /\ proper_query d).

Definition base_of (e : val) : option string :=
  match e with VList [VStr b; _] => Some b | _ => None end.

(** the client a request is for: the one it names, else the one the caller names *)
Definition client_of (request : msg) (arg : option string) (c : string) : Prop :=
  c <> ""%string /\
  (dget "client_id" request = Some (VStr c) \/ (dget "client_id" request = None /\ arg = Some c)).

(** IsolationSpec.v: whose sessions a call is about. *)
From Verif Require Import Base Monad Types SessionKey Database DatabaseSpec Manager ManagerSpec Ctx World Minting TokenEndpoint AuthzEndpoint SetupAuth
  System SystemSpec.

(** The call is about sessions of user [u] at client [c]: the user comes with the client, or with something that names a
    session of theirs there; a token of such a session is presented to the token endpoint; the user is logged out there, or
    everywhere; such a session is revoked or removed. *)
Definition about (y : setup_of) (s : sys) (o : call) (u c : string) : Prop :=
  match o with
  | SAuthorize e _ _ (inr request) => exists id, recognises e request id /\
      (dget "uid" id = Some (VStr u) /\ dget "client_id" request = Some (VStr c) \/
       exists g, dget "sid" id = Some (VStr (session_key [u; c; g])))
  | SProcess _ _ _ n => exists request k p g, nth_error (ss_accepted s) n = Some request /\ presents request k p /\
      sy_sid_of y p = Ok (session_key [u; c; g])
  | SLogout _ sid alla => exists c' g, sid = session_key [u; c'; g] /\ (alla = true \/ c' = c)
  | SRevoke op => op_user op = u /\ op_client op = c
  | _ => False
  end.

(** Users, clients and sessions have unambiguous names (C01), and nobody is a user and a client. *)
Definition names_session (is_user : string -> Prop) (sid : string) : Prop :=
  exists u c g, good u /\ good c /\ good g /\ is_user u /\ ~ is_user c /\ sid = session_key [u; c; g].
Definition proper_names (is_user : string -> Prop) (o : call) : Prop :=
  match o with
  | SAuthorize e _ _ (inr request) => good (au_newid e) /\ (forall c, dget "client_id" request = Some (VStr c) -> good c /\ ~ is_user c) /\
      forall id, recognises e request id -> (forall u, dget "uid" id = Some (VStr u) -> good u /\ is_user u) /\
        (forall sid, dget "sid" id = Some (VStr sid) -> names_session is_user sid)
  | SLogout _ sid _ => names_session is_user sid
  | SRevoke op => op_ok is_user op /\
      match op with ORevokeClient _ _ _ | ORevokeGrant _ _ _ | ORevokeToken _ _ _ _ _ _ | ORemove _ _ _ => True | _ => False end
  | _ => True
  end.

(** Calls, one after the other, none of which is about the sessions of [u] at [c] *)
Fixpoint elsewhere (is_user : string -> Prop) (y : setup_of) (u c : string) (l : list call) (s : sys) : Prop :=
  match l with
  | [] => True
  | o :: l' => proper_names is_user o /\ ~ about y s o u c /\ elsewhere is_user y u c l' (fst (sstep y o s))
  end.

(** Names that are kept in the store are unambiguous. *)
Definition tidy (s : store) : Prop := forall q i, good_path q -> stored s q = Some (EInfo i) -> Forall good (si_sub i).
(** The state is in order: so is the one at the beginning, and every one that calls with proper names lead to. *)
Definition orderly (is_user : string -> Prop) (s : sys) : Prop := well_formed is_user (w_db (ss_world s)) /\ tidy (w_db (ss_world s)).

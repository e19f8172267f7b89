(** ScopesSpec.v: what a client may ask for, said without the code. *)
From Verif Require Import Base Types Ctx.

(** A configuration value that is either missing or a list *)
Definition list_or_absent (k : string) (m : msg) : Prop :=
  dget k m = None \/ exists l, dget k m = Some (VList l).

(** The scopes a client may use: those listed for it, if it has a non-empty list; else those the
    provider has claims for and supports (all are supported if none are listed). A client nobody
    knows may use none. *)
Definition may_use (cx : ctx) (clients : cdb) (client_id scope : string) : Prop :=
  exists cli, dget client_id clients = Some cli /\
    ((exists l, dget "allowed_scopes" cli = Some (VList l) /\ In (VStr scope) l) \/
     ((forall l, dget "allowed_scopes" cli = Some (VList l) -> l = []) /\
      In scope (dkeys (cx_scope2claims cx)) /\
      (forall l, dget "scopes_supported" (cx_provider_info cx) = Some (VList l) -> l <> [] -> In (VStr scope) l))).

(** [kept P l l']: [l'] is [l] without the elements that do not satisfy [P], in the same order *)
Inductive kept (P : string -> Prop) : list string -> list string -> Prop :=
| kept_nil : kept P [] []
| kept_yes x l l' : P x -> kept P l l' -> kept P (x :: l) (x :: l')
| kept_no x l l' : ~ P x -> kept P l l' -> kept P (x :: l) l'.

(** A configured capability *)
Definition capability (cx : ctx) (k : string) : option val :=
  match cx_capabilities cx with Some c => dget k c | None => None end.

(** The scopes the policy of the authorization endpoint accepts *)
Definition policy_allows (cx : ctx) (cinfo : msg) (scope : string) : Prop :=
  (exists l, dget "allowed_scopes" cinfo = Some (VList l) /\ In (VStr scope) l) \/
  ((forall l, dget "allowed_scopes" cinfo = Some (VList l) -> l = []) /\
   exists l, capability cx "scopes_supported" = Some (VList l) /\ In (VStr scope) l).

Definition denies_unknown (cx : ctx) : Prop :=
  capability cx "deny_unknown_scopes" = Some (VBool true).

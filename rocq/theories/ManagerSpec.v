(** ManagerSpec.v: histories of session manager calls. *)
From Verif Require Import Base Monad Types SessionKey Token Grant Database DatabaseSpec Manager.

(** One call of the session manager. The session identifiers are those it hands out. *)
Inductive mop :=
| OCreate (clock : Z) (newid : string) (authn : option authn_event) (ar : option msg) (u c : string)
    (sub : result string) (rules : option grules) (scopes : option (list string))
| OCreateGrant (clock : Z) (newid : string) (authn : option authn_event) (ar : option msg) (u c : string)
    (sub : result string) (rules : option grules) (scopes : option (list string))
| OAddGrant (u c : string) (gr : grant)
| ORevokeClient (u c g : string)
| ORevokeGrant (u c g : string)
| ORevokeToken (depth : nat) (u c g : string) (value : string) (recursive : bool)
| ORemove (u c g : string)
| OWrite (u c g : string) (f : grant -> grant).   (* what endpoints do: read a grant, change it, write it back *)

Definition mstep (sharing : bool) (op : mop) : DB unit :=
  match op with
  | OCreate clock newid authn ar u c sub rules scopes =>
      create_session clock newid authn ar u c sub rules scopes ;;; ret tt
  | OCreateGrant clock newid authn ar u c sub rules scopes =>
      create_grant clock newid authn ar u c sub rules scopes ;;; ret tt
  | OAddGrant u c gr => add_grant u c gr
  | ORevokeClient u c g => revoke_client_session (session_key [u; c; g])
  | ORevokeGrant u c g => revoke_grant (session_key [u; c; g])
  | ORevokeToken depth u c g value recursive =>
      mgr_revoke_token sharing depth (session_key [u; c; g]) value recursive
  | ORemove u c g => remove_session sharing (session_key [u; c; g])
  | OWrite u c g f =>
      gr <-- get_grant (session_key [u; c; g]) ;;
      mset (session_key [u; c; g]) (EGrant (f gr))
  end.

(** The store after a history; a call that raises leaves what it had done so far. *)
Definition mrun (sharing : bool) (ops : list mop) (s : store) : store :=
  fold_left (fun s op => snd (mstep sharing op s)) ops s.

(** The user and client an operation is about, and the grant id it makes up. *)
Definition op_user (op : mop) : string :=
  match op with
  | OCreate _ _ _ _ u _ _ _ _ | OCreateGrant _ _ _ _ u _ _ _ _ | OAddGrant u _ _ | ORevokeClient u _ _
  | ORevokeGrant u _ _ | ORevokeToken _ u _ _ _ _ | ORemove u _ _ | OWrite u _ _ _ => u
  end.
Definition op_client (op : mop) : string :=
  match op with
  | OCreate _ _ _ _ _ c _ _ _ | OCreateGrant _ _ _ _ _ c _ _ _ | OAddGrant _ c _ | ORevokeClient _ c _
  | ORevokeGrant _ c _ | ORevokeToken _ _ c _ _ _ | ORemove _ c _ | OWrite _ c _ _ => c
  end.
Definition op_grant (op : mop) : string :=
  match op with
  | OCreate _ g _ _ _ _ _ _ _ | OCreateGrant _ g _ _ _ _ _ _ _ | ORevokeClient _ _ g
  | ORevokeGrant _ _ g | ORevokeToken _ _ _ g _ _ | ORemove _ _ g | OWrite _ _ g _ => g
  | OAddGrant _ _ gr => g_id gr
  end.
Definition makes (op : mop) (g : string) : Prop :=
  match op with
  | OCreate _ g' _ _ _ _ _ _ _ | OCreateGrant _ g' _ _ _ _ _ _ _ => g' = g
  | OAddGrant _ _ gr => g_id gr = g
  | _ => False
  end.

(** Ids are unambiguous (C01), and user ids and client ids are kept apart. *)
Definition op_ok (is_user : string -> Prop) (op : mop) : Prop :=
  good (op_user op) /\ good (op_client op) /\ good (op_grant op) /\
  is_user (op_user op) /\ ~ is_user (op_client op).

Definition well_formed (is_user : string -> Prop) (s : store) : Prop :=
  kinds_ok s /\ linked s /\
  forall u c, good u -> good c -> stored s [u; c] <> None -> is_user u.

(** The session with this id can be looked up. *)
Definition readable (s : store) (u c g : string) : Prop := view s [u; c; g] <> None.

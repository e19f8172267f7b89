(** CrashSpec.v: what is in the store when the provider stops in the middle of a call. *)
From Verif Require Import Base Monad Types SessionKey Token Grant Database DatabaseSpec Manager ManagerSpec Ctx Claims World Minting UserInfo
  TokenEndpoint WorldSpec Prog.
Local Open Scope prog_scope.

(** The provider stops after [n] steps of the call, or after the call when that is shorter. *)
Fixpoint after {A} (n : nat) (p : prog A) (w : world) : world :=
  match n with
  | O => w
  | S n' => match pstep p w with
            | None => w
            | Some (p', w') => after n' p' w'
            end
  end.
(** [w'] may be what is found when the provider starts again. *)
Definition stops {A} (p : prog A) (w w' : world) : Prop := exists n, after n p w = w'.

(** Readers see the same. *)
Definition same_views (s s' : store) : Prop := forall q, good_path q -> view s' q = view s q.
(** Nothing of the call is seen, or all of it. *)
Definition all_or_nothing {A} (p : prog A) (w : world) : Prop :=
  forall w', stops p w w' -> same_views (w_db w) (w_db w') \/ same_views (w_db (snd (exec p w))) (w_db w').

(** Of the sessions readers see the same. *)
Definition same_sessions (s s' : store) : Prop :=
  forall u c g, good u -> good c -> good g -> view s' [u; c; g] = view s [u; c; g].
Definition sessions_all_or_nothing {A} (p : prog A) (w : world) : Prop :=
  forall w', stops p w w' -> same_sessions (w_db w) (w_db w') \/ same_sessions (w_db (snd (exec p w))) (w_db w').

(** The session is gone, and no other of a user not called like the client has changed. (database.py:132
    writes the record of the client session under the id of the client alone, so the sessions of a user of that
    name are not safe, see C04.) *)
Definition as_gone (u c g : string) (s s' : store) : Prop :=
  view s' [u; c; g] = None /\
  forall a b x, good a -> good b -> good x -> [a; b; x] <> [u; c; g] -> a <> c -> view s' [a; b; x] = view s [a; b; x].

(** The calls of the session manager that are made of at most one [set] *)
Definition one_set (op : mop) : Prop :=
  match op with OCreate _ _ _ _ _ _ _ _ _ | OAddGrant _ _ _ | ORemove _ _ _ => False | _ => True end.

(** ** The calls, step by step *)
Definition p_mop (op : mop) : prog unit :=
  match op with
  | OCreate clock newid authn ar u c sub rules scopes => p_create_session clock newid authn ar u c sub rules scopes ;~ pret tt
  | OCreateGrant clock newid authn ar u c sub rules scopes => p_create_grant clock newid authn ar u c sub rules scopes ;~ pret tt
  | OAddGrant u c gr => p_add_grant u c gr
  | ORevokeClient u c g => p_revoke_client_session (session_key [u; c; g])
  | ORevokeGrant u c g => p_revoke_grant (session_key [u; c; g])
  | ORevokeToken depth u c g value recursive => p_revoke_token depth (session_key [u; c; g]) value recursive
  | ORemove u c g => p_remove_session (session_key [u; c; g])
  | OWrite u c g f => p_write (session_key [u; c; g]) f
  end.
Definition p_authz_mint (cx : ctx) (mt : minting) (u c g ttype : string) (based_on : option string) : prog unit :=
  gr <~ p_get_grant (session_key [u; c; g]) ;;
  p_mint cx mt (session_key [u; c; g]) gr ttype (match based_on with Some v => get_token v gr | None => None end) ;~
  pret tt.

Section Calls.
  Variable sid_of : string -> result string.
  Variable cx : ctx.
  Variable make_id_token : store -> string -> ST cdb string.

  Inductive ccall :=
  | CManager (op : mop)
  | CExchange (m1 m2 : minting) (issue_refresh : option bool) (rq : msg)
  | CRefreshing (m1 m2 : minting) (rq : msg)
  | CMint (mt : minting) (u c g ttype : string) (based_on : option string).
  Definition p_call (x : ccall) : prog unit :=
    match x with
    | CManager op => p_mop op
    | CExchange m1 m2 ir rq => p_code_process sid_of cx make_id_token m1 m2 ir rq ;~ pret tt
    | CRefreshing m1 m2 rq => p_refresh_process sid_of cx make_id_token m1 m2 rq ;~ pret tt
    | CMint mt u c g ttype based_on => p_authz_mint cx mt u c g ttype based_on
    end.
  (** as [wop_ok] *)
  Definition ccall_ok (gid : string) (x : ccall) : Prop :=
    match x with
    | CManager op => mop_ok gid op
    | CExchange m1 m2 _ _ | CRefreshing m1 m2 _ => mint_ok m1 /\ mint_ok m2
    | CMint mt u c g _ _ => mint_ok mt /\ good u /\ good c /\ good g
    end.

  (** ** Histories with interruptions *)
  (** [Runs]: a call that comes to its end; [Stops]: the provider stops after [n] steps of a call, and is started again. *)
  Inductive piece := Runs (op : wop) | Stops (n : nat) (x : ccall).
  Definition piece_ok (gid : string) (x : piece) : Prop :=
    match x with Runs op => wop_ok gid op | Stops _ c => ccall_ok gid c end.
  Definition piece_op (x : piece) : wop :=
    match x with Runs op => op | Stops n c => WOutside (after n (p_call c)) end.
End Calls.

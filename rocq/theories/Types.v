(** Types.v: data carried by the session layer and by protocol messages. *)
From Verif Require Import Base.

(** ** Dynamic values: JSON-like data in messages and configuration *)
Inductive val :=
| VNone
| VBool (b : bool)
| VInt (z : Z)
| VStr (s : string)
| VList (l : list val)
| VDict (d : list (string * val)).

(** Python's [==] on such data: True == 1, dict equality ignores order.
    (Lists and dicts of different length differ.) *)
Fixpoint val_eqb (a b : val) {struct a} : bool :=
  match a, b with
  | VNone, VNone => true
  | VBool x, VBool y => Bool.eqb x y
  | VBool x, VInt y => (Z.b2z x =? y)%Z
  | VInt x, VBool y => (x =? Z.b2z y)%Z
  | VInt x, VInt y => (x =? y)%Z
  | VStr x, VStr y => String.eqb x y
  | VList x, VList y =>
      (fix go (x y : list val) : bool :=
         match x, y with
         | [], [] => true
         | u :: x', v :: y' => val_eqb u v && go x' y'
         | _, _ => false
         end) x y
  | VDict x, VDict y =>
      Nat.eqb (length x) (length y) &&
      (fix go (x : list (string * val)) : bool :=
         match x with
         | [] => true
         | (k, u) :: x' =>
             match dget k y with Some v => val_eqb u v | None => false end && go x'
         end) x
  | _, _ => false
  end.

(** [bool(v)] *)
Definition truthy (v : val) : bool :=
  match v with
  | VNone => false
  | VBool b => b
  | VInt z => negb (z =? 0)%Z
  | VStr s => nonempty s
  | VList l => negb (is_nil l)
  | VDict d => negb (is_nil d)
  end.

(** A message ([oidcmsg.Message]) or configuration dict. *)
Definition msg := dict val.

Definition msg_eqb (a b : msg) : bool := val_eqb (VDict a) (VDict b).

(** [m[k]] used as a str: KeyError when absent; a value of another type cannot be used as
    a str (TypeError/AttributeError in Python; one error here). *)
Definition msub_str (k : string) (m : msg) : result string :=
  match dget k m with
  | Some (VStr s) => Ok s
  | Some _ => Raise EType
  | None => Raise EKey
  end.

(** [m.get(k)] when only a str is meaningful. *)
Definition mget_str (k : string) (m : msg) : option string :=
  match dget k m with Some (VStr s) => Some s | _ => None end.

Definition strs_of (l : list val) : list string :=
  flat_map (fun v => match v with VStr s => [s] | _ => [] end) l.

(** [m.get(k)] when a list of str is expected: [scope], [response_type], [prompt], ...
    (oidcmsg deserialises these to lists of str). *)
Definition mget_list (k : string) (m : msg) : option (list string) :=
  match dget k m with
  | Some (VList l) => Some (strs_of l)
  | Some (VStr s) => Some (split " " s)
  | _ => None
  end.

Definition vstrs (l : list string) : val := VList (map VStr l).

(** ** Usage rules *)
(** The rule dict of one token type, e.g. session/grant.py:280-293. The keys read by the code
    are max_usage, supports_minting and expires_in; other keys have no effect and are dropped.
    Simplification: expires_in given as a digit string (oidc/token.py:69-70) is its value. *)
Record urules := mkURules {
  ur_max_usage : option Z;
  ur_mints : option (list string);
  ur_expires_in : option Z }.

Definition no_rules : urules := mkURules None None None.

(** [d.update(e)] on rule dicts *)
Definition ur_update (d e : urules) : urules :=
  mkURules (match ur_max_usage e with Some x => Some x | None => ur_max_usage d end)
           (match ur_mints e with Some x => Some x | None => ur_mints d end)
           (match ur_expires_in e with Some x => Some x | None => ur_expires_in d end).

(** [bool(rules)] *)
Definition ur_truthy (r : urules) : bool :=
  match r with mkURules None None None => false | _ => true end.

(** The usage rules of a grant: a dict from token type to rule dict, plus the top level key
    max_usage that [Item.max_usage_reached] would read (session/token.py:36-40). *)
Record grules := mkGRules {
  gr_max_usage : option Z;
  gr_types : dict urules }.

Definition no_grules : grules := mkGRules None [].
Definition gr_truthy (g : grules) : bool :=
  match g with mkGRules None [] => false | _ => true end.

(** ** Authentication events (authn_event.py:10-17) *)
Record authn_event := mkAE {
  ae_uid : string;
  ae_authn_info : option string;
  ae_authn_time : Z;
  ae_valid_until : Z;
  ae_sub : option string }.

(** ** Tokens (session/token.py:66-156) *)
(** The Python class of the token object. *)
Inductive tclass := CCode | CAccess | CRefresh.

Definition tclass_eqb (a b : tclass) : bool :=
  match a, b with
  | CCode, CCode | CAccess, CAccess | CRefresh, CRefresh => true
  | _, _ => false
  end.

Record token := mkToken {
  t_class : tclass;
  t_type : string;
  t_value : string;
  t_based_on : option string;
  t_rules : urules;
  t_issued_at : Z;
  t_expires_at : Z;
  t_not_before : Z;
  t_revoked : bool;
  t_used : Z;
  t_id : string;
  t_scope : list string;
  t_claims : msg;
  t_resources : list string }.

(** ** Claims
    A claims specification: claim name -> None or a dict with essential/value/values. *)
Definition claims := msg.

(** The object stored in [grant.claims[usage]]: a dict of its own, or - when the client has
    dict valued per-client claims - the very dict that sits in the client database
    (session/claims.py:43-48, 84-112). *)
Inductive cref :=
| CVal (c : claims)
| CClient (client_id usage : string).

(** ** Grants (session/grant.py:53-95) *)
Record grant := mkGrant {
  g_id : string;
  g_sub : string;
  g_scope : list string;
  g_claims : dict cref;
  g_resources : list string;
  g_authreq : option msg;
  g_authn : option authn_event;
  g_issued : list token;
  g_rules : grules;
  g_issued_at : Z;
  g_expires_at : Z;
  g_not_before : Z;
  g_revoked : bool;
  g_used : Z }.

Definition g_set_issued (l : list token) (g : grant) : grant :=
  mkGrant (g_id g) (g_sub g) (g_scope g) (g_claims g) (g_resources g) (g_authreq g) (g_authn g)
    l (g_rules g) (g_issued_at g) (g_expires_at g) (g_not_before g) (g_revoked g) (g_used g).
Definition g_set_used (n : Z) (g : grant) : grant :=
  mkGrant (g_id g) (g_sub g) (g_scope g) (g_claims g) (g_resources g) (g_authreq g) (g_authn g)
    (g_issued g) (g_rules g) (g_issued_at g) (g_expires_at g) (g_not_before g) (g_revoked g) n.
Definition g_set_revoked (b : bool) (g : grant) : grant :=
  mkGrant (g_id g) (g_sub g) (g_scope g) (g_claims g) (g_resources g) (g_authreq g) (g_authn g)
    (g_issued g) (g_rules g) (g_issued_at g) (g_expires_at g) (g_not_before g) b (g_used g).
Definition g_set_expires_at (z : Z) (g : grant) : grant :=
  mkGrant (g_id g) (g_sub g) (g_scope g) (g_claims g) (g_resources g) (g_authreq g) (g_authn g)
    (g_issued g) (g_rules g) (g_issued_at g) z (g_not_before g) (g_revoked g) (g_used g).
Definition g_set_rules (r : grules) (g : grant) : grant :=
  mkGrant (g_id g) (g_sub g) (g_scope g) (g_claims g) (g_resources g) (g_authreq g) (g_authn g)
    (g_issued g) r (g_issued_at g) (g_expires_at g) (g_not_before g) (g_revoked g) (g_used g).
Definition g_set_scope (s : list string) (g : grant) : grant :=
  mkGrant (g_id g) (g_sub g) s (g_claims g) (g_resources g) (g_authreq g) (g_authn g)
    (g_issued g) (g_rules g) (g_issued_at g) (g_expires_at g) (g_not_before g) (g_revoked g) (g_used g).
Definition g_set_claims (c : dict cref) (g : grant) : grant :=
  mkGrant (g_id g) (g_sub g) (g_scope g) c (g_resources g) (g_authreq g) (g_authn g)
    (g_issued g) (g_rules g) (g_issued_at g) (g_expires_at g) (g_not_before g) (g_revoked g) (g_used g).
Definition g_set_resources (r : list string) (g : grant) : grant :=
  mkGrant (g_id g) (g_sub g) (g_scope g) (g_claims g) r (g_authreq g) (g_authn g)
    (g_issued g) (g_rules g) (g_issued_at g) (g_expires_at g) (g_not_before g) (g_revoked g) (g_used g).

Definition t_set_revoked (b : bool) (t : token) : token :=
  mkToken (t_class t) (t_type t) (t_value t) (t_based_on t) (t_rules t) (t_issued_at t)
    (t_expires_at t) (t_not_before t) b (t_used t) (t_id t) (t_scope t) (t_claims t) (t_resources t).
Definition t_set_used (n : Z) (t : token) : token :=
  mkToken (t_class t) (t_type t) (t_value t) (t_based_on t) (t_rules t) (t_issued_at t)
    (t_expires_at t) (t_not_before t) (t_revoked t) n (t_id t) (t_scope t) (t_claims t) (t_resources t).
Definition t_set_expires_at (z : Z) (t : token) : token :=
  mkToken (t_class t) (t_type t) (t_value t) (t_based_on t) (t_rules t) (t_issued_at t)
    z (t_not_before t) (t_revoked t) (t_used t) (t_id t) (t_scope t) (t_claims t) (t_resources t).
Definition t_set_rules (r : urules) (t : token) : token :=
  mkToken (t_class t) (t_type t) (t_value t) (t_based_on t) r (t_issued_at t)
    (t_expires_at t) (t_not_before t) (t_revoked t) (t_used t) (t_id t) (t_scope t) (t_claims t) (t_resources t).

(** ** Session information (session/info.py:15-70) *)
Inductive skind := SUser | SClient.
Record sinfo := mkSInfo {
  si_kind : skind;
  si_id : option string;          (* user_id resp. client_id *)
  si_sub : list string;           (* "subordinate" *)
  si_revoked : bool;
  si_extra : msg }.               (* keys added by Database.update *)

(** Values kept in the session store. *)
Inductive entry :=
| EInfo (i : sinfo)
| EGrant (g : grant).

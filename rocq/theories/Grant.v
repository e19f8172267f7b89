(** Grant.v: [Grant] (session/grant.py). *)
From Verif Require Import Base Types Token.
Open Scope Z_scope.

(** session/grant.py:46-50 *)
Definition TOKEN_MAP (ttype : string) : option tclass :=
  if String.eqb ttype "authorization_code" then Some CCode
  else if String.eqb ttype "access_token" then Some CAccess
  else if String.eqb ttype "refresh_token" then Some CRefresh
  else None.

(** session/grant.py:32-36 *)
Definition GRANT_TYPE_MAP (ttype : string) : option string :=
  if String.eqb ttype "authorization_code" then Some "code"
  else if String.eqb ttype "access_token" then Some "access_token"
  else if String.eqb ttype "refresh_token" then Some "refresh_token"
  else None.

(** Keyword arguments [mint_token] passes on to the token class. *)
Record mint_kw := mkKw {
  kw_expires_in : Z; kw_expires_at : Z; kw_not_before : Z; kw_resources : list string }.
Definition no_kw : mint_kw := mkKw 0 0 0 [].

Definition t_set_value (v : string) (t : token) : token :=
  mkToken (t_class t) (t_type t) v (t_based_on t) (t_rules t) (t_issued_at t)
    (t_expires_at t) (t_not_before t) (t_revoked t) (t_used t) (t_id t) (t_scope t) (t_claims t) (t_resources t).

(** session/grant.py:181-237. [value] is what the token handler call
    [token_handler(session_id=..., **self.payload_arguments(...))] (227-231) gives: a token value
    or an exception. [None] is returned for an inactive grant. The new grant is returned along;
    an exception leaves the grant as it was (the append at 235 comes last). *)
Definition mint_token (clock : Z) (newid : string) (g : grant) (token_type : string)
    (based_on : option token) (usage_rules : option urules) (scope : option (list string))
    (kw : mint_kw) (value : result string) : result (option token * grant) :=
  if negb (g_active clock g) then Ok (None, g)
  else
    let* base_ref :=
      match based_on with
      | Some b => if supports_minting b token_type && t_active clock b
                  then Ok (Some (t_value b)) else Raise EMintingNotAllowed
      | None => Ok None
      end in
    let usage_rules :=
      match usage_rules with
      | Some r => Some r
      | None => dget token_type (gr_types (g_rules g))
      end in
    match TOKEN_MAP token_type with
    | None => Raise EValue
    | Some c =>
        let item := new_token clock newid c token_type base_ref usage_rules scope
                      (kw_expires_in kw) (kw_expires_at kw) (kw_not_before kw) (kw_resources kw) in
        let* v := value in
        let item := t_set_value v item in
        Ok (Some item, g_set_used (g_used g + 1) (g_set_issued (g_issued g ++ [item]) g))
    end.

(** session/grant.py:239-243: the first issued token with that value *)
Definition get_token (value : string) (g : grant) : option token :=
  find (fun t => String.eqb (t_value t) value) (g_issued g).

(** In-place change of the token object that [get_token value] returns. *)
Fixpoint upd_first (value : string) (f : token -> token) (l : list token) : list token :=
  match l with
  | [] => []
  | t :: l' => if String.eqb (t_value t) value then f t :: l' else t :: upd_first value f l'
  end.
Definition upd_token (value : string) (f : token -> token) (g : grant) : grant :=
  g_set_issued (upd_first value f (g_issued g)) g.

(** [t.revoked = True] on the i-th issued token *)
Fixpoint revoke_nth (i : nat) (l : list token) : list token :=
  match l, i with
  | [], _ => []
  | t :: l', O => t_set_revoked true t :: l'
  | t :: l', S i' => t :: revoke_nth i' l'
  end.

Definition opt_eqb (a : option string) (b : string) : bool :=
  match a with Some x => String.eqb x b | None => false end.

(** session/grant.py:245-262. [depth] is the number of nested calls Python still allows; running
    out of it is RecursionError. The flags set so far are kept when that happens.
    The loop walks over the token objects [rest]; [l] is their current state, [i] the position.
    [rec w l] is the recursive call [self.revoke_token(based_on=w)]. *)
Section Loop.
  Variables (rec : string -> list token -> list token * result unit)
            (value based_on : string) (recursive : bool).
  Fixpoint rloop (i : nat) (rest l : list token) {struct rest} : list token * result unit :=
    match rest with
    | [] => (l, Ok tt)
    | t :: rest' =>
        if negb (nonempty value) && negb (nonempty based_on) then
          rloop (S i) rest' (revoke_nth i l)
        else if nonempty value && nonempty based_on then
          if String.eqb value (t_value t) && opt_eqb (t_based_on t) based_on
          then rloop (S i) rest' (revoke_nth i l)
          else rloop (S i) rest' l
        else if nonempty value && String.eqb (t_value t) value
             || nonempty based_on && opt_eqb (t_based_on t) based_on then
          let l1 := revoke_nth i l in
          if recursive then
            match rec (t_value t) l1 with
            | (l2, Ok _) => rloop (S i) rest' l2
            | (l2, Raise e) => (l2, Raise e)
            end
          else rloop (S i) rest' l1
        else rloop (S i) rest' l
    end.
End Loop.

Fixpoint revoke_go (depth : nat) (value based_on : string) (recursive : bool)
    (l : list token) {struct depth} : list token * result unit :=
  match depth with
  | O => (l, Raise ERecursion)
  | S depth' => rloop (fun w l => revoke_go depth' "" w true l) value based_on recursive 0 l l
  end.

Definition revoke_token (depth : nat) (value based_on : string) (recursive : bool) (g : grant)
  : grant * result unit :=
  let (l, r) := revoke_go depth value based_on recursive (g_issued g) in
  (g_set_issued l g, r).

(** What [get_spec] returns: the three attributes, when truthy. *)
Record spec := mkSpec {
  sp_scope : list string; sp_claims_from_token : bool; sp_resources : list string }.

(** session/grant.py:264-277. Line 265 writes [token.is_active is False] without calling the
    method; the bound method is never [False], so only the grant's activity counts.
    Simplification: of the claims only their origin (token or grant) is kept. *)
Definition get_spec (clock : Z) (g : grant) (t : token) : option spec :=
  if negb (g_active clock g) then None
  else Some {| sp_scope := if is_nil (t_scope t) then g_scope g else t_scope t;
               sp_claims_from_token := negb (is_nil (t_claims t));
               sp_resources := if is_nil (t_resources t) then g_resources g else t_resources t |}.

(** session/grant.py:53-95 [Grant.__init__] as used by [create_grant]; [newid] is [uuid1().hex]. *)
Definition new_grant (clock : Z) (newid sub : string) (authreq : option msg)
    (authn : option authn_event) (rules : option grules) (scope : option (list string)) : grant :=
  {| g_id := newid;
     g_sub := sub;
     g_scope := match scope with Some s => s | None => [] end;
     g_claims := [];
     g_resources := [];
     g_authreq := authreq;
     g_authn := authn;
     g_issued := [];
     g_rules := match rules with Some r => r | None => no_grules end;
     g_issued_at := item_issued_at clock 0;
     g_expires_at := 0;
     g_not_before := 0;
     g_revoked := false;
     g_used := 0 |}.

(** session/grant.py:280-293 *)
Definition DEFAULT_USAGE (ttype : string) : option urules :=
  if String.eqb ttype "authorization_code" then
    Some (mkURules (Some 1) (Some ["access_token"; "refresh_token"; "id_token"]%string) (Some 300))
  else if String.eqb ttype "access_token" then
    Some (mkURules None (Some []) (Some 3600))
  else if String.eqb ttype "refresh_token" then
    Some (mkURules None (Some ["access_token"; "refresh_token"; "id_token"]%string) None)
  else None.

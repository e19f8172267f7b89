(** Minting.v: how the endpoints make a token: [Grant.payload_arguments] (session/grant.py), the
    endpoints' own [mint_token] functions. *)
From Verif Require Import Base Monad Types SessionKey Token Grant Database Manager Ctx Claims World.
Local Open Scope Z_scope.

(** What making one token takes from outside: the time, the id of the token object ([uuid1().hex]), and the
    token handler: the token value for a session id and a payload, or an exception. *)
Record minting := mkMinting { mt_clock : Z; mt_id : string; mt_value : string -> msg -> result string }.

(** session/grant.py:157-179. Simplification: the session that claims_interface.get_claims looks up (by
    session_id) is the one of the grant at hand. *)
Definition payload_arguments (cx : ctx) (u c : string) (g : grant) (ttype : string) (scope : option (list string)) : W msg :=
  let scope := match scope with Some (x :: l) => x :: l | _ => g_scope g end in
  r <-- in_cdb (get_claims cx c (g_authreq g) scope ttype) ;;
  clients <-- gets w_cdb ;;
  ui <-- lift (get_user_claims cx u (resolve clients r)) ;;
  ret (dupdate [("scope", vstrs scope); ("aud", vstrs (g_resources g))] ui).

(** session/grant.py:181-237 with the value made from the payload (227-231). The first use of
    [mint_token] only tells whether line 227 is reached. *)
Definition mint_in (cx : ctx) (mt : minting) (sid : string) (g : grant) (ttype : string)
           (based_on : option token) (rules : option urules) : W (option token * grant) :=
  let mint v := mint_token (mt_clock mt) (mt_id mt) g ttype based_on rules None no_kw v in
  r <-- lift (mint (Ok "")) ;;
  match r with
  | (None, _) => ret (None, g)
  | (Some _, _) =>
      '(u, c, _) <-- lift (unpack3 sid) ;;
      payload <-- payload_arguments cx u c g ttype None ;;
      lift (mint (mt_value mt sid payload))
  end.

(** In-place change of the token made last *)
Fixpoint upd_last (f : token -> token) (l : list token) : list token :=
  match l with
  | [] => []
  | [t] => [f t]
  | t :: l' => t :: upd_last f l'
  end.
Definition upd_newest (f : token -> token) (g : grant) : grant := g_set_issued (upd_last f (g_issued g)) g.

(** oidc/token.py:50-78 and oauth2/authorization.py:311-332: the rules of the grant for that type, their
    lifetime, and writing the grant back. [None] is returned when the grant is not active. The two differ in
    the token handler ([mt_value]): "access_token" always in the first, that of the type in the second.
    Simplification: expires_in is a number, not a str. *)
Definition lifetime (rules : option urules) : Z :=
  match rules with
  | Some r => match ur_expires_in r with Some n => n | None => 0 end
  | None => 0
  end.
Definition endpoint_mint (cx : ctx) (mt : minting) (sid : string) (g : grant) (ttype : string)
           (based_on : option token) : W (option token * grant) :=
  let rules := dget ttype (gr_types (g_rules g)) in
  let exp_in := lifetime rules in
  '(o, g1) <-- mint_in cx mt sid g ttype based_on rules ;;
  match o with
  | None =>
      if negb (exp_in =? 0) then raise EAttr     (* None.expires_at = ... *)
      else in_db (db_store (unpack_session_key sid) (EGrant g1)) ;;; ret (None, g1)
  | Some t =>
      let late := if exp_in =? 0 then fun t => t else t_set_expires_at (mt_clock mt + exp_in) in
      let g2 := upd_newest late g1 in
      in_db (db_store (unpack_session_key sid) (EGrant g2)) ;;;
      ret (Some (late t), g2)
  end.

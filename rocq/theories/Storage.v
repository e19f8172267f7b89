(** Storage.v: session objects as JSON texts (session/storage.py, and to_json and from_json of session/token.py and
    session/grant.py). *)
From Verif Require Import Base Types Token Grant Ctx Claims.
Local Open Scope Z_scope.

(** What is taken from outside. [co_dumps], [co_loads]: the json module. Of oidcmsg, for the authorization request, the
    authentication event and the session information: [.._dict], what to_dict gives, [co_rq] and [co_ae], the constructor
    called with such a dict, and [co_info cur d], from_dict on an object with the members [cur].
    [co_import m n]: the class [n] of the module [m]. [co_clock], [co_id n]: the time and the n-th uuid1().hex. *)
Record codec := mkCodec {
  co_dumps : val -> string; co_loads : string -> result val;
  co_rq_dict : msg -> msg; co_rq : msg -> result msg;
  co_ae_dict : authn_event -> msg; co_ae : msg -> result authn_event;
  co_info_dict : msg -> msg; co_info : msg -> msg -> result msg;
  co_import : string -> string -> result tclass;
  co_clock : Z; co_id : nat -> string }.

(** ** Values
    Simplification: in the model the members have types; a text with a value of another type than to_json ever writes is a TypeError
    here. *)
Definition as_str (v : val) : result string := match v with VStr s => Ok s | _ => Raise EType end.
Definition as_int (v : val) : result Z := match v with VInt z => Ok z | _ => Raise EType end.
Definition as_bool (v : val) : result bool := match v with VBool b => Ok b | _ => Raise EType end.
Definition as_dict (v : val) : result msg := match v with VDict d => Ok d | _ => Raise EType end.
Definition as_list (v : val) : result (list val) := match v with VList l => Ok l | _ => Raise EType end.
Definition as_opt (v : val) : result (option string) :=
  match v with VNone => Ok None | VStr s => Ok (Some s) | _ => Raise EType end.
Fixpoint rmapM {A B} (f : A -> result B) (l : list A) : result (list B) :=
  match l with
  | [] => Ok []
  | x :: l' => let* y := f x in let* ys := rmapM f l' in Ok (y :: ys)
  end.
Definition as_strs (v : val) : result (list string) := let* l := as_list v in rmapM as_str l.
Definition on_snd {A B} (f : A -> result B) (x : string * A) : result (string * B) :=
  let* y := f (snd x) in Ok (fst x, y).

(** The rules of a token and of a grant are dicts. *)
Definition member {A} (k : string) (f : A -> val) (o : option A) : msg := match o with Some x => [(k, f x)] | None => [] end.
Definition rules_dict (r : urules) : msg :=
  member "max_usage" VInt (ur_max_usage r) ++ member "supports_minting" vstrs (ur_mints r) ++ member "expires_in" VInt (ur_expires_in r).
Definition read {A} (k : string) (f : val -> result A) (dflt : A) (d : msg) : result A :=
  match dget k d with Some v => f v | None => Ok dflt end.
Definition opt_of {A} (f : val -> result A) (v : val) : result (option A) := let* x := f v in Ok (Some x).
Definition as_rules (v : val) : result urules :=
  let* d := as_dict v in
  let* m := read "max_usage" (opt_of as_int) None d in
  let* s := read "supports_minting" (opt_of as_strs) None d in
  let* e := read "expires_in" (opt_of as_int) None d in
  Ok (mkURules m s e).
Definition grules_dict (r : grules) : msg :=
  member "max_usage" VInt (gr_max_usage r) ++ map (fun x => (fst x, VDict (rules_dict (snd x)))) (gr_types r).
Definition is_max (x : string * val) : bool := String.eqb (fst x) "max_usage".
Definition as_grules (v : val) : result grules :=
  let* d := as_dict v in
  let* m := read "max_usage" (opt_of as_int) None d in
  let* l := rmapM (on_snd as_rules) (filter (fun x => negb (is_max x)) d) in
  Ok (mkGRules m l).

(** ** Tokens *)
(** session/token.py:108-124, before json.dumps *)
Definition token_dict (t : token) : msg :=
  [("type", VStr (t_type t)); ("issued_at", VInt (t_issued_at t)); ("not_before", VInt (t_not_before t));
   ("expires_at", VInt (t_expires_at t)); ("revoked", VBool (t_revoked t)); ("value", VStr (t_value t));
   ("usage_rules", VDict (rules_dict (t_rules t))); ("used", VInt (t_used t));
   ("based_on", match t_based_on t with Some s => VStr s | None => VNone end); ("id", VStr (t_id t)); ("scope", vstrs (t_scope t));
   ("claims", VDict (t_claims t)); ("resources", vstrs (t_resources t))]%string.
Definition token_json (co : codec) (t : token) : string := co_dumps co (VDict (token_dict t)).

(** session/token.py:126-131 on the object [t] *)
Definition token_from_json (co : codec) (t : token) (js : string) : result token :=
  let* v := co_loads co js in
  let* d := as_dict v in
  let* type := read "type" as_str (t_type t) d in
  let* issued_at := read "issued_at" as_int (t_issued_at t) d in
  let* not_before := read "not_before" as_int (t_not_before t) d in
  let* expires_at := read "expires_at" as_int (t_expires_at t) d in
  let* revoked := read "revoked" as_bool (t_revoked t) d in
  let* value := read "value" as_str (t_value t) d in
  let* rules := read "usage_rules" as_rules (t_rules t) d in
  let* used := read "used" as_int (t_used t) d in
  let* based_on := read "based_on" as_opt (t_based_on t) d in
  let* id := read "id" as_str (t_id t) d in
  let* scope := read "scope" as_strs (t_scope t) d in
  let* claims := read "claims" as_dict (t_claims t) d in
  let* resources := read "resources" as_strs (t_resources t) d in
  Ok (mkToken (t_class t) type value based_on rules issued_at expires_at not_before revoked used id scope claims resources).

(** The names of the arguments of session/token.py:71-87 *)
Definition TOKEN_ARGS : list string :=
  ["type"; "value"; "based_on"; "usage_rules"; "issued_at"; "expires_in"; "expires_at"; "not_before"; "revoked"; "used"; "id"; "scope";
   "claims"; "resources"]%string.

(** session/token.py:12-34, 71-100: a token of class [c] from keyword arguments; [newid] as in Token.v *)
Definition token_of_args (clock : Z) (newid : string) (c : tclass) (d : msg) : result token :=
  if negb (forallb (fun x => smem (fst x) TOKEN_ARGS) d) then Raise EType
  else
    let* type := read "type" as_str "" d in
    let* value := read "value" as_str "" d in
    let* based_on := read "based_on" as_opt None d in
    let* rules := read "usage_rules" as_rules no_rules d in
    let* issued_at := read "issued_at" as_int 0 d in
    let* expires_in := read "expires_in" as_int 0 d in
    let* expires_at := read "expires_at" as_int 0 d in
    let* not_before := read "not_before" as_int 0 d in
    let* revoked := read "revoked" as_bool false d in
    let* used := read "used" as_int 0 d in
    let* id := read "id" as_str "" d in
    let* scope := read "scope" as_strs [] d in
    let* claims := read "claims" as_dict [] d in
    let* resources := read "resources" as_strs [] d in
    Ok (mkToken c type value based_on (set_defaults c rules) (item_issued_at clock issued_at) (item_expires_at clock expires_in expires_at)
          not_before revoked used (if nonempty id then id else newid) scope claims resources).

(** ** Classes *)
(** [".".join([v.__module__, v.__name__])] *)
Definition TOKEN_MODULE : string := "oidcendpoint.session.token".
Definition class_name (c : tclass) : string :=
  match c with CCode => "AuthorizationCode" | CAccess => "AccessToken" | CRefresh => "RefreshToken" end.
Definition class_path (c : tclass) : string := (TOKEN_MODULE ++ "." ++ class_name c)%string.
(** util.py:16-27 *)
Definition modsplit (s : string) : result (string * string) :=
  if contains ":" s then
    match split ":" s with [a; b] => Ok (a, b) | _ => Raise EValue end
  else
    let c := split "." s in
    if (length c <? 2)%nat then Raise EValue else Ok (join "." (removelast c), last c ""%string).
(** util.py:30-34 *)
Definition importer (co : codec) (name : string) : result tclass :=
  let* x := modsplit name in co_import co (fst x) (snd x).

(** session/grant.py:46-50 as a dict *)
Definition TOKEN_MAP_DICT : dict tclass :=
  [("authorization_code", CCode); ("access_token", CAccess); ("refresh_token", CRefresh)]%string.

(** ** Grants *)
(** A Grant ([sg_users] = None) or an ExchangeGrant, with its token_map. Not modelled: authorization_details, which nothing
    sets. *)
Record sgrant := mkSG { sg_grant : grant; sg_map : dict tclass; sg_users : option (list string) }.

(** session/grant.py:97-128, before json.dumps. [clients]: where claims that are the client's own dicts are. (An authentication
    event always has members.) *)
Definition grant_dict (co : codec) (clients : cdb) (x : sgrant) : msg :=
  let g := sg_grant x in
  [("type", VStr (match sg_users x with None => "grant" | Some _ => "exchange_grant" end)); ("scope", vstrs (g_scope g)); ("sub", VStr (g_sub g));
   ("authorization_details", VNone);
   ("claims", VDict (map (fun c => (fst c, VDict (resolve clients (snd c)))) (g_claims g)));
   ("resources", vstrs (g_resources g)); ("issued_at", VInt (g_issued_at g)); ("not_before", VInt (g_not_before g));
   ("expires_at", VInt (g_expires_at g)); ("revoked", VBool (g_revoked g));
   ("issued_token", VList (map (fun t => VStr (token_json co t)) (g_issued g))); ("id", VStr (g_id g));
   ("usage_rules", VDict (grules_dict (g_rules g)));
   ("token_map", VDict (map (fun c => (fst c, VStr (class_path (snd c)))) (sg_map x)))]%string
  ++ match g_authreq g with Some (y :: l) => [("authorization_request"%string, VDict (co_rq_dict co (y :: l)))] | _ => [] end
  ++ match g_authn g with Some a => [("authentication_event"%string, VDict (co_ae_dict co a))] | None => [] end.
Definition grant_json (co : codec) (clients : cdb) (x : sgrant) : string := co_dumps co (VDict (grant_dict co clients x)).

Definition as_claims (v : val) : result (dict cref) :=
  let* d := as_dict v in rmapM (on_snd (fun v => let* c := as_dict v in Ok (CVal c))) d.

(** session/grant.py:149-153; [n] counts the ids used *)
Fixpoint tokens_from (co : codec) (map : dict tclass) (n : nat) (l : list val) : result (list token) :=
  match l with
  | [] => Ok []
  | v :: l' =>
      let* js := as_str v in
      let* a := co_loads co js in
      let* args := as_dict a in
      let* ty := dsub "type" args in
      let* ty := as_str ty in
      let* c := dsub ty map in
      let* t := token_of_args (co_clock co) (co_id co n) c args in
      let* ts := tokens_from co map (S n) l' in
      Ok (t :: ts)
  end.

(** session/grant.py:130-155 on the object [x], of the dict that json.loads gives. *)
Definition grant_from_dict (co : codec) (x : sgrant) (d : msg) : result sgrant :=
  let g := sg_grant x in
  let* scope := read "scope" as_strs (g_scope g) d in
  let* claims := read "claims" as_claims (g_claims g) d in
  let* resources := read "resources" as_strs (g_resources g) d in
  let* sub := read "sub" as_str (g_sub g) d in
  let* issued_at := read "issued_at" as_int (g_issued_at g) d in
  let* not_before := read "not_before" as_int (g_not_before g) d in
  let* expires_at := read "expires_at" as_int (g_expires_at g) d in
  let* revoked := read "revoked" as_bool (g_revoked g) d in
  let* id := read "id" as_str (g_id g) d in
  let* rules := read "usage_rules" as_grules (g_rules g) d in
  let* authn := read "authentication_event" (fun v => let* m := as_dict v in let* a := co_ae co m in Ok (Some a)) (g_authn g) d in
  let* rq := read "authorization_request" (fun v => let* m := as_dict v in let* a := co_rq co m in Ok (Some a)) (g_authreq g) d in
  let* map := read "token_map" (fun v => let* m := as_dict v in rmapM (on_snd (fun v => let* s := as_str v in importer co s)) m)
                TOKEN_MAP_DICT d in
  let* issued := read "issued_token" (fun v => let* l := as_list v in tokens_from co map 1 l) (g_issued g) d in
  Ok (mkSG (mkGrant id sub scope claims resources rq authn issued rules issued_at expires_at not_before revoked (g_used g)) map (sg_users x)).

(** session/grant.py:60-95 and 324-350 without arguments *)
Definition Grant0 (co : codec) : sgrant :=
  mkSG (new_grant (co_clock co) (co_id co 0) "" None None None None) TOKEN_MAP_DICT None.
Definition ExchangeGrant0 (co : codec) : sgrant :=
  mkSG (new_grant (co_clock co) (co_id co 0) "" None None
          (Some (mkGRules None [("access_token"%string, mkURules None (Some ["access_token"%string]) (Some 60))])) None)
       TOKEN_MAP_DICT (Some []).

(** ** Session information (session/info.py:15-64) *)
Definition kind_name (k : skind) : string := match k with SUser => "UserSessionInfo" | SClient => "ClientSessionInfo" end.
Definition id_name (k : skind) : string := match k with SUser => "user_id" | SClient => "client_id" end.
(** The members of such a message *)
Definition info_members (i : sinfo) : msg :=
  [("subordinate", vstrs (si_sub i)); ("revoked", VBool (si_revoked i)); ("type", VStr (kind_name (si_kind i)))]%string
  ++ member (id_name (si_kind i)) VStr (si_id i) ++ si_extra i.
Definition info_own (k : skind) : list string := ["subordinate"; "revoked"; "type"; id_name k]%string.
(** An object of class [k] with these members *)
Definition as_info (k : skind) (d : msg) : result sinfo :=
  let* sub := read "subordinate" as_strs [] d in
  let* revoked := read "revoked" as_bool false d in
  let* id := read (id_name k) (opt_of as_str) None d in
  Ok (mkSInfo k id sub revoked (filter (fun x => negb (smem (fst x) (info_own k))) d)).
Definition info_json (co : codec) (i : sinfo) : string := co_dumps co (VDict (co_info_dict co (info_members i))).
(** session/info.py:22-26, 51-53, 62-64 without arguments *)
Definition info0 (k : skind) : msg := [("subordinate", VList []); ("revoked", VBool false); ("type", VStr (kind_name k))]%string.

(** ** The store's converter *)
Inductive item := IInfo (i : sinfo) | IGrant (x : sgrant) | IToken (t : token).
(** session/storage.py:10-11 *)
Definition serialize (co : codec) (clients : cdb) (x : item) : string :=
  match x with
  | IInfo i => info_json co i
  | IGrant x => grant_json co clients x
  | IToken t => token_json co t
  end.
(** session/storage.py:13-22; None for a type that is none of these *)
Definition deserialize (co : codec) (js : string) : result (option item) :=
  let* v := co_loads co js in
  let* d := as_dict v in
  let* ty := dsub "type" d in
  let info k := let* m := co_info co (info0 k) d in let* i := as_info k m in Ok (Some (IInfo i)) in
  if val_eqb ty (VStr "UserSessionInfo") then info SUser
  else if val_eqb ty (VStr "ClientSessionInfo") then info SClient
  else if val_eqb ty (VStr "grant") then let* x := grant_from_dict co (Grant0 co) d in Ok (Some (IGrant x))
  else if val_eqb ty (VStr "exchange_grant") then let* x := grant_from_dict co (ExchangeGrant0 co) d in Ok (Some (IGrant x))
  else Ok None.

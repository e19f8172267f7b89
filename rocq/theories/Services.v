(** Services.v: the helpers a provider makes from its configuration (endpoint_context.py; util.py modsplit and importer),
    the supplied login hint helpers (login_hint.py) and the search for users (user_info/__init__.py). *)
From Verif Require Import Base Types Ctx.
Local Open Scope string_scope.

(** posixpath.join of two parts *)
Definition path_join (a b : string) : string :=
  if String.prefix "/" b then b
  else if negb (nonempty a) || ends_with "/" a then (a ++ b)%string
  else (a ++ "/" ++ b)%string.

(** util.py:16-27 *)
Definition modsplit (s : string) : result (string * string) :=
  if contains ":" s then
    match split ":" s with [m; c] => Ok (m, c) | _ => Raise EValue end
  else
    let parts := split "." s in
    match parts with
    | [] | [_] => Raise EValue
    | _ => Ok (join "." (removelast parts), last parts "")
    end.

Section Services.
  (** Python objects; what there is to import (importlib.import_module and getattr); calling an object with keyword
      arguments, [true]: and with endpoint_context; calling one with a single dict; setting the attribute user_info;
      bool of an object; bool of the context *)
  Variables (obj : Type) (import : string -> string -> result obj) (call : obj -> bool -> msg -> result obj)
            (invoke : obj -> msg -> result obj) (set_user_info : obj -> obj -> result obj)
            (is_true : obj -> bool) (context_true : bool).
  (** authz.Implicit, IDToken and Scopes; the three functions of session/manager.py:26-35 *)
  Variables (Implicit IDToken Scopes public_id pairwise_id ephemeral_id : obj).

  (** util.py:30-34 *)
  Definition importer (name : string) : result obj :=
    let* (m, c) := modsplit name in import m c.

  (** What is configured for a helper: members that are text, objects or dicts of arguments *)
  Inductive item := IStr (s : string) | IObj (o : obj) | IArgs (m : msg).
  Definition sconf := dict item.

  (** [importer(x) if isinstance(x, str) else x]; a dict cannot be called *)
  Definition callee (i : item) : result obj :=
    match i with IStr s => importer s | IObj o => Ok o | IArgs _ => Raise EType end.
  (** [conf.get("kwargs", {})], which is to be a dict *)
  Definition arguments (c : sconf) : result msg :=
    match dget "kwargs" c with None => Ok [] | Some (IArgs m) => Ok m | Some _ => Raise EType end.

  (** endpoint_context.py:53-62. [ctx]: endpoint_context is given. (The context is then put in the configured arguments;
      that member is left out here.) *)
  Definition init_service (c : sconf) (ctx : bool) : result obj :=
    let* kwargs := arguments c in
    let* i := dsub "class" c in
    let* f := callee i in
    if ctx && context_true then call f true (ddel "endpoint_context" kwargs) else call f false kwargs.

  (** endpoint_context.py:41-50: the object and the configuration as it is afterwards *)
  Definition init_user_info (c : sconf) (cwd : string) : result (obj * sconf) :=
    let* kwargs := arguments c in
    let* kwargs' := match dget "db_file" kwargs with
                    | None => Ok kwargs
                    | Some (VStr f) => Ok (dset "db_file" (VStr (path_join cwd f)) kwargs)
                    | Some _ => Raise EType
                    end in
    let c' := match dget "kwargs" c with Some _ => dset "kwargs" (IArgs kwargs') c | None => c end in
    let* i := dsub "class" c in
    let* f := callee i in
    let* o := call f false kwargs' in
    Ok (o, c').

  (** [self.conf.get(name)] followed by [if _conf] *)
  Definition configured (c : option sconf) : option sconf :=
    match c with Some [] => None | x => x end.

  (** endpoint_context.py:304-311. (A session manager counts as true.) *)
  Definition do_userinfo (c : option sconf) (cwd : string) (before : option obj) : result (option obj * option sconf) :=
    match configured c with
    | Some s => let* (o, s') := init_user_info s cwd in Ok (Some o, Some s')
    | None => Ok (before, c)
    end.

  (** endpoint_context.py:342-351: one entry, and all of them *)
  Definition sub_entry (args : sconf) : result (option obj) :=
    if dmem "class" args then rmap Some (init_service args false)
    else match dget "function" args with
         | Some i => rmap Some (callee i)
         | None => Ok None
         end.
  Fixpoint do_sub_func (entries : dict sconf) (acc : dict obj) : result (dict obj) :=
    match entries with
    | [] => Ok acc
    | (key, args) :: rest =>
        let* o := sub_entry args in
        do_sub_func rest (match o with Some f => dset key f acc | None => acc end)
    end.
  (** session/manager.py:54-61 *)
  Definition default_to {A} (k : string) (v : A) (d : dict A) : dict A := if dmem k d then d else dset k v d.
  Definition with_defaults (d : dict obj) : dict obj :=
    default_to "ephemeral" ephemeral_id (default_to "pairwise" pairwise_id (default_to "public" public_id d)).

  (** endpoint_context.py:336-340 *)
  Definition do_cookie_dealer (c : option sconf) (given : option obj) : result (option obj) :=
    match configured c with
    | Some s => match given with
                | Some o => if is_true o then Ok given else rmap Some (init_service s false)
                | None => rmap Some (init_service s false)
                end
    | None => Ok given
    end.
  (** endpoint_context.py:381-386; [Implicit(self)] *)
  Definition do_authz (c : option sconf) : result obj :=
    match configured c with Some s => init_service s true | None => call Implicit true [] end.
  (** endpoint_context.py:313-318 *)
  Definition do_id_token (c : option sconf) : result obj :=
    match configured c with Some s => init_service s true | None => call IDToken true [] end.
  (** endpoint_context.py:297-302 *)
  Definition do_login_hint_lookup (c : option sconf) (userinfo : option obj) : result (option obj) :=
    match configured c with
    | Some s =>
        let* o := init_service s false in
        match userinfo with
        | Some u => if is_true u then rmap Some (set_user_info o u) else Ok (Some o)
        | None => Ok (Some o)
        end
    | None => Ok None
    end.
  (** endpoint_context.py:289-295 *)
  Definition do_login_hint2acrs (c : option sconf) : result (option obj) :=
    match configured c with Some s => rmap Some (init_service s false) | None => Ok None end.
  (** endpoint_context.py:257-264. The class is given as text. *)
  Definition set_scopes_handler (c : option sconf) : result obj :=
    match configured c with
    | Some s =>
        let* kwargs := arguments s in
        let* i := dsub "class" s in
        let* f := match i with IStr n => importer n | _ => Raise EType end in
        let* o := call f false kwargs in
        invoke o kwargs
    | None => call Scopes false []
    end.
  (** endpoint_context.py:280-287: the calls made, in order; each is given the endpoints *)
  Fixpoint do_add_on (entries : dict sconf) : result (list (obj * msg)) :=
    match entries with
    | [] => Ok []
    | (_, spec) :: rest =>
        let* i := dsub "function" spec in
        let* f := callee i in
        let* k := dsub "kwargs" spec in
        let* kwargs := match k with IArgs m => Ok m | _ => Raise EType end in
        let* l := do_add_on rest in
        Ok ((f, kwargs) :: l)
    end.

  (** The part of the configuration that names helpers *)
  Record hconf := mkHC {
    hc_sub_func : dict sconf; hc_userinfo : option sconf; hc_cookie_dealer : option sconf; hc_authz : option sconf;
    hc_id_token : option sconf; hc_hint_lookup : option sconf; hc_hint2acrs : option sconf; hc_add_on : dict sconf;
    hc_scopes : option sconf }.
  Record helpers := mkHelpers {
    he_sub_func : dict obj; he_userinfo : option obj; he_cookie_dealer : option obj; he_authz : obj; he_id_token : obj;
    he_hint_lookup : option obj; he_hint2acrs : option obj; he_add_on : list (obj * msg); he_scopes : obj }.

  (** endpoint_context.py:163-167, 201-210, 220-223, 238, without the token handlers (TokenSetup.v), the endpoints
      (Provider.v) and the login methods (Login.v). [cookie_dealer]: the argument of the constructor. An add-on that raises is
      left out. The helpers and the configuration as it is afterwards. *)
  Definition make_helpers (hc : hconf) (cwd : string) (cookie_dealer : option obj) : result (helpers * hconf) :=
    let* subs := do_sub_func (hc_sub_func hc) [] in
    let* (u1, c1) := do_userinfo (hc_userinfo hc) cwd None in
    let* dealer := do_cookie_dealer (hc_cookie_dealer hc) cookie_dealer in
    let* az := do_authz (hc_authz hc) in
    let* idt := do_id_token (hc_id_token hc) in
    let* (u2, c2) := do_userinfo c1 cwd u1 in
    let* lookup := do_login_hint_lookup (hc_hint_lookup hc) u2 in
    let* acrs := do_login_hint2acrs (hc_hint2acrs hc) in
    let* addons := do_add_on (hc_add_on hc) in
    let* sc := set_scopes_handler (hc_scopes hc) in
    Ok (mkHelpers (with_defaults subs) u2 dealer az idt lookup acrs addons sc,
        mkHC (hc_sub_func hc) c2 (hc_cookie_dealer hc) (hc_authz hc) (hc_id_token hc) (hc_hint_lookup hc) (hc_hint2acrs hc)
             (hc_add_on hc) (hc_scopes hc)).
End Services.

(** ** The supplied helpers *)

(** user_info/__init__.py:10-19: the inner test, [values] asked for and [_val] found. set() of a list with a member that
    cannot be hashed raises. *)
Definition hashable (v : val) : bool := match v with VList _ | VDict _ => false | _ => true end.
Definition matches (values found : val) : result bool :=
  match found with
  | VList fs =>
      match values with
      | VList vs => if forallb hashable vs && forallb hashable fs
                    then Ok (forallb (fun v => existsb (val_eqb v) fs) vs) else Raise EType
      | v => Ok (existsb (val_eqb v) fs)
      end
  | f => match values with VList _ => Ok false | v => Ok (val_eqb v f) end
  end.
(** user_info/__init__.py:7-27 *)
Fixpoint dict_subset (a b : msg) : result bool :=
  match a with
  | [] => Ok true
  | (attr, values) :: a' =>
      match dget attr b with
      | None => Ok false
      | Some found => let* ok := matches values found in if ok then dict_subset a' b else Ok false
      end
  end.
(** user_info/__init__.py:74-79 *)
Fixpoint search (wanted : msg) (db : dict msg) : result string :=
  match db with
  | [] => Raise EKey
  | (uid, args) :: db' => let* ok := dict_subset wanted args in if ok then Ok uid else search wanted db'
  end.

(** login_hint.py:5-7 and the attribute set at endpoint_context.py:302. The sources of user information are databases. *)
Record lookup := mkLookup { lk_userinfo : option (dict msg); lk_user_info : option (dict msg); lk_country : string }.
Definition new_lookup (userinfo : option (dict msg)) : lookup := mkLookup userinfo None "46".
Definition lookup_set (l : lookup) (db : dict msg) : lookup := mkLookup (lk_userinfo l) (Some db) (lk_country l).

(** login_hint.py:11-15: from the hint to the phone number; None: not such a hint *)
Definition phone_number (country hint : string) : result (option string) :=
  if String.prefix "tel:" hint then
    match sdrop 4 hint with
    | "" => Raise EIndex
    | String c rest => Ok (Some (if Ascii.eqb c "+" then String c rest else "+" ++ country ++ rest)%string)
    end
  else Ok None.
(** login_hint.py:9-16: the result None is VNone. None has no method search. *)
Definition lookup_call (l : lookup) (hint : string) : result val :=
  let* n := phone_number (lk_country l) hint in
  match n with
  | None => Ok VNone
  | Some pnr => match lk_userinfo l with
                | None => Raise EAttr
                | Some db => let* u := search [("phone_number", VStr pnr)] db in Ok (VStr u)
                end
  end.

(** login_hint.py:19-28; [scheme]: urlparse(hint).scheme. *)
Definition hint2acrs_call (scheme : string -> result string) (scheme_map : dict val) (hint : string) : result val :=
  let* s := scheme hint in
  Ok (dget_or s (VList []) scheme_map).

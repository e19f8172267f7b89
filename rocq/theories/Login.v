(** Login.v: setting up the authentication methods (user_authn/authn_context.py:167-197,
    endpoint_context.py:320-334) and the login form of UserPassJinja2 (user_authn/user.py:122-219). *)
From Verif Require Import Base Types Ctx Registration AuthnBroker SetupAuth.

(** An entry of the configuration "authentication": class, kwargs and acr, each may be missing. Simplification: there
    are no further members. *)
Record spec := mkSpec { sp_class : option string; sp_kwargs : option msg; sp_acr : option string }.

(** A UserPassJinja2 object, user_authn/user.py:152-183 *)
Record userpass := mkUP { up_template : val; up_action : string; up_users : dict val; up_kwargs : msg }.

(** A method object: of this class, or of another, known by its attribute action if it has one *)
Inductive meth := MUserPass (u : userpass) | MOther (action : option string).

(** What is shown to the user: the template, the action of the form, the signed token in it and the other arguments of
    the template, user_authn/user.py:210-212 *)
Record page := mkPage { pg_template : val; pg_action : string; pg_token : string; pg_args : msg }.

(** What do_authentication leaves behind: authn_broker ([None]: an empty dict), the method objects by the id they are
    registered with, and endpoint_to_authn_method with these ids for the objects *)
Record authentication := mkAuthn { an_broker : option broker; an_methods : dict meth; an_actions : dict string }.

(** user_authn/user.py:153 *)
Definition url_endpoint : string := "/verify/user_pass_jinja".

(** d.setdefault(k, v) *)
Definition setdefault (k : string) (v : val) (d : msg) : msg := if dmem k d then d else dset k v d.

(** user_authn/user.py:173-183 *)
Definition page_defaults : list (string * string) :=
  [("page_header", "Log in"); ("user_label", "Username"); ("passwd_label", "Password"); ("submit_btn", "Log in");
   ("tos_uri", ""); ("logo_uri", ""); ("policy_uri", ""); ("tos_label", ""); ("logo_label", "");
   ("policy_label", "")]%string.

(** user_authn/user.py:149 *)
Definition labels : dict string :=
  [("tos_uri", "Terms of Service"); ("policy_uri", "Service policy"); ("logo_uri", "")]%string.

(** the named arguments of UserPassJinja2.__init__, user_authn/user.py:155-163 *)
Definition init_names : list string := ["db"; "template_handler"; "template"; "endpoint_context"; "verify_endpoint"]%string.

Section Login.
  (** instantiate(class, **kwargs) for the user database *)
  Variable make_db : val -> val -> result (dict val).
  (** the constructors of the other classes, and importing them *)
  Variable make_other : string -> msg -> result (option string).
  (** is it the class UserPassJinja2 *)
  Variable is_userpass : string -> bool.
  (** JWT(keyjar, iss=issuer, sign_alg).pack(payload) and JWT(keyjar).unpack(token) of cryptojwt *)
  Variable sign : val -> msg -> string.
  Variable unpack : string -> result msg.

  (** user_authn/user.py:155-183. A missing argument without a default is a TypeError. Simplifications: verify_endpoint is
      a str; that there is a template handler is all that is known of it. *)
  Definition user_pass_init (kw : msg) : result userpass :=
    if negb (dmem "template_handler" kw) then Raise EType
    else
      match dget "db" kw with
      | None => Raise EType
      | Some db =>
          let* c := vsub "class" db in
          let* k := vsub "kwargs" db in
          let* users := make_db c k in
          let rest := filter (fun kv => negb (smem (fst kv) init_names)) kw in
          Ok (mkUP (dget_or "template" (VStr "user_pass.jinja2") kw)
                   (match dget "verify_endpoint" kw with Some (VStr (String _ _ as s)) => s | _ => url_endpoint end)
                   users
                   (fold_left (fun m kv => setdefault (fst kv) (VStr (snd kv)) m) page_defaults rest))
      end.

  (** authn_context.py:167-180. The template handler and the endpoint context are objects; [VBool true] stands for them.
      (The arguments are added to the dict in the configuration.) *)
  Definition init_method (id : string) (s : spec) : result (meth * minfo) :=
    let kw := match sp_kwargs s with Some k => k | None => [] end in
    let kw := if dmem "template" kw then dset "template_handler" (VBool true) kw else kw in
    let kw := dset "endpoint_context" (VBool true) kw in
    let* c := of_option EKey (sp_class s) in
    let* m := if is_userpass c then let* u := user_pass_init kw in Ok (MUserPass u)
              else let* a := make_other c kw in Ok (MOther a) in
    Ok (m, mkMI (sp_acr s) (Some id)).

  (** authn_context.py:183-197 *)
  Fixpoint populate (conf : dict spec) (b : broker) (ms : dict meth) : result (broker * dict meth) :=
    match conf with
    | [] => Ok (b, ms)
    | (id, s) :: rest =>
        let* x := init_method id s in
        let* b := br_set id (snd x) b in
        populate rest b (dset id (fst x) ms)
    end.

  (** method.action: None for the AttributeError *)
  Definition action_of (m : meth) : option string :=
    match m with MUserPass u => Some (up_action u) | MOther a => a end.

  (** endpoint_context.py:329-334; the methods in the order of the broker (authn_context.py:97-99) *)
  Definition actions (b : broker) (ms : dict meth) : dict string :=
    fold_left (fun d (kv : string * minfo) =>
                 match dget (fst kv) ms with
                 | Some m => match action_of m with Some a => dset a (fst kv) d | None => d end
                 | None => d
                 end) (br_db b) [].

  (** endpoint_context.py:320-334. [None]: no "authentication" in the configuration. *)
  Definition do_authentication (conf : option (dict spec)) : result authentication :=
    match conf with
    | None | Some [] => Ok (mkAuthn None [] [])
    | Some c =>
        let* bm := populate c empty_broker [] in
        Ok (mkAuthn (Some (fst bm)) (snd bm) (actions (fst bm) (snd bm)))
    end.

  (** user_authn/user.py:139-141 (create_signed_jwt): issuer and keyjar are given by position *)
  Definition create_signed_jwt (args : msg) : result string :=
    if dmem "issuer" args || dmem "keyjar" args then Raise EType
    else Ok (sign (dget_or "sign_alg" (VStr "RS256") args) (ddel "sign_alg" args)).

  (** user_authn/user.py:199-208 *)
  Definition with_uri (args : msg) (kw : msg) (attr : string) : msg :=
    let uri := (attr ++ "_uri")%string in
    match dget uri args with
    | None => kw
    | Some v => dset (attr ++ "_label")%string (VStr (dget_or uri ""%string labels)) (dset uri v kw)
    end.

  (** user_authn/user.py:185-212. An argument given twice is a TypeError. *)
  Definition show (u : userpass) (args : msg) : result page :=
    let* jws := create_signed_jwt args in
    let kw := fold_left (with_uri args) ["policy"; "tos"; "logo"]%string (up_kwargs u) in
    if dmem "action" kw || dmem "token" kw then Raise EType
    else Ok (mkPage (up_template u) (up_action u) jws kw).

  (** user_authn/user.py:214-219 with the members of a form. Simplification: user names are strings. *)
  Definition verify (u : userpass) (form : msg) : result string :=
    let* name := dsub "username" form in
    match name with
    | VStr n =>
        match dget n (up_users u) with
        | None => Raise EFailedAuthentication
        | Some _ => let* pw := dsub "password" form in verify_password (up_users u) n pw
        end
    | _ => Raise EType
    end.

  (** user_authn/user.py:122-123, 144-146 *)
  Definition unpack_token (token : string) : result msg := unpack token.

  (** What is there for an application: the method for the URL a form was sent to (endpoint_to_authn_method) and its
      verify. Other methods of the package do not have one (user_authn/user.py:106-111, raise NotImplemented). *)
  Definition posted (a : authentication) (url : string) (form : msg) : result string :=
    let* id := dsub url (an_actions a) in
    let* m := dsub id (an_methods a) in
    match m with MUserPass u => verify u form | MOther _ => Raise EType end.

  (** What the authorization endpoint shows for the method it has picked, oauth2/authorization.py:946-954: [None] is the
      page that tells of an internal error. A method of another class: [other]. *)
  Definition shown (other : string -> msg -> option page) (a : authentication) (id : string) (args : msg) : option page :=
    match dget id (an_methods a) with
    | Some (MUserPass u) => match show u args with Ok p => Some p | Raise _ => None end
    | Some (MOther _) => other id args
    | None => None
    end.
End Login.

(** Without methods [authn_broker] is an empty dict (endpoint_context.py:326-327) which has no attributes pick and
    default: pick_auth (authn_context.py:111-164) and pick_authn_method (oauth2/authorization.py:444-462) then *)
Definition pick_auth_none (hint2acrs : option (val -> result val)) (areq : msg) : result (option minfo) :=
  rtry (let* w := wanted_acrs hint2acrs areq in
        match w with
        | None => Raise EAttr
        | Some acrs => let* l := iter_val acrs in match l with [] => Ok None | _ => Raise EAttr end
        end) is_key_error (Ok None).
Definition pick_authn_method_none (hint2acrs : option (val -> result val)) (areq : msg) (auth_method_id acr : option string)
  : result (string * string) :=
  match auth_method_id with
  | Some (String _ _) => Raise EKey
  | _ =>
      match acr with
      | Some (String _ _) => Raise EAttr
      | _ => let* r := pick_auth_none hint2acrs areq in
             match r with None => Raise EKey | Some _ => Raise EAttr end
      end
  end.

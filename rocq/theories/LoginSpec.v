(** LoginSpec.v: what one expects of the configured login methods and of the login form. *)
From Coq Require Import List String ZArith.
From Verif Require Import Base Types AuthnBroker Login.
Import ListNotations.

(** A configuration lists methods under names, each name once. *)
Definition names_once (conf : dict spec) : Prop := NoDup (map fst conf).

(** Nothing but the four arguments with a meaning of their own and what is added by the provider: those go to the page. *)
Definition for_page (n : string) : Prop :=
  ~ In n ["db"; "template_handler"; "template"; "endpoint_context"; "verify_endpoint"]%string.

(** The text of a page when it is not configured *)
Definition usual_text (n : string) : option string :=
  if String.eqb n "page_header" then Some "Log in"
  else if String.eqb n "submit_btn" then Some "Log in"
  else if String.eqb n "user_label" then Some "Username"
  else if String.eqb n "passwd_label" then Some "Password"
  else if existsb (String.eqb n)
            ["tos_uri"; "logo_uri"; "policy_uri"; "tos_label"; "logo_label"; "policy_label"] then Some ""
  else None%string.

Section Spec.
  Variable make_db : val -> val -> result (dict val).
  Variable make_other : string -> msg -> result (option string).
  Variable is_userpass : string -> bool.

  (** the users of an entry *)
  Definition users_of (kw : msg) (users : dict val) : Prop :=
    exists d c k, dget "db" kw = Some (VDict d) /\ dget "class" d = Some c /\ dget "kwargs" d = Some k /\
      make_db c k = Ok users.

  (** [u] is the password method an entry asks for *)
  Definition asked_for (kw : msg) (u : userpass) : Prop :=
    dget "template" kw = Some (up_template u) /\
    users_of kw (up_users u) /\
    up_action u = match dget "verify_endpoint" kw with
                  | Some (VStr s) => if String.eqb s "" then "/verify/user_pass_jinja"%string else s
                  | _ => "/verify/user_pass_jinja"%string
                  end /\
    (forall n, for_page n ->
       dget n (up_kwargs u) = match dget n kw with Some v => Some v | None => option_map VStr (usual_text n) end) /\
    (forall n, ~ for_page n -> dget n (up_kwargs u) = None).

  Definition kwargs_in (s : spec) : msg := match sp_kwargs s with Some k => k | None => [] end.

  (** what the other classes are called with *)
  Definition called_with (kw : msg) : msg :=
    dset "endpoint_context" (VBool true)
      (match dget "template" kw with Some _ => dset "template_handler" (VBool true) kw | None => kw end).

  (** [m] is the method an entry asks for *)
  Definition stands_for (s : spec) (m : meth) : Prop :=
    exists c, sp_class s = Some c /\
      if is_userpass c then exists u, m = MUserPass u /\ asked_for (kwargs_in s) u
      else exists a, m = MOther a /\ make_other c (called_with (kwargs_in s)) = Ok a.

  (** Everything is there that an entry needs. The provider's own members are not configured by hand. *)
  Definition complete (s : spec) : Prop :=
    (exists a, sp_acr s = Some a) /\
    exists c, sp_class s = Some c /\
      if is_userpass c then (exists t, dget "template" (kwargs_in s) = Some t) /\ (exists us, users_of (kwargs_in s) us)
      else exists a, make_other c (called_with (kwargs_in s)) = Ok a.

  Definition no_handler (s : spec) : Prop := dget "template_handler" (kwargs_in s) = None.
End Spec.

(** The methods of a class in the order of the configuration *)
Definition of_class (acr : string) (conf : dict spec) : list string :=
  map fst (filter (fun x => match sp_acr (snd x) with Some a => String.eqb a acr | None => false end) conf).

(** A form with the right password of [n] *)
Definition right_password (users : dict val) (form : msg) (n : string) : Prop :=
  exists p q, dget "username" form = Some (VStr n) /\ dget "password" form = Some p /\
    dget n users = Some q /\ val_eqb q p = true.

(** What a signed token is for: it gives back what was put in, whatever else the signer adds. *)
Definition gives_back (sign : val -> msg -> string) (unpack : string -> result msg) : Prop :=
  forall alg m, exists m', unpack (sign alg m) = Ok m' /\ forall k v, dget k m = Some v -> dget k m' = Some v.

(** The addresses a client registers for the user to see, with what is written on the link *)
Definition client_links : list (string * string * string) :=
  [("policy_uri", "policy_label", "Service policy"); ("tos_uri", "tos_label", "Terms of Service");
   ("logo_uri", "logo_label", "")]%string.

(** The page [p] of method [u] for a client with information [cinfo]: the client's addresses, where it has registered
    them, else those of the configuration; everything else as configured *)
Definition page_for (u : userpass) (cinfo : msg) (p : page) : Prop :=
  pg_template p = up_template u /\ pg_action p = up_action u /\
  (forall a l t, In (a, l, t) client_links ->
     (forall v, dget a cinfo = Some v -> truthy v = true -> dget a (pg_args p) = Some v /\ dget l (pg_args p) = Some (VStr t)) /\
     ((forall v, dget a cinfo = Some v -> truthy v = false) ->
        dget a (pg_args p) = dget a (up_kwargs u) /\ dget l (pg_args p) = dget l (up_kwargs u))) /\
  (forall n, (forall a l t, In (a, l, t) client_links -> n <> a /\ n <> l) -> dget n (pg_args p) = dget n (up_kwargs u)).

(** No other method has its form sent to the same place *)
Definition only_action (ms : dict meth) (id action : string) : Prop :=
  forall k u, dget k ms = Some u -> k <> id ->
    match u with MUserPass x => up_action x <> action | MOther o => o <> Some action end.

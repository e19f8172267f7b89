(** ServicesSpec.v: what the configuration of a helper stands for (C91), and what login hints stand for (C92). *)
From Verif Require Import Base Types Services.
Local Open Scope string_scope.

(** A name of something in a module: "module:name" or "module.name" *)
Definition denotes (s m k : string) : Prop :=
  (s = m ++ ":" ++ k /\ contains ":" m = false /\ contains ":" k = false) \/
  (s = m ++ "." ++ k /\ contains ":" s = false /\ contains "." k = false).

Section Helpers.
  Variables (obj : Type) (import : string -> string -> result obj) (call : obj -> bool -> msg -> result obj).

  (** a member of the configuration names the class or function [f] *)
  Definition stands_for (i : item obj) (f : obj) : Prop :=
    i = IObj obj f \/ exists s m k, i = IStr obj s /\ denotes s m k /\ import m k = Ok f.
  (** the arguments that are configured *)
  Definition given_args (c : sconf obj) (kwargs : msg) : Prop :=
    (dget "kwargs" c = None /\ kwargs = []) \/ dget "kwargs" c = Some (IArgs obj kwargs).
  (** [o] is an instance of the configured class, made with the configured arguments; [ctx]: and with the context *)
  Definition instance_of (c : sconf obj) (ctx : bool) (o : obj) : Prop :=
    exists i f kwargs, dget "class" c = Some i /\ stands_for i f /\ given_args c kwargs /\
                       call f ctx (if ctx then ddel "endpoint_context" kwargs else kwargs) = Ok o.
  (** ... where a file of users is [path] *)
  Definition reads_users (c : sconf obj) (path : string -> string) (o : obj) : Prop :=
    exists i f kwargs, dget "class" c = Some i /\ stands_for i f /\ given_args c kwargs /\
                       call f false (match dget "db_file" kwargs with
                                     | Some (VStr file) => dset "db_file" (VStr (path file)) kwargs
                                     | _ => kwargs
                                     end) = Ok o.
  (** nothing is configured *)
  Definition unset (c : option (sconf obj)) : Prop := c = None \/ c = Some [].
  (** one entry for a subject function: an instance of a class, or a function *)
  Definition sub_stands_for (c : sconf obj) (f : obj) : Prop :=
    instance_of c false f \/ (dget "class" c = None /\ exists i, dget "function" c = Some i /\ stands_for i f).
  (** an add-on and its arguments *)
  Definition add_on_of (spec : sconf obj) (fa : obj * msg) : Prop :=
    exists i, dget "function" spec = Some i /\ stands_for i (fst fa) /\ dget "kwargs" spec = Some (IArgs obj (snd fa)).
End Helpers.

(** Paths: relative to a directory *)
Definition absolute (p : string) : Prop := exists r, p = "/" ++ r.
(** [p] in the directory [d], which does not end with a slash *)
Definition below (d p : string) : string := d ++ "/" ++ p.

(** What is asked for about a user is in the record: a value is the recorded one or among the recorded ones, several values
    are all among the recorded ones. Equality is Python's. *)
Inductive recorded : val -> val -> Prop :=
| rec_same v f : (forall l, v <> VList l) -> (forall l, f <> VList l) -> val_eqb v f = true -> recorded v f
| rec_among v f l : (forall l', v <> VList l') -> In f l -> val_eqb v f = true -> recorded v (VList l)
| rec_all vs l : (forall v, In v vs -> exists f, In f l /\ val_eqb v f = true) -> recorded (VList vs) (VList l).
Definition fits (wanted record : msg) : Prop :=
  forall a v, In (a, v) wanted -> exists f, dget a record = Some f /\ recorded v f.
(** No list has a member that is a list or dict *)
Definition plain_values (m : msg) : Prop :=
  forall a l v, In (a, VList l) m -> In v l -> (forall l', v <> VList l') /\ (forall d, v <> VDict d).
(** the first user, in the order of the database, whose record fits *)
Definition first_fit (wanted : msg) (db : dict msg) (uid : string) : Prop :=
  exists before record after, db = (before ++ (uid, record) :: after)%list /\ fits wanted record /\
                              forall u r, In (u, r) before -> ~ fits wanted r.

(** A helper is an instance of the configured class, or made from the class [default] if none is configured *)
Definition helper_is {obj} (import : string -> string -> result obj) (call : obj -> bool -> msg -> result obj)
    (c : option (sconf obj)) (default o : obj) : Prop :=
  (unset obj c /\ call default true [] = Ok o) \/ (exists s, c = Some s /\ ~ unset obj c /\ instance_of obj import call s true o).
(** The same for helpers one need not have *)
Definition helper_may_be {obj} (import : string -> string -> result obj) (call : obj -> bool -> msg -> result obj)
    (c : option (sconf obj)) (h : option obj) : Prop :=
  (unset obj c /\ h = None) \/ (exists s o, c = Some s /\ ~ unset obj c /\ h = Some o /\ instance_of obj import call s false o).
(** What makes subject identifiers of one type *)
Definition sub_func_is {obj} (import : string -> string -> result obj) (call : obj -> bool -> msg -> result obj)
    (entries : dict (sconf obj)) (typ : string) (default f : obj) : Prop :=
  match dget typ entries with
  | Some args => sub_stands_for obj import call args f \/ (dget "class" args = None /\ dget "function" args = None /\ f = default)
  | None => f = default
  end.
(** The file with users: relative to the directory the provider is given *)
Definition relative_to (cwd : string) (path : string -> string) : Prop :=
  (forall f, absolute f -> path f = f) /\ (cwd = "" -> forall f, path f = f) /\
  (forall f r, cwd = r ++ "/" -> ~ absolute f -> path f = cwd ++ f) /\
  (forall f, cwd <> "" -> (forall r, cwd <> r ++ "/") -> ~ absolute f -> path f = below cwd f).

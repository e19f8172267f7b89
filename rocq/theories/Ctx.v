(** Ctx.v: the configuration an endpoint context holds (endpoint_context.py:100-260), as far as the
    modelled code reads it. The client database is mutable and therefore passed apart. *)
From Verif Require Import Base Types.

(** The part of the authz keyword "grant_config" (authz/__init__.py:18-22) that is modelled. Any other
    key would be set as an attribute of the grant under its own name. *)
Record gconf := mkGConf { gc_rules : option grules; gc_expires_in : option Z }.

Record ctx := mkCtx {
  cx_issuer : string;
  cx_provider_info : msg;
  cx_capabilities : option msg;           (* conf['capabilities']; None: not configured *)
  cx_scope2claims : dict (list string);
  cx_modules : dict msg;                  (* kwargs of the module that serves a usage, session/claims.py:59-79 *)
  cx_users : dict msg;                    (* the user info store, user_info/__init__.py *)
  cx_grant_config : gconf;
}.

Definition cdb := dict msg.

(** [x in v] *)
Definition val_in (x v : val) : result bool :=
  match v with
  | VList l => Ok (existsb (val_eqb x) l)
  | VStr s => match x with VStr t => Ok (contains t s) | _ => Raise EType end
  | VDict d => match x with VStr t => Ok (dmem t d) | VList _ | VDict _ => Raise EType | _ => Ok false end
  | _ => Raise EType
  end.

(** [m.get(k)] or None, when it is truthy *)
Definition truthy_get (k : string) (m : msg) : option val :=
  match dget k m with
  | Some v => if truthy v then Some v else None
  | None => None
  end.

(** [[x for x in l if f x]] with a test that may raise *)
Fixpoint rfilter {A} (f : A -> result bool) (l : list A) : result (list A) :=
  match l with
  | [] => Ok []
  | x :: l' => let* b := f x in let* r := rfilter f l' in Ok (if b then x :: r else r)
  end.

(** SessionKey.v: session identifiers (session/__init__.py). *)
From Verif Require Import Base.

(** session/__init__.py:3 *)
Definition DIVIDER : string := ";;".

(** session/__init__.py:6-7 *)
Definition session_key (args : list string) : string := join DIVIDER args.

(** session/__init__.py:10-11 *)
Definition unpack_session_key (key : string) : list string := split DIVIDER key.

(** [a, b, c = unpack_session_key(k)], the idiom of session/manager.py;
    any other number of parts is a ValueError. *)
Definition unpack3 (key : string) : result (string * string * string) :=
  match unpack_session_key key with
  | [u; c; g] => Ok (u, c, g)
  | _ => Raise EValue
  end.

(** ResponseHeadSpec.v: what is said about HTTP responses: header names (RFC 7230: not case sensitive) and the parts
    of a location (RFC 3986: the fragment begins at the first "#", the query at the first "?" before it). *)
From Coq Require Import List String Ascii Bool.
Import ListNotations.
Local Open Scope string_scope.

Definition low (c : ascii) : ascii :=
  let n := nat_of_ascii c in if (Nat.leb 65 n && Nat.leb n 90)%bool then ascii_of_nat (n + 32) else c.
Fixpoint lower_case (s : string) : string :=
  match s with EmptyString => "" | String c s' => String (low c) (lower_case s') end.
Definition named (n : string) (h : string * string) : bool := String.eqb (lower_case (fst h)) n.
(** how many headers of a name there are *)
Definition how_many (n : string) (hs : list (string * string)) : nat := List.length (filter (named n) hs).
Definition not_cacheable (hs : list (string * string)) : Prop :=
  In ("Pragma", "no-cache") hs /\ In ("Cache-Control", "no-store") hs.
(** the headers passed in contain at most one content type, under the spelling used in the code *)
Definition orderly (given : option (list (string * string))) : Prop :=
  match given with
  | None => True
  | Some hs => (how_many "content-type" hs <= 1)%nat /\
               forall h, In h hs -> named "content-type" h = true -> fst h = "Content-type"
  end.

(** the text before and after the first [c] *)
Fixpoint cut (c : ascii) (s : string) : string * option string :=
  match s with
  | EmptyString => ("", None)
  | String d s' => if Ascii.eqb d c then ("", Some s') else let '(a, b) := cut c s' in (String d a, b)
  end.
Definition fragment_of (uri : string) : option string := snd (cut "#" uri).
Definition query_of (uri : string) : option string := snd (cut "?" (fst (cut "#" uri))).
Definition free (c : ascii) (s : string) : Prop := snd (cut c s) = None.

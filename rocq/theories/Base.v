(** Base.v: the fragment of Python the model needs: exceptions as values,
    insertion ordered dicts, and the [str] operations used by oidcendpoint.

    Simplification: [str] is Coq's [string], so characters are limited to
    code points 0..255. No modelled function treats other code points specially. *)
From Coq Require Export String Ascii List ZArith Bool Lia Arith.
Export ListNotations.
Open Scope string_scope.
Open Scope list_scope.

(** ** Exceptions

    One constructor per exception class that modelled code raises or catches.
    [ENoClientSession] and [ENoGrant] are subclasses of [KeyError]
    (session/database.py:14-19). *)
Inductive exn :=
| EKey | EValue | EType | EAttr | EIndex
| ENoClientSession | ENoGrant
| EUnknownToken | EWrongTokenType | EToOld
| EMintingNotAllowed | ERecursion
| EUnknownClient | EInvalidClient | EUnAuthorizedClient | EUnknownOrNoAuthnMethod
| ERedirectURI | EParameter | EURI | EInvalidRequest | EInvalidRedirectURI
| ECapabilitiesMisMatch | EMissingPage | EOidcEndpoint | EMultipleUsage | ENotForMe
| EServiceError | EFailedAuthentication | EBinascii | EAssertion | EInvalid | EOther.

Definition exn_eq_dec (a b : exn) : {a = b} + {a <> b}.
Proof. decide equality. Defined.

(** [except KeyError] catches these. *)
Definition is_key_error (e : exn) : bool :=
  match e with EKey | ENoClientSession | ENoGrant => true | _ => false end.

Inductive result (A : Type) :=
| Ok (a : A)
| Raise (e : exn).
Arguments Ok {A} a.
Arguments Raise {A} e.

Definition rbind {A B} (m : result A) (k : A -> result B) : result B :=
  match m with Ok a => k a | Raise e => Raise e end.

Definition rmap {A B} (f : A -> B) (m : result A) : result B :=
  match m with Ok a => Ok (f a) | Raise e => Raise e end.

Definition is_ok {A} (m : result A) : bool :=
  match m with Ok _ => true | Raise _ => false end.

Notation "'let*' x ':=' m 'in' k" := (rbind m (fun x => k))
  (at level 200, x pattern, m at level 100, k at level 200).

(** [try: m except (some exceptions): h] *)
Definition rtry {A} (m : result A) (catches : exn -> bool) (h : result A) : result A :=
  match m with
  | Ok a => Ok a
  | Raise e => if catches e then h else Raise e
  end.

Definition of_option {A} (e : exn) (o : option A) : result A :=
  match o with Some a => Ok a | None => Raise e end.

(** ** dict *)
Definition dict (A : Type) := list (string * A).

Fixpoint dget {A} (k : string) (d : dict A) : option A :=
  match d with
  | [] => None
  | (k', v) :: d' => if String.eqb k k' then Some v else dget k d'
  end.

Definition dmem {A} (k : string) (d : dict A) : bool :=
  match dget k d with Some _ => true | None => false end.

(** [d[k] = v]: replaces in place, or appends a new key at the end. *)
Fixpoint dset {A} (k : string) (v : A) (d : dict A) : dict A :=
  match d with
  | [] => [(k, v)]
  | (k', v') :: d' => if String.eqb k k' then (k, v) :: d' else (k', v') :: dset k v d'
  end.

(** [del d[k]] for a key known to be present (keys are unique in a dict). *)
Fixpoint ddel {A} (k : string) (d : dict A) : dict A :=
  match d with
  | [] => []
  | (k', v') :: d' => if String.eqb k k' then ddel k d' else (k', v') :: ddel k d'
  end.

(** [d.update(e)] *)
Definition dupdate {A} (d e : dict A) : dict A :=
  fold_left (fun acc kv => dset (fst kv) (snd kv) acc) e d.

Definition dkeys {A} (d : dict A) : list string := map fst d.

(** [d.get(k, default)] *)
Definition dget_or {A} (k : string) (dflt : A) (d : dict A) : A :=
  match dget k d with Some v => v | None => dflt end.

(** [d[k]] *)
Definition dsub {A} (k : string) (d : dict A) : result A := of_option EKey (dget k d).

(** ** lists of strings *)
Definition smem (x : string) (l : list string) : bool := existsb (String.eqb x) l.

(** [l.remove(x)]: removes the first occurrence. *)
Fixpoint sremove (x : string) (l : list string) : list string :=
  match l with
  | [] => []
  | y :: l' => if String.eqb x y then l' else y :: sremove x l'
  end.

Definition subset (a b : list string) : bool := forallb (fun x => smem x b) a.
(** [set(a) == set(b)] *)
Definition set_eqb (a b : list string) : bool := subset a b && subset b a.

(** [bool(s)] for a str *)
Definition nonempty (s : string) : bool := negb (String.eqb s "").
Definition is_nil {A} (l : list A) : bool := match l with [] => true | _ => false end.

(** ** str operations *)
Definition push (c : ascii) (l : list string) : list string :=
  match l with [] => [String c ""] | h :: t => String c h :: t end.

(** [s.split(sep)] for a non-empty separator: leftmost, non overlapping. *)
Fixpoint split_go (sep s : string) (skip : nat) : list string :=
  match s with
  | "" => [""]
  | String c s' =>
      match skip with
      | S k => split_go sep s' k
      | O => if String.prefix sep s
             then "" :: split_go sep s' (String.length sep - 1)
             else push c (split_go sep s' 0)
      end
  end.
Definition split (sep s : string) : list string := split_go sep s 0.

(** [sep.join(l)] *)
Fixpoint join (sep : string) (l : list string) : string :=
  match l with
  | [] => ""
  | [x] => x
  | x :: l' => x ++ sep ++ join sep l'
  end.

(** [sub in s] *)
Fixpoint contains (sub s : string) : bool :=
  String.prefix sub s ||
  match s with
  | "" => false
  | String _ s' => contains sub s'
  end.

Fixpoint sdrop (n : nat) (s : string) : string :=
  match n, s with
  | O, _ => s
  | S n', "" => ""
  | S n', String _ s' => sdrop n' s'
  end.

Fixpoint stake (n : nat) (s : string) : string :=
  match n, s with
  | O, _ => ""
  | S n', "" => ""
  | S n', String c s' => String c (stake n' s')
  end.

Definition starts_with (p s : string) : bool := String.prefix p s.
Fixpoint ends_with (p s : string) : bool :=
  String.eqb p s ||
  match s with
  | "" => false
  | String _ s' => ends_with p s'
  end.

(** [s.split(c, 1)] on the first occurrence of the character [c]:
    [Some (before, after)], or [None] when [c] does not occur. *)
Fixpoint cut (c : ascii) (s : string) : option (string * string) :=
  match s with
  | "" => None
  | String d s' =>
      if Ascii.eqb c d then Some ("", s')
      else match cut c s' with
           | Some (a, b) => Some (String d a, b)
           | None => None
           end
  end.

Fixpoint smap (f : ascii -> ascii) (s : string) : string :=
  match s with "" => "" | String c s' => String (f c) (smap f s') end.

Fixpoint sforall (f : ascii -> bool) (s : string) : bool :=
  match s with "" => true | String c s' => f c && sforall f s' end.

(** Characters Python's [str.strip()] removes, within 0..255:
    \t \n \v \f \r, 0x1c-0x1f, space, 0x85, 0xa0. *)
Definition is_space (c : ascii) : bool :=
  let n := N_of_ascii c in
  ((9 <=? n) && (n <=? 13) || (28 <=? n) && (n <=? 32) || (n =? 133) || (n =? 160))%N.

Fixpoint lstrip (s : string) : string :=
  match s with
  | "" => ""
  | String c s' => if is_space c then lstrip s' else s
  end.

Fixpoint rstrip (s : string) : string :=
  match s with
  | "" => ""
  | String c s' =>
      match rstrip s' with
      | "" => if is_space c then "" else String c ""
      | r => String c r
      end
  end.
Definition strip (s : string) : string := rstrip (lstrip s).

Definition slen (s : string) : nat := String.length s.

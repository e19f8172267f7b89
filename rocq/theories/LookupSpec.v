(** LookupSpec.v: what the ways of looking a session up should answer. *)
From Verif Require Import Base Types Monad SessionKey Database DatabaseSpec.

(** What is kept about a user, or about a user at a client *)
Definition about_user (e : entry) : Prop := exists i, e = EInfo i /\ si_kind i = SUser.
Definition about_client (e : entry) : Prop := exists i, e = EInfo i /\ si_kind i = SClient.
Definition a_grant (e : entry) : Prop := exists g, e = EGrant g.

(** A lookup of an item of some kind at a path: it answers with what is there, if it is of that kind; it says ValueError if it
    is not; it raises if nothing is there. It changes nothing. *)
Definition looks_up {A} (kind : entry -> Prop) (as_entry : A -> entry) (s : store) (q : list string) (r : result A * store) : Prop :=
  snd r = s /\
  (forall a, fst r = Ok a <-> view s q = Some (as_entry a) /\ kind (as_entry a)) /\
  (forall e, view s q = Some e -> ~ kind e -> fst r = Raise EValue) /\
  (view s q = None -> exists x, fst r = Raise x).

(** The grants of a user at a client: one for each id the client's session lists, in that order. *)
Definition grants_there (s : store) (u c : string) (l : list entry) : Prop :=
  exists ci, view s [u; c] = Some (EInfo ci) /\ Forall2 (fun gid e => view s [u; c; gid] = Some e) (si_sub ci) l.

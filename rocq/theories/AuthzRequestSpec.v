(** AuthzRequestSpec.v: which response types a client may use, and histories of pushed and ordinary authorization
    requests. *)
From Verif Require Import Base Monad Types Ctx Uri AuthzRequest.
Local Open Scope Z_scope.

Definition same_words (a b : list string) : Prop := forall w, In w a <-> In w b.
(** [c] is a client that may use the response type [rt]: one of those registered, or code if none is *)
Definition may_use (db : cdb) (c : string) (rt : list string) : Prop :=
  exists info, dget c db = Some info /\
    match dget "response_types" info with
    | None | Some (VList []) => same_words rt ["code"]
    | Some (VList l) => exists r, In (VStr r) l /\ same_words rt (split " " r)
    | _ => False
    end.
(** the request is one its client may make, as far as the response type goes *)
Definition allowed (db : cdb) (m : msg) : Prop :=
  exists c rt, dget "client_id" m = Some (VStr c) /\ dget "response_type" m = Some (VList (map VStr rt)) /\ may_use db c rt.

(** In the client database and in requests these are lists, not text *)
Definition listed (db : cdb) : Prop :=
  forall c info v, dget c db = Some info -> dget "response_types" info = Some v -> exists l, v = VList l.
Definition typed (m : msg) : Prop :=
  forall v, dget "response_type" m = Some v -> exists l, v = VList l.
(** Request objects name the client whose keys they were checked with *)
Definition faithful (e : reqenv) : Prop :=
  forall c uri m, re_fetch e (Some c) uri = Ok m -> dget "client_id" m = Some (VStr c) /\ typed m /\ NoDup (dkeys m).

(** What happens: client [c] pushes a request (which gets [uuid]), or sends one to the authorization endpoint; at a
    time. The code reads no clock. *)
Inductive event :=
| Push (time : Z) (uuid : string) (c : string) (rq : msg)
| Authz (time : Z) (c : string) (rq : msg).

Definition happen (e : reqenv) (oidc : bool) (ev : event) : P parsed :=
  match ev with
  | Push _ uuid c rq =>
      p <-- parse_push e (Some c) rq ;;
      match p with
      | Refused x => ret (Refused x)
      | Parsed m => push_request uuid m ;;; ret (Parsed m)
      end
  | Authz _ c rq => if oidc then parse_authn e (Some c) rq else parse_authz e (Some c) rq
  end.
Fixpoint outcomes (e : reqenv) (oidc : bool) (l : list event) (db : pardb) : list (result parsed) :=
  match l with
  | [] => []
  | ev :: l' => let (r, db') := happen e oidc ev db in r :: outcomes e oidc l' db'
  end.
Fixpoint after (e : reqenv) (oidc : bool) (l : list event) (db : pardb) : pardb :=
  match l with
  | [] => db
  | ev :: l' => after e oidc l' (snd (happen e oidc ev db))
  end.
(** a request is sent under the name of the client that was established *)
Definition own (ev : event) : Prop :=
  match ev with
  | Push _ _ c rq | Authz _ c rq => dget "client_id" rq = Some (VStr c) /\ typed rq
  end.

(** sent by reference to the request pushed as [uuid] *)
Definition names (uuid : string) (rq : msg) : Prop := dget "request_uri" rq = Some (VStr (urn uuid)).
Definition names_b (uuid : string) (rq : msg) : bool :=
  match dget "request_uri" rq with Some (VStr s) => String.eqb s (urn uuid) | _ => false end.
Definition went_through (r : result parsed) : bool := match r with Ok _ => true | Raise _ => false end.
Fixpoint times_used (uuid : string) (l : list event) (rs : list (result parsed)) : nat :=
  match l, rs with
  | Authz _ _ rq :: l', r :: rs' => ((if names_b uuid rq && went_through r then 1 else 0) + times_used uuid l' rs')%nat
  | _ :: l', _ :: rs' => times_used uuid l' rs'
  | _, _ => 0%nat
  end.
Fixpoint uuids (l : list event) : list string :=
  match l with [] => [] | Push _ u _ _ :: l' => u :: uuids l' | _ :: l' => uuids l' end.

(** Threads: taking a pushed request out is two steps on the shared dict, reading and deleting; the request goes to
    the thread whose deletion does not fail. *)
Inductive tstep := TPush (uuid : string) (rq : msg) | TGet (thread uuid : string) | TDel (thread uuid : string).
Definition taken (s : tstep) (db : pardb) : bool :=
  match s with TDel _ u => dmem (urn u) db | _ => false end.
Definition tnext (s : tstep) (db : pardb) : pardb :=
  match s with TPush u rq => dset (urn u) rq db | TGet _ _ => db | TDel _ u => ddel (urn u) db end.
Fixpoint times_taken (uuid : string) (l : list tstep) (db : pardb) : nat :=
  match l with
  | [] => 0%nat
  | s :: l' =>
      ((if match s with TDel _ u => String.eqb u uuid && taken s db | _ => false end then 1 else 0) +
       times_taken uuid l' (tnext s db))%nat
  end.
Fixpoint times_pushed (uuid : string) (l : list tstep) : nat :=
  match l with
  | [] => 0%nat
  | TPush u _ :: l' => ((if String.eqb u uuid then 1 else 0) + times_pushed uuid l')%nat
  | _ :: l' => times_pushed uuid l'
  end.

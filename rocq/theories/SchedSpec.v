(** SchedSpec.v: several workers, each in the middle of a call, take turns at one storage. *)
From Verif Require Import Base Monad Types SessionKey Token Grant Database DatabaseSpec Manager ManagerSpec Ctx Claims World Minting UserInfo
  TokenEndpoint WorldSpec Prog CrashSpec.
Local Open Scope prog_scope.

(** ** Schedules *)
(** Worker [i] makes one step. *)
Fixpoint turn {A} (i : nat) (ps : list (prog A)) (w : world) : list (prog A) * world :=
  match ps, i with
  | [], _ => ([], w)
  | p :: r, O => match pstep p w with None => (p :: r, w) | Some (p', w') => (p' :: r, w') end
  | p :: r, S i' => let (r', w') := turn i' r w in (p :: r', w')
  end.
(** The workers make their steps in the order of [l]. *)
Fixpoint turns {A} (l : list nat) (ps : list (prog A)) (w : world) : list (prog A) * world :=
  match l with
  | [] => (ps, w)
  | i :: l' => let (ps', w') := turn i ps w in turns l' ps' w'
  end.
(** All have come to their ends, with these results. *)
Definition ended {A} (ps : list (prog A)) (rs : list (result A)) : Prop := ps = map Done rs.

(** What is left to do after [n] steps alone *)
Fixpoint still_to_do {A} (n : nat) (p : prog A) (w : world) : prog A :=
  match n with
  | O => p
  | S n' => match pstep p w with
            | None => p
            | Some (p', w') => still_to_do n' p' w'
            end
  end.
Definition steps_of (i : nat) (l : list nat) : nat := count_occ Nat.eq_dec l i.

(** ** Calls with their answers *)
(** Answers and exceptions alike *)
Fixpoint ptry {A} (p : prog A) : prog (result A) :=
  match p with
  | Done r => Done (Ok r)
  | Get k f => Get k (fun o => ptry (f o))
  | Put k v p' => Put k v (ptry p')
  | Del k f => Del k (fun b => ptry (f b))
  | Act B m f => Act B m (fun r => ptry (f r))
  end.
Section Calls.
  Variable sid_of : string -> result string.
  Variable cx : ctx.
  Variable make_id_token : store -> string -> ST cdb string.

  Definition p_answer (x : ccall) : prog (option answer) :=
    match x with
    | CManager op => p_mop op ;~ pret None
    | CExchange m1 m2 ir rq => a <~ p_code_process sid_of cx make_id_token m1 m2 ir rq ;; pret (Some a)
    | CRefreshing m1 m2 rq => a <~ p_refresh_process sid_of cx make_id_token m1 m2 rq ;; pret (Some a)
    | CMint mt u c g ttype based_on => p_authz_mint cx mt u c g ttype based_on ;~ pret None
    end.
  (** The calls one after the other, whatever becomes of each *)
  Fixpoint p_answers (xs : list ccall) : prog (list (result (option answer))) :=
    match xs with
    | [] => pret []
    | x :: r => a <~ ptry (p_answer x) ;; l <~ p_answers r ;; pret (a :: l)
    end.
  (** The call is about a session of the user. *)
  Definition about (u : string) (x : ccall) : Prop :=
    let leads v := forall sid, sid_of v = Ok sid -> exists c g, good c /\ good g /\ sid = session_key [u; c; g] in
    good u /\
    match x with
    | CManager op => op_user op = u /\ good (op_client op) /\ good (op_grant op)
    | CExchange _ _ _ rq => forall raw, dget "code" rq = Some (VStr raw) -> leads (blank_to_plus raw)
    | CRefreshing _ _ rq => forall raw, dget "refresh_token" rq = Some (VStr raw) -> leads raw
    | CMint _ u' c g _ _ => u' = u /\ good c /\ good g
    end.
  (** The key beside those of the user that the call may write: database.py:132 writes the record of a client
      session under the id of the client. *)
  Definition stray (x : ccall) : option string :=
    match x with CManager (ORemove _ c _) => Some c | _ => None end.
  (** Minting leaves this client database as it is, and the making of an ID Token looks at nothing but the
      sessions of the user. *)
  Definition undisturbed (d : cdb) (u : string) : Prop :=
    (forall c ar scope ttype, snd (get_claims cx c ar scope ttype d) = d) /\
    (forall s s' c g, good c -> good g -> (forall q, good_path q -> hd "" q = u -> stored s' q = stored s q) ->
       make_id_token s' (session_key [u; c; g]) d = make_id_token s (session_key [u; c; g]) d /\
       snd (make_id_token s (session_key [u; c; g]) d) = d).
End Calls.

(** No module adds the claims of single clients to its own, so that minting leaves the client database as it is
    (with such a module minting may write to the client database: C18). *)
Definition no_client_claims (cx : ctx) : Prop :=
  forall usage kw, dget usage (cx_modules cx) = Some kw ->
  match dget "enable_claims_per_client" kw with Some v => truthy v = false | None => True end.
(** What the ID Token is made of is the session. *)
Definition of_session (make_id_token : store -> string -> ST cdb string) (d : cdb) (u c g : string) : Prop :=
  (forall s s' gr, kinds_ok s -> kinds_ok s' -> view s [u; c; g] = Some (EGrant gr) -> view s' [u; c; g] = Some (EGrant gr) ->
     make_id_token s' (session_key [u; c; g]) d = make_id_token s (session_key [u; c; g]) d) /\
  (forall s, snd (make_id_token s (session_key [u; c; g]) d) = d).
(** The user is not (any more) known to have sessions at the client. *)
Definition unlisted_by (s : store) (u c : string) : Prop :=
  forall ui, stored s [u] = Some (EInfo ui) -> smem c (si_sub ui) = false.

(** ** Readers *)
(** Whatever is read while the writer is at work, is what would have been read before its call or after it. *)
Definition read_entire {A} (writer : prog A) (w : world) : Prop :=
  forall q l r p' w', good_path q ->
  turns l [(e <~ p_read q ;; pret (Some e)); (writer ;~ pret None)] w = ([Done r; p'], w') ->
  r = match fst (db_read q (w_db w)) with Ok e => Ok (Some e) | Raise x => Raise x end \/
  r = match fst (db_read q (w_db (snd (exec writer w)))) with Ok e => Ok (Some e) | Raise x => Raise x end.

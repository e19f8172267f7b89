(** DatabaseSpec.v: what a session store should be, as seen by its readers. *)
From Verif Require Import Base Monad Types SessionKey Database.

(** Identifiers without the separator trouble of C01: not empty, no ";;" inside, no ";" at the end. *)
Definition good (x : string) : Prop :=
  x <> "" /\ (forall a b, x <> (a ++ ";;" ++ b)%string) /\ (forall a, x <> (a ++ ";")%string).

(** A path: user, user/client or user/client/grant. *)
Definition good_path (q : list string) : Prop :=
  Forall good q /\ (1 <= length q <= 3)%nat.

(** What a reader sees at a path. *)
Definition view (s : store) (q : list string) : option entry :=
  match fst (db_read q s) with Ok e => Some e | Raise _ => None end.

(** What is kept under the key of a path, whether readable or not. *)
Definition stored (s : store) (q : list string) : option entry := dget (session_key q) s.

(** Grants are kept at grant paths, session infos at the others. *)
Definition kinds_ok (s : store) : Prop :=
  forall q e, good_path q -> stored s q = Some e ->
    match e with
    | EInfo _ => (length q < 3)%nat
    | EGrant _ => length q = 3
    end.

(** Every client session is listed by its user session. *)
Definition linked (s : store) : Prop :=
  forall u c, good u -> good c -> stored s [u; c] <> None ->
    exists ui, stored s [u] = Some (EInfo ui) /\ In c (si_sub ui).

Definition with_sub (l : list string) (i : sinfo) : sinfo :=
  mkSInfo (si_kind i) (si_id i) l (si_revoked i) (si_extra i).

(** [i] with [x] listed as subordinate; [i] itself if it was listed. *)
Definition listing (x : string) (i : sinfo) : sinfo :=
  if smem x (si_sub i) then i else with_sub (si_sub i ++ [x]) i.

(** The session info seen at a path, or a fresh one. *)
Definition info_or (fresh : sinfo) (o : option entry) : sinfo :=
  match o with Some (EInfo i) => i | _ => fresh end.

Definition is_prefix (p q : list string) : Prop := exists r, q = p ++ r.

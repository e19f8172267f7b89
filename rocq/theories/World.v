(** World.v: the state the endpoints share: the session store and the client database. *)
From Verif Require Import Base Monad Types Database Ctx.

Record world := mkW { w_db : store; w_cdb : cdb }.
Definition W A := ST world A.
Definition in_db {A} (m : DB A) : W A :=
  fun w => let (r, s) := m (w_db w) in (r, mkW s (w_cdb w)).
Definition in_cdb {A} (m : ST cdb A) : W A :=
  fun w => let (r, c) := m (w_cdb w) in (r, mkW (w_db w) c).

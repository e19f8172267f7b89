(** Stores.v: the key-value stores in_memory_db.py, shelve_db.py and list_db.py. *)
From Verif Require Import Base Types Ctx.

(** What one can call. [OChange k f]: the caller gets the value of [k] and changes the object in place, [f] says how. *)
Inductive sop :=
| OContains (k : string) | OGetItem (k : string) | OSetItem (k : string) (v : val) | ODelItem (k : string)
| OSet (k : string) (v : val) | OGet (k : string) (default : val) | ODelete (k : string) | OKeys | OClear
| OChange (k : string) (f : val -> val).
(** What one sees *)
Inductive sans := SBool (b : bool) | SVal (v : val) | SNone | SKeys (l : list string) | SRaise (x : exn).

(** in_memory_db.py:6-40. Line 10 answers 1 or None, which [in] makes a bool. *)
Definition mem_step (op : sop) (db : dict val) : sans * dict val :=
  match op with
  | OContains k => (SBool match truthy_get k db with Some _ => true | None => false end, db)
  | OGetItem k => (SVal (dget_or k VNone db), db)
  | OSetItem k v | OSet k v => (SNone, dset k v db)
  | ODelItem k => if dmem k db then (SNone, ddel k db) else (SRaise EKey, db)
  | OGet k default => (SVal (dget_or k default db), db)
  | ODelete k => (SNone, match truthy_get k db with Some _ => ddel k db | None => db end)
  | OKeys => (SKeys (dkeys db), db)
  | OClear => (SNone, [])
  | OChange k f => (SNone, match dget k db with Some v => dset k (f v) db | None => db end)
  end.
(** shelve_db.py:4-50, with the shelve module of Python as a dict of copies. [order]: the order of the keys in the file. With [writeback]
    the shelf keeps the objects it has handed out. *)
Definition shelve_step (order : list string -> list string) (writeback : bool) (op : sop) (db : dict val) : sans * dict val :=
  match op with
  | OContains k => (SBool (dmem k db), db)
  | OGetItem k => (SVal (dget_or k VNone db), db)
  | OSetItem k v | OSet k v => (SNone, dset k v db)
  | ODelItem k | ODelete k => (SNone, if dmem k db then ddel k db else db)
  | OGet k default => (SVal (dget_or k default db), db)
  | OKeys => (SKeys (order (dkeys db)), db)
  | OClear => (SNone, [])
  | OChange k f => (SNone, if writeback then match dget k db with Some v => dset k (f v) db | None => db end else db)
  end.
Fixpoint srun (step : sop -> dict val -> sans * dict val) (ops : list sop) (db : dict val) : list sans :=
  match ops with
  | [] => []
  | op :: ops' => let (a, db') := step op db in a :: srun step ops' db'
  end.

(** list_db.py:7-24: the values are the keys of a file. (The keys come back as bytes, which is left out.) *)
Inductive lop := LAppend (v : string) | LRemove (v : string) | LContains (v : string) | LList.
Definition list_step (order : list string -> list string) (op : lop) (db : dict val) : sans * dict val :=
  match op with
  | LAppend v => (SNone, dset v (VStr "") db)
  | LRemove v => if dmem v db then (SNone, ddel v db) else (SRaise EKey, db)
  | LContains v => (SBool (dmem v db), db)
  | LList => (SKeys (order (dkeys db)), db)
  end.
Fixpoint lrun (step : lop -> dict val -> sans * dict val) (ops : list lop) (db : dict val) : list sans :=
  match ops with
  | [] => []
  | op :: ops' => let (a, db') := step op db in a :: lrun step ops' db'
  end.

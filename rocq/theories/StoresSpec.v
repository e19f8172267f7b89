(** StoresSpec.v: a store is a finite map, a list is a list. *)
From Verif Require Import Base Types Stores.
From Coq Require Import Permutation.

(** A map and what a call does to it; keys are listed in some order *)
Definition smap := string -> option val.
Definition put (k : string) (o : option val) (m : smap) : smap := fun x => if String.eqb x k then o else m x.
Definition or_else (o : option val) (d : val) : val := match o with Some v => v | None => d end.
Inductive map_step : sop -> smap -> sans -> smap -> Prop :=
| MContains k m b : (b = true <-> m k <> None) -> map_step (OContains k) m (SBool b) m
| MGetItem k m : map_step (OGetItem k) m (SVal (or_else (m k) VNone)) m
| MSetItem k v m : map_step (OSetItem k v) m SNone (put k (Some v) m)
| MDelItem k m : map_step (ODelItem k) m SNone (put k None m)
| MDelItem_raise k m : m k = None -> map_step (ODelItem k) m (SRaise EKey) m
| MSet k v m : map_step (OSet k v) m SNone (put k (Some v) m)
| MGet k d m : map_step (OGet k d) m (SVal (or_else (m k) d)) m
| MDelete k m : map_step (ODelete k) m SNone (put k None m)
| MKeys l m : NoDup l -> (forall k, In k l <-> m k <> None) -> map_step OKeys m (SKeys l) m
| MClear m : map_step OClear m SNone (fun _ => None)
| MChange k f m : map_step (OChange k f) m SNone (put k (option_map f (m k)) m).
(** A history of calls; maps are equal if they are everywhere *)
Inductive map_run : list sop -> smap -> list sans -> Prop :=
| MNil m : map_run [] m []
| MCons op ops m a m1 m2 l : map_step op m a m1 -> (forall k, m1 k = m2 k) -> map_run ops m2 l -> map_run (op :: ops) m (a :: l).
(** Values that count as true *)
Definition sound_op (op : sop) : Prop :=
  match op with OSetItem _ v | OSet _ v => truthy v = true | OChange _ f => forall v, truthy (f v) = true | _ => True end.
Definition no_change (op : sop) : Prop := match op with OChange _ _ => False | _ => True end.
(** The order in which a file lists its keys *)
Definition some_order (order : list string -> list string) : Prop := forall l, Permutation l (order l).
(** The last thing done to [v] was to append it. *)
Fixpoint present (v : string) (ops : list lop) (before : bool) : bool :=
  match ops with
  | [] => before
  | LAppend x :: ops' => present v ops' (if String.eqb v x then true else before)
  | LRemove x :: ops' => present v ops' (if String.eqb v x then false else before)
  | _ :: ops' => present v ops' before
  end.

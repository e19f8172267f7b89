(** AuthnBrokerSpec.v: what a registry of authentication methods should do. *)
From Coq Require Import List String ZArith.
From Verif Require Import Base Types AuthnBroker.
Import ListNotations.

(** A registered method: its id, acr and method object; the registry is a list, oldest first. *)
Record rmethod := mkRM { rm_id : string; rm_acr : string; rm_method : string }.
Definition registry := list rmethod.

Inductive bop := Reg (id : string) (i : minfo) | Unreg (id : string).

Definition reg_ids (r : registry) : list string := map rm_id r.

Definition reg_step (o : bop) (r : registry) : registry :=
  match o with
  | Reg id (mkMI (Some a) (Some m)) => r ++ [mkRM id a m]
  | Reg _ _ => r
  | Unreg id => filter (fun x => negb (String.eqb (rm_id x) id)) r
  end.
Definition reg_run (l : list bop) : registry := fold_left (fun r o => reg_step o r) l [].

(** what the program makes of it; failed operations change nothing or not, as the program does *)
Definition br_step (o : bop) (b : broker) : broker :=
  match o with
  | Reg id i => match br_set id i b with Ok b' => b' | Raise _ => b end
  | Unreg id => snd (br_del id b)
  end.
Definition br_run (l : list bop) : broker := fold_left (fun b o => br_step o b) l empty_broker.

(** no id is registered while it is registered *)
Fixpoint new_ids (r : registry) (l : list bop) : Prop :=
  match l with
  | [] => True
  | o :: l' =>
      match o with Reg id _ => ~ In id (reg_ids r) | Unreg _ => True end /\ new_ids (reg_step o r) l'
  end.

Definition as_info (x : rmethod) : minfo := mkMI (Some (rm_acr x)) (Some (rm_method x)).
Definition with_acr (a : string) (r : registry) : registry := filter (fun x => String.eqb (rm_acr x) a) r.
(** registered, and none of its class before it *)
Definition oldest_of (r : registry) (x : rmethod) : Prop :=
  exists r1 r2, r = r1 ++ x :: r2 /\ forall y, In y r1 -> rm_acr y <> rm_acr x.

(** Where a request asks for authentication classes: acr_values, then the values of the claim acr of the ID
    Token, then the class of the hint. *)
Definition claim_acr (rq : msg) (v : val) : Prop :=
  exists c i, dget "claims" rq = Some (VDict c) /\ dget "id_token" c = Some (VDict i) /\ dget "acr" i = Some v.
Definition claim_values (rq : msg) (v : val) : Prop :=
  exists a, claim_acr rq (VDict a) /\ dget "values" a = Some v.

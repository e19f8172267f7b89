(** UsageLookupSpec.v: which usage rules ought to apply to a token of a grant. *)
From Verif Require Import Base Types Monad Token Grant Authz AuthzSpec UsageLookup.

(** Something is said for this type of token. *)
Definition says (o : option urules) : Prop := exists r, o = Some r /\ r <> no_rules.
(** The first that has an opinion on a member decides. *)
Fixpoint first_opinion {A} (member : urules -> option A) (l : list (option urules)) : option A :=
  match l with
  | [] => None
  | Some r :: l' => match member r with Some x => Some x | None => first_opinion member l' end
  | None :: l' => first_opinion member l'
  end.
(** [r] is made member by member of these, in this order. *)
Definition decided_by (l : list (option urules)) (r : urules) : Prop :=
  ur_max_usage r = first_opinion ur_max_usage l /\ ur_mints r = first_opinion ur_mints l /\ ur_expires_in r = first_opinion ur_expires_in l.

(** The grant, the client and the provider; the defaults only if neither the client nor the provider says anything for the type. *)
Definition neither_says (e : lookup_env) (c ttype : string) : Prop :=
  ~ says (client_rules (le_rules e) c ttype) /\ ~ says (provider_default (le_rules e) ttype).
Definition in_force (e : lookup_env) (m : rulemap) (c ttype : string) (r : urules) : Prop :=
  (~ neither_says e c ttype /\
     decided_by [applied (le_rules e) m ttype; client_rules (le_rules e) c ttype; provider_default (le_rules e) ttype] r) \/
  (neither_says e c ttype /\ exists d, dget ttype (le_default e) = Some d /\ decided_by [applied (le_rules e) m ttype; Some d] r).

(** What holds out of the box: a code can be used once, for five minutes, and stands for an access, a refresh and an ID Token; an access token holds for an
    hour and stands for nothing else; a refresh token stands for what a code does, without a limit; there are no other tokens. *)
Definition out_of_the_box (ttype : string) (r : urules) : Prop :=
  (ttype = "authorization_code" /\ ur_max_usage r = Some 1%Z /\ ur_mints r = Some ["access_token"; "refresh_token"; "id_token"] /\ ur_expires_in r = Some 300%Z) \/
  (ttype = "access_token" /\ ur_max_usage r = None /\ ur_mints r = Some [] /\ ur_expires_in r = Some 3600%Z) \/
  (ttype = "refresh_token" /\ ur_max_usage r = None /\ ur_mints r = Some ["access_token"; "refresh_token"; "id_token"] /\ ur_expires_in r = None).

(** The arguments that get through to a grant that is added *)
Definition passed_on : list string :=
  ["scope"; "resources"; "authorization_details"; "issued_token"; "usage_rules"; "revoked"; "issued_at"; "expires_at"; "sub";
   "authorization_request"; "authentication_event"].

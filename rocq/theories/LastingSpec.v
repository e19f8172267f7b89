(** LastingSpec.v: what is said of a token over all calls of all endpoints. *)
From Verif Require Import Base Monad Types SessionKey Token Grant Database Manager ManagerSpec Ctx UserInfo World Minting TokenEndpoint WorldSpec AuthzEndpoint
  System SystemSpec.
From Verif Require SetupAuth.
Local Open Scope Z_scope.

(** The call was a token request with this code, or this refresh token, that was answered with tokens. *)
Definition redeemed (code : string) (h : call * outcome) : bool :=
  match h with
  | (SProcess m1 _ _ _, OProcess request r) => redeems code (mkEv (mt_clock m1) request r)
  | _ => false
  end.
(** The call was a success for whoever came with this value: tokens were given for it, a token request with it was accepted,
    claims were released for it, or it was said to be active. *)
Definition honours (y : setup_of) (value : string) (h : call * outcome) : Prop :=
  match h with
  | (SProcess _ _ _ _, OProcess request (Ok (AOk _ _))) => exists k, presents request k value
  | (SParse _ request, OParse (Ok (PReq _))) =>
      (dget "grant_type" request = Some (VStr "authorization_code") /\ dget "authorization_code" (sy_helpers y) = Some HCode /\
       dget "code" request = Some (VStr value)) \/
      (dget "grant_type" request = Some (VStr "refresh_token") /\ dget "refresh_token" (sy_helpers y) = Some HRefresh /\
       dget "refresh_token" request = Some (VStr value))
  | (SUserinfo _ request, OInfo (Ok (AOk _ _))) => dget "access_token" request = Some (VStr value)
  | (SIntrospect _ _ request, OInfo (Ok (AOk args _))) => dget "token" request = Some (VStr value) /\ dget "active" args = Some (VBool true)
  | _ => False
  end.

(** The ids that are drawn for new sessions *)
Definition new_id (o : call) : list string :=
  match o with SAuthorize e _ _ (inr _) => [SetupAuth.au_newid e] | _ => [] end.
(** Token values contain no blank. *)
Definition plain_values (o : call) : Prop :=
  match o with
  | SAuthorize _ az _ _ => mint_ok (az_code az) /\ mint_ok (az_access az)
  | SProcess m1 m2 _ _ => mint_ok m1 /\ mint_ok m2
  | _ => True
  end.
(** The call looks at the clock not before [c0]. *)
Definition call_after (c0 : Z) (o : call) : Prop :=
  match o with
  | SParse clock _ | SUserinfo clock _ | SIntrospect clock _ _ => c0 <= clock
  | SProcess m1 m2 _ _ => c0 <= mt_clock m1 /\ c0 <= mt_clock m2
  | _ => True
  end.

(** The call gave tokens for this value. *)
Definition exchanged (value : string) (h : call * outcome) : Prop :=
  exists m1 m2 ir n request args cid k, h = (SProcess m1 m2 ir n, OProcess request (Ok (AOk args cid))) /\ presents request k value.
(** Any state reached from an empty one, with what has happened, when every new session gets an id that was not used before *)
Definition life (y : setup_of) (s : sys) (p : past) : Prop :=
  exists clients l, Forall call_ok l /\ Forall plain_values l /\ NoDup (flat_map new_id l) /\ srun y l (fresh clients) [] = (s, p).
(** Calls that come later, none of which opens a session with the id [gid] again *)
Definition later (gid : string) (l : list call) : Prop := Forall call_ok l /\ Forall plain_values l /\ ~ In gid (flat_map new_id l).

(** DoorLastingSpec.v: what is said of a token over all received requests. *)
From Verif Require Import Base Monad Types SessionKey Token Grant Database Manager ManagerSpec Ctx World Minting ClientAuthn TokenEndpoint WorldSpec
  AuthzRequest AuthzEndpoint System SystemSpec Fronts FrontsSpec AuthzFront Door DoorSpec.
From Verif Require UserInfo UserinfoFront UserinfoFrontSpec SetupAuth.
Local Open Scope Z_scope.

(** The token endpoint has answered the received request with tokens, for this value. *)
Definition dexchanged (y : setup_of) (value : string) (h : knock * astate) : Prop :=
  exists gt clock m1 m2 ir rq auth args cid f kind, fst h = KToken gt clock m1 m2 ir rq auth /\
    token_at y gt clock m1 m2 ir rq auth (as_front (snd h)) = (Ok (UserInfo.AOk args cid), f) /\ presents rq kind value.
(** ... as a code *)
Definition dredeemed (y : setup_of) (code : string) (h : knock * astate) : Prop :=
  exists gt clock m1 m2 ir rq auth args cid f, fst h = KToken gt clock m1 m2 ir rq auth /\
    token_at y gt clock m1 m2 ir rq auth (as_front (snd h)) = (Ok (UserInfo.AOk args cid), f) /\ presents rq CCode code.

(** At least [n] elements of a list have a property. *)
Inductive at_least {X : Type} (P : X -> Prop) : nat -> list X -> Prop :=
| al_none l : at_least P 0 l
| al_yes n x l : P x -> at_least P n l -> at_least P (S n) (x :: l)
| al_no n x l : at_least P n l -> at_least P n (x :: l).

(** This bearer token and no other comes with the request. *)
Definition brings (gt : gate) (rq : msg) (auth : authz_data) (value : string) : Prop :=
  UserinfoFrontSpec.presented (gt_ep gt) rq auth value /\ forall v, UserinfoFrontSpec.presented (gt_ep gt) rq auth v -> v = value.
(** The received request was a success for whoever came with this value: tokens were given for it, claims were released for it, or
    it was said to be active. *)
Definition dhonours (y : setup_of) (value : string) (h : knock * astate) : Prop :=
  dexchanged y value h \/
  (exists gt clock rq auth args c how f, fst h = KUserinfo gt clock rq auth /\ brings gt rq auth value /\
     userinfo_at y gt clock rq auth (as_front (snd h)) = (Ok (UserinfoFront.UClaims args c how), f)) \/
  (exists gt clock un rq auth args f, fst h = KIntrospect gt clock un rq auth /\ dget "token" rq = Some (VStr value) /\
     introspection_request (sy_sid_of y) (sy_cx y) gt clock un rq auth (as_front (snd h)) = (Ok (IAnswer args), f) /\
     dget "active" args = Some (VBool true)).

(** The ids that are drawn for new sessions *)
Definition door_id (k : knock) : list string :=
  match k with KAuthorize _ _ _ _ e _ _ _ => [SetupAuth.au_newid e] | _ => [] end.
(** Token values contain no blank. *)
Definition door_values (k : knock) : Prop :=
  match k with
  | KAuthorize _ _ _ _ _ az _ _ => mint_ok (az_code az) /\ mint_ok (az_access az)
  | KToken _ _ m1 m2 _ _ _ => mint_ok m1 /\ mint_ok m2
  | _ => True
  end.
(** The clock is not before [c0]. *)
Definition door_after (c0 : Z) (k : knock) : Prop :=
  match k with
  | KToken _ clock m1 m2 _ _ _ => c0 <= clock /\ c0 <= mt_clock m1 /\ c0 <= mt_clock m2
  | KUserinfo _ clock _ _ | KIntrospect _ clock _ _ _ => c0 <= clock
  | _ => True
  end.
(** The check of introspection requests keeps what is read, too. *)
Definition door_checks (k : knock) : Prop := match k with KIntrospect gt _ _ _ _ => keeps (gt_check gt) | _ => True end.

(** What arrives one after the other: the state after it, and all of it with the states found, the last one first *)
Fixpoint drun (y : setup_of) (l : list knock) (a : astate) (dp : dpast) : astate * dpast :=
  match l with [] => (a, dp) | k :: l' => drun y l' (dstep y k a) ((k, a) :: dp) end.
Fixpoint knocks_ok (y : setup_of) (l : list knock) (a : astate) : Prop :=
  match l with [] => True | k :: l' => knock_ok k a /\ door_checks k /\ door_values k /\ knocks_ok y l' (dstep y k a) end.
(** The whole life of a provider: at the beginning there are no sessions, and every new session gets an id that was not used before. *)
Definition dlife (y : setup_of) (a : astate) (dp : dpast) : Prop :=
  exists clients jti pushed l, let a0 := mkAS (mkFS (mkW [] clients) jti) pushed in
    knocks_ok y l a0 /\ NoDup (flat_map door_id l) /\ drun y l a0 [] = (a, dp).

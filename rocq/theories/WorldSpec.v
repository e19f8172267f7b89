(** WorldSpec.v: histories of the provider: session manager calls, tokens minted by the authorization
    endpoint, requests parsed and processed by the token endpoint. *)
From Verif Require Import Base Monad Types SessionKey Token Grant GrantSpec GrantProofs Database DatabaseSpec
  Manager ManagerSpec Ctx UserInfo World Minting TokenEndpoint.
Local Open Scope Z_scope.

(** ** Histories *)
Section History.
  Variable sid_of : string -> result string.
  Variable b64hash : string -> string -> string.
  Variable cx : ctx.
  Variable make_id_token : store -> string -> ST cdb string.
  Variable sharing : bool.
  Variable helpers : dict helper.
  Variable with_pkce : bool.

  (** One call. A request is processed after it was parsed, at any later time and as often as one likes:
      [n] counts the requests accepted so far. *)
  Inductive wop :=
  | WManager (op : mop)
  | WParse (clock : Z) (request : msg)
  | WProcess (m1 m2 : minting) (issue_refresh : option bool) (n : nat)
  | WMint (mt : minting) (u c g : string) (ttype : string) (based_on : option string)
  | WOutside (f : world -> world).   (* anything else, see [wop_ok] *)

  Record hist := mkH { h_world : world; h_accepted : list msg }.
  (** A request processed by the token endpoint, the clock at the time, and the outcome *)
  Record event := mkEv { ev_clock : Z; ev_request : msg; ev_answer : result answer }.

  Definition authz_mint (mt : minting) (u c g ttype : string) (based_on : option string) : W unit :=
    gr <-- in_db (get_grant (session_key [u; c; g])) ;;
    endpoint_mint cx mt (session_key [u; c; g]) gr ttype
      (match based_on with Some v => get_token v gr | None => None end) ;;;
    ret tt.

  Definition hstep (op : wop) (h : hist) : hist * list event :=
    match op with
    | WManager op => (mkH (snd (in_db (mstep sharing op) (h_world h))) (h_accepted h), [])
    | WParse clock request =>
        match in_db (token_parse sid_of b64hash helpers with_pkce clock request) (h_world h) with
        | (Ok (PReq rq), w) => (mkH w (h_accepted h ++ [rq]), [])
        | (_, w) => (mkH w (h_accepted h), [])
        end
    | WProcess m1 m2 issue_refresh n =>
        match nth_error (h_accepted h) n with
        | Some rq =>
            let (r, w) := token_process sid_of cx make_id_token sharing helpers m1 m2 issue_refresh (PReq rq) (h_world h) in
            (mkH w (h_accepted h), [mkEv (mt_clock m1) rq r])
        | None => (h, [])
        end
    | WMint mt u c g ttype based_on =>
        (mkH (snd (authz_mint mt u c g ttype based_on (h_world h))) (h_accepted h), [])
    | WOutside f => (mkH (f (h_world h)) (h_accepted h), [])
    end.
  Fixpoint hrun (ops : list wop) (h : hist) : hist * list event :=
    match ops with
    | [] => (h, [])
    | op :: ops' => let (h1, e1) := hstep op h in let (h2, e2) := hrun ops' h1 in (h2, e1 ++ e2)
    end.
End History.

(** A successful token response for this code *)
Definition redeems (code : string) (e : event) : bool :=
  match dget "grant_type" (ev_request e), dget "code" (ev_request e), ev_answer e with
  | Some (VStr gt), Some (VStr raw), Ok (AOk _ _) =>
      String.eqb gt "authorization_code" && String.eqb (blank_to_plus raw) code
  | _, _, _ => false
  end.
(** A successful token response for this refresh token *)
Definition refreshes (value : string) (e : event) : bool :=
  match dget "grant_type" (ev_request e), dget "refresh_token" (ev_request e), ev_answer e with
  | Some (VStr gt), Some (VStr raw), Ok (AOk _ _) =>
      String.eqb gt "refresh_token" && String.eqb raw value
  | _, _, _ => false
  end.

(** ** What is assumed of the surroundings *)
(** The session ids in token values are those the session manager made, of unambiguous names. *)
Definition sids_ok (sid_of : string -> result string) : Prop :=
  forall v sid, sid_of v = Ok sid ->
    exists u c g, good u /\ good c /\ good g /\ sid = session_key [u; c; g].
(** Token values contain no blank (they are base64 or JWTs). *)
Definition mint_ok (mt : minting) : Prop :=
  forall sid payload v, mt_value mt sid payload = Ok v -> blank_to_plus v = v.

(** A token as the grant makes them: a code can be used once. *)
Definition sound_token (t : token) : Prop :=
  (t_class t = CCode -> ur_max_usage (t_rules t) = Some 1) /\ blank_to_plus (t_value t) = t_value t /\ 0 <= t_used t.
(** What a grant may turn into: tokens stay, in order, with their properties; usage counts do not
    go down, revoked tokens stay revoked; sound tokens are added. The authorization request stays, and a
    revoked grant stays revoked. *)
Definition grows (g g' : grant) : Prop :=
  g_authreq g' = g_authreq g /\ (g_revoked g = true -> g_revoked g' = true) /\
  exists old new, g_issued g' = old ++ new /\ Forall2 same_core (g_issued g) old /\ Forall sound_token new.

(** Operations on other grants than [gid], or on [gid] without re-creating it. Writing a grant back
    (what other endpoints do) may not undo usage or revocation. *)
Definition mop_ok (gid : string) (op : mop) : Prop :=
  good (op_user op) /\ good (op_client op) /\ good (op_grant op) /\ ~ makes op gid /\
  match op with
  | OAddGrant _ _ gr => Forall sound_token (g_issued gr)
  | OWrite _ _ _ f => forall gr, grows gr (f gr)
  | _ => True
  end.
(** What anything else may do to the store: grants turn into what they may turn into, and new ones come, but not as [gid]. *)
Definition comes_along (gid : string) (s s' : store) : Prop :=
  forall k g', dget k s' = Some (EGrant g') ->
    (exists g, dget k s = Some (EGrant g) /\ grows g g') \/
    ((exists u c g, good u /\ good c /\ good g /\ g <> gid /\ k = session_key [u; c; g]) /\ Forall sound_token (g_issued g')).
Definition wop_ok (gid : string) (op : wop) : Prop :=
  match op with
  | WManager op => mop_ok gid op
  | WParse _ _ => True
  | WProcess m1 m2 _ _ => mint_ok m1 /\ mint_ok m2
  | WMint mt u c g _ _ => mint_ok mt /\ good u /\ good c /\ good g
  | WOutside f => forall w, comes_along gid (w_db w) (w_db (f w))
  end.
(** All the tokens in the store are sound. *)
Definition sound_store (s : store) : Prop :=
  forall k g, dget k s = Some (EGrant g) -> Forall sound_token (g_issued g).

(** The times at which an operation looks at the clock *)
Definition wop_after (c0 : Z) (op : wop) : Prop :=
  match op with
  | WManager _ => True
  | WParse clock _ => c0 <= clock
  | WProcess m1 m2 _ _ => c0 <= mt_clock m1 /\ c0 <= mt_clock m2
  | WMint mt _ _ _ _ _ => c0 <= mt_clock mt
  | WOutside _ => True
  end.

(** A token that can never be used again from this time on: revoked, expired or used up *)
Definition dead (clock : Z) (t : token) : Prop :=
  t_revoked t = true \/
  (t_expires_at t <> 0 /\ t_expires_at t < clock) \/
  (exists n, ur_max_usage (t_rules t) = Some n /\ n <= t_used t).

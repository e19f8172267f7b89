(** PropsRefusal.v: C102, token requests that are not served. *)
From Verif Require Import Base Monad Types SessionKey Token Grant GrantSpec GrantProofs Database DatabaseSpec DatabaseProofs Manager ManagerProofs Ctx UserInfo
  BaseProofs MonadProofs UserInfoSpec UserInfoProofs World Minting TokenEndpoint WorldSpec ResponseSpec ResponseProofs FlowSpec FlowProofs RefusalSpec PropsClaims PropsTokenEndpoint PropsAuthzEndpoint PropsFlow.
Local Open Scope Z_scope.

Lemma get_token_at value l1 t l2 g : g_issued g = l1 ++ t :: l2 -> t_value t = value -> ~ In value (map t_value l1) -> get_token value g = Some t.
Proof.
  intros Is Tv Ni. unfold get_token. rewrite Is. rewrite <- Tv in *. clear Is Tv value. revert Ni.
  enough (X : forall l, ~ In (t_value t) (map t_value l) -> find (fun x => String.eqb (t_value x) (t_value t)) (l ++ t :: l2) = Some t) by apply X.
  induction l as [|a l IH]; cbn; intros N; [now rewrite String.eqb_refl|].
  destruct (String.eqb_spec (t_value a) (t_value t)); [destruct N; auto|]. apply IH. tauto.
Qed.
Lemma get_token_no value g : ~ In value (map t_value (g_issued g)) -> get_token value g = None.
Proof.
  unfold get_token. induction (g_issued g) as [|a l IH]; cbn; intros N; [reflexivity|].
  destruct (String.eqb_spec (t_value a) value); [destruct N; auto|]. apply IH. tauto.
Qed.

Section Parse.
  Context (sid_of : string -> result string) (b64hash : string -> string -> string).

  Lemma parse_code helpers pkce clock (request : msg) r s :
    dget "grant_type" request = Some (VStr "authorization_code") -> dget "authorization_code" helpers = Some HCode ->
    code_parse sid_of clock request s = (r, s) -> (forall rq, r <> Ok (PReq rq)) ->
    token_parse sid_of b64hash helpers pkce clock request s = (r, s).
  Proof.
    intros G H E N. unfold token_parse, token_post_parse, bind, lift, msub_str. rewrite G, H, E.
    destruct r as [[rq|e d]|x]; [now destruct (N rq)|reflexivity|reflexivity].
  Qed.
  Lemma parse_refresh helpers pkce clock (request : msg) r s :
    dget "grant_type" request = Some (VStr "refresh_token") -> dget "refresh_token" helpers = Some HRefresh ->
    refresh_parse sid_of clock request s = (r, s) -> (forall rq, r <> Ok (PReq rq)) ->
    token_parse sid_of b64hash helpers pkce clock request s = (r, s).
  Proof.
    intros G H E N. unfold token_parse, token_post_parse, bind, lift, msub_str. rewrite G, H, E.
    destruct r as [[rq|e d]|x]; [now destruct (N rq)|reflexivity|reflexivity].
  Qed.

  (** what the lookup comes to when it fails *)
  Lemma look_raises name (request : msg) v e catches s : dget name request = Some (VStr v) -> sid_of v = Raise e ->
    look sid_of name request catches s = if catches e then (Ok None, s) else (Raise e, s).
  Proof.
    intros D E. unfold look, catch, get_session_info_by_token, bind, lift, msub_str. rewrite D, E. destruct (catches e); reflexivity.
  Qed.
  Lemma look_gone name (request : msg) v u c g e catches s : good u -> good c -> good g ->
    dget name request = Some (VStr v) -> sid_of v = Ok (session_key [u; c; g]) -> fst (db_read [u; c; g] s) = Raise e ->
    look sid_of name request catches s = if catches e then (Ok None, s) else (Raise e, s).
  Proof.
    intros Hu Hc Hg D E R. unfold look, catch, get_session_info_by_token, get_session_info, bind, lift, msub_str, ret.
    rewrite D, E, unpack3_good by assumption. pose proof (db_read_state [u; c; g] s) as St.
    destruct (db_read [u; c; g] s) as [[x|x] s']; cbn in R, St; [discriminate|]. injection R as ->. subst s'. destruct (catches e); reflexivity.
  Qed.
  Lemma no_user s u c g : view s [u] = None -> fst (db_read [u; c; g] s) = Raise EKey.
  Proof.
    rewrite view1. unfold stored, db_read, db_sub, lift, bind, dsub. change (session_key [u]) with u. cbn [eval_path].
    intros ->. reflexivity.
  Qed.
  Lemma unlisted s u c g ui : view s [u] = Some (EInfo ui) -> ~ In c (si_sub ui) -> fst (db_read [u; c; g] s) = Raise EValue.
  Proof.
    rewrite view1. unfold stored, db_read, db_sub, lift, bind, dsub. change (session_key [u]) with u. cbn [eval_path].
    intros -> N. cbn [of_option subordinate]. destruct (smem c (si_sub ui)) eqn:M; [apply smem_In in M; contradiction|reflexivity].
  Qed.
  Lemma unlisted_grant s u c g ci : view s [u; c] = Some (EInfo ci) -> ~ In g (si_sub ci) -> fst (db_read [u; c; g] s) = Raise EValue.
  Proof.
    rewrite view2. unfold stored, db_read, db_sub, lift, bind, dsub, catch. change (session_key [u]) with u. cbn [eval_path].
    destruct (dget u s) as [[ui|]|]; try discriminate. cbn [of_option subordinate]. destruct (smem c (si_sub ui)); [|discriminate]. cbn [negb].
    intros -> N. cbn [of_option subordinate]. destruct (smem g (si_sub ci)) eqn:M; [apply smem_In in M; contradiction|reflexivity].
  Qed.

  Lemma code_parse_eq clock (request : msg) v i g s :
    look sid_of "code" request is_key_or_unknown s = (Ok (Some (v, i)), s) -> in_grant i = Some (EGrant g) ->
    code_parse sid_of clock request s =
    match get_token v g with
    | None => (Ok (PErr "invalid_request" "Wrong token type"), s)
    | Some t =>
        if negb (tclass_eqb (t_class t) CCode) then (Ok (PErr "invalid_request" "Wrong token type"), s)
        else if negb (t_active clock t) then (Ok (PErr "invalid_request" "Code inactive"), s)
        else if dmem "client_id" request then (Ok (PReq request), s)
        else match g_authreq g with
             | None => (Raise EType, s)
             | Some ar => (let* c := dsub "client_id" ar in Ok (PReq (dset "client_id" c request)), s)
             end
    end.
  Proof.
    intros E I. unfold code_parse. rewrite (bind_run _ _ s _ s E). cbv beta iota. unfold bind at 1, grant_of. rewrite I. cbn [as_grant ret]. unfold ret at 1.
    destruct (get_token v g) as [t|]; [|reflexivity]. destruct (negb (tclass_eqb (t_class t) CCode)); [reflexivity|].
    destruct (negb (t_active clock t)); [reflexivity|]. destruct (dmem "client_id" request); [reflexivity|].
    destruct (g_authreq g) as [ar|]; [|reflexivity]. unfold bind, lift. destruct (dsub "client_id" ar); reflexivity.
  Qed.
  Lemma refresh_parse_eq clock (request : msg) v i g s : dget "refresh_token" request = Some (VStr v) ->
    look sid_of "refresh_token" request is_key_error s = (Ok (Some (v, i)), s) -> in_grant i = Some (EGrant g) ->
    refresh_parse sid_of clock request s =
    match get_token v g with
    | None => (Ok (PErr "invalid_request" "Wrong token type"), s)
    | Some t =>
        if negb (tclass_eqb (t_class t) CRefresh) then (Ok (PErr "invalid_request" "Wrong token type"), s)
        else if negb (t_active clock t) then (Ok (PErr "invalid_request" "Refresh token inactive"), s)
        else (Ok (PReq request), s)
    end.
  Proof.
    intros D E I. unfold refresh_parse. unfold dmem. rewrite D. cbn [negb]. rewrite (bind_run _ _ s _ s E). cbv beta iota. unfold bind at 1, grant_of. rewrite I. cbn [as_grant ret]. unfold ret at 1.
    destruct (get_token v g) as [t|]; [|reflexivity]. destruct (negb (tclass_eqb (t_class t) CRefresh)); [reflexivity|].
    destruct (negb (t_active clock t)); reflexivity.
  Qed.
End Parse.

Lemma tclass_neq a b : a <> b -> tclass_eqb a b = false.
Proof. destruct a, b; intros N; try reflexivity; now destruct N. Qed.
Lemma not_active clock t : ~ token_usable clock t -> t_active clock t = false.
Proof. intros N. destruct (t_active clock t) eqn:A; [apply t_active_iff in A; contradiction|reflexivity]. Qed.

Lemma made_err sid_of b64hash cx idt sharing helpers pkce clock m1 m2 ir (request : msg) w e d :
  token_parse sid_of b64hash helpers pkce clock request (w_db w) = (Ok (PErr e d), w_db w) ->
  refused w e (request_made sid_of b64hash cx idt sharing helpers pkce clock m1 m2 ir request w).
Proof. intros E. exists d. unfold request_made. rewrite E. destruct w. reflexivity. Qed.
Lemma made_raise sid_of b64hash cx idt sharing helpers pkce clock m1 m2 ir (request : msg) w e :
  token_parse sid_of b64hash helpers pkce clock request (w_db w) = (Raise e, w_db w) ->
  raised w e (request_made sid_of b64hash cx idt sharing helpers pkce clock m1 m2 ir request w).
Proof. intros E. unfold raised, request_made. rewrite E. destruct w. reflexivity. Qed.

(** C102: what comes with no code, an unknown code, a code whose user is gone, another token or value of the session, or a code that is used up,
    revoked or expired, is answered with an error message, and nothing changes. *)
Theorem C102_code : forall sid_of b64hash cx idt sharing helpers pkce clock m1 m2 ir (request : msg) w,
  dget "grant_type" request = Some (VStr "authorization_code") -> dget "authorization_code" helpers = Some HCode ->
  let answer := request_made sid_of b64hash cx idt sharing helpers pkce clock m1 m2 ir request w in
  (dget "code" request = None -> refused w "invalid_grant" answer) /\
  forall value, dget "code" request = Some (VStr value) ->
  (sid_of value = Raise EUnknownToken -> refused w "invalid_grant" answer) /\
  forall u c g, good u -> good c -> good g -> sid_of value = Ok (session_key [u; c; g]) ->
  (view (w_db w) [u] = None -> refused w "invalid_grant" answer) /\
  forall gr, view (w_db w) [u; c; g] = Some (EGrant gr) ->
  (~ In value (map t_value (g_issued gr)) -> refused w "invalid_request" answer) /\
  forall l1 t l2, g_issued gr = l1 ++ t :: l2 -> t_value t = value -> ~ In value (map t_value l1) ->
  t_class t <> CCode \/ ~ token_usable clock t -> refused w "invalid_request" answer.
Proof.
  intros sid_of b64hash cx idt sharing helpers pkce clock m1 m2 ir request w G H answer.
  assert (Er : forall e d, code_parse sid_of clock request (w_db w) = (Ok (PErr e d), w_db w) -> refused w e answer).
  { intros e d E. apply (made_err _ _ _ _ _ _ _ _ _ _ _ _ _ _ d). eapply parse_code; eauto. discriminate. }
  split.
  { intros N. apply (Er _ "Unknown code"%string). unfold code_parse, look, catch, bind, lift, msub_str. rewrite N. reflexivity. }
  intros value D. split.
  { intros E. apply (Er _ "Unknown code"%string). unfold code_parse, bind. rewrite (look_raises sid_of "code" _ _ _ is_key_or_unknown (w_db w) D E). reflexivity. }
  intros u c g Hu Hc Hg E. split.
  { intros V. apply (Er _ "Unknown code"%string). unfold code_parse, bind.
    rewrite (look_gone sid_of "code" request value u c g EKey is_key_or_unknown (w_db w) Hu Hc Hg D E (no_user _ _ _ _ V)). reflexivity. }
  intros gr V. pose proof (code_parse_eq sid_of clock request _ _ gr _ (look_works sid_of u c g Hu Hc Hg "code" request value gr (w_db w) is_key_or_unknown D E V) eq_refl) as P.
  split.
  { intros N. rewrite get_token_no in P by exact N. eapply Er, P. }
  intros l1 t l2 Is Tv Ni X. rewrite (get_token_at value l1 t l2 gr Is Tv Ni) in P.
  destruct (tclass_eqb (t_class t) CCode) eqn:Cl; cbn [negb] in P; [|eapply Er, P].
  destruct X as [X|X]; [apply tclass_neq in X; congruence|]. rewrite (not_active _ _ X) in P. eapply Er, P.
Qed.
Print Assumptions C102_code.

(** The same for refresh tokens, but for those no handler knows. *)
Theorem C102_refresh_partial : forall sid_of b64hash cx idt sharing helpers pkce clock m1 m2 ir (request : msg) w value,
  dget "grant_type" request = Some (VStr "refresh_token") -> dget "refresh_token" helpers = Some HRefresh ->
  dget "refresh_token" request = Some (VStr value) ->
  let answer := request_made sid_of b64hash cx idt sharing helpers pkce clock m1 m2 ir request w in
  forall u c g, good u -> good c -> good g -> sid_of value = Ok (session_key [u; c; g]) ->
  (view (w_db w) [u] = None -> refused w "invalid_grant" answer) /\
  forall gr, view (w_db w) [u; c; g] = Some (EGrant gr) ->
  (~ In value (map t_value (g_issued gr)) -> refused w "invalid_request" answer) /\
  forall l1 t l2, g_issued gr = l1 ++ t :: l2 -> t_value t = value -> ~ In value (map t_value l1) ->
  t_class t <> CRefresh \/ ~ token_usable clock t -> refused w "invalid_request" answer.
Proof.
  intros sid_of b64hash cx idt sharing helpers pkce clock m1 m2 ir request w value G H D answer u c g Hu Hc Hg E.
  assert (Er : forall e d, refresh_parse sid_of clock request (w_db w) = (Ok (PErr e d), w_db w) -> refused w e answer).
  { intros e d X. apply (made_err _ _ _ _ _ _ _ _ _ _ _ _ _ _ d). eapply parse_refresh; eauto. discriminate. }
  split.
  { intros V. apply (Er _ ""%string). unfold refresh_parse, dmem. rewrite D. cbn [negb]. unfold bind.
    rewrite (look_gone sid_of "refresh_token" request value u c g EKey is_key_error (w_db w) Hu Hc Hg D E (no_user _ _ _ _ V)). reflexivity. }
  intros gr V. pose proof (refresh_parse_eq sid_of clock request _ _ gr _ D (look_works sid_of u c g Hu Hc Hg "refresh_token" request value gr (w_db w) is_key_error D E V) eq_refl) as P.
  split.
  { intros N. rewrite get_token_no in P by exact N. eapply Er, P. }
  intros l1 t l2 Is Tv Ni X. rewrite (get_token_at value l1 t l2 gr Is Tv Ni) in P.
  destruct (tclass_eqb (t_class t) CRefresh) eqn:Cl; cbn [negb] in P; [|eapply Er, P].
  destruct X as [X|X]; [apply tclass_neq in X; congruence|]. rewrite (not_active _ _ X) in P. eapply Er, P.
Qed.
Print Assumptions C102_refresh_partial.

(** Of a refresh token that no handler knows there is an exception: only KeyError is caught (oidc/token.py:283-289). *)
Theorem C102_unknown_refresh_refuted : forall sid_of b64hash cx idt sharing helpers pkce clock m1 m2 ir (request : msg) w value,
  dget "grant_type" request = Some (VStr "refresh_token") -> dget "refresh_token" helpers = Some HRefresh ->
  dget "refresh_token" request = Some (VStr value) -> sid_of value = Raise EUnknownToken ->
  raised w EUnknownToken (request_made sid_of b64hash cx idt sharing helpers pkce clock m1 m2 ir request w).
Proof.
  intros sid_of b64hash cx idt sharing helpers pkce clock m1 m2 ir request w value G H D E.
  apply made_raise. eapply parse_refresh; eauto; [|discriminate]. unfold refresh_parse, dmem. rewrite D. cbn [negb]. unfold bind.
  now rewrite (look_raises sid_of "refresh_token" _ _ _ is_key_error (w_db w) D E).
Qed.
Print Assumptions C102_unknown_refresh_refuted.

(** So is there of a code or refresh token that is an expired JWT ... *)
Theorem C102_too_old_refuted : forall sid_of b64hash cx idt sharing helpers pkce clock m1 m2 ir (request : msg) w value,
  dget "grant_type" request = Some (VStr "authorization_code") /\ dget "authorization_code" helpers = Some HCode /\ dget "code" request = Some (VStr value) \/
  dget "grant_type" request = Some (VStr "refresh_token") /\ dget "refresh_token" helpers = Some HRefresh /\ dget "refresh_token" request = Some (VStr value) ->
  sid_of value = Raise EToOld ->
  raised w EToOld (request_made sid_of b64hash cx idt sharing helpers pkce clock m1 m2 ir request w).
Proof.
  intros sid_of b64hash cx idt sharing helpers pkce clock m1 m2 ir request w value [(G & H & D)|(G & H & D)] E; apply made_raise.
  - eapply parse_code; eauto; [|discriminate]. unfold code_parse, bind. now rewrite (look_raises sid_of "code" _ _ _ is_key_or_unknown (w_db w) D E).
  - eapply parse_refresh; eauto; [|discriminate]. unfold refresh_parse, dmem. rewrite D. cbn [negb]. unfold bind.
    now rewrite (look_raises sid_of "refresh_token" _ _ _ is_key_error (w_db w) D E).
Qed.
Print Assumptions C102_too_old_refuted.

(** ... and of one whose session is gone while another session of the user is there: a ValueError that nobody catches
    (session/database.py:83-84, 94-95). *)
Theorem C102_gone_refuted : forall sid_of b64hash cx idt sharing helpers pkce clock m1 m2 ir (request : msg) w value u c g,
  dget "grant_type" request = Some (VStr "authorization_code") /\ dget "authorization_code" helpers = Some HCode /\ dget "code" request = Some (VStr value) \/
  dget "grant_type" request = Some (VStr "refresh_token") /\ dget "refresh_token" helpers = Some HRefresh /\ dget "refresh_token" request = Some (VStr value) ->
  good u -> good c -> good g -> sid_of value = Ok (session_key [u; c; g]) ->
  (exists ui, view (w_db w) [u] = Some (EInfo ui) /\ ~ In c (si_sub ui)) \/ (exists ci, view (w_db w) [u; c] = Some (EInfo ci) /\ ~ In g (si_sub ci)) ->
  raised w EValue (request_made sid_of b64hash cx idt sharing helpers pkce clock m1 m2 ir request w).
Proof.
  intros sid_of b64hash cx idt sharing helpers pkce clock m1 m2 ir request w value u c g A Hu Hc Hg E X.
  assert (R : fst (db_read [u; c; g] (w_db w)) = Raise EValue).
  { destruct X as [(ui & V & N)|(ci & V & N)]; [eapply unlisted|eapply unlisted_grant]; eauto. }
  destruct A as [(G & H & D)|(G & H & D)]; apply made_raise.
  - eapply parse_code; eauto; [|discriminate]. unfold code_parse, bind. now rewrite (look_gone sid_of "code" request value u c g EValue is_key_or_unknown (w_db w) Hu Hc Hg D E R).
  - eapply parse_refresh; eauto; [|discriminate]. unfold refresh_parse, dmem. rewrite D. cbn [negb]. unfold bind.
    now rewrite (look_gone sid_of "refresh_token" request value u c g EValue is_key_error (w_db w) Hu Hc Hg D E R).
Qed.
Print Assumptions C102_gone_refuted.

(** *** PKCE *)
Lemma ascii_spec s : is_ascii s = true <-> ascii_only s.
Proof.
  unfold is_ascii, ascii_only. rewrite forallb_forall. split; intros H a I; specialize (H a I).
  - apply Nat.ltb_lt in H. unfold nat_of_ascii in H. lia.
  - apply Nat.ltb_lt. unfold nat_of_ascii. lia.
Qed.

(** A code whose authorization request had a challenge comes without a verifier, or with one that does not lead to the challenge: an error message.
    A verifier with a character that is not ASCII makes hashing raise. *)
Theorem C102_verifier_partial : forall sid_of b64hash cx idt sharing helpers clock m1 m2 ir (request : msg) w value u c g gr l1 t l2 ar challenge m,
  dget "grant_type" request = Some (VStr "authorization_code") -> dget "authorization_code" helpers = Some HCode ->
  dget "client_id" request <> None -> dget "code" request = Some (VStr value) ->
  good u -> good c -> good g -> sid_of value = Ok (session_key [u; c; g]) -> view (w_db w) [u; c; g] = Some (EGrant gr) ->
  g_issued gr = l1 ++ t :: l2 -> t_value t = value -> ~ In value (map t_value l1) -> t_class t = CCode -> token_usable clock t ->
  g_authreq gr = Some ar -> dget "code_challenge" ar = Some (VStr challenge) -> dget "code_challenge_method" ar = Some (VStr m) ->
  let answer := request_made sid_of b64hash cx idt sharing helpers true clock m1 m2 ir request w in
  (dget "code_verifier" request = None -> refused w "invalid_grant" answer) /\
  forall v, dget "code_verifier" request = Some (VStr v) ->
  (m = "plain"%string -> v <> challenge -> refused w "invalid_grant" answer) /\
  (In m ["S256"; "S384"; "S512"]%string ->
     (ascii_only v -> b64hash m v <> challenge -> refused w "invalid_grant" answer) /\
     (~ ascii_only v -> raised w EValue answer)).
Proof.
  intros sid_of b64hash cx idt sharing helpers clock m1 m2 ir request w value u c g gr l1 t l2 ar challenge m
    G H Ci D Hu Hc Hg E V Is Tv Ni Cl Us Ar Ch Me answer.
  pose proof (code_parse_eq sid_of clock request _ _ gr _ (look_works sid_of u c g Hu Hc Hg "code" request value gr (w_db w) is_key_or_unknown D E V) eq_refl) as P.
  rewrite (get_token_at value l1 t l2 gr Is Tv Ni) in P. rewrite Cl in P. cbn [tclass_eqb negb] in P. apply t_active_iff in Us. rewrite Us in P. cbn [negb] in P.
  assert (Dm : dmem "client_id" request = true) by (unfold dmem; destruct (dget "client_id" request); congruence). rewrite Dm in P.
  assert (Tp : token_parse sid_of b64hash helpers true clock request (w_db w) = post_token_parse sid_of b64hash request (w_db w)).
  { unfold token_parse, token_post_parse. unfold bind at 1 2. unfold lift, msub_str. rewrite G, H, P. reflexivity. }
  assert (Pp : post_token_parse sid_of b64hash request (w_db w) =
    if negb (dmem "code_verifier" request) then (Ok (PErr "invalid_grant" "Missing code_verifier"), w_db w)
    else (let* v := msub_str "code_verifier" request in let* ok := verify_code_challenge b64hash v challenge m in
          Ok (if ok : bool then PReq request else PErr "invalid_grant" "PKCE check failed"), w_db w)).
  { unfold post_token_parse. rewrite (bind_run _ _ (w_db w) _ (w_db w) (look_works sid_of u c g Hu Hc Hg "code" request value gr (w_db w) is_key_error D E V)).
    cbv beta iota. unfold bind at 1, grant_of. cbn [in_grant as_grant]. unfold ret at 1. rewrite Ar. unfold dmem at 1. rewrite Ch.
    destruct (negb (dmem "code_verifier" request)); [reflexivity|]. unfold bind, lift, ret. unfold msub_str at 1. rewrite Me.
    destruct (msub_str "code_verifier" request) as [vf|]; [|reflexivity]. unfold msub_str at 1. rewrite Ch.
    cbn [rbind]. destruct (verify_code_challenge b64hash vf challenge m); reflexivity. }
  rewrite Pp in Tp. split.
  { intros N. unfold dmem in Tp at 1. rewrite N in Tp. cbn [negb] in Tp. eapply made_err, Tp. }
  intros v Dv. unfold dmem in Tp at 1. unfold msub_str in Tp. rewrite Dv in Tp. cbn [negb rbind] in Tp. unfold verify_code_challenge, cc_method in Tp.
  split.
  - intros -> N. rewrite String.eqb_refl in Tp. cbn [rbind] in Tp. destruct (String.eqb_spec v challenge); [contradiction|]. eapply made_err, Tp.
  - intros I. assert (N : String.eqb m "plain" = false) by (destruct I as [<-|[<-|[<-|[]]]]; reflexivity).
    rewrite N in Tp. apply smem_In in I. rewrite I in Tp. split.
    + intros A Nv. apply ascii_spec in A. rewrite A in Tp. cbn [rbind] in Tp. destruct (String.eqb_spec (b64hash m v) challenge); [contradiction|]. eapply made_err, Tp.
    + intros A. destruct (is_ascii v) eqn:As; [apply ascii_spec in As; contradiction|]. cbn [rbind] in Tp. apply made_raise, Tp.
Qed.
Print Assumptions C102_verifier_partial.

(** *** Processing *)
(** Another address than that of the authorization request: an error message; none at all: an exception. The second is a request that leaves out what
    must be there. *)
Theorem C102_address_partial : forall sid_of cx idt sharing helpers m1 m2 ir (request : msg) w raw u c g gr ar uri,
  dget "grant_type" request = Some (VStr "authorization_code") -> dget "authorization_code" helpers = Some HCode ->
  dget "code" request = Some (VStr raw) ->
  good u -> good c -> good g -> sid_of (blank_to_plus raw) = Ok (session_key [u; c; g]) -> view (w_db w) [u; c; g] = Some (EGrant gr) ->
  g_authreq gr = Some ar -> dget "redirect_uri" ar = Some (VStr uri) ->
  let answer := token_process sid_of cx idt sharing helpers m1 m2 ir (PReq request) w in
  (forall other, dget "redirect_uri" request = Some (VStr other) -> other <> uri -> refused w "invalid_request" answer) /\
  (dget "redirect_uri" request = None -> raised w EKey answer).
Proof.
  intros sid_of cx idt sharing helpers m1 m2 ir request w raw u c g gr ar uri G H D Hu Hc Hg E V Ar Ru answer.
  assert (S : in_db (session_by sid_of (blank_to_plus raw)) w = (Ok (mkSI (session_key [u; c; g]) u c g None None (Some (EGrant gr)) None None, gr), w)).
  { unfold in_db. rewrite (session_by_works sid_of u c g Hu Hc Hg _ _ _ E V). destruct w; reflexivity. }
  assert (X : forall o, dget "redirect_uri" request = o ->
    match o with
    | None => code_process sid_of cx idt m1 m2 ir request w = (Raise EKey, w)
    | Some x => negb (val_eqb x (VStr uri)) = true ->
        code_process sid_of cx idt m1 m2 ir request w = (Ok (AError "invalid_request" "redirect_uri mismatch"), w)
    end).
  { intros o Do.
    assert (C : code_process sid_of cx idt m1 m2 ir request w =
      match o with
      | None => (Raise EKey, w)
      | Some x => if negb (val_eqb x (VStr uri)) then (Ok (AError "invalid_request" "redirect_uri mismatch"), w) else code_process sid_of cx idt m1 m2 ir request w
      end).
    { assert (F : forall o', match o' with Some x => negb (val_eqb x (VStr uri)) = true | None => True end -> o' = o ->
        code_process sid_of cx idt m1 m2 ir request w = match o' with None => (Raise EKey, w) | Some _ => (Ok (AError "invalid_request" "redirect_uri mismatch"), w) end).
      { intros o' Q ->. unfold code_process.
        rewrite (bind_run (lift (msub_str "grant_type" request)) _ w "authorization_code"%string w) by (unfold lift, msub_str; rewrite G; reflexivity).
        cbv beta. change (negb (String.eqb "authorization_code" "authorization_code")) with false. cbv iota. unfold dmem at 1. rewrite D. cbn [negb].
        rewrite (bind_run (lift (msub_str "code" request)) _ w raw w) by (unfold lift, msub_str; rewrite D; reflexivity).
        cbv beta zeta. rewrite (bind_run _ _ w _ w S). cbv beta iota.
        rewrite (bind_run (the_request (g_authreq gr)) _ w ar w) by (rewrite Ar; reflexivity). cbv beta. rewrite Ru.
        destruct o as [x|].
        - erewrite bind_run; [|unfold bind, lift, ret, dsub; rewrite Do; cbn [of_option]; rewrite Q; reflexivity]. reflexivity.
        - unfold bind at 1 2. unfold lift at 1, dsub. rewrite Do. reflexivity. }
      destruct o as [x|]; [|exact (F None I eq_refl)]. destruct (negb (val_eqb x (VStr uri))) eqn:Q; [exact (F (Some x) Q eq_refl)|reflexivity]. }
    destruct o as [x|]; [|exact C]. intros Q. rewrite Q in C. exact C. }
  assert (Tp : answer = bind (code_process sid_of cx idt m1 m2 ir request) (fun a => match a with
            | AError e d => ret (AError e d)
            | AOk args _ => bind (lift (msub_str "access_token" args)) (fun v => bind (in_db (session_by sid_of v)) (fun _ => ret (AOk args None)))
            end) w).
  { unfold answer, token_process. rewrite (bind_run (lift (msub_str "grant_type" request)) _ w "authorization_code"%string w) by (unfold lift, msub_str; rewrite G; reflexivity).
    cbv beta. rewrite H. reflexivity. }
  rewrite Tp. clear Tp.
  split.
  - intros other Do N. specialize (X _ Do). cbn [val_eqb] in X. destruct (String.eqb_spec other uri); [contradiction|]. rewrite (bind_run _ _ w _ w (X eq_refl)). eexists. reflexivity.
  - intros Do. specialize (X _ Do). cbv beta iota in X. unfold bind at 1. rewrite X. reflexivity.
Qed.
Print Assumptions C102_address_partial.

(** *** Blanks in a code *)
Lemma blank_idem s : blank_to_plus (blank_to_plus s) = blank_to_plus s.
Proof. induction s as [|a s IH]; cbn; [reflexivity|]. rewrite IH. destruct (Ascii.eqb a " ") eqn:E; [reflexivity|now rewrite E]. Qed.

(** The processing takes a code with a blank for the code with a plus sign in its place (a form that has been decoded once too often), ... *)
Theorem C102_blanks : forall sid_of cx idt sharing helpers m1 m2 ir (request : msg) w raw,
  dget "grant_type" request = Some (VStr "authorization_code") -> dget "authorization_code" helpers = Some HCode -> dget "code" request = Some (VStr raw) ->
  exists code,
    list_ascii_of_string code = map (fun a => if Ascii.ascii_dec a " " then "+"%char else a) (list_ascii_of_string raw) /\
    token_process sid_of cx idt sharing helpers m1 m2 ir (PReq request) w =
    token_process sid_of cx idt sharing helpers m1 m2 ir (PReq (dset "code" (VStr code) request)) w.
Proof.
  intros sid_of cx idt sharing helpers m1 m2 ir request w raw G H D. exists (blank_to_plus raw). split.
  - clear. induction raw as [|a s IH]; cbn; [reflexivity|]. rewrite IH. f_equal. destruct (Ascii.eqb_spec a " ") as [->|N]; [reflexivity|].
    destruct (Ascii.ascii_dec a " "); [contradiction|reflexivity].
  - set (request' := dset "code" (VStr (blank_to_plus raw)) request).
    assert (O : forall k, k <> "code"%string -> dget k request' = dget k request) by (intros k N; apply dget_dset_neq; congruence).
    assert (D' : dget "code" request' = Some (VStr (blank_to_plus raw))) by apply dget_dset_eq.
    unfold token_process.
    rewrite (bind_run (lift (msub_str "grant_type" request)) _ w "authorization_code"%string w) by (unfold lift, msub_str; rewrite G; reflexivity).
    rewrite (bind_run (lift (msub_str "grant_type" request')) _ w "authorization_code"%string w) by (unfold lift, msub_str; rewrite O, G by discriminate; reflexivity).
    cbv beta. rewrite H.
    enough (X : code_process sid_of cx idt m1 m2 ir request w = code_process sid_of cx idt m1 m2 ir request' w) by (unfold bind at 1; rewrite X; reflexivity).
    unfold code_process.
    rewrite (bind_run (lift (msub_str "grant_type" request)) _ w "authorization_code"%string w) by (unfold lift, msub_str; rewrite G; reflexivity).
    rewrite (bind_run (lift (msub_str "grant_type" request')) _ w "authorization_code"%string w) by (unfold lift, msub_str; rewrite O, G by discriminate; reflexivity).
    cbv beta. change (negb (String.eqb "authorization_code" "authorization_code")) with false. cbv iota. unfold dmem at 1 2. rewrite D, D'. cbn [negb].
    rewrite (bind_run (lift (msub_str "code" request)) _ w raw w) by (unfold lift, msub_str; rewrite D; reflexivity).
    rewrite (bind_run (lift (msub_str "code" request')) _ w (blank_to_plus raw) w) by (unfold lift, msub_str; rewrite D'; reflexivity).
    cbv beta zeta. rewrite blank_idem. unfold dsub. rewrite O by discriminate. reflexivity.
Qed.
Print Assumptions C102_blanks.

(** ... but the parsing has looked the code up as it came (oidc/token.py:180-186), and refused it: what the processing does to blanks is of no use to anybody
    for whom a code is known by its exact characters only. *)
Theorem C102_blank_refuted : forall sid_of b64hash cx idt sharing helpers pkce clock m1 m2 ir (request : msg) w before after,
  dget "grant_type" request = Some (VStr "authorization_code") -> dget "authorization_code" helpers = Some HCode ->
  dget "code" request = Some (VStr (before ++ " " ++ after)%string) -> sid_of (before ++ " " ++ after)%string = Raise EUnknownToken ->
  refused w "invalid_grant" (request_made sid_of b64hash cx idt sharing helpers pkce clock m1 m2 ir request w).
Proof.
  intros sid_of b64hash cx idt sharing helpers pkce clock m1 m2 ir request w before after G H D E.
  destruct (C102_code sid_of b64hash cx idt sharing helpers pkce clock m1 m2 ir request w G H) as [_ X]. exact (proj1 (X _ D) E).
Qed.
Print Assumptions C102_blank_refuted.

(** *** Exceptions and changes in the processing *)
Ltac along H v := match type of H with bind ?m ?k ?s = _ => unfold bind at 1 in H; unfold bind at 1; destruct (m s) as [[v|?] ?]; [|discriminate H] end.

(** The run with an ID Token that is made and the run with one that cannot be made part at the ID Token. *)
Lemma unmade_run sid_of cx idt m1 m2 ir request w x raw i g ar scope args oc w' :
  code_process sid_of cx (fun _ _ => ret x) m1 m2 ir request w = (Ok (AOk args oc), w') ->
  dget "grant_type" request = Some (VStr "authorization_code") -> dget "code" request = Some (VStr raw) ->
  in_db (session_by sid_of (blank_to_plus raw)) w = (Ok (i, g), w) -> g_authreq g = Some ar -> dget "scope" ar = Some (VList scope) -> In (VStr "openid") scope ->
  (forall s sd clients, idt s sd clients = (Raise EServiceError, clients)) ->
  exists d, code_process sid_of cx idt m1 m2 ir request w = (Ok (AError "invalid_request" d), w').
Proof.
  intros H G D S Ar Sco Op F. unfold code_process in H |- *.
  rewrite (bind_run (lift (msub_str "grant_type" request)) _ w "authorization_code"%string w) in H by (unfold lift, msub_str; rewrite G; reflexivity). rewrite (bind_run (lift (msub_str "grant_type" request)) _ w "authorization_code"%string w) by (unfold lift, msub_str; rewrite G; reflexivity).
  cbv beta in H |- *. change (negb (String.eqb "authorization_code" "authorization_code")) with false in H |- *. cbv iota in H |- *. unfold dmem at 1 in H. unfold dmem at 1. rewrite D in H |- *. cbn [negb] in H |- *.
  rewrite (bind_run (lift (msub_str "code" request)) _ w raw w) in H by (unfold lift, msub_str; rewrite D; reflexivity). rewrite (bind_run (lift (msub_str "code" request)) _ w raw w) by (unfold lift, msub_str; rewrite D; reflexivity).
  cbv beta zeta in H |- *. rewrite (bind_run _ _ w _ w S) in H. rewrite (bind_run _ _ w _ w S). cbv beta iota in H |- *.
  rewrite (bind_run (the_request (g_authreq g)) _ w ar w) in H by (rewrite Ar; reflexivity). rewrite (bind_run (the_request (g_authreq g)) _ w ar w) by (rewrite Ar; reflexivity). cbv beta in H |- *.
  along H b. destruct b; [discriminate H|].
  along H p. destruct p as [o g1]. along H at_. along H p. destruct p as [g2 resp]. along H x1. along H x2.
  match type of H with bind _ _ ?s = _ => rename s into wz end.
  rewrite (bind_run (lift (dsub "scope" ar)) _ wz (VList scope) wz) in H by (unfold lift, dsub; rewrite Sco; reflexivity). rewrite (bind_run (lift (dsub "scope" ar)) _ wz (VList scope) wz) by (unfold lift, dsub; rewrite Sco; reflexivity). cbv beta in H |- *.
  assert (O : lift (val_in (VStr "openid") (VList scope)) wz = (Ok true, wz)).
  { unfold lift, val_in. f_equal. f_equal. apply existsb_exists. exists (VStr "openid"). split; [exact Op|reflexivity]. }
  rewrite (bind_run _ _ wz _ wz O) in H. rewrite (bind_run _ _ wz _ wz O).
  unfold add_id_token, bind, catch, id_token_for, gets, in_cdb, ret in H |- *. cbn in H |- *. rewrite F. cbn. inversion H; subst. eexists. destruct wz; reflexivity.
Qed.

(** An ID Token that cannot be signed: the client gets an error message, but the code has been used and there is an access token that nobody gets
    (oidc/token.py:148-162). *)
Theorem C102_id_token_refuted : forall sid_of cx idt sharing helpers m1 m2 ir (request : msg) w code u c g gr t ar scope cli,
  sids_ok sid_of -> good u -> good c -> good g -> kinds_ok (w_db w) -> linked (w_db w) ->
  sid_of code = Ok (session_key [u; c; g]) -> view (w_db w) [u; c; g] = Some (EGrant gr) -> get_token code gr = Some t ->
  ~ In " "%char (list_ascii_of_string code) -> g_authreq gr = Some ar -> claims_asked ar -> dget "scope" ar = Some (VList scope) -> In (VStr "openid") scope ->
  dget c (w_cdb w) = Some cli -> claims_set_up cx cli ->
  token_usable (mt_clock m1) t -> mintable (mt_clock m1) 0 gr -> may_mint t "access_token" -> handles sid_of m1 (session_key [u; c; g]) ->
  ir = Some false -> (forall s sid clients, idt s sid clients = (Raise EServiceError, clients)) ->
  dget "grant_type" request = Some (VStr "authorization_code") -> dget "authorization_code" helpers = Some HCode -> dget "code" request = Some (VStr code) ->
  (dget "redirect_uri" ar = None \/ exists uri, dget "redirect_uri" ar = Some (VStr uri) /\ dget "redirect_uri" request = Some (VStr uri)) ->
  exists d w' gr' issued access,
    token_process sid_of cx idt sharing helpers m1 m2 ir (PReq request) w = (Ok (AError "invalid_request" d), w') /\
    view (w_db w') [u; c; g] = Some (EGrant gr') /\ counted code (g_issued gr) issued /\ same_but_issued gr gr' (issued ++ [access]) /\ t_class access = CAccess.
Proof.
  intros sid_of cx idt sharing helpers m1 m2 ir request w code u c g gr t ar scope cli Hs Hu Hc Hg K L E V T B Ar As Sco Op C St Us Mn My Ha Ri F G H D Ru.
  assert (Bl : blank_to_plus code = code).
  { clear - B. induction code as [|a s IH]; cbn in *; [reflexivity|]. destruct (Ascii.eqb_spec a " ") as [->|N]; [destruct B; auto|]. f_equal. apply IH. tauto. }
  destruct (process_works sid_of cx (fun _ _ => ret "x"%string) u c g Hu Hc Hg sharing helpers m1 m2 ir request code gr t ar scope cli w)
    as (args & w' & gr' & at_ & rest & p & P & _ & _ & _ & Ca & _ & _ & O & _ & _ & Sb & Lr & _ & _); auto.
  { split; assumption. }
  { subst ir. discriminate. }
  { intros _ s gx clients _ Cl. eexists _, _. split; [reflexivity|exact Cl]. }
  subst ir. destruct rest; [|discriminate Lr].
  assert (S : in_db (session_by sid_of (blank_to_plus code)) w = (Ok (mkSI (session_key [u; c; g]) u c g None None (Some (EGrant gr)) None None, gr), w)).
  { unfold in_db. rewrite Bl, (session_by_works sid_of u c g Hu Hc Hg _ _ _ E V). destruct w; reflexivity. }
  destruct (process_success sid_of cx (fun _ _ => ret "x"%string) Hs _ _ _ _ _ _ _ _ _ _ P) as (oc & w1 & Ew & [[_ P1]|[X _]]); [|congruence].
  destruct (unmade_run _ _ idt _ _ _ _ _ _ _ _ _ _ _ _ _ _ P1 G D S Ar Sco Op F) as [d Q].
  destruct (get_token_split _ _ _ T) as (l1 & l2 & Is & Tv & Ni).
  exists d, w1, gr', (upd_first code register_usage (g_issued gr)), at_. split; [|split; [|split; [|split; assumption]]].
  - unfold token_process. rewrite (bind_run (lift (msub_str "grant_type" request)) _ w "authorization_code"%string w) by (unfold lift, msub_str; rewrite G; reflexivity).
    cbv beta. rewrite H, (bind_run _ _ _ _ _ Q). reflexivity.
  - rewrite <- Ew. apply O.
  - exists l1, t, l2. split; [exact Is|]. split; [exact Tv|]. split; [exact Ni|]. rewrite Is. rewrite upd_first_counted by assumption. reflexivity.
Qed.
Print Assumptions C102_id_token_refuted.

(** A grant that has ended (revoked, say, or that has given out all it may): its code is refused by an exception, [None] having no value
    (oidc/token.py:59-76, 138). *)
Theorem C102_ended_refuted : forall sid_of cx idt sharing helpers m1 m2 ir (request : msg) w raw u c g gr ar,
  dget "grant_type" request = Some (VStr "authorization_code") -> dget "authorization_code" helpers = Some HCode -> dget "code" request = Some (VStr raw) ->
  good u -> good c -> good g -> sid_of (blank_to_plus raw) = Ok (session_key [u; c; g]) -> view (w_db w) [u; c; g] = Some (EGrant gr) ->
  g_authreq gr = Some ar ->
  (dget "redirect_uri" ar = None \/ exists uri, dget "redirect_uri" ar = Some (VStr uri) /\ dget "redirect_uri" request = Some (VStr uri)) ->
  kinds_ok (w_db w) -> linked (w_db w) -> ~ grant_usable (mt_clock m1) gr ->
  exists s', token_process sid_of cx idt sharing helpers m1 m2 ir (PReq request) w = (Raise EAttr, mkW s' (w_cdb w)) /\
    forall q, good_path q -> view s' q = view (w_db w) q.
Proof.
  intros sid_of cx idt sharing helpers m1 m2 ir request w raw u c g gr ar G H D Hu Hc Hg E V Ar Ru K L N.
  assert (S : in_db (session_by sid_of (blank_to_plus raw)) w = (Ok (mkSI (session_key [u; c; g]) u c g None None (Some (EGrant gr)) None None, gr), w)).
  { unfold in_db. rewrite (session_by_works sid_of u c g Hu Hc Hg _ _ _ E V). destruct w; reflexivity. }
  assert (Ac : g_active (mt_clock m1) gr = false). { destruct (g_active (mt_clock m1) gr) eqn:A; [apply g_active_iff in A; contradiction|reflexivity]. }
  assert (M : exists s', (endpoint_mint cx m1 (session_key [u; c; g]) gr "access_token" (get_token (blank_to_plus raw) gr) w = (Raise EAttr, mkW s' (w_cdb w)) \/
       endpoint_mint cx m1 (session_key [u; c; g]) gr "access_token" (get_token (blank_to_plus raw) gr) w = (Ok (None, gr), mkW s' (w_cdb w))) /\
     forall q, good_path q -> view s' q = view (w_db w) q).
  { assert (I : forall rules, mint_in cx m1 (session_key [u; c; g]) gr "access_token" (get_token (blank_to_plus raw) gr) rules w = (Ok (None, gr), w)).
    { intros rules. unfold mint_in, mint_token. rewrite Ac. reflexivity. }
    unfold endpoint_mint. rewrite (bind_run _ _ _ _ _ (I _)). cbv beta iota.
    destruct (negb (lifetime (dget "access_token" (gr_types (g_rules gr))) =? 0)).
    - exists (w_db w). split; [left; destruct w; reflexivity|auto].
    - destruct (put_step (w_db w) u c g gr gr (conj K L) Hu Hc Hg V) as [[O1 O2] _].
      assert (St := db_store3 (w_db w) u c g gr K Hu Hc Hg). exists (snd (db_store [u; c; g] (EGrant gr) (w_db w))). split.
      + right. unfold bind, in_db. rewrite unpack_good by auto with gp. rewrite St. destruct w; reflexivity.
      + intros q Q. destruct (path_dec q [u; c; g]) as [->|Nq]; [rewrite V; exact O1|auto]. }
  destruct M as (s' & M & Vw). exists s'. split; [|exact Vw].
  unfold token_process. rewrite (bind_run (lift (msub_str "grant_type" request)) _ w "authorization_code"%string w) by (unfold lift, msub_str; rewrite G; reflexivity).
  cbv beta. rewrite H. unfold bind at 1.
  enough (X : code_process sid_of cx idt m1 m2 ir request w = (Raise EAttr, mkW s' (w_cdb w))) by (rewrite X; reflexivity).
  unfold code_process.
  rewrite (bind_run (lift (msub_str "grant_type" request)) _ w "authorization_code"%string w) by (unfold lift, msub_str; rewrite G; reflexivity).
  cbv beta. change (negb (String.eqb "authorization_code" "authorization_code")) with false. cbv iota. unfold dmem at 1. rewrite D. cbn [negb].
  rewrite (bind_run (lift (msub_str "code" request)) _ w raw w) by (unfold lift, msub_str; rewrite D; reflexivity).
  cbv beta zeta. rewrite (bind_run _ _ w _ w S). cbv beta iota.
  rewrite (bind_run (the_request (g_authreq gr)) _ w ar w) by (rewrite Ar; reflexivity). cbv beta.
  erewrite (bind_run _ _ w false w).
  2:{ destruct Ru as [R|(uri & R & R1)]; rewrite R; [reflexivity|]. unfold bind, lift, dsub, ret. rewrite R1. cbn [of_option val_eqb]. now rewrite String.eqb_refl. }
  cbv beta iota. change (in_sid (mkSI (session_key [u; c; g]) u c g None None (Some (EGrant gr)) None None)) with (session_key [u; c; g]).
  destruct M as [M|M]; [unfold bind at 1; now rewrite M|]. rewrite (bind_run _ _ _ _ _ M). reflexivity.
Qed.
Print Assumptions C102_ended_refuted.

(** ** Examples *)
Definition made102 (pkce : bool) (w : world) (request : msg) : result answer * world :=
  request_made sid2 hash2 cx1 idt2 false both pkce 2000 (mt2 "at9") (mt2 "rt9") None request w.
(** Each refused for one reason only: the request as it is is served (see C14_ex), in this very state. *)
Example C102_ex_code :
  (exists args w', made102 true (w2 ar3) (PropsTokenEndpoint.code_request "c1") = (Ok (AOk args None), w')) /\
  refused (w2 ar3) "invalid_grant" (made102 true (w2 ar3) (ddel "code" (PropsTokenEndpoint.code_request "c1"))) /\
  refused (w2 ar3) "invalid_grant" (made102 true (w2 ar3) (dset "code" (VStr "guess") (PropsTokenEndpoint.code_request "c1"))) /\
  refused (w2 ar3) "invalid_request" (made102 true (w2 ar3) (dset "code" (VStr "at9") (PropsTokenEndpoint.code_request "c1"))) /\
  refused (w2 ar3) "invalid_request" (made102 true (w2 ar3) (dset "code" (VStr "rt1") (PropsTokenEndpoint.code_request "c1"))) /\
  refused (w2 ar3) "invalid_grant" (made102 true (w2 ar3) (ddel "code_verifier" (PropsTokenEndpoint.code_request "c1"))) /\
  refused (w2 ar3) "invalid_grant" (made102 true (w2 ar3) (dset "code_verifier" (VStr "guess") (PropsTokenEndpoint.code_request "c1"))) /\
  raised (w2 ar3) EValue (made102 true (w2 ar3) (dset "code_verifier" (VStr (String (Ascii.ascii_of_nat 229) "")) (PropsTokenEndpoint.code_request "c1"))) /\
  refused (w2 ar3) "invalid_request" (made102 true (w2 ar3) (dset "redirect_uri" (VStr "https://rp.example.org/other") (PropsTokenEndpoint.code_request "c1"))) /\
  raised (w2 ar3) EKey (made102 true (w2 ar3) (ddel "redirect_uri" (PropsTokenEndpoint.code_request "c1"))) /\
  refused (mkW [] clients1) "invalid_grant" (made102 true (mkW [] clients1) (PropsTokenEndpoint.code_request "c1")) /\
  raised (mkW [("diana", EInfo (mkSInfo SUser (Some "diana") [] false []))]%string clients1) EValue
    (made102 true (mkW [("diana", EInfo (mkSInfo SUser (Some "diana") [] false []))]%string clients1) (PropsTokenEndpoint.code_request "c1")).
Proof.
  split; [eexists _, _; vm_compute; reflexivity|].
  do 10 (split; [first [eexists; vm_compute; reflexivity|vm_compute; reflexivity]|]). vm_compute. reflexivity.
Qed.
Example C102_ex_refresh :
  (exists args w', made102 false (w2 ar2) (PropsTokenEndpoint.refresh_request "c1") = (Ok (AOk args None), w')) /\
  refused (w2 ar2) "invalid_request" (made102 false (w2 ar2) (dset "refresh_token" (VStr "at9") (PropsTokenEndpoint.refresh_request "c1"))) /\
  refused (w2 ar2) "invalid_request" (made102 false (w2 ar2) (dset "refresh_token" (VStr "code1") (PropsTokenEndpoint.refresh_request "c1"))) /\
  raised (w2 ar2) EUnknownToken (made102 false (w2 ar2) (dset "refresh_token" (VStr "guess") (PropsTokenEndpoint.refresh_request "c1"))) /\
  refused (mkW [] clients1) "invalid_grant" (made102 false (mkW [] clients1) (PropsTokenEndpoint.refresh_request "c1")).
Proof.
  split; [eexists _, _; vm_compute; reflexivity|].
  do 3 (split; [first [eexists; vm_compute; reflexivity|vm_compute; reflexivity]|]). eexists. vm_compute. reflexivity.
Qed.

(** The ID Token cannot be made, all else is well. *)
Definition ar102 : msg := [("client_id", VStr "c1"); ("redirect_uri", VStr "https://rp.example.org/cb"); ("scope", vstrs ["openid"])]%string.
Definition w102 (g : grant) : world := mkW (snd (db_store ["diana"; "c1"; "g1"]%string (EGrant g) [])) [("c1", cli81)]%string.
Example C102_ex_kinds g : kinds_ok (w_db (w102 g)) /\ linked (w_db (w102 g)).
Proof.
  assert (H : good "diana" /\ good "c1" /\ good "g1") by (split; [good_tac|]; split; good_tac). destruct H as (A & B & C).
  split; [apply kinds_store3|apply linked_store3]; auto using kinds_empty, linked_empty.
Qed.
Example C102_ex_id_token : exists d w' gr' issued access,
  token_process sid2 cx7 (fun _ _ => raise EServiceError) false both (mt2 "at9") (mt2 "rt9") (Some false) (PReq (PropsTokenEndpoint.code_request "c1")) (w102 (gr2 ar102)) =
    (Ok (AError "invalid_request" d), w') /\
  view (w_db w') ["diana"; "c1"; "g1"]%string = Some (EGrant gr') /\ counted "code1" (g_issued (gr2 ar102)) issued /\
  same_but_issued (gr2 ar102) gr' (issued ++ [access]) /\ t_class access = CAccess.
Proof.
  eapply (C102_id_token_refuted sid2 cx7 _ false both (mt2 "at9") (mt2 "rt9") (Some false) _ (w102 (gr2 ar102)) "code1" "diana" "c1" "g1" (gr2 ar102)
    (tk CCode "authorization_code" "code1" code_rules) ar102 [VStr "openid"]); try reflexivity.
  - apply sid2_ok.
  - good_tac.
  - good_tac.
  - good_tac.
  - apply C102_ex_kinds.
  - apply C102_ex_kinds.
  - cbn. intuition discriminate.
  - now left.
  - now left.
  - exact C81_ex_claims.
  - apply t_active_iff. reflexivity.
  - apply g_active_iff. reflexivity.
  - eexists. split; [reflexivity|]. now left.
  - intros p. exists "at9"%string. split; reflexivity.
  - right. eexists. split; reflexivity.
Qed.
(** The session has been logged out. *)
Example C102_ex_ended : let gr := g_set_revoked true (gr2 ar102) in
  exists s', token_process sid2 cx7 idt2 false both (mt2 "at9") (mt2 "rt9") None (PReq (PropsTokenEndpoint.code_request "c1")) (w102 gr) =
      (Raise EAttr, mkW s' (w_cdb (w102 gr))) /\ forall q, good_path q -> view s' q = view (w_db (w102 gr)) q.
Proof.
  intros gr. eapply (C102_ended_refuted sid2 cx7 idt2 false both (mt2 "at9") (mt2 "rt9") None _ (w102 gr) "code1" "diana" "c1" "g1" gr ar102); try reflexivity.
  - good_tac.
  - good_tac.
  - good_tac.
  - right. eexists. split; reflexivity.
  - apply C102_ex_kinds.
  - apply C102_ex_kinds.
  - intros (R & _). discriminate R.
Qed.
(** A code with a blank *)
Example C102_ex_blank :
  let request := [("grant_type", VStr "authorization_code"); ("code", VStr "a b"); ("redirect_uri", VStr "https://rp.example.org/cb"); ("client_id", VStr "c1")]%string in
  let sid_of v := if String.eqb v "a+b" then Ok sid1 else sid2 v in
  let g := g_set_issued [tk CCode "authorization_code" "a+b" code_rules] (gr2 ar102) in
  (exists args w', token_process sid_of cx7 idt2 false both (mt2 "at9") (mt2 "rt9") None (PReq request) (w102 g) = (Ok (AOk args None), w')) /\
  refused (w102 g) "invalid_grant" (request_made sid_of hash2 cx7 idt2 false both false 2000 (mt2 "at9") (mt2 "rt9") None request (w102 g)).
Proof. split; [eexists _, _|eexists]; vm_compute; reflexivity. Qed.

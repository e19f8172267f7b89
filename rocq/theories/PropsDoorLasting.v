(** PropsDoorLasting.v: what is over stays over, from the received requests on (C98): C84 with parsing and client authentication before it. *)
From Verif Require Import Base BaseProofs SessionKey SessionKeyProofs Monad MonadProofs Types Token Grant GrantSpec Database DatabaseSpec DatabaseProofs
  Manager ManagerSpec ManagerProofs Ctx UserInfo UserInfoSpec UserInfoProofs World Minting ClientAuthn ClientAuthnSpec TokenEndpoint WorldSpec WorldProofs
  Uri AuthzRequest AuthzEndpoint Logout SetupAuthSpec System SystemSpec SystemProofs LastingSpec LastingProofs Fronts FrontsSpec FrontsProofs AuthzFront
  Door DoorSpec DoorProofs DoorLastingSpec DoorLastingProofs PropsLasting PropsDoor.
From Verif Require UserinfoFront PropsTokenEndpoint.
From Verif Require Import SetupAuth.
Local Open Scope Z_scope.

(** what arrived is a life of the endpoints *)
Lemma dlife_life y a dp : sids_ok (sy_sid_of y) -> dlife y a dp ->
  exists s p, life y s p /\ ss_world s = fs_world (as_front a) /\ forall v n, at_least (dredeemed y v) n dp -> (n <= length (filter (redeemed v) p))%nat.
Proof.
  intros Hs (clients & jti & pushed & l & K & Nd & E). cbv zeta in K, E.
  destruct (sim_run y Hs l (mkAS (mkFS (mkW [] clients) jti) pushed) (fresh clients) [] [] eq_refl K) as (l' & W & C & V & N & _ & _ & q & dq & Q & D & _ & _ & R).
  rewrite E in W, D. cbn [fst snd] in W, D. rewrite app_nil_r in Q, D. subst dq.
  exists (fst (srun y l' (fresh clients) [])), (snd (srun y l' (fresh clients) [])). split; [exists clients, l'; split; [exact C|]; split; [exact V|]; split; [auto|apply surjective_pairing]|].
  split; [exact W|]. rewrite Q. exact R.
Qed.

(** ** C98 *)
(** In the whole life of a provider at most one received token request with this code is answered with tokens. *)
Theorem C98_code_once : forall y a dp code, sids_ok (sy_sid_of y) -> dlife y a dp -> ~ at_least (dredeemed y code) 2 dp.
Proof.
  intros y a dp code Hs L H. destruct (dlife_life y a dp Hs L) as (s & p & Lf & _ & R). pose proof (C84_code_once y s p code Hs Lf). specialize (R _ _ H). lia.
Qed.
Print Assumptions C98_code_once.

(** The state between the parsing and the processing of a received token request *)
Lemma token_life y a dp gt clock m1 m2 ir rq auth args cid f : sids_ok (sy_sid_of y) -> dlife y a dp -> keeps (gt_check gt) ->
  token_at y gt clock m1 m2 ir rq auth (as_front a) = (Ok (AOk args cid), f) ->
  exists s p n rq1 s', life y s p /\ w_db (ss_world s) = sessions_of a /\ sstep y (SProcess m1 m2 ir n) s = (s', OProcess rq1 (Ok (AOk args cid))) /\
    forall j, In j read_members -> dget j rq1 = dget j rq.
Proof.
  intros Hs L Hk E. destruct (dlife_life y a dp Hs L) as (s & p & (clients & l & C & V & N & R) & W & _).
  destruct (token_calls y Hs _ _ _ _ _ _ _ _ _ _ Hk E) as (db & [[_ X]|(m & rq1 & Ep & Et & Mb)]); [now destruct (X args cid)|].
  set (l' := [SClients (fun _ => db); SParse clock m]).
  assert (Z : srun y l' s p = (mkSys (mkW (sessions_of a) db) (ss_accepted s ++ [rq1]), [(SParse clock m, OParse (Ok (PReq rq1))); (SClients (fun _ => db), ONothing)] ++ p)).
  { unfold l'. cbn [srun sstep fst snd ss_world ss_accepted]. rewrite W. unfold in_db. cbn [w_db w_cdb]. rewrite Ep. reflexivity. }
  exists (mkSys (mkW (sessions_of a) db) (ss_accepted s ++ [rq1])), ([(SParse clock m, OParse (Ok (PReq rq1))); (SClients (fun _ => db), ONothing)] ++ p), (length (ss_accepted s)), rq1.
  eexists. split.
  { exists clients, (l ++ l'). split; [apply Forall_app; split; [exact C|repeat constructor]|]. split; [apply Forall_app; split; [exact V|repeat constructor]|].
    split; [rewrite flat_map_app; cbn [l' flat_map new_id app]; now rewrite app_nil_r|]. rewrite srun_app, R. exact Z. }
  split; [reflexivity|]. split; [|exact Mb]. cbn [sstep ss_accepted ss_world]. rewrite nth_error_app2, Nat.sub_diag by lia. cbn [nth_error]. unfold sessions_of. rewrite Et. reflexivity.
Qed.
Lemma presents_rev (rq rq' : msg) k v : (forall j, In j read_members -> dget j rq' = dget j rq) -> presents rq k v -> presents rq' k v.
Proof. intros E. apply presents_same. intros j I. symmetry. auto. Qed.

(** What the token endpoint takes for a code is a code of a session that can still be used, and what it takes for a refresh token is a refresh token of one. *)
Theorem C98_kind : forall y a dp gt clock m1 m2 ir rq auth args cid f k v,
  sids_ok (sy_sid_of y) -> dlife y a dp -> keeps (gt_check gt) -> mint_ok m1 -> mint_ok m2 ->
  token_at y gt clock m1 m2 ir rq auth (as_front a) = (Ok (AOk args cid), f) -> presents rq k v ->
  exists u c gr t, names (sy_sid_of y) (sessions_of a) v u c gr t /\ t_class t = k /\ token_usable (mt_clock m1) t /\ grant_usable (mt_clock m1) gr.
Proof.
  intros y a dp gt clock m1 m2 ir rq auth args cid f k v Hs L Hk M1 M2 E Pr.
  destruct (token_life _ _ _ _ _ _ _ _ _ _ _ _ _ Hs L Hk E) as (s & p & n & rq1 & s' & Lf & W & St & Mb).
  rewrite <- W. exact (C84_kind _ _ _ _ _ _ _ _ _ _ _ _ _ Hs Lf M1 M2 St (presents_rev _ _ _ _ Mb Pr)).
Qed.
Print Assumptions C98_kind.

(** With PKCE on: whoever redeems a code that was asked for with a challenge has sent the verifier. *)
Theorem C98_pkce : forall y a dp gt clock m1 m2 ir rq auth args cid f v u c gr t ar,
  sids_ok (sy_sid_of y) -> dlife y a dp -> keeps (gt_check gt) -> mint_ok m1 -> mint_ok m2 -> sy_pkce y = true ->
  token_at y gt clock m1 m2 ir rq auth (as_front a) = (Ok (AOk args cid), f) -> presents rq CCode v ->
  names (sy_sid_of y) (sessions_of a) v u c gr t -> g_authreq gr = Some ar -> dmem "code_challenge" ar = true ->
  exists verifier challenge m,
    dget "code_verifier" rq = Some (VStr verifier) /\ dget "code_challenge" ar = Some (VStr challenge) /\
    dget "code_challenge_method" ar = Some (VStr m) /\
    ((m = "plain"%string /\ verifier = challenge) \/ (In m ["S256"; "S384"; "S512"]%string /\ sy_b64hash y m verifier = challenge)).
Proof.
  intros y a dp gt clock m1 m2 ir rq auth args cid f v u c gr t ar Hs L Hk M1 M2 Hp E Pr Nm Ea Ec.
  destruct (token_life _ _ _ _ _ _ _ _ _ _ _ _ _ Hs L Hk E) as (s & p & n & rq1 & s' & Lf & W & St & Mb). rewrite <- W in Nm.
  destruct (C84_pkce _ _ _ _ _ _ _ _ _ _ _ _ _ _ _ _ _ Hs Lf M1 M2 Hp St (presents_rev _ _ _ _ Mb Pr) Nm Ea Ec) as (verifier & challenge & m & V & R).
  exists verifier, challenge, m. split; [|exact R]. rewrite <- V. symmetry. apply Mb. cbn. auto 10.
Qed.
Print Assumptions C98_pkce.

(** Where every authorization request needs a challenge and PKCE is on at the token endpoint: whoever redeems a code has sent the verifier of
    the challenge of a request with which the user of the session had come. *)
Definition needs_challenge (dp : dpast) : Prop := forall h gt re oidc pk e az rq auth,
  In h dp -> fst h = KAuthorize gt re oidc pk e az rq auth -> exists k, pk = Some k /\ pk_essential k = true.
Lemma dlife_arrivals y a dp : dlife y a dp -> arrivals y a dp.
Proof.
  intros (clients & jti & pushed & l & K & _ & E). cbv zeta in K, E.
  assert (X : forall l a0 dp0, arrivals y a0 dp0 -> knocks_ok y l a0 -> drun y l a0 dp0 = (a, dp) -> arrivals y a dp).
  { clear. induction l as [|k l IH]; intros a0 dp0 A K E; cbn in *; [injection E as <- <-; exact A|].
    destruct K as (Hk & _ & _ & K). eapply IH; [|exact K|exact E]. now apply ar_step. }
  eapply X; [apply ar_start|exact K|exact E].
Qed.
Lemma understood_challenge gt re oidc k rq auth a m : understood gt re oidc (Some k) rq auth a m -> pk_essential k = true -> dmem "code_challenge" m = true.
Proof.
  intros (rq' & cid & ca & m0 & p & _ & _ & H) E. unfold authz_hooks, bind, ret in H. destruct ((if oidc then parse_authn else parse_authz) _ _ _ _) as [[[err|m1]|x] p1]; try discriminate.
  destruct (post_authn_parse k m1) as [m2|e d] eqn:Ep; [|discriminate]. injection H as -> _.
  destruct (PropsTokenEndpoint.C14_authorization k m1) as [X _]. destruct (X m Ep) as (C & F & _). unfold dmem. rewrite F by discriminate. now apply C.
Qed.
Theorem C98_challenge : forall y a dp gt clock m1 m2 ir rq auth args cid f v,
  sids_ok (sy_sid_of y) -> dlife y a dp -> keeps (gt_check gt) -> mint_ok m1 -> mint_ok m2 -> sy_pkce y = true -> needs_challenge dp ->
  token_at y gt clock m1 m2 ir rq auth (as_front a) = (Ok (AOk args cid), f) -> presents rq CCode v ->
  exists u c g m verifier challenge meth,
    sy_sid_of y v = Ok (session_key [u; c; g]) /\ came_with dp u c g m /\
    dget "code_challenge" m = Some (VStr challenge) /\ dget "code_challenge_method" m = Some (VStr meth) /\ dget "code_verifier" rq = Some (VStr verifier) /\
    ((meth = "plain"%string /\ verifier = challenge) \/ (In meth ["S256"; "S384"; "S512"]%string /\ sy_b64hash y meth verifier = challenge)).
Proof.
  intros y a dp gt clock m1 m2 ir rq auth args cid f v Hs L Hk M1 M2 Hp Nc E Pr.
  destruct (C98_kind _ _ _ _ _ _ _ _ _ _ _ _ _ _ _ Hs L Hk M1 M2 E Pr) as (u & c & gr & t & Nm & _).
  pose proof Nm as (sid & g & Es & U & V & _). destruct (Hs _ _ Es) as (u' & c' & g' & Hu & Hc & Hg & ->).
  rewrite unpack3_good in U by assumption. assert (u' = u /\ c' = c /\ g' = g) as (-> & -> & ->) by (repeat split; congruence).
  destruct (C97_request y a dp u c g gr Hs (dlife_arrivals _ _ _ L) Hu Hc Hg V) as (m & ar & Cw & Ea & Sm).
  assert (Ch : dmem "code_challenge" m = true).
  { destruct Cw as (h & gt' & re & oidc & pk & e & az & rq' & auth' & id & I & K & Un & _). destruct (Nc _ _ _ _ _ _ _ _ _ I K) as (k & -> & Ek).
    eapply understood_challenge; [exact Un|exact Ek]. }
  assert (Ch' : dmem "code_challenge" ar = true) by (unfold dmem in *; now rewrite Sm by discriminate).
  destruct (C98_pkce _ _ _ _ _ _ _ _ _ _ _ _ _ _ _ _ _ _ _ Hs L Hk M1 M2 Hp E Pr Nm Ea Ch') as (verifier & challenge & meth & Hv & Hc' & Hm & R).
  exists u, c, g, m, verifier, challenge, meth. rewrite <- !Sm by discriminate. auto 10.
Qed.
Print Assumptions C98_challenge.

(** A token that is revoked, expired or used up is never again honoured, whatever arrives, as long as the id of its session is not drawn again. *)
Theorem C98_dead : forall y a l value u c gr t clock0,
  sids_ok (sy_sid_of y) -> names (sy_sid_of y) (sessions_of a) value u c gr t -> dead clock0 t -> knocks_ok y l a ->
  (forall gid, sy_sid_of y value = Ok (session_key [u; c; gid]) -> ~ In gid (flat_map door_id l)) -> Forall (door_after clock0) l ->
  forall h, In h (snd (drun y l a [])) -> ~ dhonours y value h.
Proof.
  intros y a l value u c gr t clock0 Hs Nm Dt K Hl Ha h Hi Hh.
  destruct (sim_run y Hs l a (mkSys (fs_world (as_front a)) []) [] [] eq_refl K) as (l' & W & C & V & _ & I & A & q & dq & Q & D & H & _).
  rewrite app_nil_r in D. rewrite D in Hi. destruct (H _ _ Hi Hh) as (h' & I' & Hh').
  destruct (C84_dead y (mkSys (fs_world (as_front a)) []) l' [] value u c gr t clock0 Hs Nm Dt) as (q' & Q' & X).
  - intros gid Es. split; [exact C|]. split; [exact V|]. intros Hg. exact (Hl gid Es (I _ Hg)).
  - now apply A.
  - rewrite app_nil_r in Q, Q'. rewrite Q in Q'. subst q'. exact (X _ I' Hh').
Qed.
Print Assumptions C98_dead.

(** Once a session is revoked, no token is given for any value of it. *)
Theorem C98_revoked : forall y a l value u c gid gr,
  sids_ok (sy_sid_of y) -> good u -> good c -> good gid -> sy_sid_of y value = Ok (session_key [u; c; gid]) ->
  keeps_session a u c gid gr -> g_revoked gr = true -> knocks_ok y l a -> ~ In gid (flat_map door_id l) ->
  forall h, In h (snd (drun y l a [])) -> ~ dexchanged y value h.
Proof.
  intros y a l value u c gid gr Hs Hu Hc Hg Es V0 Rv K Hl h Hi Hh.
  destruct (sim_run y Hs l a (mkSys (fs_world (as_front a)) []) [] [] eq_refl K) as (l' & W & C & V & _ & I & A & q & dq & Q & D & _ & H & _).
  rewrite app_nil_r in D. rewrite D in Hi. destruct (H _ _ Hi Hh) as (h' & I' & Hh').
  destruct (C84_revoked y (mkSys (fs_world (as_front a)) []) l' [] value u c gid gr Hs Hu Hc Hg Es V0 Rv) as (q' & Q' & X).
  - split; [exact C|]. split; [exact V|]. intros Hx. exact (Hl (I _ Hx)).
  - rewrite app_nil_r in Q, Q'. rewrite Q in Q'. subst q'. exact (X _ I' Hh').
Qed.
Print Assumptions C98_revoked.

(** ** The case of C97, and what comes after it *)
From Verif Require Import PropsClientAuthn PropsClaims PropsTokenEndpoint PropsAuthzEndpoint PropsSetupAuth PropsSystem PropsFlow PyUrl PropsFrontFlow.
Definition knocks97 : list knock := [push97; visit97; token97].
Definition wrong98 : knock := KToken (gate95 [Some MBasic; Some MPost]) 2000 (mt2 "at8") (mt2 "rt8") None (dset "code_verifier" (VStr "other") tr81) basic95.
Definition again98 : knock := KToken (gate95 [Some MBasic; Some MPost]) 2050 (mt2 "at9") (mt2 "rt9") None tr81 basic95.
Definition info98 : knock := KUserinfo (gate95 [Some MBearerHeader]) 2100 [] (AuthzStr "Bearer at8").
Definition look98 : knock := KIntrospect (gate95 [Some MBasic]) 2100 false [("token", VStr "at8")]%string basic95.
Definition revoke98 : knock := KRevoke (ORevokeToken 5 "diana" "c1" "g9" "at8" false).
Definition end98 : knock := KRevoke (ORevokeGrant "diana" "c1" "g9").
Lemma visit97_ok : knock_ok visit97 a97_1.
Proof.
  cbn [knock_ok visit97]. intros m U. destruct C97_ex_understood as (m' & U' & E1 & _). pose proof (understood_det _ _ _ _ _ _ _ _ _ U' U). subst m.
  split; [apply good_by; reflexivity|]. split.
  - intros c E. assert (c = "c1"%string) by congruence. subst c. apply good_by; reflexivity.
  - intros id R. rewrite (cookie_recognises _ _ R). split.
    + intros u E. assert (u = "diana"%string) by (cbn in E; congruence). subst u. apply good_by; reflexivity.
    + intros v E. discriminate.
Qed.
Lemma gate95_keeps ms : keeps (gt_check (gate95 ms)).
Proof. intros c m m' E k _. cbn in E. congruence. Qed.
Ltac knocks := repeat match goal with
  | |- _ /\ _ => split
  | |- True => exact I
  | |- mint_ok _ => apply mt2_ok; reflexivity
  | |- keeps _ => apply gate95_keeps
  end.
Example C98_ex_ok : knocks_ok y97 knocks97 a97.
Proof.
  unfold knocks97. cbn [knocks_ok]. pose proof visit97_ok as Hv. unfold a97_1 in Hv.
  split; [exact I|]. split; [exact I|]. split; [exact I|]. split; [exact Hv|]. split; [exact I|].
  split; [cbn [door_values visit97]; split; apply mt2_ok; reflexivity|]. cbn [knock_ok door_checks door_values token97]. knocks.
Qed.
(** Whatever is found when they arrive, these are as they have to be. *)
Example C98_ex_ok_later a : knocks_ok y97 [end98; token97; wrong98; again98; revoke98; info98; look98] a.
Proof.
  cbn [knocks_ok]. unfold end98, token97, wrong98, again98, revoke98, info98, look98. cbn [knock_ok door_checks door_values]. cbn [call_ok].
  knocks; apply good_by; reflexivity.
Qed.
Example C98_ex_life : dlife y97 a97_3 dp97.
Proof.
  exists [("c1", cli95)]%string, [], [], knocks97. cbv zeta. pose proof C98_ex_ok as H. unfold a97 in H. split; [exact H|]. clear H.
  split; [|unfold dp97, a97_3, a97_2, a97_1, a97, knocks97; cbn [drun]; reflexivity].
  unfold knocks97. cbn [flat_map door_id push97 visit97 token97 app]. constructor; [intros []|constructor].
Qed.
(** The code was redeemed, once; what comes with it a second time gets nothing. *)
Example C98_ex_once : at_least (dredeemed y97 "code7") 1 dp97 /\
  exists r f, token_at y97 (gate95 [Some MBasic; Some MPost]) 2050 (mt2 "at9") (mt2 "rt9") None tr81 basic95 (as_front a97_3) = (Ok r, f) /\ forall args cid, r <> AOk args cid.
Proof.
  split.
  - apply al_yes; [|apply al_none]. unfold dredeemed, token97. do 10 eexists. split; [reflexivity|]. split; [vm_compute; reflexivity|].
    left. split; [reflexivity|]. split; [reflexivity|]. exists "code7"%string. split; reflexivity.
  - do 2 eexists. split; [vm_compute; reflexivity|]. discriminate.
Qed.
(** The code is used up; the access token is honoured, until it is revoked. *)
Example C98_ex_dead :
  (exists g t, names (sy_sid_of y97) (sessions_of a97_3) "code7" "diana" "c1" g t /\ dead 0 t) /\
  dhonours y97 "at8" (info98, a97_3) /\ dhonours y97 "at8" (look98, a97_3) /\
  (exists g t, names (sy_sid_of y97) (sessions_of (dstep y97 revoke98 a97_3)) "at8" "diana" "c1" g t /\ dead 0 t) /\
  ~ In "g9"%string (flat_map door_id [info98; look98; again98]) /\ Forall (door_after 2000) [info98; look98; again98].
Proof.
  split; [|split; [|split; [|split; [|split]]]].
  - do 2 eexists. split.
    + exists "diana;;c1;;g9"%string, "g9"%string. split; [reflexivity|]. split; [vm_compute; reflexivity|]. split; [vm_compute; reflexivity|].
      split; [|exists []; eexists; split; [reflexivity|intros []]]. reflexivity.
    + right. right. exists 1. split; [reflexivity|]. cbn. lia.
  - right. left. unfold info98. do 8 eexists. split; [reflexivity|]. split; [|vm_compute; reflexivity]. split.
    + left. split; [cbn; auto|reflexivity].
    + intros v [[_ E]|[[E|[]] _]]; [|discriminate]. cbn in E. congruence.
  - right. right. unfold look98. do 7 eexists. split; [reflexivity|]. split; [reflexivity|]. split; [vm_compute; reflexivity|reflexivity].
  - do 2 eexists. split.
    + exists "diana;;c1;;g9"%string, "g9"%string. split; [reflexivity|]. split; [vm_compute; reflexivity|]. split; [vm_compute; reflexivity|].
      split; [|eexists [_]; eexists; split; [reflexivity|intros [E|[]]; discriminate]]. reflexivity.
    + left. reflexivity.
  - cbn [flat_map door_id info98 look98 again98 app]. intros [].
  - unfold info98, look98, again98. repeat (apply Forall_cons; [cbn [door_after mt2 mt_clock]; lia|]). apply Forall_nil.
Qed.
(** The session is revoked before the code is exchanged: the request that would have been answered gets nothing. *)
Example C98_ex_revoked :
  (exists gr, keeps_session (dstep y97 end98 a97_2) "diana" "c1" "g9" gr /\ g_revoked gr = true) /\ sy_sid_of y97 "code7" = Ok (session_key ["diana"; "c1"; "g9"]%string) /\
  fst (token_at y97 (gate95 [Some MBasic; Some MPost]) 2000 (mt2 "at8") (mt2 "rt8") None tr81 basic95 (as_front (dstep y97 end98 a97_2))) = Raise EAttr.
Proof. split; [eexists; split; vm_compute; reflexivity|]. split; [reflexivity|]. vm_compute. reflexivity. Qed.
(** The code was asked for with a challenge; with another verifier there is nothing, either. *)
Example C98_ex_pkce :
  (exists g t ar, names (sy_sid_of y97) (sessions_of a97_2) "code7" "diana" "c1" g t /\ g_authreq g = Some ar /\ dmem "code_challenge" ar = true) /\
  sy_pkce y97 = true /\
  (exists args f, token_at y97 (gate95 [Some MBasic; Some MPost]) 2000 (mt2 "at8") (mt2 "rt8") None tr81 basic95 (as_front a97_2) = (Ok (AOk args None), f)) /\
  exists r f, token_at y97 (gate95 [Some MBasic; Some MPost]) 2000 (mt2 "at8") (mt2 "rt8") None (dset "code_verifier" (VStr "other") tr81) basic95 (as_front a97_2) = (Ok r, f) /\
    forall args cid, r <> AOk args cid.
Proof.
  split; [|split; [reflexivity|split]].
  - do 3 eexists. split.
    + exists "diana;;c1;;g9"%string, "g9"%string. split; [reflexivity|]. split; [vm_compute; reflexivity|]. split; [vm_compute; reflexivity|].
      split; [|exists []; eexists; split; [reflexivity|intros []]]. reflexivity.
    + split; reflexivity.
  - do 2 eexists. vm_compute. reflexivity.
  - do 2 eexists. split; [vm_compute; reflexivity|]. discriminate.
Qed.
(** Before the exchange; the exchange itself is in [C98_ex_pkce]. *)
Example C98_ex_challenge : let dp := [(visit97, a97_1); (push97, a97)] in dlife y97 a97_2 dp /\ needs_challenge dp.
Proof.
  cbv zeta. split.
  - exists [("c1", cli95)]%string, [], [], [push97; visit97]. cbv zeta. pose proof C98_ex_ok as H. unfold knocks97, a97 in H. cbn [knocks_ok] in H.
    destruct H as (H1 & H2 & H3 & H4 & H5 & H6 & _). split; [cbn [knocks_ok]; auto 10|]. split.
    + cbn [flat_map door_id push97 visit97 app]. constructor; [intros []|constructor].
    + unfold a97_2, a97_1, a97. cbn [drun]. reflexivity.
  - intros h gt re oidc pk e az rq auth [<-|[<-|[]]] E; unfold visit97, push97 in E; cbn [fst] in E; [|discriminate].
    exists (mkPkce true ["plain"; "S256"]%string). split; [|reflexivity]. change (Some (mkPkce true ["plain"; "S256"]%string)) with pk95. congruence.
Qed.

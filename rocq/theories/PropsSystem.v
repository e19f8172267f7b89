(** PropsSystem.v: no access without a login (C79). All endpoints on one state, after any sequence of calls. *)
From Verif Require Import Base BaseProofs SessionKey SessionKeyProofs Monad MonadProofs Types Token Grant GrantSpec Database DatabaseSpec DatabaseProofs
  Manager ManagerSpec ManagerProofs Ctx UserInfo UserInfoSpec UserInfoProofs World Minting TokenEndpoint WorldSpec WorldProofs AuthnBroker
  AuthzEndpoint SetupAuth SetupAuthSpec System SystemSpec SystemProofs PropsClaims PropsTokenEndpoint PropsAuthzEndpoint PropsSetupAuth.
Local Open Scope Z_scope.

(** Any state reached from an empty one, with what has happened *)
Definition history (y : setup_of) (s : sys) (p : past) : Prop :=
  exists clients l, Forall call_ok l /\ srun y l (fresh clients) [] = (s, p).
Lemma history_right y s p : sids_ok (sy_sid_of y) -> history y s p -> right_state s p.
Proof.
  intros Hs (clients & l & F & E). pose proof (right_run y l (fresh clients) [] Hs F (right_fresh clients)) as X. now rewrite E in X.
Qed.
(** The store holds the session [u], [c], [g] with the grant [gr]. *)
Definition holds (s : sys) (u c g : string) (gr : grant) : Prop := view (w_db (ss_world s)) [u; c; g] = Some (EGrant gr).
Lemma holds_right y s p u c g gr : sids_ok (sy_sid_of y) -> history y s p -> good u -> good c -> good g -> holds s u c g gr ->
  opened p u c g (g_sub gr) /\ forall t, In t (g_issued gr) -> traced p u c g (t_class t) (t_value t).
Proof.
  intros Hs H Hu Hc Hg V. apply view_key in V. destruct (proj1 (history_right y s p Hs H) _ _ V) as (u' & c' & g' & Hu' & Hc' & Hg' & K & O & T).
  destruct (key3_inj _ _ _ _ _ _ Hu Hc Hg Hu' Hc' Hg' K) as (<- & <- & <-). auto.
Qed.

(** Whoever has a session with a client has come to the provider with an authorization request of that client, and was
    recognised; their name in the session is made from who they were recognised as. *)
Theorem C79_session : forall y s p u c g gr,
  sids_ok (sy_sid_of y) -> history y s p -> good u -> good c -> good g -> holds s u c g gr -> opened p u c g (g_sub gr).
Proof. intros y s p u c g gr Hs H Hu Hc Hg V. eapply holds_right; eauto. Qed.
Print Assumptions C79_session.

(** Every token of a session goes back to such a visit, step by step. *)
Theorem C79_token : forall y s p u c g gr t,
  sids_ok (sy_sid_of y) -> history y s p -> good u -> good c -> good g -> holds s u c g gr -> In t (g_issued gr) ->
  traced p u c g (t_class t) (t_value t).
Proof. intros y s p u c g gr t Hs H Hu Hc Hg V I. eapply holds_right; eauto. Qed.
Print Assumptions C79_token.

(** The token endpoint gives tokens only to a request that was accepted before and that presents a value of a session its
    user has opened; the value goes back to a visit. *)
Theorem C79_exchange : forall y s p m1 m2 ir n request args cid s',
  sids_ok (sy_sid_of y) -> history y s p ->
  sstep y (SProcess m1 m2 ir n) s = (s', OProcess request (Ok (AOk args cid))) ->
  accepted p request /\
  exists u c g sub k k' v, opened p u c g sub /\ presents request k v /\ traced p u c g k' v.
Proof.
  intros y s p m1 m2 ir n request args cid s' Hs H E. pose proof (history_right y s p Hs H) as [R A]. cbn [sstep] in E.
  destruct (nth_error (ss_accepted s) n) as [rq|] eqn:En; [|discriminate].
  destruct (token_process _ _ _ _ _ _ _ _ _ _) as [r w'] eqn:Et. injection E as _ -> ->.
  split; [apply A; eapply nth_error_In, En|]. apply (token_based _ Hs) in Et. destruct Et as (key & k & v & g0 & t0 & Pr & D & I & V).
  destruct (R _ _ D) as (u & c & g & _ & _ & _ & _ & O & T). exists u, c, g, (g_sub g0), k, (t_class t0), v.
  split; [exact O|]. split; [exact Pr|]. rewrite <- V. now apply T.
Qed.
Print Assumptions C79_exchange.

(** Claims about a user are given to nobody but the holder of an access token that goes back to a visit of that user. *)
Theorem C79_userinfo : forall y s p clock request args cid s',
  sids_ok (sy_sid_of y) -> history y s p ->
  sstep y (SUserinfo clock request) s = (s', OInfo (Ok (AOk args cid))) -> dget "error" args = None ->
  exists u c g sub v, dget "access_token" request = Some (VStr v) /\ traced p u c g CAccess v /\ opened p u c g sub /\ cid = Some c /\
    dget "sub" args = Some (VStr sub) /\ forall k x, k <> "sub"%string -> dget k args = Some x -> user_has (sy_cx y) u k x.
Proof.
  intros y s p clock request args cid s' Hs H E Ne. cbn [sstep] in E. unfold in_db in E.
  destruct (userinfo_process (sy_sid_of y) (sy_cx y) (w_cdb (ss_world s)) clock request (w_db (ss_world s))) as [r d] eqn:Eu.
  injection E as _ ->. apply C17_userinfo in Eu. destruct Eu as (_ & v & u & c & gr & t & ae & Ev & N & Ct & _ & -> & _ & D).
  destruct D as [[_ ->]|(_ & Sb & Cl)]; [discriminate|]. destruct N as (sid & g & Es & U & V & Vt & l1 & l2 & Ei & _).
  destruct (Hs _ _ Es) as (u' & c' & g' & Hu & Hc & Hg & ->). rewrite unpack3_good in U by assumption.
  assert (u' = u /\ c' = c /\ g' = g) as (-> & -> & ->) by (repeat split; congruence).
  destruct (holds_right y s p u c g gr Hs H Hu Hc Hg V) as [O T]. exists u, c, g, (g_sub gr), v. split; [exact Ev|].
  split. { rewrite <- Vt, <- Ct. apply T. rewrite Ei. apply in_elt. }
  split; [exact O|]. split; [reflexivity|]. split; [exact Sb|]. intros k x Nk Dk. now destruct (Cl k x Nk Dk).
Qed.
Print Assumptions C79_userinfo.

(** A token is called active only if it goes back to a visit. *)
Theorem C79_introspection : forall y s p clock un request args cid s',
  sids_ok (sy_sid_of y) -> history y s p ->
  sstep y (SIntrospect clock un request) s = (s', OInfo (Ok (AOk args cid))) -> dget "active" args = Some (VBool true) ->
  exists u c g sub k v, dget "token" request = Some (VStr v) /\ traced p u c g k v /\ opened p u c g sub.
Proof.
  intros y s p clock un request args cid s' Hs H E Na. cbn [sstep] in E. unfold in_db in E.
  destruct (introspection_process (sy_sid_of y) (sy_cx y) (w_cdb (ss_world s)) clock un request (w_db (ss_world s))) as [r d] eqn:Eu.
  injection E as _ ->. apply introspection_cases in Eu. destruct Eu as (v & Ev & [(_ & X)|[(sid & _ & _ & X)|(u & c & gr & t & N & _)]]).
  1, 2: injection X as -> _; discriminate.
  destruct N as (sid & g & Es & U & V & Vt & l1 & l2 & Ei & _).
  destruct (Hs _ _ Es) as (u' & c' & g' & Hu & Hc & Hg & ->). rewrite unpack3_good in U by assumption.
  assert (u' = u /\ c' = c /\ g' = g) as (-> & -> & ->) by (repeat split; congruence).
  destruct (holds_right y s p u c g gr Hs H Hu Hc Hg V) as [O T]. exists u, c, g, (g_sub gr), (t_class t), v. split; [exact Ev|].
  split; [|exact O]. rewrite <- Vt. apply T. rewrite Ei. apply in_elt.
Qed.
Print Assumptions C79_introspection.

(** A session that nobody has opened is not there, whatever values come in: before the first visit every token request,
    userinfo request and introspection request fails. *)
Theorem C79_nobody : forall y s p, sids_ok (sy_sid_of y) -> history y s p ->
  (forall h e az oidc request, In h p -> fst h <> SAuthorize e az oidc request) ->
  (forall u c g gr, good u -> good c -> good g -> ~ holds s u c g gr) /\
  (forall m1 m2 ir n request args cid s', sstep y (SProcess m1 m2 ir n) s <> (s', OProcess request (Ok (AOk args cid)))) /\
  (forall clock request args cid s', sstep y (SUserinfo clock request) s <> (s', OInfo (Ok (AOk args cid)))).
Proof.
  intros y s p Hs H N.
  assert (X : forall u c g sub, ~ opened p u c g sub).
  { intros u c g sub (h & I & e & az & id & (oidc & request & E & _) & _). eapply N; eauto. }
  split; [intros u c g gr Hu Hc Hg V; exact (X _ _ _ _ (C79_session y s p u c g gr Hs H Hu Hc Hg V))|]. split.
  - intros m1 m2 ir n request args cid s' E. destruct (C79_exchange _ _ _ _ _ _ _ _ _ _ _ Hs H E) as (_ & u & c & g & sub & _ & _ & _ & O & _).
    eapply X, O.
  - intros clock request args cid s' E. cbn [sstep] in E. unfold in_db in E.
    destruct (userinfo_process (sy_sid_of y) (sy_cx y) (w_cdb (ss_world s)) clock request (w_db (ss_world s))) as [r d] eqn:Eu.
    injection E as _ ->. apply C17_userinfo in Eu. destruct Eu as (_ & v & u & c & gr & t & ae & Ev & Nm & _).
    destruct Nm as (sid & g & Es & U & V & _). destruct (Hs _ _ Es) as (u' & c' & g' & Hu & Hc & Hg & ->). rewrite unpack3_good in U by assumption.
    assert (u' = u /\ c' = c /\ g' = g) as (-> & -> & ->) by (repeat split; congruence). exact (X _ _ _ _ (C79_session y s p u c g gr Hs H Hu Hc Hg V)).
Qed.
Print Assumptions C79_nobody.

(** ** A case: diana comes with c1, the code is exchanged, the access token is used, the session ends. *)
Definition sid79 (v : string) : result string :=
  if smem v ["code7"; "at8"]%string then Ok "diana;;c1;;g9"%string else Raise EUnknownToken.
Definition y79 : setup_of := mkSy sid79 hash2 cx7 idt2 true both false.
Definition rq79 : msg :=
  [("client_id", VStr "c1"); ("redirect_uri", VStr cb); ("response_type", vstrs ["code"]); ("scope", vstrs ["openid"; "email"]); ("state", VStr "xyz")]%string.
Definition visit79 : call := SAuthorize (e9 (cookie9 "diana" "1900")) (az7 false) true (inr rq79).
Definition token79 : msg :=
  [("grant_type", VStr "authorization_code"); ("code", VStr "code7"); ("redirect_uri", VStr cb); ("client_id", VStr "c1")]%string.
Definition calls79 : list call := [visit79; SParse 2000 token79; SProcess (mt2 "at8") (mt2 "rt8") None 0].
Definition info79 : call := SUserinfo 2000 [("access_token", VStr "at8")]%string.

Example sid79_ok : sids_ok (sy_sid_of y79).
Proof.
  intros v sid H. cbn [sy_sid_of y79] in H. unfold sid79 in H. destruct (smem v _); [|discriminate]. injection H as <-.
  exists "diana"%string, "c1"%string, "g9"%string. do 3 (split; [apply good_by; reflexivity|]). reflexivity.
Qed.
Lemma cookie_recognises request id : recognises (e9 (cookie9 "diana" "1900")) request id -> id = [("uid", VStr "diana")]%string.
Proof.
  intros (name & acr & m & limit & id0 & ts & [_ M] & _ & A & D). unfold e9 in M. cbn [au_methods dget] in M.
  destruct (String.eqb name "user"); [|discriminate]. assert (m = mkMethod (cookie9 "diana" "1900") 600) by congruence. subst m.
  cbn [me_auth] in A. unfold cookie9, authenticated_as in A. cbn [read_cookie rbind String.eqb Ascii.eqb Bool.eqb] in A.
  assert (X : id0 = [("uid", VStr "diana")]%string).
  { destruct (truthy limit); [|congruence]. cbn in A. destruct (int_of limit) as [n|]; [|discriminate]. cbn [rbind] in A.
    destruct (_ <? _); [discriminate|]. congruence. }
  subst id0. destruct D as [->|(uid & U & De)]; [reflexivity|]. assert (uid = VStr "diana") by (cbn in U; congruence). subst uid. discriminate.
Qed.
Example calls79_ok : Forall call_ok calls79.
Proof.
  constructor; [|repeat constructor]. split; [apply good_by; reflexivity|]. split.
  - intros c E. assert (c = "c1"%string) by (cbn in E; congruence). subst c. apply good_by; reflexivity.
  - intros id R. rewrite (cookie_recognises _ _ R). split.
    + intros u E. assert (u = "diana"%string) by (cbn in E; congruence). subst u. apply good_by; reflexivity.
    + intros v E. discriminate.
Qed.
Definition s79 : sys := fst (srun y79 calls79 (fresh clients7) []).
Definition p79 : past := snd (srun y79 calls79 (fresh clients7) []).
Example history79 : history y79 s79 p79.
Proof. exists clients7, calls79. split; [exact calls79_ok|]. apply surjective_pairing. Qed.

(** The token endpoint has answered; the claims are given; after the session is revoked the past stays what it is. *)
Example C79_ex :
  (exists args, nth_error p79 0 = Some (SProcess (mt2 "at8") (mt2 "rt8") None 0, OProcess token79 (Ok (AOk args None))) /\
     dget "access_token" args = Some (VStr "at8")) /\
  (exists args, snd (sstep y79 info79 s79) = OInfo (Ok (AOk args (Some "c1"%string))) /\ dget "error" args = None /\
     dget "sub" args = Some (VStr "dianasalt") /\ dget "email" args = Some (VStr "diana@example.org")) /\
  (exists args, snd (sstep y79 (SIntrospect 2000 false [("token", VStr "at8")]%string) s79) = OInfo (Ok (AOk args None)) /\
     dget "active" args = Some (VBool true)) /\
  (exists gr, holds s79 "diana" "c1" "g9" gr /\ map t_value (g_issued gr) = ["code7"; "at8"]%string).
Proof. repeat split; eexists; vm_compute; repeat split. Qed.
Lemma run_keeps y l s p h : In h p -> In h (snd (srun y l s p)).
Proof. revert s p. induction l as [|o l IH]; intros s p I; [exact I|]. cbn [srun]. destruct (sstep y o s). apply IH. now right. Qed.
Lemma run_first y o l s p : In (o, snd (sstep y o s)) (snd (srun y (o :: l) s p)).
Proof. cbn [srun]. destruct (sstep y o s) as [s' r]. apply run_keeps. now left. Qed.
Example C79_ex_opened : opened p79 "diana" "c1" "g9" "dianasalt".
Proof.
  exists (visit79, snd (sstep y79 visit79 (fresh clients7))). split; [apply run_first|].
  exists (e9 (cookie9 "diana" "1900")), (az7 false), [("uid", VStr "diana")]%string. split; [|repeat split].
  exists true, rq79. split; [reflexivity|]. split; [reflexivity|].
  exists "user"%string, "pw"%string, (mkMethod (cookie9 "diana" "1900") 600), (VInt 0), [("uid", VStr "diana")]%string, (VStr "1900").
  split; [split; reflexivity|]. split; [reflexivity|]. split; [vm_compute; reflexivity|]. left. reflexivity.
Qed.
(** Nothing but parsed requests and changes of the client database *)
Example C79_nobody_ex : history y79 (fst (srun y79 [SParse 2000 token79; info79] (fresh clients7) [])) (snd (srun y79 [SParse 2000 token79; info79] (fresh clients7) [])) /\
  snd (sstep y79 info79 (fst (srun y79 [SParse 2000 token79; info79] (fresh clients7) []))) = OInfo (Raise EKey).
Proof. split; [|vm_compute; reflexivity]. exists clients7, [SParse 2000 token79; info79]. split; [repeat constructor|]. apply surjective_pairing. Qed.

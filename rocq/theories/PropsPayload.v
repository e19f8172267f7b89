(** PropsPayload.v: C101, what is put into a token. *)
From Verif Require Import Base BaseProofs Types Monad SessionKey Token TokenHandler Grant Database Manager Ctx Scopes ScopesSpec ScopesProofs Claims ClaimsSpec ClaimsProofs
  UserInfo UserInfoSpec UserInfoProofs World Minting WorldProofs FlowSpec FlowProofs.
Local Open Scope Z_scope.

(** The claims an access token is to carry for user [u]: an attribute the user has, that is wanted in access tokens of this client
    for the scope of the grant, with a value that is asked for. *)
Definition carried (cx : ctx) (clients : cdb) (u c : string) (g : grant) (k : string) (x : val) : Prop :=
  user_has cx u k x /\
  exists spec, wanted cx clients c (g_authreq g) (g_scope g) "access_token" k (Some spec) /\ admits spec x.

Lemma wanted_functional cx clients c ar scopes usage k o1 o2 :
  wanted cx clients c ar scopes usage k o1 -> wanted cx clients c ar scopes usage k o2 -> o1 = o2.
Proof.
  unfold wanted. destruct (from_request ar usage k); [congruence|].
  intros [[A1 B1]|[A1 B1]] [[A2 B2]|[A2 B2]]; try contradiction; [congruence|].
  destruct (from_base cx usage k); [congruence|].
  destruct B1 as [[C1 D1]|[C1 D1]], B2 as [[C2 D2]|[C2 D2]]; try contradiction; congruence.
Qed.

Lemma payload_get (ui : msg) sc au k : proper ui ->
  dget k (dupdate [("scope", sc); ("aud", au)] ui) =
  match dget k ui with Some x => Some x | None => if String.eqb k "scope" then Some sc else if String.eqb k "aud" then Some au else None end.
Proof.
  intros P. rewrite dget_update by exact P. destruct (dget k ui); [reflexivity|]. cbn [dget].
  destruct (String.eqb k "scope"), (String.eqb k "aud"); reflexivity.
Qed.

(** An access token: the claims, and the scope and the resources of the grant, unless there is a claim of that name. Nothing else;
    and making it changes nothing. *)
Theorem C101_access_token : forall cx u c cli g ar w,
  dget c (w_cdb w) = Some cli -> claims_set_up cx cli -> g_authreq g = Some ar -> claims_asked ar ->
  exists p, payload_arguments cx u c g "access_token" None w = (Ok p, w) /\
  forall k x, dget k p = Some x <->
    carried cx (w_cdb w) u c g k x \/
    ((forall y, ~ carried cx (w_cdb w) u c g k y) /\
     (k = "scope"%string /\ x = vstrs (g_scope g) \/ k = "aud"%string /\ x = vstrs (g_resources g))).
Proof.
  intros cx u c cli g ar w C S Ar A.
  destruct (get_claims_works cx (w_cdb w) c cli ar (g_scope g) "access_token") as (d & E & (Pd & Rd) & W); auto; [cbn; auto|].
  destruct (release_spec (userinfo cx u) d Rd) as (out & Eo & H). assert (Po : proper out) by (eapply release_keys; eauto).
  assert (Q : forall k x, dget k out = Some x <-> carried cx (w_cdb w) u c g k x).
  { intros k x. unfold carried. rewrite Ar. split.
    - intros D. apply dget_In, H in D. destruct D as (spec & I & Ux & Nx & Ad). split; [now apply dget_user|].
      exists spec. split; [|exact Ad]. assert (Ds : dget k d = Some spec) by (apply In_dget; assumption). rewrite <- Ds. apply W.
    - intros ((record & R1 & R2 & R3) & spec & Wn & Ad). apply In_dget; [exact Po|]. apply H. exists spec.
      split; [apply dget_In; exact (wanted_functional _ _ _ _ _ _ _ _ _ (W k) Wn)|].
      split; [unfold userinfo, dget_or; now rewrite R1|auto]. }
  eexists. split.
  - unfold payload_arguments. unfold bind, in_cdb. rewrite Ar, E. destruct w as [db cdb]. unfold gets, lift, ret. cbn [w_cdb w_db resolve].
    unfold get_user_claims. rewrite Eo. reflexivity.
  - intros k x. rewrite payload_get by exact Po. rewrite <- Q. destruct (dget k out) as [y|] eqn:D.
    + split; [left; exact H0|]. intros [X|(N & _)]; [exact X|]. exfalso. apply (N y). now apply Q.
    + assert (N : forall y, ~ carried cx (w_cdb w) u c g k y) by (intros y Y; apply Q in Y; congruence).
      destruct (String.eqb_spec k "scope") as [->|Ns]; [|destruct (String.eqb_spec k "aud") as [->|Na]].
      * split; [intros X; right; split; [exact N|left; split; congruence]|].
        intros [X|(_ & [(_ & ->)|(X & _)])]; [discriminate|reflexivity|discriminate].
      * split; [intros X; right; split; [exact N|right; split; congruence]|].
        intros [X|(_ & [(X & _)|(_ & ->)])]; [discriminate|discriminate|reflexivity].
      * split; [discriminate|]. intros [X|(_ & [(X & _)|(X & _)])]; [discriminate|contradiction|contradiction].
Qed.
Print Assumptions C101_access_token.

(** Codes and refresh tokens carry the scope and the resources only, whatever is configured and asked for. *)
Theorem C101_other_tokens : forall cx u c g ty scope w,
  ty = "authorization_code"%string \/ ty = "refresh_token"%string ->
  payload_arguments cx u c g ty scope w =
  (Ok [("scope", vstrs (match scope with Some (x :: l) => x :: l | _ => g_scope g end)); ("aud", vstrs (g_resources g))], w).
Proof. intros cx u c g ty scope [db cdb] [-> | ->]; reflexivity. Qed.
Print Assumptions C101_other_tokens.

(** So a user attribute named scope (or aud), if that claim is wanted, stands in the token where the scope should. *)
Theorem C101_scope_refuted : forall cx u c cli g ar w x,
  dget c (w_cdb w) = Some cli -> claims_set_up cx cli -> g_authreq g = Some ar -> claims_asked ar ->
  carried cx (w_cdb w) u c g "scope" x ->
  exists p, payload_arguments cx u c g "access_token" None w = (Ok p, w) /\ dget "scope" p = Some x.
Proof.
  intros cx u c cli g ar w x C S Ar A Y. destruct (C101_access_token cx u c cli g ar w C S Ar A) as (p & E & H).
  exists p. split; [exact E|]. apply H. left. exact Y.
Qed.
Print Assumptions C101_scope_refuted.

(** What a JWT is made of: its type, its session and (unless its lifetime is 0) its end are those of the handler, whatever the payload
    says; the rest is the payload. The values of the other handler say nothing of the payload. *)
Theorem C101_value : forall fenc jsign clock nonce rnd sid ttype payload payload',
  (forall key typ lifetime, exists p,
     make_token fenc jsign clock nonce rnd (HJwt key typ lifetime) sid ttype payload = jsign key p /\
     dget "sid" p = Some (VStr sid) /\ dget "ttype" p = Some (VStr (token_kind typ ttype)) /\
     (lifetime <> 0 -> dget "exp" p = Some (VInt (clock + lifetime))) /\
     (forall k, k <> "sid"%string -> k <> "ttype"%string -> (k <> "exp"%string \/ lifetime = 0) -> dget k p = dget k payload)) /\
  (forall pw typ lifetime, make_token fenc jsign clock nonce rnd (HDefault pw typ lifetime) sid ttype payload =
     make_token fenc jsign clock nonce rnd (HDefault pw typ lifetime) sid ttype payload').
Proof.
  intros fenc jsign clock nonce rnd sid ttype payload payload'. split; [|reflexivity].
  intros key typ lifetime. cbn [make_token]. destruct (Z.eqb_spec lifetime 0) as [->|N].
  - eexists. split; [reflexivity|]. split; [rewrite dget_dset_neq by discriminate; apply dget_dset_eq|]. split; [apply dget_dset_eq|].
    split; [congruence|]. intros k N1 N2 _. rewrite !dget_dset_neq by assumption. reflexivity.
  - eexists. split; [reflexivity|]. split; [rewrite !dget_dset_neq by discriminate; apply dget_dset_eq|].
    split; [rewrite dget_dset_neq by discriminate; apply dget_dset_eq|]. split; [intros _; apply dget_dset_eq|].
    intros k N1 N2 [N3|]; [|contradiction]. rewrite !dget_dset_neq by assumption. reflexivity.
Qed.
Print Assumptions C101_value.

(** A token that is made has the value the handler gives for its session and that payload. *)
Theorem C101_made : forall cx mt u c gid g ttype based_on rules w t g' w',
  DatabaseSpec.good u -> DatabaseSpec.good c -> DatabaseSpec.good gid ->
  mint_in cx mt (session_key [u; c; gid]) g ttype based_on rules w = (Ok (Some t, g'), w') ->
  exists p, fst (payload_arguments cx u c g ttype None w) = Ok p /\ mt_value mt (session_key [u; c; gid]) p = Ok (t_value t).
Proof.
  intros cx mt u c gid g ttype based_on rules w t g' w' Hu Hc Hg. unfold mint_in, lift. unfold bind at 1.
  destruct (mint_token _ _ _ _ _ _ _ _ (Ok ""%string)) as [[[t0|] g0]|x] eqn:M; [|intros X; discriminate X|discriminate].
  unfold bind at 1. rewrite ManagerProofs.unpack3_good by assumption. unfold bind at 1.
  destruct (payload_arguments cx u c g ttype None w) as [[p|x] w1]; [|discriminate].
  intros X. exists p. split; [reflexivity|]. destruct (mt_value mt (session_key [u; c; gid]) p) as [v|x] eqn:Ev.
  - assert (M' : mint_token (mt_clock mt) (mt_id mt) g ttype based_on rules None no_kw (Ok v) = Ok (Some t, g')) by congruence.
    clear X M. revert M'. unfold mint_token.
    repeat match goal with |- context [match ?x with _ => _ end] => destruct x eqn:?; cbn [rbind]; try discriminate end;
      intros Y; try discriminate Y; injection Y as <- <-; reflexivity.
  - exfalso. revert X. clear M. unfold mint_token.
    repeat match goal with |- context [match ?x with _ => _ end] => destruct x eqn:?; cbn [rbind]; try discriminate end.
Qed.
Print Assumptions C101_made.

(** *** Examples: access tokens with claims by scope and some for everybody, among them one called scope *)
Definition cx101 (base : msg) : ctx :=
  mkCtx "https://op.example.org" [("scopes_supported", vstrs ["openid"; "email"])] None
    [("openid", ["sub"]); ("email", ["email"; "email_verified"])]
    [("access_token", [("add_claims_by_scope", VBool true); ("base_claims", VDict base)])]
    [("diana", [("email", VStr "diana@example.org"); ("role", VStr "staff"); ("scope", VStr "everything")])] (mkGConf None None).
Definition w101 : world := mkW [] [("c1", [("client_id", VStr "c1")])].
Definition g101 : grant :=
  mkGrant "g1" "sub-of-diana" ["openid"; "email"] [] ["c1"] (Some [("client_id", VStr "c1")]) None [] no_grules 1000 0 0 false 0.
Definition base101 : msg := [("role", VDict [("values", vstrs ["student"; "staff"])])].
Example C101_ex_setup : forall base, In base [base101; ("scope", VNone) :: base101]%string -> claims_set_up (cx101 base) [("client_id", VStr "c1")].
Proof.
  intros base Hb. constructor.
  - intros usage v Hu E. cbn in Hu. destruct Hu as [<-|[<-|[<-|[<-|[]]]]]; try discriminate E. cbn in E.
    assert (v = VDict base) by congruence. subst v. exists base. split; [reflexivity|].
    destruct Hb as [<-|[<-|[]]]; (split; [repeat constructor; cbn; intuition discriminate|]); intros k spec X; cbn in X;
      repeat (destruct X as [X|X]; [injection X as <- <-; first [now left|right; eexists; split; [reflexivity|intros v [Y|[]]; injection Y as <-; unfold vstrs; eauto]]|]); destruct X.
  - intros usage v Hu E. cbn in Hu. destruct Hu as [<-|[<-|[<-|[<-|[]]]]]; discriminate.
  - vm_compute. eauto.
  - left. reflexivity.
Qed.
Example C101_ex : fst (payload_arguments (cx101 base101) "diana" "c1" g101 "access_token" None w101) =
    Ok [("scope", vstrs ["openid"; "email"]); ("aud", vstrs ["c1"]); ("role", VStr "staff"); ("email", VStr "diana@example.org")] /\
  fst (payload_arguments (cx101 (("scope", VNone) :: base101)) "diana" "c1" g101 "access_token" None w101) =
    Ok [("scope", VStr "everything"); ("aud", vstrs ["c1"]); ("role", VStr "staff"); ("email", VStr "diana@example.org")] /\
  fst (payload_arguments (cx101 base101) "diana" "c1" g101 "refresh_token" (Some ["openid"]) w101) = Ok [("scope", vstrs ["openid"]); ("aud", vstrs ["c1"])] /\
  claims_asked [("client_id", VStr "c1")].
Proof. split; [vm_compute; reflexivity|]. split; [vm_compute; reflexivity|]. split; [vm_compute; reflexivity|]. left. reflexivity. Qed.
Example C101_ex_carried : carried (cx101 (("scope", VNone) :: base101)) (w_cdb w101) "diana" "c1" g101 "scope" (VStr "everything").
Proof.
  split; [eexists; split; [reflexivity|]; split; [reflexivity|discriminate]|].
  exists VNone. split; [|constructor]. unfold wanted. cbn [from_request]. right.
  split; [|reflexivity]. intros (_ & s & names & I & _ & D & K). cbn in I. destruct I as [<-|[<-|[]]]; cbn in D; assert (X : names = names) by auto;
    [assert (names = ["sub"]) by congruence|assert (names = ["email"; "email_verified"]) by congruence]; subst names; cbn in K; intuition discriminate.
Qed.
Example C101_ex_made : exists t g' w',
  mint_in (cx101 base101) (mkMinting 1000 "i" (fun sid p => Ok (sid ++ match dget "role" p with Some (VStr s) => s | _ => "?" end)%string))
    (session_key ["diana"; "c1"; "g1"]) g101 "access_token" None None w101 = (Ok (Some t, g'), w') /\ t_value t = "diana;;c1;;g1staff"%string.
Proof. eexists _, _, _. split; [vm_compute; reflexivity|reflexivity]. Qed.

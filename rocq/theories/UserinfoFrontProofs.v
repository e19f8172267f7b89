From Verif Require Import Base BaseProofs Monad MonadProofs Types SessionKey SessionKeyProofs Token Grant Database DatabaseSpec DatabaseProofs Manager ManagerProofs Ctx Claims
  ClientAuthn ClientAuthnSpec ClientAuthnProofs UserInfo UserInfoSpec UserInfoProofs UserinfoFront UserinfoFrontSpec.
Local Open Scope Z_scope.

Lemma catch_ok {S A} (m : ST S A) p h s a s' : catch m p h s = (Ok a, s') ->
  m s = (Ok a, s') \/ exists x s1, m s = (Raise x, s1) /\ p x = true /\ h s1 = (Ok a, s').
Proof.
  unfold catch. destruct (m s) as [[b|x] s1]; [auto|]. intros H. destruct (p x) eqn:E; [|discriminate]. right. exists x, s1. auto.
Qed.

Section Front.
  Variable sid_of : string -> result string.

  Lemma client_authentication_ok o e cls f aka rq auth s ai s' :
    client_authentication o e cls f aka rq auth s = (Ok (Some ai), s') -> verify_client o e cls (Some f) aka rq auth s = (Ok (Some ai), s').
  Proof.
    intros H. unfold client_authentication in H. apply bind_ok in H. destruct H as (r & s1 & E & H). destruct r as [ai'|].
    - assert (ai' = ai /\ s1 = s') as [-> ->] by (unfold ret in H; split; congruence). exact E.
    - destruct (is_nil (ep_methods e)); discriminate.
  Qed.
  (** the token is the one of the method that was used *)
  Lemma settled_token o cls f aka ai0 ai s1 s' t : settled o cls f aka ai0 ai s1 s' -> ai_token ai = Some t -> ai_token ai0 = Some t.
  Proof.
    intros (cid & _ & _ & [(c & _ & _ & _ & E & _)|(_ & _ & X)]) Et; [congruence|]. destruct f as [g|]; [|destruct X as [_ X]; congruence].
    destruct X as (t' & c & X1 & X2 & X3 & X4 & X5). congruence.
  Qed.
  Lemma verify_token o e m rq auth s ai s' t : verify o e m rq auth s = (Ok ai, s') -> ai_token ai = Some t ->
    (m = MBearerHeader /\ exists a, auth = Some a /\ t = VStr (drop 7 a)) \/ (m = MBearerBody /\ dget "access_token" rq = Some t).
  Proof.
    intros V E. destruct m; cbn [verify] in V.
    - apply basic_ok in V. destruct V as (_ & h & c & sec & _ & _ & _ & ->). discriminate.
    - apply post_ok in V. destruct V as (_ & c & sec & r & _ & _ & _ & _ & ->). discriminate.
    - unfold bearer_header_verify in V. apply bind_ok in V. destruct V as (a & s1 & Ea & V). left. split; [reflexivity|].
      destruct auth as [x|]; [|discriminate]. exists x. split; [reflexivity|]. unfold lift, of_option in Ea; assert (a = x) by congruence. subst a.
      unfold ret in V. assert (X : ai = mkAI None (Some (VStr (drop 7 x))) (tag MBearerHeader)) by congruence. rewrite X in E. cbn [ai_token] in E. congruence.
    - unfold bearer_body_verify in V. right. split; [reflexivity|]. destruct (dget "access_token" rq) as [x|] eqn:D; [|discriminate].
      destruct x; try discriminate; unfold ret in V; injection V as <- _; cbn [ai_token] in E; congruence.
    - apply jws_ok in V. destruct V as (a & j & iss & s1 & _ & _ & _ & _ & _ & _ & _ & ->). discriminate.
    - apply jws_ok in V. destruct V as (a & j & iss & s1 & _ & _ & _ & _ & _ & _ & _ & ->). discriminate.
    - apply request_ok in V. destruct V as (a & j & iss & s1 & _ & _ & _ & _ & _ & ->). discriminate.
  Qed.
  (** what a parsed request holds *)
  Lemma parsed o e cls aka rq auth db s rq' s' : userinfo_parse sid_of o e cls aka rq auth db s = (Ok (UReq rq'), s') ->
    exists c t, rq' = dset "access_token" t (dset "client_id" c rq) /\
      (forall v, t = VStr v -> presented e rq auth v) /\
      ((exists k, c = VStr k /\ standing (o_now o) (ca_cdb s) k /\ only_noted k (ca_cdb s) (ca_cdb s') /\ In (Some MBearerBody) (ep_methods e)) \/
       (s' = s /\ client_of sid_of db t = Ok c)).
  Proof.
    intros H. unfold userinfo_parse in H. apply catch_ok in H. destruct H as [H|(x & s1 & _ & _ & H)]; [|discriminate H].
    apply bind_ok in H. destruct H as (r & s1 & E & H). destruct r as [[[c|] [t|] m]|]; try discriminate H.
    assert (X : rq' = dset "access_token" t (dset "client_id" c rq) /\ s' = s1) by (unfold ret in H; split; congruence). destruct X as [-> ->].
    apply client_authentication_ok in E. apply verify_client_ok in E. destruct E as (Hn & ai0 & s2 & St & D).
    assert (T : ai_token ai0 = Some t) by (eapply settled_token; [exact St|reflexivity]).
    destruct D as [(l1 & k & l2 & El & Ca & V & _)|(_ & _ & -> & _)]; [|discriminate T].
    assert (Hin : In (Some k) (ep_methods e)) by (rewrite El; apply in_or_app; right; now left).
    pose proof (verify_token _ _ _ _ _ _ _ _ _ V T) as VT.
    exists c, t. split; [reflexivity|]. split.
    - intros v ->. destruct VT as [(-> & a & Ea & Et)|(-> & Et)]; [left|right]; (split; [exact Hin|]); [|exact Et].
      unfold carries in Ca. destruct Ca as (x & Ex). rewrite Ex. f_equal. rewrite Ex in Ea. injection Ea as <-.
      cbn in Et. congruence.
    - assert (s2 = s).
      { destruct VT as [(-> & _)|(-> & _)]; cbn [verify] in V.
        - unfold bearer_header_verify in V. destruct (authz_str auth); [|discriminate]. now injection V.
        - unfold bearer_body_verify in V. destruct (dget "access_token" rq) as [[]|]; try discriminate; now injection V. }
      subst s2. destruct St as (cid & Al & _ & [(k' & -> & Nk & Ec & _ & Sd & On & _)|(Nt & -> & t' & c' & X1 & X2 & X3 & X4 & X5)]).
      + left. exists k'. cbn in Ec. split; [congruence|]. split; [exact Sd|]. split; [exact On|]. destruct VT as [(-> & a & Ea & Et)|(-> & _)]; [|exact Hin].
        exfalso. cbn [verify] in V. unfold bearer_header_verify in V. rewrite Ea in V. cbn in V. unfold ret in V.
        assert (X : ai0 = mkAI None (Some (VStr (drop 7 a))) (tag MBearerHeader)) by (clear - V; now injection V). rewrite X in Al. unfold alias in Al. cbn in Al.
        destruct (is_nil aka); discriminate.
      + right. split; [reflexivity|]. cbn in X4, X5. congruence.
  Qed.
End Front.
Lemma bearer_starts v : starts_with "Bearer " ("Bearer " ++ v)%string = true.
Proof. apply prefix_app. Qed.

(** the default setup and a token in the header *)
Section Header.
  Variable sid_of : string -> result string.
  Variables (o : outside) (e : ep) (cls : string) (rq : msg) (auth : authz_data) (v : string).
  Hypothesis De : by_default e.
  Hypothesis Hv : authz_str auth = Some ("Bearer " ++ v)%string.

  Lemma header_try s : try_methods o e [Some MBearerHeader] rq (authz_str auth) s = (Ok (Some (mkAI None (Some (VStr v)) "bearer_header")), s).
  Proof. rewrite Hv. cbn [try_methods is_usable]. rewrite bearer_starts. reflexivity. Qed.
  Lemma header_parse db s : userinfo_parse sid_of o e cls [] rq auth db s =
    if nonempty v then
      match client_of sid_of db (VStr v) with
      | Ok c => (Ok (UReq (dset "access_token" (VStr v) (dset "client_id" c rq))), s)
      | Raise x => if is_key_error x || is_value_or_unknown x then (Ok (UErr "invalid_token"), s) else (Raise x, s)
      end
    else (Ok (UErr "invalid_token"), s).
  Proof.
    destruct De as [D1 D2]. unfold userinfo_parse, catch, client_authentication, bind at 1 2. rewrite verify_client_eq. unfold bind at 1. rewrite D1, D2, header_try.
    unfold settle. cbn [ai_client ai_token ai_method]. unfold bind, lift. cbn [alias is_nil]. cbv beta iota zeta.
    destruct v as [|a r]; [reflexivity|]. cbn [nonempty is_nil truthy negb ai_token]. 
    destruct (client_of sid_of db (VStr (String a r))) as [c|x]; [reflexivity|]. destruct x; reflexivity.
  Qed.
  Lemma client_of_eq db u c gid sid : sid_of v = Ok sid -> unpack3 sid = Ok (u, c, gid) -> client_of sid_of db (VStr v) = Ok (VStr c).
  Proof.
    intros Es E. unfold client_of, get_client_id_from_token, get_session_info_by_token, get_session_info, bind, lift, ret. rewrite Es, E. reflexivity.
  Qed.
  Lemma client_of_not db x : sid_of v = Raise x -> client_of sid_of db (VStr v) = Raise x.
  Proof. intros Es. unfold client_of, get_client_id_from_token, get_session_info_by_token, bind, lift. rewrite Es. reflexivity. Qed.
End Header.

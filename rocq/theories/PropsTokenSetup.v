(** PropsTokenSetup.v: the configured token handlers (C80). *)
From Verif Require Import Base BaseProofs Monad Types PyInt SessionKey Token Grant Database Ctx UserInfo TokenHandler TokenHandlerSpec TokenHandlerProofs
  TokenSetup TokenSetupSpec Toy PropsToken.
Local Open Scope string_scope.

Section Make.
  Variables (importer : val -> result kind) (init_key_jar : msg -> result (string -> option string)) (jwt_key : msg -> string).

  Lemma dget_dset_other {A} k k' (v : A) d : k <> k' -> dget k (dset k' v d) = dget k d.
  Proof. intros. now apply dget_dset_neq. Qed.

  Lemma from_spec keyjar v kid ty h : handler_from importer jwt_key keyjar v kid ty = Ok h ->
    exists spec, v = VDict spec /\ typ h = ty /\ lives_as_given spec h /\
      match h with
      | HDefault pw _ _ => (dget "class" spec = None \/ exists c, dget "class" spec = Some c /\ importer c = Ok KDefault) /\ keyed keyjar kid spec pw
      | HJwt _ _ _ => exists c, dget "class" spec = Some c /\ importer c = Ok KJwt
      end.
  Proof.
    destruct v as [| | | | |spec]; try discriminate. intros H. cbn [handler_from] in H.
    destruct (add_passwd keyjar spec kid) as [d|] eqn:E; [|discriminate]. cbn [rbind] in H.
    exists spec. split; [reflexivity|].
    (* what the password changes *)
    assert (X : dget "class" d = dget "class" spec /\ dget "lifetime" (given d) = dget "lifetime" (given spec) /\
                (match dget "kwargs" d with None | Some VNone => given d = d | Some (VDict x) => given d = x | _ => True end) /\
                (forall pw, dget "password" (given d) = Some (VStr pw) -> keyed keyjar kid spec pw)).
    { unfold add_passwd in E. destruct keyjar as [keys|].
      - destruct (keys kid) as [k|] eqn:K.
        + unfold given. destruct (dget "kwargs" spec) as [[| | | | |kw]|] eqn:Kw; try discriminate; injection E as <-.
          * rewrite dget_dset_eq. rewrite !dget_dset_other by discriminate. split; [reflexivity|]. split; [reflexivity|]. split; [reflexivity|].
            intros pw. rewrite dget_dset_eq. intros [= <-]. left. eauto.
          * rewrite !dget_dset_other, Kw by discriminate. rewrite !dget_dset_other by discriminate. split; [reflexivity|]. split; [reflexivity|].
            split; [reflexivity|]. intros pw. rewrite dget_dset_eq. intros [= <-]. left. eauto.
        + injection E as <-. split; [reflexivity|]. split; [reflexivity|]. split.
          { unfold given. destruct (dget "kwargs" spec) as [[| | | | |kw]|]; auto. }
          intros pw P. right. split; [|exact P]. intros ks [= <-]. exact K.
      - injection E as <-. split; [reflexivity|]. split; [reflexivity|]. split.
        { unfold given. destruct (dget "kwargs" spec) as [[| | | | |kw]|]; auto. }
        intros pw P. right. split; [|exact P]. discriminate. }
    destruct X as (Xc & Xl & Xg & Xp). unfold init_token_handler in H. rewrite Xc in H.
    destruct (match dget "class" spec with None => Ok KDefault | Some c => importer c end) as [k|] eqn:Ek; [|discriminate]. cbn [rbind] in H.
    destruct (match dget "kwargs" d with None | Some VNone => Ok d | Some (VDict x) => Ok x | Some _ => Raise EType end) as [kw|] eqn:Ekw; [|discriminate].
    cbn [rbind] in H. assert (kw = given d).
    { destruct (dget "kwargs" d) as [[| | | | |x]|]; congruence. }
    subst kw. clear Xg Ekw. unfold new_handler in H. destruct (dmem "self" (given d) || _ || _)%bool; [discriminate|].
    destruct (match dget "lifetime" (given d) with None => Ok 300%Z | Some (VInt n) => Ok n | Some _ => Raise EType end) as [n|] eqn:En; [|discriminate].
    cbn [rbind] in H. assert (L : lives_as_given spec h /\ typ h = ty).
    { assert (Y : life h = n /\ typ h = ty).
      { destruct k; [destruct (dget "password" (given d)) as [[]|]; try discriminate|]; injection H as <-; auto. }
      destruct Y as [Yl Ty]. split; [|exact Ty]. intros m. rewrite <- Xl, Yl. intros [Em|[Em ->]]; rewrite Em in En; congruence. }
    split; [apply L|]. split; [apply L|]. destruct k.
    - destruct (dget "password" (given d)) as [[| | |pw| |]|] eqn:P; try discriminate. injection H as <-. split; [|auto].
      destruct (dget "class" spec) as [c|]; [right; eauto|left; reflexivity].
    - injection H as <-. destruct (dget "class" spec) as [c|]; [eauto|discriminate].
  Qed.
End Make.

(** Every handler that is set up is of the kind it is for, and has the lifetime and the key that are configured. *)
Theorem C80_configured : forall importer init_key_jar jwt_key args th,
  handler_factory importer init_key_jar jwt_key args = Ok th ->
  exists keyjar, keys_of init_key_jar args keyjar /\
  forall name h, dget name (fst th) = Some (Some h) ->
  exists spec, dget (member name) args = Some (VDict spec) /\ typ h = kind_letter name /\ lives_as_given spec h /\
    forall pw t n, h = HDefault pw t n -> keyed keyjar (member name) spec pw.
Proof.
  intros importer ikj jk args th H. unfold handler_factory in H. destruct (dmem "ec" args); [discriminate|].
  destruct (match dget "jwks_def" args with None => Ok None | Some v => _ end) as [keyjar|] eqn:Ej; [|discriminate]. cbn [rbind] in H.
  exists keyjar. split.
  { destruct (dget "jwks_def" args) as [v|] eqn:J; [|right; split; [now left|congruence]].
    destruct (truthy v) eqn:Tv; [|right; split; [right; eauto|congruence]]. destruct v as [| | | | |d]; try discriminate.
    destruct (ikj d) as [keys|] eqn:Ei; [|discriminate]. left. exists d, keys. split; [exact J|]. split; [destruct d; [discriminate|congruence]|].
    split; [exact Ei|]. cbn in Ej. congruence. }
  destruct (match dget "code" args with None => Ok None | Some v => _ end) as [code|] eqn:Ec; [|discriminate]. cbn [rbind] in H.
  destruct (match dget "token" args with None => Ok None | Some v => _ end) as [access|] eqn:Ea; [|discriminate]. cbn [rbind] in H.
  destruct (match dget "refresh" args with None | Some VNone => Ok None | Some _ => _ end) as [refresh|] eqn:Er; [|discriminate]. cbn [rbind] in H.
  injection H as <-.
  assert (F : forall m kid ty h, (exists v, dget m args = Some v /\ handler_from importer jk keyjar v kid ty = Ok h) ->
    exists spec, dget m args = Some (VDict spec) /\ typ h = ty /\ lives_as_given spec h /\ forall pw t n, h = HDefault pw t n -> keyed keyjar kid spec pw).
  { intros m kid ty h (v & Dv & Hv). apply from_spec in Hv. destruct Hv as (spec & -> & A & B & C). exists spec. repeat (split; [assumption|]).
    intros pw t n ->. apply C. }
  assert (Gc : forall h, code = Some h -> exists v, dget "code" args = Some v /\ handler_from importer jk keyjar v "code" "A" = Ok h).
  { intros h ->. destruct (dget "code" args) as [v|]; [|discriminate]. destruct (truthy v); [|discriminate]. exists v. split; [reflexivity|].
    destruct (handler_from _ _ _ v _ _); cbn in Ec; congruence. }
  assert (Ga : forall h, access = Some h -> exists v, dget "token" args = Some v /\ handler_from importer jk keyjar v "token" "T" = Ok h).
  { intros h ->. destruct (dget "token" args) as [v|]; [|discriminate]. destruct (truthy v); [|discriminate]. exists v. split; [reflexivity|].
    destruct (handler_from _ _ _ v _ _); cbn in Ea; congruence. }
  assert (Gr : forall h, refresh = Some h -> exists v, dget "refresh" args = Some v /\ handler_from importer jk keyjar v "refresh" "R" = Ok h).
  { intros h ->. destruct (dget "refresh" args) as [v|]; [|discriminate]. exists v. split; [reflexivity|].
    destruct v; try discriminate; match type of Er with rmap Some ?t = _ => destruct t end; cbn in Er; congruence. }
  intros name h D. assert (Cs : (name = "code" /\ code = Some h) \/ (name = "access_token" /\ access = Some h) \/ (name = "refresh_token" /\ refresh = Some h)).
  { unfold token_handler in D. destruct refresh as [r|]; cbn [fst dget] in D;
      destruct (String.eqb_spec name "code") as [->|_]; [left; split; congruence| |left; split; congruence|];
      destruct (String.eqb_spec name "access_token") as [->|_]; [right; left; split; congruence| |right; left; split; congruence|].
    - destruct (String.eqb_spec name "refresh_token") as [->|_]; [right; right; split; congruence|discriminate].
    - discriminate. }
  destruct Cs as [[-> E]|[[-> E]|[-> E]]]; apply F; auto.
Qed.
Print Assumptions C80_configured.

(** Without configuration: three default handlers with their own keys, and codes for ten minutes, access tokens for an
    hour and refresh tokens for a day, as the values say. *)
Theorem C80_default : forall importer init_key_jar jwt_key (conf : msg) keys kc kt kr,
  (dget "token_handler_args" conf = None \/ exists v, dget "token_handler_args" conf = Some v /\ truthy v = false) ->
  init_key_jar default_jwks = Ok keys -> keys "code" = Some kc -> keys "token" = Some kt -> keys "refresh" = Some kr ->
  session_handlers importer init_key_jar jwt_key conf = Ok (default_th kc kt kr 600 3600 86400).
Proof.
  intros importer ikj jk conf keys kc kt kr H I Kc Kt Kr. unfold session_handlers, get_token_handlers.
  assert (E : (match dget "token_handler_args" conf with Some v => if truthy v then v else VDict default_args | None => VDict default_args end) = VDict default_args).
  { destruct H as [->|(v & -> & ->)]; reflexivity. }
  rewrite E. unfold handler_factory.
  change (dget "jwks_def" default_args) with (Some (VDict default_jwks)). change (truthy (VDict default_jwks)) with true. cbv iota.
  rewrite I. cbn - [default_jwks].
  change (is_nil default_jwks) with false. cbn - [default_jwks].
  rewrite Kc, Kt, Kr. reflexivity.
Qed.
Print Assumptions C80_default.

(** A JWT is not accepted after its lifetime, whatever the other handlers are. *)
Theorem C80_jwt : forall fenc fdec jsign jverify, ideal fenc fdec jsign jverify ->
  forall c a r name key ty n made_at now nonce rnd sid ttype payload,
  In (name, Some (HJwt key ty n)) (fst (factory c a r)) -> n <> 0%Z -> (0 <= made_at + n < now)%Z ->
  th_info fdec jverify now (factory c a r) (make_token fenc jsign made_at nonce rnd (HJwt key ty n) sid ttype payload) = Raise EToOld.
Proof.
  intros fenc fdec jsign jverify Id c a r name key ty n made_at now nonce rnd sid ttype payload I N L.
  set (t := make_token fenc jsign made_at nonce rnd (HJwt key ty n) sid ttype payload).
  assert (Own : forall nm ty' n', handler_info fdec jverify now nm (HJwt key ty' n') t = Raise EToOld).
  { intros nm ty' n'. unfold t. cbn [make_token handler_info]. rewrite (i_jver _ _ _ _ Id). cbn [rbind].
    destruct (Z.eqb_spec n 0) as [|_]; [contradiction|]. rewrite dget_dset_eq. unfold is_expired.
    destruct (Z.ltb_spec (made_at + n) 0) as [|_]; [lia|]. cbn [Z.eqb]. destruct (Z.ltb_spec (made_at + n) now) as [_|]; [reflexivity|lia]. }
  assert (Any : forall nm h, handler_info fdec jverify now nm h t = Raise EToOld \/
                  exists e, handler_info fdec jverify now nm h t = Raise e /\ caught e = true).
  { intros nm [pw ty' n'|k ty' n'].
    - right. exists EUnknownToken. split; [|reflexivity]. unfold t. cbn [make_token handler_info]. unfold split_token, crypt_decrypt.
      rewrite (i_fdec_jwt _ _ _ _ Id). reflexivity.
    - destruct (string_dec key k) as [<-|Nk]; [left; apply Own|]. right. unfold t. cbn [make_token handler_info].
      destruct (i_jver_other _ _ _ _ Id key k (if Z.eqb n 0 then dset "ttype" (VStr (token_kind ty ttype)) (dset "sid" (VStr sid) payload)
         else dset "exp" (VInt (made_at + n)) (dset "ttype" (VStr (token_kind ty ttype)) (dset "sid" (VStr sid) payload))) Nk) as (e & E & Ce).
      exists e. rewrite E. auto. }
  unfold factory, token_handler in I. cbn [fst In] in I. unfold th_info, factory, token_handler. cbn [fst snd get_handler dget String.eqb Ascii.eqb Bool.eqb].
  destruct (Any "code" c) as [E1|(e1 & E1 & C1)]; rewrite E1; [reflexivity|]. rewrite C1.
  destruct I as [I|I]. { assert (c = HJwt key ty n) by congruence. subst c. rewrite Own in E1. assert (e1 = EToOld) by congruence. subst. discriminate. }
  destruct (Any "access_token" a) as [E2|(e2 & E2 & C2)]; rewrite E2; [reflexivity|]. rewrite C2.
  destruct I as [I|I]. { assert (a = HJwt key ty n) by congruence. subst a. rewrite Own in E2. assert (e2 = EToOld) by congruence. subst. discriminate. }
  destruct I as [I|[]]. assert (r = HJwt key ty n) by congruence. subst r. rewrite Own. reflexivity.
Qed.
Print Assumptions C80_jwt.

(** A handler, asked, does say whether a value it made is past its lifetime: never for a negative lifetime of the default handler; for a
    JWT without one (lifetime 0) there is no answer. Nothing in the provider asks. *)
Theorem C80_is_expired : forall fenc fdec jsign jverify, ideal fenc fdec jsign jverify ->
  forall pw typ n made_at now nonce rnd sid payload name when, typ <> "" -> (0 <= made_at)%Z ->
  let at_ := (if Z.eqb when 0 then now else when)%Z in
  ((0 <= n)%Z -> default_is_expired fdec jverify now name (HDefault pw typ n) (make_token fenc jsign made_at nonce rnd (HDefault pw typ n) sid "" payload) when =
     Ok (made_at + n <? at_)%Z) /\
  ((n < 0)%Z -> default_is_expired fdec jverify now name (HDefault pw typ n) (make_token fenc jsign made_at nonce rnd (HDefault pw typ n) sid "" payload) when = Ok false) /\
  (n <> 0%Z -> (0 <= made_at + n)%Z ->
     jwt_is_expired jverify now pw (make_token fenc jsign made_at nonce rnd (HJwt pw typ n) sid "" payload) when = Ok (made_at + n <? at_)%Z) /\
  (n = 0%Z -> dget "exp" payload = None ->
     jwt_is_expired jverify now pw (make_token fenc jsign made_at nonce rnd (HJwt pw typ n) sid "" payload) when = Raise EKey).
Proof.
  intros fenc fdec jsign jverify Id pw typ n made_at now nonce rnd sid payload name when Ht Hm at_.
  assert (N1 : forall e, (0 <= e)%Z -> is_expired now e when = (e <? at_)%Z).
  { intros e He. unfold is_expired, at_. destruct (Z.ltb_spec e 0); [lia|reflexivity]. }
  split; [|split; [|split]].
  - intros Hn. unfold default_is_expired. erewrite default_info_own; [|apply Id|exact Ht]. cbn [rbind ti_exp]. unfold exp_text.
    destruct (Z.leb_spec 0 n) as [_|]; [|lia]. rewrite PyIntProofs.py_int_str.
    destruct (String.eqb_spec (py_str (made_at + n)) "-1") as [E|_]; [|rewrite N1 by lia; reflexivity].
    exfalso. assert (X := PyIntProofs.py_int_str (made_at + n)). rewrite E in X. change (py_int "-1") with (Some (-1)%Z) in X. assert (made_at + n = -1)%Z by congruence. lia.
  - intros Hn. unfold default_is_expired. erewrite default_info_own; [|apply Id|exact Ht]. cbn [rbind ti_exp]. unfold exp_text.
    destruct (Z.leb_spec 0 n) as [|_]; [lia|]. reflexivity.
  - intros Hn He. unfold jwt_is_expired. cbn [make_token]. rewrite (i_jver _ _ _ _ Id). cbn [rbind].
    destruct (Z.eqb_spec n 0) as [|_]; [contradiction|]. rewrite dget_dset_eq. rewrite N1 by exact He. reflexivity.
  - intros -> Hp. unfold jwt_is_expired. cbn [make_token]. rewrite (i_jver _ _ _ _ Id). cbn [rbind Z.eqb].
    rewrite !dget_dset_neq by discriminate. now rewrite Hp.
Qed.
Print Assumptions C80_is_expired.

(** The lifetime of the values of default handlers means nothing: whatever the lifetimes and the times, the same session is
    found, and so the userinfo endpoint says the same. *)
Theorem C80_default_lifetime_refuted : forall fdec jverify kc kt kr lc la lr lc' la' lr' now now' t,
  th_info fdec jverify now (default_th kc kt kr lc la lr) t = th_info fdec jverify now' (default_th kc kt kr lc' la' lr') t /\
  forall cx clients clock request s,
    userinfo_process (th_sid fdec jverify now (default_th kc kt kr lc la lr)) cx clients clock request s =
    userinfo_process (th_sid fdec jverify now' (default_th kc kt kr lc' la' lr')) cx clients clock request s.
Proof.
  intros. assert (E : forall v, th_info fdec jverify now (default_th kc kt kr lc la lr) v = th_info fdec jverify now' (default_th kc kt kr lc' la' lr') v) by reflexivity.
  split; [apply E|]. intros. reflexivity.
Qed.
Print Assumptions C80_default_lifetime_refuted.

(** What is written beside kwargs is not used: such tokens live for 300 seconds. *)
Theorem C80_beside_refuted : forall importer init_key_jar jwt_key args th spec kw name h n,
  handler_factory importer init_key_jar jwt_key args = Ok th -> dget name (fst th) = Some (Some h) ->
  dget (member name) args = Some (VDict spec) -> dget "kwargs" spec = Some (VDict kw) -> dget "lifetime" kw = None ->
  dget "lifetime" spec = Some (VInt n) -> n <> 300%Z -> life h <> n.
Proof.
  intros importer ikj jk args th spec kw name h n H D M K L Ls Nn. destruct (C80_configured _ _ _ _ _ H) as (keyjar & _ & F).
  destruct (F name h D) as (spec' & M' & _ & Lg & _). assert (spec' = spec) by congruence. subst spec'.
  rewrite (Lg 300%Z); [congruence|]. right. split; [|reflexivity]. unfold given. now rewrite K.
Qed.
Print Assumptions C80_beside_refuted.

(** An empty configuration of the codes means no handler, not the default one: no value of any kind is resolved any more. *)
Theorem C80_empty_refuted : forall importer init_key_jar jwt_key args th fdec jverify now t,
  handler_factory importer init_key_jar jwt_key args = Ok th -> dget "code" args = Some (VDict []) ->
  th_info fdec jverify now th t = Raise EAttr.
Proof.
  intros importer ikj jk args th fdec jverify now t H C. unfold handler_factory in H. destruct (dmem "ec" args); [discriminate|].
  destruct (match dget "jwks_def" args with None => Ok None | Some v => _ end) as [keyjar|]; [|discriminate]. cbn [rbind] in H.
  rewrite C in H. cbn [truthy is_nil negb rbind] in H.
  destruct (match dget "token" args with None => Ok None | Some v => _ end) as [access|]; [|discriminate]. cbn [rbind] in H.
  destruct (match dget "refresh" args with None | Some VNone => Ok None | Some _ => _ end) as [refresh|]; [|discriminate]. cbn [rbind] in H.
  injection H as <-. unfold token_handler. destruct refresh; reflexivity.
Qed.
Print Assumptions C80_empty_refuted.

(** A default handler without a key and without a password: nothing is set up. *)
Theorem C80_no_password : forall importer init_key_jar jwt_key args spec keyjar,
  keys_of init_key_jar args keyjar -> dget "code" args = Some (VDict spec) -> spec <> [] -> dget "class" spec = None ->
  (forall keys, keyjar = Some keys -> keys "code" = None) -> dget "password" (given spec) = None ->
  exists e, handler_factory importer init_key_jar jwt_key args = Raise e.
Proof.
  intros importer ikj jk args spec keyjar K C N Cl Nk Np. destruct (handler_factory importer ikj jk args) as [th|e] eqn:H; [|eauto]. exfalso.
  assert (H' := H). unfold handler_factory in H. destruct (dmem "ec" args); [discriminate|].
  destruct (match dget "jwks_def" args with None => Ok None | Some v => _ end) as [kj|] eqn:J; [|discriminate]. cbn [rbind] in H.
  rewrite C in H. assert (Tr : truthy (VDict spec) = true) by (destruct spec; [congruence|reflexivity]). rewrite Tr in H.
  destruct (handler_from importer jk kj (VDict spec) "code" "A") as [h|] eqn:Eh; [|discriminate].
  assert (kj = keyjar).
  { destruct K as [(d & keys & Dj & Nd & I & ->)|([Dj|(v & Dj & Tv)] & ->)]; rewrite Dj in J.
    - assert (Td : truthy (VDict d) = true) by (destruct d; [congruence|reflexivity]). rewrite Td, I in J. cbn in J. congruence.
    - congruence.
    - rewrite Tv in J. congruence. }
  subst kj. apply from_spec in Eh. destruct Eh as (spec' & E & _ & _ & D). assert (spec' = spec) by congruence. subst spec'. destruct h as [pw ty n|k ty n].
  - destruct D as [_ [(keys & -> & Ks)|[_ P]]]; [rewrite (Nk keys eq_refl) in Ks|]; congruence.
  - destruct D as (c & Dc & _). congruence.
Qed.
Print Assumptions C80_no_password.

(** ** A case: one key file for the codes, a JWT for access tokens, a password for refresh tokens *)
Definition imp80 (v : val) : result kind :=
  match v with VStr "oidcendpoint.token.jwt_token.JWTToken" => Ok KJwt | _ => Raise EOther end.
Definition kj80 (d : msg) : result (string -> option string) :=
  Ok (fun kid => if String.eqb kid "code" then Some "code-key" else if String.eqb kid "token" then Some "token-key" else None).
Definition args80 : msg :=
  [("jwks_def", VDict [("key_defs", VList [key_def "code"; key_def "token"])]);
   ("code", VDict [("lifetime", VInt 600); ("password", VStr "old")]);
   ("token", VDict [("class", VStr "oidcendpoint.token.jwt_token.JWTToken"); ("lifetime", VInt 60); ("kwargs", VDict [("alg", VStr "RS256")])]);
   ("refresh", VDict [("kwargs", VDict [("lifetime", VInt (-1)); ("password", VStr "pw")])])].
Example C80_ex : handler_factory imp80 kj80 (fun _ => "rsa") args80 =
    Ok (factory (HDefault "code-key" "A" 600) (HJwt "rsa" "T" 300) (HDefault "pw" "R" (-1))) /\
  dget "lifetime" (given [("kwargs", VDict [("lifetime", VInt (-1)); ("password", VStr "pw")])]) = Some (VInt (-1)).
Proof. vm_compute. auto. Qed.
Example C80_ex_default : session_handlers imp80 (fun _ => Ok (fun kid => Some kid)) (fun _ => "rsa") [("issuer", VStr "https://op")] =
  Ok (default_th "code" "token" "refresh" 600 3600 86400).
Proof. vm_compute. reflexivity. Qed.
(** a code an hour after its ten minutes *)
Example C80_ex_old : th_info toy_dec toy_verify 4600 (default_th "code" "token" "refresh" 600 3600 86400)
  (make_token toy_enc toy_sign 1000 "n" "rnd" (HDefault "code" "A" 600) "diana;;c1;;g1" "" []) = Ok (mkTI "A" "diana;;c1;;g1" "1600" "code") /\
  default_is_expired toy_dec toy_verify 4600 "code" (HDefault "code" "A" 600)
    (make_token toy_enc toy_sign 1000 "n" "rnd" (HDefault "code" "A" 600) "diana;;c1;;g1" "" []) 0 = Ok true.
Proof. vm_compute. auto. Qed.
Example C80_ex_jwt : In ("access_token", Some (HJwt "key" "T" 300)) (fst (factory ex_c ex_a ex_r)) /\
  th_info toy_dec toy_verify 1301 (factory ex_c ex_a ex_r) (make_token toy_enc toy_sign 1000 "n" "rnd" (HJwt "key" "T" 300) "diana;;c1;;g1" "" []) = Raise EToOld.
Proof. split; [cbn; auto|vm_compute; reflexivity]. Qed.
Example C80_ex_empty : exists th, handler_factory imp80 kj80 (fun _ => "rsa")
  [("code", VDict []); ("token", VDict [("password", VStr "t")])] = Ok th.
Proof. eexists. vm_compute. reflexivity. Qed.
Example C80_ex_no_password : handler_factory imp80 kj80 (fun _ => "rsa") [("code", VDict [("lifetime", VInt 600)])] = Raise EType.
Proof. vm_compute. reflexivity. Qed.

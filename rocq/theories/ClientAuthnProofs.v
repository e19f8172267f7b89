(** ClientAuthnProofs.v *)
From Verif Require Import Base BaseProofs SplitProofs Types Monad MonadProofs Ctx ClientAuthn ClientAuthnSpec.
Local Open Scope Z_scope.

Ltac inv H := inversion H; subst; clear H.

(** ** Strings *)
Lemma starts_drop p s : starts_with p s = true -> s = (p ++ drop (String.length p) s)%string.
Proof.
  unfold starts_with. revert s. induction p as [|c p IH]; intros s H; [reflexivity|].
  destruct s as [|d s]; [discriminate|]. cbn in H.
  destruct (ascii_dec c d) as [->|]; [|discriminate]. cbn. now rewrite <- (IH s H).
Qed.
Lemma prefix_app p s : String.prefix p (p ++ s) = true.
Proof.
  induction p as [|c p IH]; [now destruct s|]. cbn. destruct (ascii_dec c c); [exact IH|congruence].
Qed.
Lemma drop_app p s : drop (String.length p) (p ++ s) = s.
Proof. induction p as [|c p IH]; [reflexivity|]. exact IH. Qed.

Lemma free_no_colon s : free ":" s = true <-> no_colon s.
Proof.
  unfold free. induction s as [|c s IH]; cbn [sforall no_colon]; [easy|].
  rewrite andb_true_iff, negb_true_iff, IH, Ascii.eqb_neq. intuition congruence.
Qed.
Lemma split_two t p q : split ":" t = [p; q] <-> t = (p ++ ":" ++ q)%string /\ no_colon p /\ no_colon q.
Proof.
  split.
  - intros E. pose proof (join1_split ":" t) as J. change (ssep ":") with ":" in J. rewrite E in J. cbn in J.
    pose proof (split1_pieces ":" t) as F. change (ssep ":") with ":" in F. rewrite E in F. cbn in F.
    rewrite !andb_true_iff in F. destruct F as (A & B & _).
    split; [now symmetry|]. split; now apply free_no_colon.
  - intros (-> & A & B). apply free_no_colon in A, B.
    change (p ++ ":" ++ q)%string with (p ++ String ":" q)%string.
    change ":" with (ssep ":"). rewrite (split1_app ":" p q A). now rewrite (split1_free ":" q B).
Qed.

Lemma map_two {A B} (f : A -> B) l x y : map f l = [x; y] -> exists p q, l = [p; q] /\ f p = x /\ f q = y.
Proof.
  destruct l as [|p [|q [|r l]]]; try discriminate. cbn. intros [= <- <-]. eauto.
Qed.

Lemma basic_authn_iff o header c secret :
  basic_authn o header = Ok (c, secret) <-> basic_credentials o header c secret.
Proof.
  unfold basic_authn, basic_credentials. split.
  - destruct (starts_with "Basic " header) eqn:E; [|discriminate]. cbn [negb].
    apply starts_drop in E. cbn [String.length] in E.
    destruct (o_b64 o (drop 6 header)) as [tok|] eqn:Eb; [|discriminate]. cbn [rbind].
    destruct (map (o_unquote o) (split ":" tok)) as [|i [|s [|? ?]]] eqn:Em; try discriminate.
    intros [= -> ->]. apply map_two in Em. destruct Em as (p & q & Es & Hp & Hq).
    apply split_two in Es. destruct Es as (-> & Np & Nq).
    exists (drop 6 header), p, q. auto 10.
  - intros (b & p & q & -> & Eb & Np & Nq & Hp & Hq).
    unfold starts_with. rewrite (prefix_app "Basic " b). cbn [negb].
    change 6%nat with (String.length "Basic "). rewrite drop_app, Eb. cbn [rbind].
    rewrite (proj2 (split_two _ p q)) by auto. cbn [map]. now rewrite Hp, Hq.
Qed.

Lemma val_eqb_str v s : val_eqb v (VStr s) = true <-> v = VStr s.
Proof.
  destruct v; cbn; try (split; discriminate). rewrite String.eqb_eq. split; congruence.
Qed.

Lemma secret_is_true db c v : secret_is db c v = Ok true ->
  exists r, secret_on_record db c r /\ val_eqb r v = true.
Proof.
  unfold secret_is, secret_on_record, dsub. destruct (dget c db) as [info|] eqn:E; [|discriminate]. cbn [of_option rbind].
  destruct (dget "client_secret" info) as [r|] eqn:E2; [|discriminate]. cbn [of_option rbind]. intros [= H].
  exists r. split; [|exact H]. exists info. auto.
Qed.
Lemma secret_on_record_is db c r v : secret_on_record db c r -> secret_is db c v = Ok (val_eqb r v).
Proof.
  intros (info & E & E2). unfold secret_is, dsub. rewrite E. cbn [of_option rbind]. rewrite E2. reflexivity.
Qed.

Lemma valid_iff now info : valid_client_info now info = Ok true <-> not_expired now info.
Proof.
  unfold valid_client_info, not_expired. destruct (dget "client_secret_expires_at" info) as [v|].
  - split.
    + intros H v' [= <-]. destruct v; try discriminate.
      * exists (Z.b2z b). split; [cbn; apply Z.eqb_refl|]. injection H as H. apply orb_true_iff in H.
        rewrite Z.eqb_eq, negb_true_iff, Z.ltb_ge in H. exact H.
      * exists z. split; [cbn; apply Z.eqb_refl|]. injection H as H. apply orb_true_iff in H.
        rewrite Z.eqb_eq, negb_true_iff, Z.ltb_ge in H. exact H.
    + intros H. destruct (H v eq_refl) as (z & E & D).
      destruct v; cbn in E; try discriminate; apply Z.eqb_eq in E; subst; f_equal; apply orb_true_iff;
        rewrite Z.eqb_eq, negb_true_iff, Z.ltb_ge; exact D.
  - split; [intros _ v [=]|reflexivity].
Qed.

Lemma usable_iff m rq auth : is_usable m rq auth = true <-> carries rq auth m.
Proof.
  assert (S : forall p, (match auth with Some a => starts_with p a | None => false end) = true <->
                        exists b, auth = Some (p ++ b)%string).
  { intros p. destruct auth as [a|].
    - split.
      + intros H. apply starts_drop in H. exists (drop (String.length p) a). now rewrite <- H.
      + intros (b & [= ->]). apply prefix_app.
    - split; [discriminate|]. intros (b & [=]). }
  destruct m; cbn; rewrite ?andb_true_iff, ?dmem_true; try apply S; reflexivity.
Qed.

(** ** Effects on the state *)
Definition R0 (s s' : castate) : Prop := ca_cdb s' = ca_cdb s /\ grows (ca_jti s) (ca_jti s').
Lemma R0_refl s : R0 s s.
Proof. split; [reflexivity|]. intros k v H. exact H. Qed.
Lemma R0_trans a b c : R0 a b -> R0 b c -> R0 a c.
Proof. intros (A & B) (C & D). split; [congruence|]. intros k v H. auto. Qed.

Ltac mv := apply (moves_bind R0 R0_trans); [|intros ?].

Ltac mvs := repeat first
  [ apply (moves_lift R0 R0_refl) | apply (moves_ret R0 R0_refl) | apply (moves_raise R0 R0_refl)
  | apply (moves_gets R0 R0_refl) | solve [auto] | mv
  | match goal with |- moves _ (match ?x with _ => _ end) => destruct x end ].

Lemma jti_once_moves o j : moves R0 (jti_once o j).
Proof.
  unfold jti_once. destruct (jw_jti j) as [[|a t]|]; try apply (moves_ret R0 R0_refl).
  mv; [apply (moves_lift R0 R0_refl)|].
  intros s. unfold bind, gets. destruct (dmem _ (ca_jti s)) eqn:E; [apply R0_refl|].
  cbn. split; [reflexivity|]. intros k v H. cbn. rewrite dget_dset.
  destruct (String.eqb_spec k (a0 ++ String ":" (String a t))%string) as [->|Hne]; [|exact H].
  exfalso. apply (f_equal negb) in E. unfold dmem in E. cbn in E. unfold dmem in E.
  change (a0 ++ ":" ++ String a t)%string with (a0 ++ String ":" (String a t))%string in E.
  rewrite H in E. discriminate.
Qed.

#[local] Hint Resolve jti_once_moves : core.
Lemma verify_moves o e m rq auth : moves R0 (verify o e m rq auth).
Proof.
  pose proof (@moves_lift castate R0 R0_refl) as ML. pose proof (@moves_ret castate R0 R0_refl) as MR.
  pose proof (@moves_raise castate R0 R0_refl) as MX. pose proof (@moves_gets castate R0 R0_refl) as MG.
  assert (J : forall p, moves R0 (jws_verify o e p rq)) by (intros p; unfold jws_verify; mvs).
  destruct m; cbn [verify]; auto; unfold basic_verify, post_verify, bearer_header_verify, bearer_body_verify,
    request_param_verify; mvs.
Qed.

Lemma try_moves o e l rq auth : moves R0 (try_methods o e l rq auth).
Proof.
  induction l as [|[m|] l IH]; cbn [try_methods]; [apply (moves_ret R0 R0_refl)| |exact IH].
  destruct (is_usable m rq auth); [|exact IH].
  apply (moves_catch R0 R0_trans); [|exact IH].
  mv; [apply verify_moves|apply (moves_ret R0 R0_refl)].
Qed.

(** ** What each method establishes *)
Lemma basic_ok o auth s ai s' : basic_verify o auth s = (Ok ai, s') ->
  s' = s /\ exists header c secret, auth = Some header /\ basic_credentials o header c secret /\
  secret_on_record (ca_cdb s) c (VStr secret) /\ ai = mkAI (Some (VStr c)) None (tag MBasic).
Proof.
  unfold basic_verify. intros H. destruct auth as [a|]; [|discriminate]. cbn in H. unfold bind, lift, gets in H.
  destruct (basic_authn o a) as [[c sec]|] eqn:E; [|discriminate].
  destruct (secret_is (ca_cdb s) c (VStr sec)) as [[|]|] eqn:E2; try discriminate. injection H as <- <-.
  split; [reflexivity|]. exists a, c, sec. split; [reflexivity|]. split; [now apply basic_authn_iff|].
  split; [|reflexivity]. apply secret_is_true in E2. destruct E2 as (r & Hr & V). apply val_eqb_str in V. now subst.
Qed.

Lemma post_ok rq s ai s' : post_verify rq s = (Ok ai, s') ->
  s' = s /\ exists c sent r, dget "client_id" rq = Some (VStr c) /\ dget "client_secret" rq = Some sent /\
  secret_on_record (ca_cdb s) c r /\ val_eqb r sent = true /\ ai = mkAI (Some (VStr c)) None (tag MPost).
Proof.
  unfold post_verify, msub_str, dsub. intros H.
  destruct (dget "client_id" rq) as [[]|]; try discriminate. cbn in H.
  destruct (dget "client_secret" rq) as [sent|]; [|discriminate]. cbn in H. unfold bind, lift, gets in H.
  destruct (secret_is (ca_cdb s) s0 sent) as [[|]|] eqn:E2; try discriminate. injection H as <- <-.
  split; [reflexivity|]. apply secret_is_true in E2. destruct E2 as (r & Hr & V). exists s0, sent, r. auto.
Qed.

Lemma hmac_iff j : (match jw_alg j with Some a => starts_with "HS" a | None => false end) = true <-> hmac j.
Proof.
  unfold hmac. destruct (jw_alg j) as [a|].
  - split.
    + intros H. apply starts_drop in H. exists (drop (String.length "HS") a). now rewrite <- H.
    + intros (b & E). injection E as ->. apply (prefix_app "HS").
  - split; [discriminate|]. intros (? & [=]).
Qed.
Lemma not_hmac j : (match jw_alg j with Some a => starts_with "HS" a | None => false end) = false <-> ~ hmac j.
Proof. rewrite <- hmac_iff. destruct (match jw_alg j with Some a => _ | None => _ end); split; congruence. Qed.

Lemma aud_ok e j : aud_check e j = Ok tt <-> for_us e j.
Proof.
  unfold aud_check, for_us. destruct (jw_aud j) as [aud|]; cbn [of_option rbind].
  - destruct (ep_named e).
    + split.
      * destruct (existsb _ aud) eqn:E; [|discriminate]. intros _. apply existsb_exists in E.
        destruct E as (a & I & M). apply smem_In in M. exists aud. eauto.
      * intros (aud' & [= <-] & a & I & M). apply smem_In in M.
        rewrite (proj2 (existsb_exists _ aud)); [reflexivity|]. eauto.
    + split.
      * destruct (smem (ep_issuer e) aud) eqn:E; [|discriminate]. intros _. apply smem_In in E.
        exists aud. split; [reflexivity|]. exists (ep_issuer e). split; [exact E|now left].
      * intros (aud' & [= <-] & a & I & [<-|[]]). apply smem_In in I. now rewrite I.
  - split; [discriminate|]. intros (? & [=] & _).
Qed.

Lemma key_ok o private j db : key_check o private j db = Ok tt <-> key_fits o private j db.
Proof.
  unfold key_check, key_fits. pose proof (hmac_iff j) as HI. pose proof (not_hmac j) as NH.
  destruct (match jw_alg j with Some a => _ | None => _ end).
  - assert (hm : hmac j) by now apply HI. clear HI NH. destruct private; [split; [discriminate|tauto]|].
    split.
    + destruct (jw_iss j) as [iss|]; [|discriminate]. cbn [of_option rbind]. unfold dsub.
      destruct (dget iss db) as [info|] eqn:E; [|discriminate]. cbn [of_option rbind]. intros H.
      split; [exact hm|]. exists iss, info. split; [reflexivity|]. split; [exact E|]. intros sec Es T.
      rewrite Es in H. rewrite T in H. destruct (o_oct o iss (jw_kid j)) as [|k ks]; [discriminate|].
      destruct sec; try discriminate. destruct (String.eqb_spec k s); [|discriminate]. subst. eauto.
    + intros (_ & iss & info & -> & E & H). cbn [of_option rbind]. unfold dsub. rewrite E. cbn [of_option rbind].
      destruct (dget "client_secret" info) as [sec|]; [|reflexivity]. destruct (truthy sec) eqn:T; [|reflexivity].
      destruct (H sec eq_refl T) as (k & ks & -> & ->). now rewrite String.eqb_refl.
  - assert (hm : ~ hmac j) by now apply NH. destruct private; split; try tauto; try discriminate.
Qed.

(** The one-time check: nothing to check, or a key not seen that is then noted *)
Definition jkey (j : jwt) : option string :=
  match jw_iss j, jw_jti j with
  | Some i, Some (String a t) => Some (i ++ ":" ++ String a t)%string
  | _, _ => None
  end.

Lemma jti_ok o j s s' : jti_once o j s = (Ok tt, s') ->
  ((jw_jti j = None \/ jw_jti j = Some "") /\ s' = s) \/
  (exists k, jkey j = Some k /\ dget k (ca_jti s) = None /\
     s' = mkCA (ca_cdb s) (dset k (o_now o) (ca_jti s))).
Proof.
  unfold jti_once, jkey. destruct (jw_jti j) as [[|a t]|]; try (intros [= <-]; auto).
  destruct (jw_iss j) as [iss|]; [|discriminate]. cbn [of_option]. unfold bind, lift, gets, dmem. cbn beta iota.
  destruct (dget (iss ++ ":" ++ String a t) (ca_jti s)) eqn:E; [discriminate|]. intros [= <-].
  right. eexists. split; [reflexivity|]. auto.
Qed.

Lemma jti_fresh o j s k : jkey j = Some k -> dget k (ca_jti s) = None ->
  jti_once o j s = (Ok tt, mkCA (ca_cdb s) (dset k (o_now o) (ca_jti s))).
Proof.
  unfold jti_once, jkey. destruct (jw_iss j) as [iss|]; [|discriminate].
  destruct (jw_jti j) as [[|a t]|]; try discriminate. intros K E.
  assert (k = (iss ++ ":" ++ String a t)%string) by congruence. subst k.
  cbn [of_option]. unfold bind, lift, gets, dmem. cbn beta iota. now rewrite E.
Qed.
Lemma jti_none o j s : jw_jti j = None \/ jw_jti j = Some "" -> jti_once o j s = (Ok tt, s).
Proof. unfold jti_once. now intros [-> | ->]. Qed.

Lemma jws_ok o e private rq s ai s' : jws_verify o e private rq s = (Ok ai, s') ->
  exists a j iss s1, dget "client_assertion" rq = Some (VStr a) /\ o_unpack o a = Ok j /\ jw_iss j = Some iss /\
    key_fits o private j (ca_cdb s) /\ for_us e j /\ jti_once o j s = (Ok tt, s1) /\ s' = s1 /\
    ai = mkAI (Some (VStr iss)) None (tag (if private then MPrivateJwt else MSecretJwt)).
Proof.
  unfold jws_verify, msub_str. intros H. destruct (dget "client_assertion" rq) as [[]|]; try discriminate.
  unfold bind, lift, gets in H. cbn beta iota in H.
  destruct (o_unpack o s0) as [j|] eqn:Eu; [|discriminate].
  destruct (key_check o private j (ca_cdb s)) as [[]|] eqn:Ek; [|discriminate].
  destruct (aud_check e j) as [[]|] eqn:Ea; [|discriminate].
  destruct (jti_once o j s) as [[[]|] s1] eqn:Ej; [|discriminate].
  destruct (jw_iss j) as [iss|] eqn:Ei; [|discriminate]. cbn in H. injection H as <- <-.
  exists s0, j, iss, s1. split; [reflexivity|]. split; [exact Eu|]. split; [exact Ei|].
  split; [now apply key_ok|]. split; [now apply aud_ok|]. auto.
Qed.

Lemma jws_run o e private rq s a j iss s1 :
  dget "client_assertion" rq = Some (VStr a) -> o_unpack o a = Ok j -> jw_iss j = Some iss ->
  key_fits o private j (ca_cdb s) -> for_us e j -> jti_once o j s = (Ok tt, s1) ->
  jws_verify o e private rq s = (Ok (mkAI (Some (VStr iss)) None (tag (if private then MPrivateJwt else MSecretJwt))), s1).
Proof.
  intros Ea Eu Ei K F J. unfold jws_verify, msub_str. rewrite Ea. unfold bind, lift, gets. cbn beta iota.
  rewrite Eu. apply key_ok in K. rewrite K. apply aud_ok in F. rewrite F, J, Ei. reflexivity.
Qed.

Lemma request_ok o rq s ai s' : request_param_verify o rq s = (Ok ai, s') ->
  exists a j iss s1, dget "request" rq = Some (VStr a) /\ o_unpack o a = Ok j /\ jw_iss j = Some iss /\
    jti_once o j s = (Ok tt, s1) /\ s' = s1 /\ ai = mkAI (Some (VStr iss)) None (tag MRequestParam).
Proof.
  unfold request_param_verify, msub_str. intros H. destruct (dget "request" rq) as [[]|]; try discriminate.
  unfold bind, lift in H. cbn beta iota in H.
  destruct (o_unpack o s0) as [j|] eqn:Eu; [|discriminate].
  destruct (jti_once o j s) as [[[]|] s1] eqn:Ej; [|discriminate].
  destruct (jw_iss j) as [iss|] eqn:Ei; [|discriminate]. cbn in H. injection H as <- <-.
  exists s0, j, iss, s1. auto 10.
Qed.

Lemma verify_tag o e m rq auth s ai s' : verify o e m rq auth s = (Ok ai, s') -> ai_method ai = tag m.
Proof.
  destruct m; cbn [verify]; intros H.
  - apply basic_ok in H. destruct H as (_ & h & c & x & _ & _ & _ & ->). reflexivity.
  - apply post_ok in H. destruct H as (_ & h & c & x & _ & _ & _ & _ & ->). reflexivity.
  - unfold bearer_header_verify in H. destruct auth; [|discriminate]. cbn in H. now injection H as <- _.
  - unfold bearer_body_verify in H. destruct (dget "access_token" rq) as [[]|]; try discriminate; now injection H as <- _.
  - apply jws_ok in H. destruct H as (? & ? & ? & ? & _ & _ & _ & _ & _ & _ & _ & ->). reflexivity.
  - apply jws_ok in H. destruct H as (? & ? & ? & ? & _ & _ & _ & _ & _ & _ & _ & ->). reflexivity.
  - apply request_ok in H. destruct H as (? & ? & ? & ? & _ & _ & _ & _ & _ & ->). reflexivity.
Qed.
Lemma tag_inj m m' : tag m = tag m' -> m = m'.
Proof. destruct m, m'; intros H; reflexivity || discriminate H. Qed.
Lemma tag_not_none m : tag m <> "none".
Proof. destruct m; discriminate. Qed.

(** ** A method that fails changes nothing *)
Lemma jti_fail o j s e s' : jti_once o j s = (Raise e, s') -> s' = s.
Proof.
  unfold jti_once. destruct (jw_jti j) as [[|a t]|]; try discriminate.
  destruct (jw_iss j) as [iss|]; cbn [of_option]; unfold bind, lift, gets; [|now intros [= _ <-]].
  cbn beta iota. destruct (dmem _ _); [now intros [= _ <-]|discriminate].
Qed.
Lemma jti_iss o j s s' : jti_once o j s = (Ok tt, s') -> s' = s \/ exists i, jw_iss j = Some i.
Proof.
  intros H. apply jti_ok in H. destruct H as [(_ & ->)|(k & K & _)]; [now left|].
  right. unfold jkey in K. destruct (jw_iss j); [eauto|discriminate].
Qed.
Lemma verify_fail o e m rq auth s x s' : verify o e m rq auth s = (Raise x, s') -> s' = s.
Proof.
  assert (J : forall private, jws_verify o e private rq s = (Raise x, s') -> s' = s).
  { intros private. unfold jws_verify, bind, lift, gets.
    destruct (msub_str "client_assertion" rq); [|now intros [= _ <-]].
    destruct (o_unpack o a) as [j|]; [|now intros [= _ <-]].
    destruct (key_check o private j (ca_cdb s)); [|now intros [= _ <-]].
    destruct (aud_check e j); [|now intros [= _ <-]].
    destruct (jti_once o j s) as [[[]|] s1] eqn:E.
    - destruct (jti_iss _ _ _ _ E) as [->|(i & ->)]; [|discriminate].
      destruct (jw_iss j); [discriminate|now intros [= _ <-]].
    - intros [= _ <-]. exact (jti_fail _ _ _ _ _ E). }
  destruct m; cbn [verify]; try apply J.
  - unfold basic_verify, bind, lift, gets. destruct (of_option EAttr auth); [|now intros [= _ <-]].
    destruct (basic_authn o a) as [[c sec]|]; [|now intros [= _ <-]].
    destruct (secret_is (ca_cdb s) c (VStr sec)) as [[|]|]; now intros [= _ <-].
  - unfold post_verify, bind, lift, gets. destruct (msub_str "client_id" rq); [|now intros [= _ <-]].
    destruct (dsub "client_secret" rq); [|now intros [= _ <-]].
    destruct (secret_is (ca_cdb s) a a0) as [[|]|]; now intros [= _ <-].
  - unfold bearer_header_verify, bind, lift. destruct (of_option EAttr auth); [discriminate|now intros [= _ <-]].
  - unfold bearer_body_verify. destruct (dget "access_token" rq) as [[]|]; now intros [= _ <-].
  - unfold request_param_verify, bind, lift.
    destruct (msub_str "request" rq); [|now intros [= _ <-]].
    destruct (o_unpack o a) as [j|]; [|now intros [= _ <-]].
    destruct (jti_once o j s) as [[[]|] s1] eqn:E.
    + destruct (jti_iss _ _ _ _ E) as [->|(i & ->)]; [|discriminate].
      destruct (jw_iss j); [discriminate|now intros [= _ <-]].
    + intros [= _ <-]. exact (jti_fail _ _ _ _ _ E).
Qed.

(** ** The loop over the methods *)
Lemma try_some o e l rq auth s ai s' : try_methods o e l rq auth s = (Ok (Some ai), s') ->
  exists l1 m l2, l = l1 ++ Some m :: l2 /\ carries rq auth m /\ verify o e m rq auth s = (Ok ai, s') /\
  (forall m', In (Some m') l1 -> carries rq auth m' -> fails o e rq auth s m').
Proof.
  induction l as [|[m|] l IH]; cbn [try_methods]; [discriminate| |].
  - destruct (is_usable m rq auth) eqn:U.
    + unfold catch, bind. destruct (verify o e m rq auth s) as [[x|err] s1] eqn:V; cbn in *.
      * intros [= <- <-]. exists [], m, l. split; [reflexivity|].
        split; [now apply usable_iff|]. split; [exact V|]. intros m' [].
      * pose proof (verify_fail _ _ _ _ _ _ _ _ V). subst s1.
        intros H. destruct (IH H) as (l1 & m' & l2 & -> & C & E & F).
        exists (Some m :: l1), m', l2. split; [reflexivity|]. split; [exact C|]. split; [exact E|].
        intros m2 [X|X] C2; [injection X as <-; unfold fails; now rewrite V|auto].
    + intros H. destruct (IH H) as (l1 & m' & l2 & -> & C & E & F).
      exists (Some m :: l1), m', l2. split; [reflexivity|]. split; [exact C|]. split; [exact E|].
      intros m2 [X|X] C2; [|auto]. injection X as <-. apply usable_iff in C2. congruence.
  - intros H. destruct (IH H) as (l1 & m' & l2 & -> & C & E & F). exists (None :: l1), m', l2.
    split; [reflexivity|]. split; [exact C|]. split; [exact E|]. intros m2 [X|X] C2; [discriminate|auto].
Qed.

Lemma try_none o e l rq auth s :
  (forall m, In (Some m) l -> carries rq auth m -> fails o e rq auth s m) ->
  try_methods o e l rq auth s = (Ok None, s).
Proof.
  induction l as [|[m|] l IH]; intros H; cbn [try_methods]; [reflexivity| |].
  - assert (H' : try_methods o e l rq auth s = (Ok None, s)) by (apply IH; intros m' I; apply H; now right).
    destruct (is_usable m rq auth) eqn:U; [|exact H']. apply usable_iff in U.
    specialize (H m (or_introl eq_refl) U). unfold fails in H. unfold catch, bind.
    destruct (verify o e m rq auth s) as [[x|err] s1] eqn:V; [discriminate|].
    now rewrite (verify_fail _ _ _ _ _ _ _ _ V).
  - apply IH. intros m I. apply H. now right.
Qed.

(** the first method that verifies decides *)
Lemma try_first o e l1 m l2 rq auth s ai s' :
  (forall m, In (Some m) l1 -> carries rq auth m -> fails o e rq auth s m) ->
  carries rq auth m -> verify o e m rq auth s = (Ok ai, s') ->
  try_methods o e (l1 ++ Some m :: l2) rq auth s = (Ok (Some ai), s').
Proof.
  intros F C V. induction l1 as [|[m'|] l1 IH]; cbn [try_methods app].
  - apply usable_iff in C. rewrite C. unfold catch, bind. rewrite V. reflexivity.
  - assert (IH' : try_methods o e (l1 ++ Some m :: l2) rq auth s = (Ok (Some ai), s'))
      by (apply IH; intros m2 I; apply F; now right).
    destruct (is_usable m' rq auth) eqn:U; [|exact IH']. apply usable_iff in U.
    specialize (F m' (or_introl eq_refl) U). unfold fails in F. unfold catch, bind.
    destruct (verify o e m' rq auth s) as [[x|err] s1] eqn:V2; [discriminate|].
    now rewrite (verify_fail _ _ _ _ _ _ _ _ V2).
  - apply IH. intros m2 I. apply F. now right.
Qed.

Lemma try_nothing o e l rq auth s s' : try_methods o e l rq auth s = (Ok None, s') ->
  s' = s /\ forall m, In (Some m) l -> carries rq auth m -> fails o e rq auth s m.
Proof.
  induction l as [|[m|] l IH]; cbn [try_methods].
  - intros [= <-]. split; [reflexivity|]. intros m [].
  - destruct (is_usable m rq auth) eqn:U.
    + unfold catch, bind. destruct (verify o e m rq auth s) as [[x|err] s1] eqn:V; [discriminate|].
      pose proof (verify_fail _ _ _ _ _ _ _ _ V). subst s1. intros H. destruct (IH H) as (-> & F).
      split; [reflexivity|]. intros m' [X|X] C; [injection X as <-; unfold fails; now rewrite V|auto].
    + intros H. destruct (IH H) as (-> & F). split; [reflexivity|]. intros m' [X|X] C; [|auto].
      injection X as <-. apply usable_iff in C. congruence.
  - intros H. destruct (IH H) as (-> & F). split; [reflexivity|]. intros m' [X|X]; [discriminate|auto].
Qed.

Lemma try_total o e l rq auth s : exists r s', try_methods o e l rq auth s = (Ok r, s').
Proof.
  induction l as [|[m|] l IH]; cbn [try_methods]; [eexists _, _; reflexivity| |apply IH].
  destruct (is_usable m rq auth); [|apply IH].
  unfold catch, bind. destruct (verify o e m rq auth s) as [[x|err] s1] eqn:V; [eexists _, _; reflexivity|].
  rewrite (verify_fail _ _ _ _ _ _ _ _ V). apply IH.
Qed.

(** ** The client that is reported *)
Lemma note_ok cls c method info s s' :
  dget c (ca_cdb s) = Some info -> note_method cls c method info s = (Ok tt, s') ->
  only_noted c (ca_cdb s) (ca_cdb s') /\ ca_jti s' = ca_jti s.
Proof.
  intros E H. unfold note_method in H.
  assert (K : forall x, only_noted c (ca_cdb s) (dset c (dset "auth_method" x info) (ca_cdb s))).
  { intros x. split.
    - intros d Hd. now apply dget_dset_neq.
    - intros k Hk. rewrite E, dget_dset_eq. now apply dget_dset_neq. }
  destruct (truthy_get "auth_method" info) as [[]|]; try discriminate; injection H as <-; cbn; auto.
Qed.

Lemma known_ok o cls cid method s s' : known_client o cls cid method s = (Ok tt, s') ->
  exists c, cid = VStr c /\ standing (o_now o) (ca_cdb s) c /\ only_noted c (ca_cdb s) (ca_cdb s') /\ ca_jti s' = ca_jti s.
Proof.
  unfold known_client. destruct cid; try discriminate. unfold bind, gets, lift. cbn beta iota.
  destruct (dget s0 (ca_cdb s)) as [info|] eqn:E; [|discriminate].
  destruct (valid_client_info (o_now o) info) as [[|]|] eqn:V; try discriminate. intros H.
  apply valid_iff in V. destruct (note_ok _ _ _ _ _ _ E H) as (A & B).
  exists s0. split; [reflexivity|]. split; [exists info; auto|]. auto.
Qed.
Lemma known_fail o cls cid method s e s' : known_client o cls cid method s = (Raise e, s') -> s' = s.
Proof.
  unfold known_client. destruct cid; try (now intros [= _ <-]). unfold bind, gets, lift. cbn beta iota.
  destruct (dget s0 (ca_cdb s)) as [info|]; [|now intros [= _ <-]].
  destruct (valid_client_info (o_now o) info) as [[|]|]; try (now intros [= _ <-]).
  unfold note_method. destruct (truthy_get "auth_method" info) as [[]|]; try (now intros [= _ <-]); discriminate.
Qed.

Lemma alias_str aka c cid : alias aka (Some (VStr c)) = Ok cid -> exists d, cid = Some (VStr d) /\ named aka c d.
Proof.
  unfold alias, named, dsub. destruct (is_nil aka); [intros [= <-]; eauto|].
  destruct (dget c aka) as [d|]; [|discriminate]. cbn. intros [= <-]. eauto.
Qed.

(** what the second half of [verify_client] does *)
Definition settled (o : outside) (cls : string) (of_token : option (val -> result val)) (aka : dict string)
    (ai0 ai : auth_info) (s1 s' : castate) : Prop :=
  exists cid, alias aka (ai_client ai0) = Ok cid /\ ai_method ai = ai_method ai0 /\
  ((exists c, cid = Some (VStr c) /\ c <> "" /\ ai_client ai = cid /\ ai_token ai = ai_token ai0 /\
      standing (o_now o) (ca_cdb s1) c /\ only_noted c (ca_cdb s1) (ca_cdb s') /\ ca_jti s' = ca_jti s1) \/
   ((forall v, cid = Some v -> truthy v = false) /\ s' = s1 /\
    match of_token with
    | None => ai_client ai = cid /\ ai_token ai = ai_token ai0
    | Some f => exists t c, ai_token ai0 = Some t /\ truthy t = true /\ f t = Ok c /\
                 ai_client ai = Some c /\ ai_token ai = Some t
    end)).

Definition none_info (rq : msg) : auth_info :=
  mkAI (Some (match dget "client_id" rq with Some v => v | None => VNone end)) None "none".

Lemma none_in methods :
  existsb (fun m : option cmethod => match m with None => true | Some _ => false end) methods = true <-> In None methods.
Proof.
  rewrite existsb_exists. split; [intros ([m|] & I & E); [discriminate|exact I]|intros I; exists None; auto].
Qed.

Lemma named_methods e : (if ep_named e then ep_methods e else []) = ep_methods e \/ (ep_named e = false).
Proof. destruct (ep_named e); auto. Qed.

(** what the second half of [verify_client] is *)
Definition settle (o : outside) (cls : string) (of_token : option (val -> result val)) (aka : dict string)
    (ai : auth_info) : ST castate (option auth_info) :=
  cid <-- lift (alias aka (ai_client ai)) ;;
  let ai := mkAI cid (ai_token ai) (ai_method ai) in
  if match cid with Some v => truthy v | None => false end then
    known_client o cls (match cid with Some v => v | None => VNone end) (ai_method ai) ;;;
    ret (Some ai)
  else
    match of_token with
    | None => ret (Some ai)
    | Some f =>
        match ai_token ai with
        | None => raise EValue
        | Some t =>
            if truthy t then
              c <-- lift (match f t with
                          | Raise err => if is_key_error err then Raise EValue else Raise err
                          | Ok c => Ok c
                          end) ;;
              ret (Some (mkAI (Some c) (Some t) (ai_method ai)))
            else raise EValue
        end
    end.
Lemma verify_client_eq o e cls of_token aka rq auth s :
  verify_client o e cls of_token aka rq auth s =
  bind (try_methods o e (if ep_named e then ep_methods e else []) rq (authz_str auth))
    (fun found => match match found with
        | Some ai => Some ai
        | None => if existsb (fun m => match m with None => true | Some _ => false end) (if ep_named e then ep_methods e else [])
                  then Some (none_info rq) else None
        end with
        | None => ret None
        | Some ai => settle o cls of_token aka ai
        end) s.
Proof. reflexivity. Qed.

Lemma settle_ok o cls of_token aka ai0 s1 r s' : settle o cls of_token aka ai0 s1 = (Ok r, s') ->
  exists ai, r = Some ai /\ settled o cls of_token aka ai0 ai s1 s'.
Proof.
  unfold settle, settled. intros H. apply bind_ok in H. destruct H as (cid & s2 & El & H). unfold lift in El.
  injection El as El <-.
  destruct (match cid with Some v => truthy v | None => false end) eqn:T.
  - destruct cid as [v|]; [|discriminate]. apply bind_ok in H. destruct H as ([] & s3 & Ek & H).
    injection H as <- <-. eexists. split; [reflexivity|]. eexists. split; [exact El|]. cbn. split; [reflexivity|]. left.
    destruct (known_ok _ _ _ _ _ _ Ek) as (c & -> & S & N & J). exists c. split; [reflexivity|].
    split; [intros ->; discriminate|]. auto 10.
  - destruct of_token as [f|].
    + cbn in H. destruct (ai_token ai0) as [t|] eqn:Etk; [|discriminate].
      destruct (truthy t) eqn:Tt; [|discriminate]. unfold bind, lift in H.
      destruct (f t) as [c|err] eqn:Ef; [|destruct (is_key_error err); discriminate].
      injection H as <- <-. eexists. split; [reflexivity|]. eexists. split; [exact El|]. cbn. split; [reflexivity|].
      right. split.
      * intros v ->. exact T.
      * split; [reflexivity|]. exists t, c. auto.
    + injection H as <- <-. eexists. split; [reflexivity|]. eexists. split; [exact El|]. cbn. split; [reflexivity|].
      right. split.
      * intros v ->. exact T.
      * auto.
Qed.

Lemma settle_fail o cls of_token aka ai0 s1 e s' : settle o cls of_token aka ai0 s1 = (Raise e, s') -> s' = s1.
Proof.
  unfold settle, bind, lift. destruct (alias aka (ai_client ai0)) as [cid|]; [|now intros [= _ <-]].
  cbv zeta. destruct (match cid with Some v => truthy v | None => false end).
  - destruct (known_client o cls _ _ s1) as [[[]|] s2] eqn:K; [discriminate|].
    intros [= _ <-]. exact (known_fail _ _ _ _ _ _ _ K).
  - destruct of_token as [f|]; [|discriminate]. cbn [ai_token]. destruct (ai_token ai0) as [t|]; [|now intros [= _ <-]].
    destruct (truthy t); [|now intros [= _ <-]].
    destruct (f t) as [c|err]; [discriminate|]. destruct (is_key_error err); now intros [= _ <-].
Qed.

(** The outcome of [verify_client] when it accepts. *)
Lemma verify_client_ok o e cls of_token aka rq auth s ai s' :
  verify_client o e cls of_token aka rq auth s = (Ok (Some ai), s') ->
  ep_named e = true /\
  exists ai0 s1, settled o cls of_token aka ai0 ai s1 s' /\
  ((exists l1 m l2, ep_methods e = l1 ++ Some m :: l2 /\ carries rq (authz_str auth) m /\
      verify o e m rq (authz_str auth) s = (Ok ai0, s1) /\
      (forall m', In (Some m') l1 -> carries rq (authz_str auth) m' -> fails o e rq (authz_str auth) s m')) \/
   (In None (ep_methods e) /\ s1 = s /\ ai0 = none_info rq /\
      forall m, In (Some m) (ep_methods e) -> carries rq (authz_str auth) m -> fails o e rq (authz_str auth) s m)).
Proof.
  rewrite verify_client_eq. intros H. apply bind_ok in H. destruct H as (found & s1 & Et & H).
  destruct (ep_named e).
  2:{ cbn in Et. injection Et as <- <-. cbn in H. discriminate. }
  split; [reflexivity|]. destruct found as [ai0|].
  - exists ai0, s1. apply settle_ok in H. destruct H as (ai' & [= <-] & K). split; [exact K|]. left.
    apply try_some in Et. exact Et.
  - apply try_nothing in Et. destruct Et as (-> & F). pose proof (none_in (ep_methods e)) as NI.
    destruct (existsb _ (ep_methods e)); [|discriminate].
    apply settle_ok in H. destruct H as (ai' & [= <-] & K). exists (none_info rq), s.
    split; [exact K|]. right. split; [now apply NI|]. auto.
Qed.

(** ... and when it does not: the client database is as before. *)
Lemma verify_client_not o e cls of_token aka rq auth s r s' :
  verify_client o e cls of_token aka rq auth s = (r, s') -> (forall ai, r <> Ok (Some ai)) ->
  ca_cdb s' = ca_cdb s /\ grows (ca_jti s) (ca_jti s').
Proof.
  rewrite verify_client_eq. unfold bind. intros H N.
  pose proof (try_moves o e (if ep_named e then ep_methods e else []) rq (authz_str auth) s) as M.
  destruct (try_methods o e _ rq (authz_str auth) s) as [[found|err] s1]; cbn in M.
  2:{ injection H as <- <-. exact M. }
  destruct (match found with Some _ => _ | None => _ end) as [ai0|].
  2:{ injection H as <- <-. exact M. }
  destruct r as [r|err].
  - apply settle_ok in H. destruct H as (ai & -> & _). now destruct (N ai).
  - apply settle_fail in H. subst s1. exact M.
Qed.

Lemma settled_jti o cls of_token aka ai0 ai s1 s' : settled o cls of_token aka ai0 ai s1 s' -> ca_jti s' = ca_jti s1.
Proof.
  intros (cid & _ & _ & [(c & _ & _ & _ & _ & _ & _ & J)|(_ & -> & _)]); auto.
Qed.

Lemma verify_client_jti o e cls of_token aka rq auth s r s' :
  verify_client o e cls of_token aka rq auth s = (r, s') -> grows (ca_jti s) (ca_jti s').
Proof.
  intros H. assert (D : (exists ai, r = Ok (Some ai)) \/ (forall ai, r <> Ok (Some ai))).
  { destruct r as [[ai|]|]; [left; eauto|right; discriminate|right; discriminate]. }
  destruct D as [(ai & ->)|N]; [|exact (proj2 (verify_client_not _ _ _ _ _ _ _ _ _ _ H N))].
  apply verify_client_ok in H. destruct H as (_ & ai0 & s1 & K & D). rewrite (settled_jti _ _ _ _ _ _ _ _ K).
  destruct D as [(l1 & m & l2 & _ & _ & V & _)|(_ & -> & _)].
  - pose proof (verify_moves o e m rq (authz_str auth) s) as M. rewrite V in M. apply M.
  - intros k v X. exact X.
Qed.

(** ** Histories *)
Lemma verify_jkey o e m rq auth s ai s' a j k :
  verify o e m rq auth s = (Ok ai, s') ->
  match m with
  | MSecretJwt | MPrivateJwt => dget "client_assertion" rq = Some (VStr a)
  | MRequestParam => dget "request" rq = Some (VStr a)
  | _ => False
  end -> o_unpack o a = Ok j -> jkey j = Some k ->
  dget k (ca_jti s) = None /\ exists v, dget k (ca_jti s') = Some v.
Proof.
  intros V C U K.
  assert (J : forall s1, jti_once o j s = (Ok tt, s1) -> s' = s1 -> dget k (ca_jti s) = None /\ exists v, dget k (ca_jti s') = Some v).
  { intros s1 E ->. apply jti_ok in E. destruct E as [([N|N] & ->)|(k' & K' & N & ->)].
    - unfold jkey in K. rewrite N in K. now destruct (jw_iss j).
    - unfold jkey in K. rewrite N in K. now destruct (jw_iss j).
    - assert (k' = k) by congruence. subst k'. split; [exact N|]. cbn. rewrite dget_dset_eq. eauto. }
  destruct m; try contradiction; cbn [verify] in V.
  - apply jws_ok in V. destruct V as (a' & j' & iss & s1 & C' & U' & _ & _ & _ & E & Es & _).
    assert (a' = a) by congruence. subst a'. assert (j' = j) by congruence. subst j'. exact (J s1 E Es).
  - apply jws_ok in V. destruct V as (a' & j' & iss & s1 & C' & U' & _ & _ & _ & E & Es & _).
    assert (a' = a) by congruence. subst a'. assert (j' = j) by congruence. subst j'. exact (J s1 E Es).
  - apply request_ok in V. destruct V as (a' & j' & iss & s1 & C' & U' & _ & E & Es & _).
    assert (a' = a) by congruence. subst a'. assert (j' = j) by congruence. subst j'. exact (J s1 E Es).
Qed.

Lemma mget_str_some k m s : mget_str k m = Some s -> dget k m = Some (VStr s).
Proof. unfold mget_str. destruct (dget k m) as [[]|]; congruence. Qed.

(** a call accepted for a JWT: the JWT was read, its key was not known before and is afterwards *)
Lemma accepted_key c s r s' a : run_call c s = (r, s') -> accepted_jwt (c, r) = Some a ->
  exists j iss, o_unpack (cl_out c) a = Ok j /\ jw_iss j = Some iss /\
  forall k, jkey j = Some k -> dget k (ca_jti s) = None /\ exists v, dget k (ca_jti s') = Some v.
Proof.
  unfold run_call, accepted_jwt. cbn [fst snd]. intros H A. destruct r as [[ai|]|]; try discriminate.
  apply verify_client_ok in H. destruct H as (_ & ai0 & s1 & K & D).
  rewrite (settled_jti _ _ _ _ _ _ _ _ K). destruct K as (cid & _ & Em & _). rewrite Em in A.
  destruct D as [(l1 & m & l2 & _ & _ & V & _)|(_ & _ & -> & _)].
  2:{ cbn in A. discriminate. }
  pose proof (verify_tag _ _ _ _ _ _ _ _ V) as T. rewrite T in A.
  assert (W : forall j, o_unpack (cl_out c) a = Ok j ->
    match m with
    | MSecretJwt | MPrivateJwt => dget "client_assertion" (cl_rq c) = Some (VStr a)
    | MRequestParam => dget "request" (cl_rq c) = Some (VStr a)
    | _ => False
    end -> forall k, jkey j = Some k -> dget k (ca_jti s) = None /\ exists v, dget k (ca_jti s1) = Some v).
  { intros j U C k Kk. exact (verify_jkey _ _ m _ _ _ _ _ a j k V C U Kk). }
  destruct m; try discriminate A; cbn [tag smem existsb] in A; apply mget_str_some in A; cbn [verify] in V.
  - apply jws_ok in V. destruct V as (a' & j & iss & s2 & C & U & I & _). assert (a' = a) by congruence. subst a'.
    exists j, iss. split; [exact U|]. split; [exact I|]. exact (W j U A).
  - apply jws_ok in V. destruct V as (a' & j & iss & s2 & C & U & I & _). assert (a' = a) by congruence. subst a'.
    exists j, iss. split; [exact U|]. split; [exact I|]. exact (W j U A).
  - apply request_ok in V. destruct V as (a' & j & iss & s2 & C & U & I & _). assert (a' = a) by congruence. subst a'.
    exists j, iss. split; [exact U|]. split; [exact I|]. exact (W j U A).
Qed.

Lemma jkey_ext j j' : jw_iss j = jw_iss j' -> jw_jti j = jw_jti j' -> jkey j = jkey j'.
Proof. unfold jkey. now intros -> ->. Qed.

Lemma run_grows h s l s' : run h s = (l, s') -> grows (ca_jti s) (ca_jti s').
Proof.
  revert s l. induction h as [|[c|db] h IH]; intros s l; cbn [run].
  - intros [= _ <-]. intros k v X. exact X.
  - destruct (run_call c s) as [r s1] eqn:E. destruct (run h s1) as [l2 s2] eqn:E2. intros [= <- <-].
    pose proof (verify_client_jti _ _ _ _ _ _ _ _ _ _ E) as G. pose proof (IH _ _ E2) as G2.
    intros k v X. auto.
  - intros H. apply (IH _ _ H).
Qed.

(** what was accepted in a history was not known when it began, and is in the end *)
Lemma run_accepted claims h s l s' : stable claims h -> run h s = (l, s') ->
  forall x a k, In x l -> accepted_jwt x = Some a -> jkey (claims a) = Some k -> dget k (ca_jti s) = None.
Proof.
  revert s l. induction h as [|[c|db] h IH]; intros s l St; cbn [run].
  - intros [= <- <-] x a k [].
  - destruct (run_call c s) as [r s1] eqn:E. destruct (run h s1) as [l2 s2] eqn:E2. intros [= <- <-].
    intros x a k [<-|I] A K.
    + destruct (accepted_key _ _ _ _ _ E A) as (j & iss & U & _ & F).
      destruct (St c a j (or_introl eq_refl) U) as (E3 & E4).
      rewrite <- (jkey_ext _ _ E3 E4) in K. exact (proj1 (F k K)).
    + assert (St' : stable claims h) by (intros c' s0 j I'; apply St; now right).
      pose proof (IH _ _ St' E2 x a k I A K) as N.
      pose proof (verify_client_jti _ _ _ _ _ _ _ _ _ _ E) as G.
      destruct (dget k (ca_jti s)) as [v|] eqn:Ek; [|reflexivity]. rewrite (G k v Ek) in N. discriminate.
  - intros H. apply (IH _ _ ltac:(intros c' s0 j I'; apply St; now right) H).
Qed.

Lemma accepted_has_key claims h s l s' : stable claims h -> run h s = (l, s') ->
  forall x a, In x l -> accepted_jwt x = Some a -> exists i, jw_iss (claims a) = Some i.
Proof.
  revert s l. induction h as [|[c|db] h IH]; intros s l St; cbn [run].
  - intros [= <- <-] x a [].
  - destruct (run_call c s) as [r s1] eqn:E. destruct (run h s1) as [l2 s2] eqn:E2. intros [= <- <-].
    intros x a [<-|I] A.
    + destruct (accepted_key _ _ _ _ _ E A) as (j & iss & U & I & _).
      destruct (St c a j (or_introl eq_refl) U) as (E3 & _). exists iss. congruence.
    + apply (IH _ _ ltac:(intros c' s0 j I'; apply St; now right) E2 x a I A).
  - intros H. apply (IH _ _ ltac:(intros c' s0 j I'; apply St; now right) H).
Qed.

Lemma once claims h s l s' : stable claims h -> run h s = (l, s') ->
  forall n1 n2 x1 x2 a1 a2 t, nth_error l n1 = Some x1 -> nth_error l n2 = Some x2 ->
  accepted_jwt x1 = Some a1 -> accepted_jwt x2 = Some a2 ->
  jw_iss (claims a1) = jw_iss (claims a2) -> jw_jti (claims a1) = Some t -> jw_jti (claims a2) = Some t -> t <> "" ->
  n1 = n2.
Proof.
  intros St H n1 n2 x1 x2 a1 a2 t N1 N2 A1 A2 Ei T1 T2 Ht.
  assert (K2 : exists k, jkey (claims a2) = Some k).
  { destruct (accepted_has_key _ _ _ _ _ St H x2 a2 (nth_error_In _ _ N2) A2) as (i & Hi).
    unfold jkey. rewrite Hi, T2. destruct t; [congruence|]. eauto. }
  destruct K2 as (k & K2). assert (K1 : jkey (claims a1) = Some k) by (rewrite <- K2; apply jkey_ext; congruence).
  clear Ei T1 T2 Ht t. revert s l n1 n2 St H N1 N2.
  induction h as [|[c|db] h IH]; intros s l n1 n2 St; cbn [run].
  - intros [= <- <-] N. now destruct n1.
  - destruct (run_call c s) as [r s1] eqn:E. destruct (run h s1) as [l2 s2] eqn:E2. intros [= <- <-].
    assert (St' : stable claims h) by (intros c' s0 j I'; apply St; now right).
    assert (Kp : forall a, accepted_jwt (c, r) = Some a -> jkey (claims a) = Some k -> exists v, dget k (ca_jti s1) = Some v).
    { intros a A K. destruct (accepted_key _ _ _ _ _ E A) as (j & iss & U & _ & F).
      destruct (St c a j (or_introl eq_refl) U) as (E3 & E4). rewrite <- (jkey_ext _ _ E3 E4) in K. exact (proj2 (F k K)). }
    pose proof (run_accepted _ _ _ _ _ St' E2) as RA.
    destruct n1 as [|n1], n2 as [|n2]; cbn; intros N1 N2; [reflexivity| | |f_equal; exact (IH _ _ _ _ St' E2 N1 N2)].
    + injection N1 as <-. destruct (Kp _ A1 K1) as (v & X). rewrite (RA _ _ _ (nth_error_In _ _ N2) A2 K2) in X. discriminate.
    + injection N2 as <-. destruct (Kp _ A2 K2) as (v & X). rewrite (RA _ _ _ (nth_error_In _ _ N1) A1 K1) in X. discriminate.
  - intros H. apply (IH _ _ n1 n2 ltac:(intros c' s0 j I'; apply St; now right) H).
Qed.

(** ** Only a JWT of the same issuer with the same id gets in the way *)
Section Agree.
  Context (K : string -> Prop).
  Definition agree (s t : castate) : Prop :=
    ca_cdb s = ca_cdb t /\ forall k, K k -> dget k (ca_jti s) = dget k (ca_jti t).
  Definition same_run {A} (m : ST castate A) : Prop :=
    forall s t, agree s t -> fst (m s) = fst (m t) /\ agree (snd (m s)) (snd (m t)).
  Lemma same_ret {A} (a : A) : same_run (ret a).
  Proof. intros s t H. split; [reflexivity|exact H]. Qed.
  Lemma same_raise {A} e : same_run (@raise castate A e).
  Proof. intros s t H. split; [reflexivity|exact H]. Qed.
  Lemma same_lift {A} (r : result A) : same_run (lift r).
  Proof. intros s t H. split; [reflexivity|exact H]. Qed.
  Lemma same_cdb : same_run (gets ca_cdb).
  Proof. intros s t H. cbn. split; [|exact H]. destruct H as (-> & _). reflexivity. Qed.
  Lemma same_bind {A B} (m : ST castate A) (k : A -> ST castate B) :
    same_run m -> (forall a, same_run (k a)) -> same_run (bind m k).
  Proof.
    intros Hm Hk s t H. unfold bind. destruct (Hm s t H) as (E & G).
    destruct (m s) as [r s1], (m t) as [r2 t1]; cbn in *. subst r2. destruct r as [a|e]; [apply Hk; exact G|].
    split; [reflexivity|exact G].
  Qed.
  Lemma same_catch {A} (m : ST castate A) c h : same_run m -> same_run h -> same_run (catch m c h).
  Proof.
    intros Hm Hh s t H. unfold catch. destruct (Hm s t H) as (E & G).
    destruct (m s) as [r s1], (m t) as [r2 t1]; cbn in *. subst r2. destruct r as [a|e].
    - split; [reflexivity|exact G].
    - destruct (c e); [apply Hh; exact G|]. split; [reflexivity|exact G].
  Qed.
  Lemma same_write f : same_run (modify (fun s => mkCA (f (ca_cdb s)) (ca_jti s))).
  Proof. intros s t (E & G). cbn. split; [reflexivity|]. split; [cbn; congruence|exact G]. Qed.
  Lemma same_jti o j : (forall k, jkey j = Some k -> K k) -> same_run (jti_once o j).
  Proof.
    intros HK s t H. unfold jti_once. unfold jkey in HK. destruct (jw_jti j) as [[|a x]|]; try (apply same_ret, H).
    destruct (jw_iss j) as [iss|]; cbn [of_option]; unfold bind, lift, gets; [|split; [reflexivity|exact H]].
    cbn beta iota. specialize (HK _ eq_refl). destruct H as (E & G). unfold dmem. rewrite (G _ HK).
    destruct (dget _ (ca_jti t)); cbn.
    - split; [reflexivity|]. split; assumption.
    - split; [reflexivity|]. split; [exact E|]. cbn. intros k Hk. rewrite !dget_dset.
      destruct (String.eqb _ _); [reflexivity|]. apply G, Hk.
  Qed.
End Agree.

Ltac sm := repeat first
  [ apply same_lift | apply same_ret | apply same_raise | apply same_cdb | apply same_write | solve [auto]
  | apply same_bind; [|intros ?]
  | match goal with |- same_run _ (match ?x with _ => _ end) => destruct x eqn:? end ].

Lemma same_lift_bind (K : string -> Prop) {A B} (r : result A) (k : A -> ST castate B) :
  (forall a, r = Ok a -> same_run K (k a)) -> same_run K (bind (lift r) k).
Proof.
  intros H. destruct r as [a|e]; [exact (H a eq_refl)|]. intros s t G. split; [reflexivity|exact G].
Qed.

Lemma verify_same (K : string -> Prop) o e m rq auth :
  (forall a j k, bears rq a -> o_unpack o a = Ok j -> jkey j = Some k -> K k) ->
  same_run K (verify o e m rq auth).
Proof.
  intros HK. unfold bears in HK.
  assert (J : forall private, same_run K (jws_verify o e private rq)).
  { intros private. unfold jws_verify. apply same_lift_bind. intros a Ea. apply same_lift_bind. intros j Ej.
    assert (Hj : forall k, jkey j = Some k -> K k).
    { intros k. apply (HK a j k); [|exact Ej]. left. unfold msub_str in Ea.
      destruct (dget "client_assertion" rq) as [[]|]; congruence. }
    pose proof (same_jti K o j Hj). sm. }
  destruct m; cbn [verify]; try apply J;
    try (unfold basic_verify, post_verify, bearer_header_verify, bearer_body_verify; sm; fail).
  - unfold request_param_verify. apply same_lift_bind. intros a Ea. apply same_lift_bind. intros j Ej.
    assert (Hj : forall k, jkey j = Some k -> K k).
    { intros k. apply (HK a j k); [|exact Ej]. right. unfold msub_str in Ea.
      destruct (dget "request" rq) as [[]|]; congruence. }
    pose proof (same_jti K o j Hj). sm.
Qed.

Lemma verify_client_same (K : string -> Prop) o e cls of_token aka rq auth :
  (forall a j k, bears rq a -> o_unpack o a = Ok j -> jkey j = Some k -> K k) ->
  same_run K (verify_client o e cls of_token aka rq auth).
Proof.
  intros HK.
  assert (T : forall l, same_run K (try_methods o e l rq (authz_str auth))).
  { induction l as [|[m|] l IH]; cbn [try_methods]; [apply same_ret| |exact IH].
    destruct (is_usable _ _ _); [|exact IH]. apply same_catch; [|exact IH].
    apply same_bind; [now apply verify_same|]. intros a. apply same_ret. }
  assert (S : forall ai, same_run K (settle o cls of_token aka ai)).
  { intros ai. unfold settle. apply same_bind; [apply same_lift|]. intros cid. cbv zeta.
    destruct (match cid with Some v => truthy v | None => false end).
    - apply same_bind; [|intros _; apply same_ret]. unfold known_client.
      destruct (match cid with Some v => v | None => VNone end); try apply same_raise.
      apply same_bind; [apply same_cdb|]. intros db. destruct (dget s db) as [info|]; [|apply same_raise].
      apply same_bind; [apply same_lift|]. intros [|]; [|apply same_raise].
      unfold note_method. destruct (truthy_get "auth_method" info) as [[]|]; try apply same_raise.
      + apply (same_write K (dset s _)).
      + apply (same_write K (dset s _)).
    - sm. }
  intros s t H. rewrite !verify_client_eq. revert s t H. apply same_bind; [apply T|].
  intros found. destruct (match found with Some _ => _ | None => _ end); [apply S|apply same_ret].
Qed.

(** the ids that a call adds are those of JWTs in its request *)
Lemma verify_adds o e m rq auth s r s' k : verify o e m rq auth s = (r, s') ->
  dget k (ca_jti s) = None -> dget k (ca_jti s') <> None ->
  exists a j, bears rq a /\ o_unpack o a = Ok j /\ jkey j = Some k.
Proof.
  intros V N P. destruct r as [ai|x].
  2:{ rewrite (verify_fail _ _ _ _ _ _ _ _ V) in P. congruence. }
  assert (J : forall j s1, jti_once o j s = (Ok tt, s1) -> s' = s1 -> jkey j = Some k).
  { intros j s1 E ->. apply jti_ok in E. destruct E as [(_ & ->)|(k' & K' & _ & ->)]; [congruence|].
    cbn in P. rewrite dget_dset in P. destruct (String.eqb_spec k k'); [congruence|]. congruence. }
  unfold bears. destruct m; cbn [verify] in V.
  - apply basic_ok in V. destruct V as (-> & _). congruence.
  - apply post_ok in V. destruct V as (-> & _). congruence.
  - unfold bearer_header_verify in V. destruct auth; [|discriminate]. cbn in V. injection V as _ <-. congruence.
  - unfold bearer_body_verify in V. destruct (dget "access_token" rq) as [[]|]; try discriminate; injection V as _ <-; congruence.
  - apply jws_ok in V. destruct V as (a & j & iss & s1 & C & U & _ & _ & _ & E & Es & _). exists a, j. eauto 6.
  - apply jws_ok in V. destruct V as (a & j & iss & s1 & C & U & _ & _ & _ & E & Es & _). exists a, j. eauto 6.
  - apply request_ok in V. destruct V as (a & j & iss & s1 & C & U & _ & E & Es & _). exists a, j. eauto 6.
Qed.

Lemma try_adds o e l rq auth s r s' k : try_methods o e l rq auth s = (r, s') ->
  dget k (ca_jti s) = None -> dget k (ca_jti s') <> None ->
  exists a j, bears rq a /\ o_unpack o a = Ok j /\ jkey j = Some k.
Proof.
  intros H N P. destruct (try_total o e l rq auth s) as (f & s2 & E). rewrite E in H. injection H as <- <-.
  destruct f as [ai|].
  - apply try_some in E. destruct E as (l1 & m & l2 & _ & _ & V & _). exact (verify_adds _ _ _ _ _ _ _ _ _ V N P).
  - apply try_nothing in E. destruct E as (-> & _). congruence.
Qed.

Lemma call_adds c s r s' k : run_call c s = (r, s') ->
  dget k (ca_jti s) = None -> dget k (ca_jti s') <> None ->
  exists a j, bears (cl_rq c) a /\ o_unpack (cl_out c) a = Ok j /\ jkey j = Some k.
Proof.
  unfold run_call. rewrite verify_client_eq. unfold bind. intros H N P.
  destruct (try_methods (cl_out c) (cl_ep c) _ (cl_rq c) (authz_str (cl_auth c)) s) as [[found|err] s1] eqn:E.
  2:{ injection H as <- <-. exact (try_adds _ _ _ _ _ _ _ _ _ E N P). }
  assert (J : ca_jti s' = ca_jti s1).
  { destruct (match found with Some _ => _ | None => _ end) as [ai0|]; [|now injection H as _ <-].
    destruct r as [r|x].
    - apply settle_ok in H. destruct H as (ai & _ & K). exact (settled_jti _ _ _ _ _ _ _ _ K).
    - now rewrite (settle_fail _ _ _ _ _ _ _ _ H). }
  rewrite J in P. exact (try_adds _ _ _ _ _ _ _ _ _ E N P).
Qed.

Lemma run_adds h s l s' k : run h s = (l, s') -> dget k (ca_jti s) = None -> dget k (ca_jti s') <> None ->
  exists c a j, In (Auth c) h /\ bears (cl_rq c) a /\ o_unpack (cl_out c) a = Ok j /\ jkey j = Some k.
Proof.
  revert s l. induction h as [|[c|db] h IH]; intros s l; cbn [run].
  - intros [= <- <-]. congruence.
  - destruct (run_call c s) as [r s1] eqn:E. destruct (run h s1) as [l2 s2] eqn:E2. intros [= <- <-] N P.
    destruct (dget k (ca_jti s1)) as [v|] eqn:Ek.
    + destruct (call_adds _ _ _ _ k E N) as (a & j & B & U & J); [congruence|]. exists c, a, j. split; [now left|]. auto.
    + destruct (IH _ _ E2 Ek P) as (c' & a & j & I & X). exists c', a, j. split; [now right|]. auto.
  - intros H N P. destruct (IH _ _ H N P) as (c' & a & j & I & X). exists c', a, j. split; [now right|]. auto.
Qed.

Lemma no_colon_app_inj a b x y : no_colon a -> no_colon b -> (a ++ ":" ++ x)%string = (b ++ ":" ++ y)%string -> a = b /\ x = y.
Proof.
  revert b. induction a as [|c a IH]; intros [|d b] Ha Hb; cbn; intros E.
  - injection E as E. auto.
  - injection E as <- E. destruct Hb as (Hb & _). congruence.
  - injection E as -> E. destruct Ha as (Ha & _). congruence.
  - injection E as -> E. destruct Ha as (_ & Ha), Hb as (_ & Hb). destruct (IH b Ha Hb E) as (-> & ->). auto.
Qed.
Lemma jkey_inj j j' k : (forall i, jw_iss j = Some i -> no_colon i) -> (forall i, jw_iss j' = Some i -> no_colon i) ->
  jkey j = Some k -> jkey j' = Some k -> jw_iss j = jw_iss j' /\ jw_jti j = jw_jti j' /\ exists t, jw_jti j = Some t /\ t <> "".
Proof.
  intros N N' K K'. unfold jkey in *.
  destruct (jw_iss j) as [i|]; [|discriminate]. destruct (jw_iss j') as [i'|]; [|discriminate].
  destruct (jw_jti j) as [[|a t]|]; try discriminate. destruct (jw_jti j') as [[|a' t']|]; try discriminate.
  destruct (no_colon_app_inj i i' (String a t) (String a' t') (N i eq_refl) (N' i' eq_refl)) as (-> & E).
  { transitivity k; congruence. }
  rewrite E. split; [reflexivity|]. split; [reflexivity|]. eexists. split; [reflexivity|]. discriminate.
Qed.

Lemma not_blocked h db l s' c : run h (mkCA db []) = (l, s') ->
  (forall c' a j i, In (Auth c') (Auth c :: h) -> o_unpack (cl_out c') a = Ok j -> jw_iss j = Some i -> no_colon i) ->
  (forall c0 a0 j0 a j, In (Auth c0) h -> bears (cl_rq c0) a0 -> o_unpack (cl_out c0) a0 = Ok j0 ->
     bears (cl_rq c) a -> o_unpack (cl_out c) a = Ok j ->
     jw_iss j0 = jw_iss j -> jw_jti j0 = jw_jti j -> jw_jti j = None \/ jw_jti j = Some "") ->
  fst (run_call c s') = fst (run_call c (mkCA (ca_cdb s') [])).
Proof.
  intros R NC D. unfold run_call.
  apply (verify_client_same (fun k => exists a j, bears (cl_rq c) a /\ o_unpack (cl_out c) a = Ok j /\ jkey j = Some k)).
  - intros a j k B U K. eauto.
  - split; [reflexivity|]. cbn. intros k (a & j & B & U & K).
    destruct (dget k (ca_jti s')) eqn:E; [|reflexivity]. exfalso.
    destruct (run_adds _ _ _ _ k R eq_refl) as (c0 & a0 & j0 & I & B0 & U0 & K0); [congruence|].
    destruct (jkey_inj j0 j k) as (E1 & E2 & t & T1 & T2); auto.
    + intros i. apply (NC c0 a0 j0 i); [now right|exact U0].
    + intros i. apply (NC c a j i); [now left|exact U].
    + destruct (D c0 a0 j0 a j I B0 U0 B U E1 E2); congruence.
Qed.

(** what a request proves depends on the record by the secret alone *)
Lemma proves_secret o e seen rq auth m c info info' : dget "client_secret" info' = dget "client_secret" info -> proves o e seen rq auth m c info -> proves o e seen rq auth m c info'.
Proof. intros E. destruct m; cbn [proves]; rewrite ?E; auto. Qed.

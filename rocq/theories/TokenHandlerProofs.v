(** TokenHandlerProofs.v: proofs about TokenHandler.v. *)
From Verif Require Import Base BaseProofs Types PyInt PyIntProofs LV LVProofs TokenHandler TokenHandlerSpec.

Section Crypto.
Variables (fenc : string -> string -> string -> string) (fdec : string -> string -> option string).
Variables (jsign : string -> msg -> string) (jverify : string -> string -> result msg).
(** decryption undoes encryption with the same password, and fails with another one *)
Hypothesis fdec_ok : forall k n p, fdec k (fenc k n p) = Some p.
Hypothesis fdec_other : forall k k' n p, k <> k' -> fdec k' (fenc k n p) = None.

Lemma rstrip_sp_spaces n : rstrip_sp (spaces n) = ""%string.
Proof. induction n; cbn; [auto|]. rewrite IHn. reflexivity. Qed.
Lemma rstrip_sp_app s n : rstrip_sp (s ++ spaces n) = rstrip_sp s.
Proof.
  induction s as [|c s IH]; cbn; [apply rstrip_sp_spaces|]. rewrite IH. reflexivity.
Qed.
Lemma rstrip_sp_end s c : c <> " "%char -> rstrip_sp (s ++ String c "") = (s ++ String c "")%string.
Proof.
  intros H. induction s as [|d s IH]; cbn.
  - destruct (Ascii.eqb c " ") eqn:E; [apply Ascii.eqb_eq in E; congruence|auto].
  - rewrite IH. destruct s; reflexivity.
Qed.

Lemma crypt_round_trip pw n t : crypt_decrypt fdec pw (crypt_encrypt fenc pw n t) = Some (rstrip_sp t).
Proof.
  unfold crypt_decrypt, crypt_encrypt. rewrite fdec_ok. cbn [option_map].
  destruct (Nat.eqb _ 0); [reflexivity|]. rewrite rstrip_sp_app. reflexivity.
Qed.

Lemma ends_nospace s : s <> ""%string -> no_space s = true -> exists a c, s = (a ++ String c "")%string /\ c <> " "%char.
Proof.
  induction s as [|c s IH]; [congruence|]. intros _ H. cbn in H. apply andb_true_iff in H as [H1 H2].
  destruct s as [|d s].
  - exists ""%string, c. split; [reflexivity|]. intros ->. discriminate.
  - destruct IH as (a & e & E & He); [discriminate|exact H2|]. exists (String c a), e. rewrite E. auto.
Qed.

Lemma rstrip_sp_pack l x : x <> ""%string -> no_space x = true -> rstrip_sp (lv_pack (l ++ [x])) = lv_pack (l ++ [x]).
Proof.
  intros Hx Hn. assert (E : exists a, lv_pack (l ++ [x]) = (a ++ x)%string).
  { induction l as [|y l (a & IH)].
    - exists (py_str (Z.of_nat (slen x)) ++ ":")%string. cbn [app]. rewrite lv_pack_cons.
      change (lv_pack []) with ""%string. rewrite str_app_nil_r, !str_app_assoc. reflexivity.
    - cbn [app]. rewrite lv_pack_cons, IH. exists (py_str (Z.of_nat (slen y)) ++ ":" ++ y ++ a)%string.
      rewrite !str_app_assoc. reflexivity. }
  destruct E as (a & ->). destruct (ends_nospace x Hx Hn) as (b & c & -> & Hc).
  rewrite <- str_app_assoc. apply rstrip_sp_end; auto.
Qed.

Definition exp_text (clock lifetime : Z) : string :=
  if (0 <=? lifetime)%Z then py_str (clock + lifetime) else "-1".
Lemma exp_text_ok clock lifetime : exp_text clock lifetime <> ""%string /\ no_space (exp_text clock lifetime) = true.
Proof.
  unfold exp_text. destruct (0 <=? lifetime)%Z.
  - split; [apply py_str_nonempty|apply py_str_no_space].
  - split; [discriminate|reflexivity].
Qed.

(** what comes out of a DefaultToken value with the right password *)
Lemma default_split clock nonce rnd pw typ lifetime sid ttype payload :
  split_token fdec pw (make_token fenc jsign clock nonce rnd (HDefault pw typ lifetime) sid ttype payload)
  = Ok [rnd; token_kind typ ttype; sid; exp_text clock lifetime].
Proof.
  cbn [make_token]. fold (exp_text clock lifetime). unfold split_token. rewrite crypt_round_trip.
  destruct (exp_text_ok clock lifetime) as [H1 H2]. set (x := exp_text clock lifetime) in *.
  change [rnd; token_kind typ ttype; sid; x] with ([rnd; token_kind typ ttype; sid] ++ [x]).
  rewrite rstrip_sp_pack by auto. rewrite lv_round_trip_exact.
  cbn [app]. unfold strip_last. cbn [rev app]. rewrite rstrip_no_space by auto. reflexivity.
Qed.

Lemma default_info_own clock clock' nonce rnd name pw typ lt lt' sid payload : typ <> ""%string ->
  handler_info fdec jverify clock' name (HDefault pw typ lt')
    (make_token fenc jsign clock nonce rnd (HDefault pw typ lt) sid "" payload)
  = Ok (mkTI typ sid (exp_text clock lt) name).
Proof.
  intros Ht. cbn [handler_info]. rewrite default_split.
  assert (E : token_kind typ "" = typ).
  { unfold token_kind. cbn. apply nonempty_true in Ht. rewrite Ht. reflexivity. }
  rewrite E. cbn. rewrite String.eqb_refl. reflexivity.
Qed.

Lemma default_info_other clock clock' nonce rnd name pw typ lt pw' typ' lt' sid payload :
  typ <> ""%string -> typ <> typ' ->
  exists e, caught e = true /\
  handler_info fdec jverify clock' name (HDefault pw' typ' lt')
    (make_token fenc jsign clock nonce rnd (HDefault pw typ lt) sid "" payload) = Raise e.
Proof.
  intros Ht Hn. destruct (string_dec pw pw') as [->|Hp].
  - exists EWrongTokenType. split; [reflexivity|]. cbn [handler_info].
    assert (D := default_split clock nonce rnd pw' typ lt sid "" payload).
    cbn [make_token] in D |- *. rewrite D.
    assert (E : token_kind typ "" = typ).
    { unfold token_kind. cbn. apply nonempty_true in Ht. rewrite Ht. reflexivity. }
    rewrite E. cbn. destruct (String.eqb typ typ') eqn:X; [apply String.eqb_eq in X; congruence|reflexivity].
  - exists EUnknownToken. split; [reflexivity|]. cbn [handler_info make_token]. unfold split_token, crypt_decrypt, crypt_encrypt.
    rewrite fdec_other by auto. reflexivity.
Qed.

Definition default_th (pc pa pr : string) (lc la lr : Z) : handlers * list string :=
  token_handler (Some (HDefault pc "A" lc)) (Some (HDefault pa "T" la)) (Some (HDefault pr "R" lr)).

Lemma default_resolves pc pa pr lc la lr name h clock clock' nonce rnd sid payload :
  In (name, Some h) (fst (default_th pc pa pr lc la lr)) ->
  exists exp, th_info fdec jverify clock' (default_th pc pa pr lc la lr)
                (make_token fenc jsign clock nonce rnd h sid "" payload)
              = Ok (mkTI (TTYPE name) sid exp name).
Proof.
  intros Hin. cbn in Hin. unfold th_info, default_th, token_handler. cbn [fst snd].
  destruct Hin as [E|[E|[E|[]]]]; inversion E; subst; clear E.
  - exists (exp_text clock lc). cbn [get_handler dget String.eqb Ascii.eqb Bool.eqb].
    rewrite default_info_own by discriminate. reflexivity.
  - exists (exp_text clock la). cbn [get_handler dget String.eqb Ascii.eqb Bool.eqb].
    destruct (default_info_other clock clock' nonce rnd "code" pa "T" la pc "A" lc sid payload) as (e & Hc & ->);
      [discriminate|discriminate|]. rewrite Hc.
    rewrite default_info_own by discriminate. reflexivity.
  - exists (exp_text clock lr). cbn [get_handler dget String.eqb Ascii.eqb Bool.eqb].
    destruct (default_info_other clock clock' nonce rnd "code" pr "R" lr pc "A" lc sid payload) as (e & Hc & ->);
      [discriminate|discriminate|]. rewrite Hc.
    destruct (default_info_other clock clock' nonce rnd "access_token" pr "R" lr pa "T" la sid payload) as (e2 & Hc2 & ->);
      [discriminate|discriminate|]. rewrite Hc2.
    rewrite default_info_own by discriminate. reflexivity.
Qed.
End Crypto.

Section Auth.
Variables (fdec : string -> string -> option string) (jverify : string -> string -> result msg).

(** a value no key opens is refused *)
Lemma unknown_refused pc pa pr lc la lr clock t :
  (forall k, In k [pc; pa; pr] -> fdec k t = None) ->
  th_info fdec jverify clock (default_th pc pa pr lc la lr) t = Raise EUnknownToken.
Proof.
  intros H. unfold th_info, default_th, token_handler. cbn [fst snd get_handler dget String.eqb Ascii.eqb Bool.eqb].
  cbn [handler_info]. unfold split_token, crypt_decrypt. rewrite !H by (cbn; auto). reflexivity.
Qed.

(** what is accepted was opened by the handler named in the answer and carries its type *)
Lemma accepted_sound pc pa pr lc la lr clock t i :
  th_info fdec jverify clock (default_th pc pa pr lc la lr) t = Ok i ->
  exists pw plain rnd rest,
    (ti_handler i = "code" /\ pw = pc \/ ti_handler i = "access_token" /\ pw = pa \/ ti_handler i = "refresh_token" /\ pw = pr) /\
    fdec pw t = Some plain /\ lv_unpack (rstrip_sp plain) = Ok (rnd :: ti_type i :: rest) /\
    ti_type i = TTYPE (ti_handler i) /\ ti_sid i = nth 0 rest ""%string.
Proof.
  assert (G : forall name pw typ lt j, handler_info fdec jverify clock name (HDefault pw typ lt) t = Ok j ->
    exists plain rnd rest, fdec pw t = Some plain /\ lv_unpack (rstrip_sp plain) = Ok (rnd :: ti_type j :: rest) /\
      ti_type j = typ /\ ti_handler j = name /\ ti_sid j = nth 0 rest ""%string).
  { intros name pw typ lt j. cbn [handler_info]. unfold split_token, crypt_decrypt.
    destruct (fdec pw t) as [plain|]; [|discriminate]. cbn [option_map].
    destruct (lv_unpack (rstrip_sp plain)) as [parts|] eqn:E; [|discriminate]. cbn [rbind].
    destruct parts as [|r [|ty rest]]; try discriminate.
    destruct (String.eqb ty typ) eqn:Et; [|discriminate]. cbn [negb]. apply String.eqb_eq in Et.
    intros H. inversion H; subst. cbn. eauto 10. }
  unfold th_info, default_th, token_handler. cbn [fst snd get_handler dget String.eqb Ascii.eqb Bool.eqb].
  destruct (handler_info fdec jverify clock "code" (HDefault pc "A" lc) t) as [j|e] eqn:E1.
  { intros H. inversion H; subst. destruct (G _ _ _ _ _ E1) as (plain & rnd & rest & F & L & T & N & S).
    exists pc, plain, rnd, rest. rewrite T, N. split; [auto|]. rewrite <- T. auto. }
  destruct (caught e); [|discriminate].
  destruct (handler_info fdec jverify clock "access_token" (HDefault pa "T" la) t) as [j|e2] eqn:E2.
  { intros H. inversion H; subst. destruct (G _ _ _ _ _ E2) as (plain & rnd & rest & F & L & T & N & S).
    exists pa, plain, rnd, rest. rewrite T, N. split; [auto|]. rewrite <- T. auto. }
  destruct (caught e2); [|discriminate].
  destruct (handler_info fdec jverify clock "refresh_token" (HDefault pr "R" lr) t) as [j|e3] eqn:E3.
  { intros H. inversion H; subst. destruct (G _ _ _ _ _ E3) as (plain & rnd & rest & F & L & T & N & S).
    exists pr, plain, rnd, rest. rewrite T, N. split; [auto|]. rewrite <- T. auto. }
  destruct (caught e3); discriminate.
Qed.
End Auth.

Section Mixed.
Variables (fenc : string -> string -> string -> string) (fdec : string -> string -> option string).
Variables (jsign : string -> msg -> string) (jverify : string -> string -> result msg).
Hypothesis I : ideal fenc fdec jsign jverify.

Definition right (h : handler) (sid : string) (i : tinfo) : Prop := ti_type i = typ_of h /\ ti_sid i = sid.

Lemma kind_own typ : typ <> ""%string -> token_kind typ "" = typ.
Proof. intros H. unfold token_kind. cbn. apply nonempty_true in H. rewrite H. reflexivity. Qed.

Lemma own_info clock clock' nonce rnd name h sid payload :
  typ_of h <> ""%string -> in_time clock clock' h ->
  exists i, handler_info fdec jverify clock' name h (make_token fenc jsign clock nonce rnd h sid "" payload) = Ok i /\
    right h sid i /\ ti_handler i = name.
Proof.
  intros Ht Hf. destruct h as [pw typ lt|key typ lt]; cbn in Ht.
  - eexists. split; [apply default_info_own; [apply (i_fdec _ _ _ _ I)|exact Ht]|]. split; [split|]; reflexivity.
  - destruct Hf as [Hz Hf]. cbn [handler_info make_token].
    destruct (Z.eqb_spec lt 0) as [|_]; [congruence|]. rewrite (i_jver _ _ _ _ I). cbn [rbind].
    rewrite dget_dset_eq.
    assert (X : is_expired clock' (clock + lt) 0 = false).
    { unfold is_expired. cbn. destruct (Z.ltb_spec (clock + lt) 0); [reflexivity|].
      apply Z.ltb_ge. lia. }
    rewrite X. unfold msub_str. rewrite !dget_dset. cbn [String.eqb Ascii.eqb Bool.eqb rbind]. eexists. split; [reflexivity|]. rewrite kind_own by auto.
    split; [split|]; reflexivity.
Qed.

Lemma other_info clock clock' nonce rnd name h h' sid payload :
  typ_of h <> ""%string -> typ_of h <> typ_of h' -> in_time clock clock' h ->
  (exists e, handler_info fdec jverify clock' name h' (make_token fenc jsign clock nonce rnd h sid "" payload) = Raise e /\ caught e = true)
  \/ ~ is_default h /\ exists i, handler_info fdec jverify clock' name h' (make_token fenc jsign clock nonce rnd h sid "" payload) = Ok i /\ right h sid i.
Proof.
  intros Ht Hn Hf. destruct h as [pw typ lt|key typ lt], h' as [pw' typ' lt'|key' typ' lt']; cbn in Ht, Hn.
  - left. destruct (default_info_other fenc fdec jsign jverify (i_fdec _ _ _ _ I) (i_fdec_other _ _ _ _ I)
      clock clock' nonce rnd name pw typ lt pw' typ' lt' sid payload Ht Hn) as (e & ? & ?). eauto.
  - left. cbn [handler_info make_token]. unfold crypt_encrypt.
    edestruct (i_jver_fernet _ _ _ _ I pw key') as (e & -> & He). cbn. eauto.
  - left. cbn [handler_info make_token]. unfold split_token, crypt_decrypt. rewrite (i_fdec_jwt _ _ _ _ I).
    cbn. eexists; split; reflexivity.
  - destruct (string_dec key key') as [<-|Hk].
    + right. split; [cbn; tauto|].
      destruct (own_info clock clock' nonce rnd name (HJwt key typ lt) sid payload Ht Hf) as (i & E & R & _).
      exists i. split; [exact E|exact R].
    + left. cbn [handler_info make_token].
      edestruct (i_jver_other _ _ _ _ I key key') as (e & -> & He); [exact Hk|]. cbn. eauto.
Qed.

Theorem mixed_resolves c a r name h clock clock' nonce rnd sid payload :
  factory_types c a r -> In (name, Some h) (fst (factory c a r)) -> in_time clock clock' h ->
  exists i, th_info fdec jverify clock' (factory c a r) (make_token fenc jsign clock nonce rnd h sid "" payload) = Ok i /\
    ti_type i = TTYPE name /\ ti_sid i = sid /\ (is_default h -> ti_handler i = name).
Proof.
  intros (Tc & Ta & Tr) Hin Hf. unfold th_info, factory, token_handler.
  cbn [fst snd get_handler dget String.eqb Ascii.eqb Bool.eqb].
  cbn in Hin. destruct Hin as [E|[E|[E|[]]]]; inversion E; subst; clear E.
  - destruct (own_info clock clock' nonce rnd "code" h sid payload) as (i & -> & [R1 R2] & N); [rewrite Tc; discriminate|exact Hf|].
    exists i. cbn. rewrite R1, Tc. auto.
  - assert (Ne : typ_of h <> ""%string) by (rewrite Ta; discriminate).
    destruct (other_info clock clock' nonce rnd "code" h c sid payload) as [(e & -> & ->)|(D & i & -> & R1 & R2)];
      [exact Ne|rewrite Ta, Tc; discriminate|exact Hf| |].
    + destruct (own_info clock clock' nonce rnd "access_token" h sid payload Ne Hf) as (i & -> & [R1 R2] & N).
      exists i. cbn. rewrite R1, Ta. auto.
    + exists i. cbn. rewrite R1, Ta. tauto.
  - assert (Ne : typ_of h <> ""%string) by (rewrite Tr; discriminate).
    destruct (other_info clock clock' nonce rnd "code" h c sid payload) as [(e & -> & ->)|(D & i & -> & R1 & R2)];
      [exact Ne|rewrite Tr, Tc; discriminate|exact Hf| |].
    + destruct (other_info clock clock' nonce rnd "access_token" h a sid payload) as [(e2 & -> & ->)|(D & i & -> & R1 & R2)];
        [exact Ne|rewrite Tr, Ta; discriminate|exact Hf| |].
      * destruct (own_info clock clock' nonce rnd "refresh_token" h sid payload Ne Hf) as (i & -> & [R1 R2] & N).
        exists i. cbn. rewrite R1, Tr. auto.
      * exists i. cbn. rewrite R1, Tr. tauto.
    + exists i. cbn. rewrite R1, Tr. tauto.
Qed.

(** with one key for all JWT handlers, the first handler answers for every token *)
Theorem jwt_wrong_handler key lc la lr clock clock' nonce rnd sid payload :
  in_time clock clock' (HJwt key "T" la) ->
  exists i, th_info fdec jverify clock' (factory (HJwt key "A" lc) (HJwt key "T" la) (HJwt key "R" lr))
              (make_token fenc jsign clock nonce rnd (HJwt key "T" la) sid "" payload) = Ok i /\ ti_handler i = "code".
Proof.
  intros Hf. unfold th_info, factory, token_handler. cbn [fst snd get_handler dget String.eqb Ascii.eqb Bool.eqb].
  destruct (own_info clock clock' nonce rnd "code" (HJwt key "T" la) sid payload) as (i & E & _ & N); [discriminate|exact Hf|].
  exists i. cbn [handler_info] in E |- *. rewrite E. split; [reflexivity|exact N].
Qed.

(** an expired JWT is refused with an error get_handler does not catch *)
Theorem jwt_expired key lc la lr typ lt clock clock' nonce rnd sid ttype payload :
  lt <> 0%Z -> (0 <= clock + lt < clock')%Z ->
  th_info fdec jverify clock' (factory (HJwt key "A" lc) (HJwt key "T" la) (HJwt key "R" lr))
    (make_token fenc jsign clock nonce rnd (HJwt key typ lt) sid ttype payload) = Raise EToOld.
Proof.
  intros Hz Hl. unfold th_info, factory, token_handler. cbn [fst snd get_handler dget String.eqb Ascii.eqb Bool.eqb].
  cbn [handler_info make_token]. destruct (Z.eqb_spec lt 0) as [|_]; [congruence|].
  rewrite (i_jver _ _ _ _ I). cbn [rbind]. rewrite dget_dset_eq.
  assert (X : is_expired clock' (clock + lt) 0 = true).
  { unfold is_expired. cbn. destruct (Z.ltb_spec (clock + lt) 0); [lia|]. apply Z.ltb_lt. lia. }
  rewrite X. reflexivity.
Qed.
End Mixed.

Section Log.
Variables (fenc : string -> string -> string -> string) (fdec : string -> string -> option string).
Variables (jsign : string -> msg -> string) (jverify : string -> string -> result msg).
Variable made : string -> string -> Prop.
Hypothesis O : only_made fenc fdec jsign made.

Theorem accepted_was_made pc pa pr lc la lr clock' t i :
  th_info fdec jverify clock' (default_th pc pa pr lc la lr) t = Ok i ->
  exists pw clock nonce rnd typ lt ttype payload,
    made pw t /\ In pw [pc; pa; pr] /\
    t = make_token fenc jsign clock nonce rnd (HDefault pw typ lt) (ti_sid i) ttype payload /\
    ti_type i = token_kind typ ttype /\ ti_type i = TTYPE (ti_handler i).
Proof.
  intros H. apply accepted_sound in H as (pw & plain & r & rest & Hn & Hd & Hu & Ht & Hs).
  pose proof (o_sound _ _ _ _ O _ _ _ Hd) as M.
  destruct (o_made _ _ _ _ O _ _ M) as (clock & nonce & rnd & typ & lt & sid & ttype & payload & E).
  assert (P : rstrip_sp plain = rstrip_sp (lv_pack ([rnd; token_kind typ ttype; sid] ++ [exp_text clock lt]))).
  { rewrite E in M, Hd. cbn [make_token] in M, Hd. fold (exp_text clock lt) in M, Hd. unfold crypt_encrypt in M, Hd.
    rewrite (o_open _ _ _ _ O _ _ _ M) in Hd. inversion Hd; subst plain. cbn [app].
    destruct (Nat.eqb _ 0); [reflexivity|]. apply rstrip_sp_app. }
  destruct (exp_text_ok clock lt) as [X1 X2].
  rewrite P, rstrip_sp_pack, lv_round_trip_exact in Hu by auto.
  unfold strip_last in Hu. cbn [rev app] in Hu. inversion Hu. subst r rest. cbn [nth] in Hs. subst sid.
  exists pw, clock, nonce, rnd, typ, lt, ttype, payload.
  split; [exact M|]. split; [cbn; intuition congruence|]. split; [exact E|].
  split; congruence.
Qed.
End Log.

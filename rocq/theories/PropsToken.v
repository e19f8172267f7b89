(** PropsToken.v: C34 (length:value packing) and C35 (token values). *)
From Verif Require Import Base BaseProofs Types PyInt PyIntProofs LV LVProofs
  Toy TokenHandler TokenHandlerSpec TokenHandlerProofs.

(** ** C34 *)

(** What comes back: the same strings, the last one without its trailing white space. *)
Theorem C34_round_trip_exact : forall l, lv_unpack (lv_pack l) = Ok (strip_last l).
Proof. exact lv_round_trip_exact. Qed.
Print Assumptions C34_round_trip_exact.

Theorem C34_round_trip_iff : forall l,
  lv_unpack (lv_pack l) = Ok l <-> (forall p x, l = p ++ [x] -> rstrip x = x).
Proof.
  intros l. rewrite lv_round_trip_exact, <- strip_last_id. split; [intros H; inversion H; congruence|intros ->; reflexivity].
Qed.
Print Assumptions C34_round_trip_iff.

Theorem C34_round_trip_refuted : exists l, lv_unpack (lv_pack l) <> Ok l.
Proof. exists ["a "]. vm_compute. discriminate. Qed.
Print Assumptions C34_round_trip_refuted.

(** The loop ends on every text, after at most as many rounds as the text is long. *)
Theorem C34_terminates : forall txt,
  exists r, lv_loop (slen (strip txt)) (strip txt) = Some r /\ lv_unpack txt = r.
Proof.
  intros txt. unfold lv_unpack. pose proof (lv_loop_total (slen (strip txt)) (strip txt) (le_n _)) as H.
  destruct (lv_loop _ _) as [r|]; [eauto|congruence].
Qed.
Print Assumptions C34_terminates.

Example C34_ex : lv_unpack (lv_pack ["a:b"; ""; " 12:"; "x y"]) = Ok ["a:b"; ""; " 12:"; "x y"].
Proof. vm_compute. reflexivity. Qed.
Example C34_ex_bad : lv_unpack "3:abcx" = Raise EValue /\ lv_unpack "-1:abc" = Raise EValue.
Proof. vm_compute. auto. Qed.

(** ** C35 *)

(** Whatever mix of default and JWT handlers is configured, with equal or different keys: a value made by one
    of the three resolves to its session id and to the kind of its maker. *)
Theorem C35_resolves : forall fenc fdec jsign jverify, ideal fenc fdec jsign jverify ->
  forall c a r name h made_at now nonce rnd sid payload,
  factory_types c a r -> In (name, Some h) (fst (factory c a r)) -> in_time made_at now h ->
  exists i, th_info fdec jverify now (factory c a r) (make_token fenc jsign made_at nonce rnd h sid "" payload) = Ok i /\
    ti_type i = TTYPE name /\ ti_sid i = sid /\ (is_default h -> ti_handler i = name).
Proof. intros. eapply mixed_resolves; eauto. Qed.
Print Assumptions C35_resolves.

(** With default handlers, what is accepted is a value that was made, for the session id found; every other
    value is refused as unknown. *)
Theorem C35_accepts_only_made : forall fenc fdec jsign jverify made, only_made fenc fdec jsign made ->
  forall pc pa pr lc la lr now t i,
  th_info fdec jverify now (default_th pc pa pr lc la lr) t = Ok i ->
  exists pw clock nonce rnd typ lt ttype payload,
    made pw t /\ In pw [pc; pa; pr] /\
    t = make_token fenc jsign clock nonce rnd (HDefault pw typ lt) (ti_sid i) ttype payload /\
    ti_type i = token_kind typ ttype /\ ti_type i = TTYPE (ti_handler i).
Proof. intros. eapply accepted_was_made; eauto. Qed.
Print Assumptions C35_accepts_only_made.

Theorem C35_unknown_refused : forall fdec jverify pc pa pr lc la lr now t,
  (forall k, In k [pc; pa; pr] -> fdec k t = None) ->
  th_info fdec jverify now (default_th pc pa pr lc la lr) t = Raise EUnknownToken.
Proof. exact unknown_refused. Qed.
Print Assumptions C35_unknown_refused.

(** The kind is the maker's only when no type argument is given: any non-empty one makes a code. *)
Theorem C35_type_argument_refuted : forall typ ttype, ttype <> ""%string -> token_kind typ ttype = "A".
Proof. intros typ ttype H. unfold token_kind. apply nonempty_true in H. rewrite H. reflexivity. Qed.
Print Assumptions C35_type_argument_refuted.

(** JWT handlers sharing a key: the handler found for an access token is the code handler. *)
Theorem C35_jwt_handler_refuted : forall fenc fdec jsign jverify, ideal fenc fdec jsign jverify ->
  forall key lc la lr made_at now nonce rnd sid payload, in_time made_at now (HJwt key "T" la) ->
  exists i, th_info fdec jverify now (factory (HJwt key "A" lc) (HJwt key "T" la) (HJwt key "R" lr))
              (make_token fenc jsign made_at nonce rnd (HJwt key "T" la) sid "" payload) = Ok i /\ ti_handler i = "code".
Proof. intros. eapply jwt_wrong_handler; eauto. Qed.
Print Assumptions C35_jwt_handler_refuted.

(** An expired JWT is not "unknown": it ends in another exception. *)
Theorem C35_jwt_expired : forall fenc fdec jsign jverify, ideal fenc fdec jsign jverify ->
  forall key lc la lr typ lt made_at now nonce rnd sid ttype payload,
  lt <> 0%Z -> (0 <= made_at + lt < now)%Z ->
  th_info fdec jverify now (factory (HJwt key "A" lc) (HJwt key "T" la) (HJwt key "R" lr))
    (make_token fenc jsign made_at nonce rnd (HJwt key typ lt) sid ttype payload) = Raise EToOld.
Proof. intros. eapply jwt_expired; eauto. Qed.
Print Assumptions C35_jwt_expired.

(** ** The hypotheses are met: toy ciphers *)
Example C35_ex_ideal : ideal toy_enc toy_dec toy_sign toy_verify.
Proof.
  constructor; [apply toy_dec_enc|apply toy_dec_other|apply toy_verify_sign| |apply toy_dec_sign|].
  - intros k k' p H. exists EInvalid. split; [apply toy_verify_other; exact H|reflexivity].
  - intros k k' n p. exists EInvalid. split; [apply toy_verify_enc|reflexivity].
Qed.
(** A mixed configuration: default code and refresh handlers, JWT access tokens. *)
Definition ex_c := HDefault "pw" "A" 60.
Definition ex_a := HJwt "key" "T" 300.
Definition ex_r := HDefault "pw" "R" (-1).
Example C35_ex_resolves :
  factory_types ex_c ex_a ex_r /\ In ("access_token", Some ex_a) (fst (factory ex_c ex_a ex_r)) /\ in_time 1000 1200 ex_a /\
  th_info toy_dec toy_verify 1200 (factory ex_c ex_a ex_r)
    (make_token toy_enc toy_sign 1000 "n" "rnd" ex_a "diana;;c1;;g1" "" [("sid", VStr "x"); ("aud", VList [VStr "c1"])])
  = Ok (mkTI "T" "diana;;c1;;g1" "1300" "access_token") /\
  th_info toy_dec toy_verify 5000 (factory ex_c ex_a ex_r)
    (make_token toy_enc toy_sign 1000 "n" "rnd" ex_r "diana;;c1;;g1" "" [])
  = Ok (mkTI "R" "diana;;c1;;g1" "-1" "refresh_token").
Proof.
  split; [repeat split|]. split; [cbn; auto|]. split; [cbn; lia|]. split; vm_compute; reflexivity.
Qed.
(** A log with one value *)
Definition ex_tok := make_token toy_enc toy_sign 1000 "n" "rnd" ex_c "diana;;c1;;g1" "" [].
Definition ex_log (pw t : string) : Prop := pw = "pw" /\ t = ex_tok.
Definition log_dec (pw t : string) : option string :=
  if (String.eqb pw "pw" && String.eqb t ex_tok)%bool then toy_dec pw t else None.
Example C35_ex_log : only_made toy_enc log_dec toy_sign ex_log.
Proof.
  constructor.
  - intros pw t p. unfold log_dec. destruct (String.eqb_spec pw "pw"), (String.eqb_spec t ex_tok); try discriminate.
    intros _. split; auto.
  - intros pw n p [-> E]. unfold log_dec. rewrite E, !String.eqb_refl. cbn [andb]. rewrite <- E. apply toy_dec_enc.
  - intros pw t [-> ->]. exists 1000%Z, "n", "rnd", "A", 60%Z, "diana;;c1;;g1", "", []. reflexivity.
Qed.
Example C35_ex_accept :
  th_info log_dec toy_verify 1010 (default_th "pw" "pw" "pw" 60 60 60) ex_tok = Ok (mkTI "A" "diana;;c1;;g1" "1060" "code") /\
  th_info log_dec toy_verify 1010 (default_th "pw" "pw" "pw" 60 60 60) "junk" = Raise EUnknownToken.
Proof. split; vm_compute; reflexivity. Qed.

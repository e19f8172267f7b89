(** PropsCookie.v: C33 (cookies are tamper evident), C49 (logout cookies), C50 (session state). *)
From Verif Require Import Base BaseProofs SplitProofs Types PyInt PyIntProofs LV LVProofs Toy Cookie CookieSpec CookieProofs.

(** ** C33 *)

(** Whatever text is presented under whatever name, in signing, encrypting or signing-and-encrypting mode: what is
    accepted is value, time stamp and type of one cookie the server made. *)
Theorem C33_accepts_only_made :
  forall mac_sign mac_verify gcm_dec b64 unb64 header_value made d,
  unforgeable made d mac_verify gcm_dec b64 mac_sign -> b64_text b64 -> plain_log made ->
  forall name text v ts ty,
  get_cookie_value mac_verify gcm_dec unb64 header_value d name text = Ok (Some (v, ts, ty)) ->
  exists t, ts = py_str t /\ made v t ty.
Proof. intros. eapply accepted_made; eauto. Qed.
Print Assumptions C33_accepts_only_made.

(** What the server made it reads back. *)
Theorem C33_made_accepted :
  forall mac_sign mac_verify gcm_enc gcm_dec b64 unb64 header_value,
  (forall k m, mac_verify k m (mac_sign k m) = true) ->
  (forall k iv m, gcm_dec k iv (fst (gcm_enc k iv m)) (snd (gcm_enc k iv m)) = Some m) ->
  (forall x, unb64 (b64 x) = Some x) -> (forall x, no_bar (b64 x) = true) -> b64_text b64 ->
  forall now iv d v ty name ttl kill same_site http_only text c m,
  plain_value v -> plain_type ty -> d_sign d <> None ->
  (d_enc d = None -> no_bar v = true /\ no_bar ty = true) ->
  create_cookie mac_sign gcm_enc b64 now iv d v ty name ttl kill same_site http_only = Ok c ->
  dget name c = Some m -> text <> ""%string -> header_value name text = Some (mo_value m) ->
  get_cookie_value mac_verify gcm_dec unb64 header_value d name text = Ok (Some (v, py_str now, ty)).
Proof.
  intros mac_sign mac_verify gcm_enc gcm_dec b64 unb64 header_value H1 H2 H3 H4 H5.
  intros. eapply (made_accepted mac_sign mac_verify gcm_enc gcm_dec b64 unb64 header_value H1 H2 H3 H4 H5); eauto.
Qed.
Print Assumptions C33_made_accepted.

(** The name is not protected: a cookie made under one name is accepted under every other. *)
Theorem C33_name_refuted :
  forall mac_verify gcm_dec unb64 header_value d n1 n2 k1 k2, k1 <> ""%string -> k2 <> ""%string ->
  header_value n2 k2 = header_value n1 k1 ->
  get_cookie_value mac_verify gcm_dec unb64 header_value d n2 k2
  = get_cookie_value mac_verify gcm_dec unb64 header_value d n1 k1.
Proof. intros. apply name_free; auto. Qed.
Print Assumptions C33_name_refuted.

(** toy cookie header: name=value *)
Definition hv (name text : string) : option string :=
  match cut "=" text with Some (n, v) => if String.eqb n name then Some v else None | None => None end.
Definition dl : dealer := mkDealer (Some "sk") None "/" "example.com" 0.
Definition dle : dealer := mkDealer (Some "sk") (Some "0123456789abcdef") "/" "localhost" 10.
Definition text_of (name : string) (c : result simple_cookie) : string :=
  match c with Ok c => match dget name c with Some m => (name ++ "=" ++ mo_value m)%string | None => "" end | _ => "" end.
Definition mk := create_cookie toy_mac toy_gcm hex.
Definition rd := get_cookie_value toy_mac_ok toy_ungcm unhex hv.

(** Values with the separator in them, which no caller makes, can be re-cut: bytes move from the payload into
    the time stamp, and another value, time and type are accepted. *)
Theorem C33_separator_refuted :
  exists v t ty text v' ts' ty',
    let made := mk t "iv" dl v ty "n" 0 false "" true in
    (exists c m load, made = Ok c /\ dget "n" c = Some m /\
       mo_value m = join "|" [py_str t; load; hex (toy_mac "sk" (load ++ py_str t))]) /\
    rd dl "n" text = Ok (Some (v', ts', ty')) /\ (v', ts', ty') <> (v, py_str t, ty).
Proof.
  exists "a:::y5", 5%Z, "y",
    ("n=" ++ join "|" [":y5"; "a:::y5::5:"; hex (toy_mac "sk" "a:::y5::5::y5")])%string, "a", ":y5", "5:".
  cbv zeta. split.
  - eexists. eexists. exists "a:::y5::5::y"%string. split; [vm_compute; reflexivity|].
    split; [vm_compute; reflexivity|vm_compute; reflexivity].
  - split; [vm_compute; reflexivity|discriminate].
Qed.
Print Assumptions C33_separator_refuted.

(** With signing only, a value with a bar in it cannot be read back. *)
Theorem C33_bar_unreadable_refuted :
  exists v t ty, plain_value v /\ plain_type ty /\
  exists e, rd dl "n" (text_of "n" (mk t "iv" dl v ty "n" 0 false "" true)) = Raise e.
Proof.
  exists "a|b", 5%Z, "sso". split; [split; [reflexivity|]|].
  - intros p. apply (ends_c_spec ":" "a|b"). reflexivity.
  - split; [reflexivity|]. (* four parts: taken for an encrypted cookie *)
    exists EBinascii. vm_compute. reflexivity.
Qed.
Print Assumptions C33_bar_unreadable_refuted.

(** ** C49: cookies at logout *)

(** A deleted cookie has an expiry in the past. *)
Theorem C49_delete_expires :
  forall mac_sign gcm_enc b64 now iv d name c,
  delete_cookie mac_sign gcm_enc b64 now iv d name = Ok c ->
  exists m, dget name c = Some m /\ exists e, mo_expires m = Some e /\ (e < now)%Z.
Proof.
  intros ms ge b now iv d name c H. unfold delete_cookie, create_cookie, make_cookie in H.
  destruct (sign_enc_payload _ _ _ _ _ _ _ _) as [v|]; [|discriminate]. cbn [rbind] in H. inversion H. subst c.
  cbn [dget]. rewrite String.eqb_refl. eexists. split; [reflexivity|]. cbn. eexists. split; [reflexivity|lia].
Qed.
Print Assumptions C49_delete_expires.

(** The cookies sent at logout never expire anything: neither of the two has an expiry, and the value of the second
    is its own name. *)
Theorem C49_logout_refuted :
  forall mac_sign gcm_enc b64 now iv1 iv2 d sman session c, sman <> session ->
  kill_cookies mac_sign gcm_enc b64 now iv1 iv2 d sman session = Ok c ->
  (forall n m, dget n c = Some m -> mo_expires m = None) /\
  (exists m, dget session c = Some m /\ mo_value m = session) /\ (exists m, dget sman c = Some m).
Proof.
  intros ms ge b now iv1 iv2 d sman session c Hn H. unfold kill_cookies, create_cookie, make_cookie in H.
  destruct (sign_enc_payload ms ge b iv1 _ _ _ _) as [v1|]; [|discriminate]. cbn [rbind] in H.
  destruct (sign_enc_payload ms ge b iv2 _ _ _ _) as [v2|]; [|discriminate]. cbn [rbind] in H.
  inversion H. subst c. clear H. unfold append_cookie. cbn [fold_left dset].
  assert (Q : String.eqb session sman = false) by (apply String.eqb_neq; congruence).
  rewrite Q. cbn [dget]. split; [|split].
  - intros n m. destruct (String.eqb n sman); [intros E; inversion E; reflexivity|].
    destruct (String.eqb n session); [intros E; inversion E; reflexivity|discriminate].
  - rewrite Q, String.eqb_refl. eexists. split; reflexivity.
  - rewrite String.eqb_refl. eauto.
Qed.
Print Assumptions C49_logout_refuted.

(** Joining two cookie jars loses every value of the second: it becomes the name. *)
Theorem C49_append_refuted : forall k1 n m, exists m',
  dget n (append_cookie k1 [(n, m)]) = Some m' /\ mo_value m' = n.
Proof. intros k1 n m. cbn. rewrite dget_dset_eq. eexists. split; reflexivity. Qed.
Print Assumptions C49_append_refuted.

(** ** C50: the session state tells two login states apart *)

(** Two equal session states of a client come from the same cookie value and the same salt, or exhibit a collision of
    the hash. *)
Theorem C50_session_state :
  forall sha, (forall a, slen (sha a) = 64%nat) ->
  forall opbs salt client origin opbs' salt',
  compute_session_state sha opbs salt client origin = compute_session_state sha opbs' salt' client origin ->
  salt = salt' /\
  (opbs = opbs' \/
   let text o := (client ++ " " ++ origin ++ " " ++ o ++ " " ++ salt)%string in
   text opbs <> text opbs' /\ sha (text opbs) = sha (text opbs')).
Proof.
  intros sha Hl opbs salt client origin opbs' salt'.
  unfold compute_session_state. intros H.
  apply str_app_inj_len in H as [H1 H2]; [|rewrite !Hl; reflexivity].
  apply str_app_cancel_l in H2. subst salt'. split; [reflexivity|].
  destruct (string_dec opbs opbs') as [->|Hn]; [left; reflexivity|right]. cbv zeta. split; [|exact H1].
  intros E. do 4 apply str_app_cancel_l in E. apply str_app_cancel_r in E. congruence.
Qed.
Print Assumptions C50_session_state.

(** ** The hypotheses are met *)
Definition log1 : log := fun v t ty => v = "eyJzaWQi" /\ t = 1000%Z /\ ty = "sso".
Definition sealed1 : string :=
  lv_pack [payload_of "eyJzaWQi" 1000 "sso"; "1000"; hex (toy_mac "sk" (payload_of "eyJzaWQi" 1000 "sso" ++ "1000"))].
Definition mac1 (k m s : string) : bool :=
  String.eqb m (payload_of "eyJzaWQi" 1000 "sso" ++ "1000") && toy_mac_ok k m s.
Definition ungcm1 (k iv c tag : string) : option string :=
  if String.eqb c sealed1 then toy_ungcm k iv c tag else None.
Example C33_ex_unforgeable : unforgeable log1 dle mac1 ungcm1 hex toy_mac.
Proof.
  constructor.
  - intros k m s _ H. apply andb_true_iff in H as [H _]. apply String.eqb_eq in H.
    exists "eyJzaWQi", 1000%Z, "sso". split; [repeat split|exact H].
  - intros k iv c tag m _. unfold ungcm1. destruct (String.eqb_spec c sealed1) as [->|]; [|discriminate].
    unfold toy_ungcm. destruct (String.eqb _ _); [|discriminate]. intros H. inversion H.
    exists "eyJzaWQi", 1000%Z, "sso". split; [repeat split|]. right. exists "sk". split; reflexivity.
Qed.
Example C33_ex_b64 : b64_text hex /\ (forall x, unhex (hex x) = Some x) /\ (forall x, no_bar (hex x) = true).
Proof.
  split; [exact hex_no_space|]. split; [exact unhex_hex|]. intros x. apply hex_chars. intros [] [] [] []; reflexivity.
Qed.
Example C33_ex_plain : plain_log log1.
Proof.
  intros v t ty (-> & -> & ->). split; [split; [reflexivity|]|reflexivity].
  apply (ends_c_spec ":"). reflexivity.
Qed.
Example C33_ex_toy : (forall k m, toy_mac_ok k m (toy_mac k m) = true) /\
  (forall k iv m, toy_ungcm k iv (fst (toy_gcm k iv m)) (snd (toy_gcm k iv m)) = Some m).
Proof.
  split; intros; unfold toy_mac_ok, toy_ungcm, toy_gcm; cbn [fst snd]; rewrite String.eqb_refl; reflexivity.
Qed.
Example C33_ex_accept :
  get_cookie_value mac1 ungcm1 unhex hv dle "oidc_op" (text_of "oidc_op" (mk 1000 "iv" dle "eyJzaWQi" "sso" "oidc_op" (-1) false "" true))
  = Ok (Some ("eyJzaWQi", "1000", "sso")) /\
  rd dl "oidc_op" (text_of "oidc_op" (mk 1000 "iv" dl "eyJzaWQi" "sso" "oidc_op" (-1) false "" true))
  = Ok (Some ("eyJzaWQi", "1000", "sso")).
Proof. split; vm_compute; reflexivity. Qed.
Example C33_ex_name :
  (* the value of the session management cookie, sent as the session cookie *)
  let v := match mk 1000 "iv" dl "eyJhdXRobl90aW1lIjo" "session" "oidc_op_sman" (-1) false "None" false with
           | Ok c => match dget "oidc_op_sman" c with Some m => mo_value m | None => "" end | _ => "" end in
  rd dl "oidc_op" ("oidc_op=" ++ v) = Ok (Some ("eyJhdXRobl90aW1lIjo", "1000", "session")).
Proof. vm_compute. reflexivity. Qed.
Example C49_ex : exists c, kill_cookies toy_mac toy_gcm hex 1000 "i" "j" dl "oidc_op_sman" "oidc_op" = Ok c /\ length c = 2%nat.
Proof. eexists. split; [vm_compute; reflexivity|reflexivity]. Qed.

Fixpoint pad (n : nat) (s : string) : string :=
  match n with O => "" | S n => match s with "" => String "0" (pad n "") | String c s => String c (pad n s) end end.
(** a function with values of length 64 that separates the texts used here *)
Example C50_ex : (forall a, slen (pad 64 a) = 64%nat) /\
  compute_session_state (pad 64) "in" "x" "c1" "https://rp.example" <> compute_session_state (pad 64) "out" "x" "c1" "https://rp.example".
Proof.
  split; [|vm_compute; discriminate]. generalize 64%nat.
  intros n. induction n as [|n IH]; intros a; [reflexivity|]. destruct a as [|c a]; cbn; f_equal; apply IH.
Qed.

(** PropsChoices.v: the methods an endpoint is configured with are those it has (C55), what is noted of an authentication
    (C54), the algorithms for a JWT (C48), the registered URI with all of its parameters (C20). *)
From Verif Require Import Base BaseProofs Types Monad MonadProofs Ctx Uri UriSpec PyUrl ClientAuthn ClientAuthnSpec ClientAuthnProofs
  IDToken IDTokenSpec IDTokenProofs ChoicesSpec PropsClientAuthn.

(** ** C55: the methods of an endpoint *)
Lemma setup_names l : forall ms, client_auth_setup l = Ok ms -> map configured_as ms = l.
Proof.
  induction l as [|n l IH]; intros ms H; cbn [client_auth_setup] in H; [injection H as <-; reflexivity|].
  destruct (method_of n) as [m|] eqn:E; [|discriminate]. cbn [rbind] in H.
  destruct (client_auth_setup l) as [r|]; [|discriminate]. cbn [rbind] in H. injection H as <-.
  cbn [map]. rewrite (IH r eq_refl). f_equal. unfold method_of in E.
  repeat match type of E with (if String.eqb ?a ?b then _ else _) = _ =>
    destruct (String.eqb a b) eqn:?; [apply String.eqb_eq in Heqb; injection E as <-; now subst|clear Heqb] end.
  discriminate.
Qed.
Lemma setup_of_names ms : client_auth_setup (map configured_as ms) = Ok ms.
Proof.
  induction ms as [|m ms IH]; [reflexivity|]. cbn [map client_auth_setup]. rewrite IH.
  destruct m as [[]|]; reflexivity.
Qed.

(** An endpoint has exactly the methods that it is configured with, in order. *)
Theorem C55_methods : forall conf default ms,
  endpoint_methods conf default = Ok ms <-> methods_are conf default ms.
Proof.
  intros conf default ms. unfold endpoint_methods, methods_are.
  assert (K : forall l, client_auth_setup l = Ok ms <-> map configured_as ms = l).
  { intros l. split; [apply setup_names|intros <-; apply setup_of_names]. }
  destruct conf as [[|n l]|]; [split; intros H; congruence|apply K|].
  destruct default as [l|]; [apply K|split; intros H; congruence].
Qed.
Print Assumptions C55_methods.

(** So a client that is accepted is accepted by a method the endpoint is configured with. *)
Theorem C55_configured : forall o e cls of_token aka rq auth s ai s' n l default,
  endpoint_methods (Some (n :: l)) default = Ok (ep_methods e) ->
  client_authentication o e cls of_token aka rq auth s = (Ok (Some ai), s') ->
  In (ai_method ai) (n :: l).
Proof.
  intros o e cls f aka rq auth s ai s' n l default M H. apply C55_methods in M. cbn in M. rewrite <- M.
  destruct (C24_accepted _ _ _ _ _ _ _ _ _ _ H) as [(l1 & m & l2 & E & T & _)|(I & T & _)]; rewrite T.
  - replace (tag m) with (configured_as (Some m)) by (now destruct m). apply in_map. rewrite E. apply in_or_app. right. now left.
  - exact (in_map configured_as _ _ I).
Qed.
Print Assumptions C55_configured.
Example C55_methods_ex :
  endpoint_methods (Some ["client_secret_post"; "none"; "private_key_jwt"]) (Some ["bearer_header"]) = Ok [Some MPost; None; Some MPrivateJwt] /\
  endpoint_methods (Some []) (Some ["bearer_header"]) = Ok [None] /\
  endpoint_methods None (Some ["client_secret_basic"; "client_secret_post"]) = Ok [Some MBasic; Some MPost] /\
  endpoint_methods (Some ["client_secret"]) None = Raise EAttr.
Proof. repeat split. Qed.
Example C55_configured_ex :
  exists ai s', endpoint_methods (Some ["client_secret_basic"; "client_secret_post"]) None = Ok (ep_methods (ep1 [Some MBasic; Some MPost])) /\
    client_authentication out1 (ep1 [Some MBasic; Some MPost]) "X" no_token [] [] (AuthzStr "Basic c1:secret1") s1 = (Ok (Some ai), s') /\
    ai_method ai = "client_secret_basic".
Proof. eexists _, _. split; [reflexivity|]. split; vm_compute; reflexivity. Qed.

(** ** C54: what is noted *)
Lemma note_notes cls c method info s s' : dget c (ca_cdb s) = Some info ->
  note_method cls c method info s = (Ok tt, s') -> notes_method cls method c (ca_cdb s) (ca_cdb s').
Proof.
  intros E H. unfold note_method in H.
  assert (K : forall d, (forall k, k <> cls -> dget k d = note_for k info) ->
    notes_method cls method c (ca_cdb s) (dset c (dset "auth_method" (VDict (dset cls (VStr method) d)) info) (ca_cdb s))).
  { intros d Hd. eexists _, _. split; [exact E|]. split; [apply dget_dset_eq|]. unfold note_for at 1 2.
    rewrite dget_dset_eq. split; [now rewrite dget_dset_eq|]. intros k Hk. rewrite dget_dset_neq by auto. now apply Hd. }
  unfold truthy_get in H. destruct (dget "auth_method" info) as [v|] eqn:A.
  - destruct (truthy v) eqn:T.
    + destruct v as [| | | | |d]; try discriminate. injection H as <-. apply K. intros k _. unfold note_for. now rewrite A.
    + injection H as <-. apply (K []). intros k _. unfold note_for. rewrite A. destruct v as [| | | | |[|]]; try reflexivity; discriminate.
  - injection H as <-. apply (K []). intros k _. unfold note_for. now rewrite A.
Qed.

(** Where a client is accepted that is reported by its id, the method is noted for the class of the request, and what is
    noted for other classes stays. *)
Theorem C54_note : forall o e cls of_token aka rq auth s ai s',
  verify_client o e cls of_token aka rq auth s = (Ok (Some ai), s') ->
  ca_cdb s' = ca_cdb s \/ exists c, ai_client ai = Some (VStr c) /\ notes_method cls (ai_method ai) c (ca_cdb s) (ca_cdb s').
Proof.
  intros o e cls f aka rq auth s ai s' H. rewrite verify_client_eq in H. apply bind_ok in H. destruct H as (found & s2 & Et & H).
  assert (E : ca_cdb s2 = ca_cdb s).
  { pose proof (try_moves o e (if ep_named e then ep_methods e else []) rq (authz_str auth) s) as M. rewrite Et in M. apply M. }
  rewrite <- E. destruct (match found with Some _ => _ | None => _ end) as [ai0|]; [|discriminate].
  unfold settle in H. apply bind_ok in H. destruct H as (cid & s3 & El & H). unfold lift in El. injection El as El <-.
  destruct (match cid with Some v => truthy v | None => false end) eqn:T.
  - destruct cid as [v|]; [|discriminate]. apply bind_ok in H. destruct H as ([] & s4 & Ek & H). injection H as <- <-.
    right. unfold known_client in Ek. destruct v as [| | |c| |]; try discriminate. exists c. split; [reflexivity|].
    unfold bind, gets, lift in Ek. cbn beta iota in Ek. destruct (dget c (ca_cdb s2)) as [info|] eqn:Ec; [|discriminate].
    destruct (valid_client_info (o_now o) info) as [[|]|]; try discriminate. cbn [ai_method] in Ek |- *. exact (note_notes _ _ _ _ _ _ Ec Ek).
  - left. destruct f as [f|]; [|now injection H as <- <-]. cbn [ai_token] in H. destruct (ai_token ai0) as [t|]; [|discriminate].
    destruct (truthy t); [|discriminate]. unfold bind, lift in H. destruct (f t) as [x|err]; [now injection H as <- <-|].
    destruct (is_key_error err); discriminate.
Qed.
Print Assumptions C54_note.
Example C54_note_ex :
  match verify_client out1 (ep1 all_methods) "AccessTokenRequest" (Some no_token) [] [("client_id", VStr "c2"); ("client_secret", VStr "secret2")] NoAuthz s1 with
  | (Ok (Some ai), s') => ai_client ai = Some (VStr "c2") /\ option_map (dget "auth_method") (dget "c2" (ca_cdb s')) =
      Some (Some (VDict [("X", VStr "y"); ("AccessTokenRequest", VStr "client_secret_post")]))
  | _ => False
  end.
Proof. vm_compute. repeat split. Qed.

(** ** C48: the algorithms for a JWT *)
Lemma choose_enc_negotiated cx jwx cinfo pt reg what sup v : choose_enc cx jwx cinfo pt reg what sup = Ok v ->
  negotiated_encryption (cx_provider_info cx) jwx cinfo pt reg what sup v.
Proof.
  unfold choose_enc, negotiated_encryption. destruct (dget (pt ++ reg)%string cinfo) as [r|]; [congruence|].
  unfold jwx_get, provider_wide. destruct (dget what jwx) as [[| | | | |d]|]; try discriminate; cbn [rbind]; intros H.
  - exists (dget pt d). split; [reflexivity|]. destruct (dget pt d) as [w|]; [congruence|]. intros a l Hs.
    unfold dsub in H. rewrite Hs in H. cbn in H. congruence.
  - exists None. split; [reflexivity|]. intros a l Hs. unfold dsub in H. rewrite Hs in H. cbn in H. congruence.
Qed.

(** What is chosen for a kind of payload: an algorithm to sign with only where signing is asked for, the negotiated one; a
    key algorithm and a content algorithm only where encryption is asked for, each negotiated by its own settings. *)
Theorem C48_algorithms : forall cx jwx cinfo pt sign encrypt default al,
  signed_by_default pt default ->
  get_algorithms cx jwx cinfo pt sign encrypt = Ok al ->
  (if sign : bool then exists alg, al_sign al = Some alg /\ negotiated (cx_provider_info cx) jwx cinfo pt default alg
   else al_sign al = None) /\
  (if encrypt : bool then exists alg enc, al_encrypt al = Some (alg, enc) /\
     negotiated_encryption (cx_provider_info cx) jwx cinfo pt "_encrypted_response_alg" "encryption_alg" "_encryption_alg_values_supported" alg /\
     negotiated_encryption (cx_provider_info cx) jwx cinfo pt "_encrypted_response_enc" "encryption_enc" "_encryption_enc_values_supported" enc
   else al_encrypt al = None).
Proof.
  intros cx jwx cinfo pt sign encrypt default al D H. unfold get_algorithms in H.
  assert (Hd : dget pt DEF_SIGN_ALG = Some default).
  { destruct D as [(I & ->)|(-> & ->)]; [|reflexivity]. cbn in I. destruct I as [<-|[<-|[<-|[<-|[]]]]]; reflexivity. }
  assert (S : forall o, (if sign then let* v := choose_sign cx jwx cinfo pt in Ok (Some v) else Ok None) = Ok o ->
    if sign then exists alg, o = Some alg /\ negotiated (cx_provider_info cx) jwx cinfo pt default alg else o = None).
  { intros o Ho. destruct sign; [|congruence]. destruct (choose_sign cx jwx cinfo pt) as [v|] eqn:E; [|discriminate].
    cbn [rbind] in Ho. exists v. split; [congruence|]. exact (choose_sign_negotiated _ _ _ _ _ _ Hd E). }
  destruct (if sign then _ else Ok None) as [o|] in S, H; [|discriminate]. cbn [rbind] in H. specialize (S o eq_refl).
  destruct encrypt; [|injection H as <-; split; [exact S|reflexivity]].
  destruct (choose_enc cx jwx cinfo pt "_encrypted_response_alg" "encryption_alg" "_encryption_alg_values_supported") as [a|] eqn:Ea; [|discriminate].
  destruct (choose_enc cx jwx cinfo pt "_encrypted_response_enc" "encryption_enc" "_encryption_enc_values_supported") as [n|] eqn:En; [|discriminate].
  cbn [rbind] in H. injection H as <-. split; [exact S|]. exists a, n. split; [reflexivity|].
  split; now apply choose_enc_negotiated.
Qed.
Print Assumptions C48_algorithms.
Definition cx48 : ctx := mkCtx "" [("userinfo_signing_alg_values_supported", vstrs ["ES512"; "HS256"]);
  ("userinfo_encryption_alg_values_supported", vstrs ["RSA-OAEP"; "ECDH-ES"]); ("userinfo_encryption_enc_values_supported", vstrs ["A128GCM"])] None [] [] [] (mkGConf None None).
Example C48_algorithms_ex :
  signed_by_default "userinfo" "RS256" /\
  get_algorithms cx48 [] [] "userinfo" true true = Ok (mkAlgs (Some (VStr "ES512")) (Some (VStr "RSA-OAEP", VStr "A128GCM"))) /\
  get_algorithms cx48 [("encryption_enc", VDict [("userinfo", VStr "A256GCM")])] [("userinfo_encrypted_response_alg", VStr "ECDH-ES")] "userinfo" false true =
    Ok (mkAlgs None (Some (VStr "ECDH-ES", VStr "A256GCM"))).
Proof. split; [left; split; [right; now left|reflexivity]|]. split; reflexivity. Qed.

(** ** C20: the registered URI *)
Lemma strs_vstrs l : strs_of (map VStr l) = l.
Proof. induction l as [|x l IH]; [reflexivity|]. cbn. now f_equal. Qed.
Lemma pairs_parameters d : pairs_of (map (fun kv => (fst kv, vstrs (snd kv))) d) = Ok (parameters d).
Proof.
  induction d as [|[k l] d IH]; [reflexivity|]. cbn [map pairs_of fst snd]. unfold vstrs at 1. cbn [as_list rbind]. rewrite IH. cbn [rbind].
  now rewrite strs_vstrs.
Qed.

(** Where the request has no URI, the only registered one is used: as it was registered, with each parameter of its query. *)
Theorem C20_only_whole : forall u db request ty c b d,
  dget ty request = None -> dget "client_id" request = Some (VStr c) -> registered db c (ty ++ "s") [entry b (vquery d)] ->
  get_uri u db request ty = Ok (if is_nil d then b else b ++ "?" ++ ul_encode u (parameters d))%string.
Proof.
  intros u db rq ty c b d Ht Hc (info & Hi & Hr). unfold get_uri, dmem, dsub. rewrite Ht, Hc. cbn [of_option rbind]. rewrite Hi.
  unfold truthy_get. rewrite Hr. cbn [truthy is_nil negb as_list rbind entry]. unfold join_query, vquery.
  destruct d as [|[k l] d]; [reflexivity|]. cbn [truthy is_nil negb map as_dict rbind].
  change ((fst (k, l), vstrs (snd (k, l))) :: map (fun kv => (fst kv, vstrs (snd kv))) d) with (map (fun kv => (fst kv, vstrs (snd kv))) ((k, l) :: d)).
  rewrite pairs_parameters. reflexivity.
Qed.
Print Assumptions C20_only_whole.
Example C20_only_whole_ex :
  get_uri py_url [("c1", [("redirect_uris", VList [entry "https://rp.example.com/cb" (vquery [("a", ["1"; "2"]); ("b", ["3"])])])])]
    [("client_id", VStr "c1")] "redirect_uri" = Ok "https://rp.example.com/cb?a=1&a=2&b=3".
Proof. vm_compute. reflexivity. Qed.

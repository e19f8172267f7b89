(** PropsResponse.v: C46 (headers of a response) and C56 (its body). *)
From Verif Require Import Base BaseProofs Types Ctx Response ResponseHeadSpec ResponseHeadProofs.

(** ** C46 *)
(** No response of the general do_response may be kept by a cache. *)
Theorem C46_nocache : forall en ep args err kw r,
  do_response en ep args err kw = Ok r -> not_cacheable (rs_headers r).
Proof.
  intros en ep args err kw r H. apply do_response_finish in H. destruct H as (ct & b & pl & -> & _).
  split; apply in_or_app; right; cbn; auto.
Qed.
Print Assumptions C46_nocache.

(** Responses in the body, and ready made ones, have exactly one content type, provided the headers passed in are
    orderly and no empty content type is asked for; one that is asked for is the one sent. *)
Theorem C46_content_type_partial : forall en ep args err kw r,
  do_response en ep args err kw = Ok r ->
  orderly (kw_http_headers kw) -> kw_content_type kw <> Some "" ->
  ep_placement ep = "body" \/ (kw_response_msg kw <> None /\ err = "") ->
  how_many "content-type" (rs_headers r) = 1%nat /\
  (forall ct, kw_content_type kw = Some ct -> In ("Content-type", ct) (rs_headers r)).
Proof.
  intros en ep args err kw r H O C P.
  assert (X : exists ct b pl, r = finish ct b pl kw /\ ct <> "" /\ (forall t, kw_content_type kw = Some t -> ct = t)).
  { apply do_response_finish in H. destruct H as (ct & b & pl & -> & W). exists ct, b, pl. split; [reflexivity|].
    destruct W as [(M & Er & ->)|(Q & m & W)].
    - unfold msg_content_type. destruct (kw_content_type kw) as [c|]; [split; congruence|]. split; [|discriminate].
      destruct (String.eqb _ "json"); [discriminate|]. destruct (smem _ _); discriminate.
    - unfold place in W. destruct (kw_content_type kw) as [c|]; [split; congruence|]. split; [|discriminate].
      destruct P as [P|[P1 P2]]; [|destruct Q; easy]. rewrite P in W. change (String.eqb "body" "body") with true in W. cbn iota in W.
      destruct (String.eqb _ "json"); [congruence|]. destruct (smem _ _); congruence. }
  destruct X as (ct & b & pl & -> & N & T). unfold finish. cbn [rs_headers].
  assert (Nt : nonempty ct = true) by (destruct ct; [easy|reflexivity]). rewrite Nt, how_many_app, nocache_ct.
  destruct (kw_http_headers kw) as [hs|].
  - destruct (set_ct_one hs ct O) as [A B]. rewrite A. split; [reflexivity|]. intros t Ht. rewrite <- (T t Ht). apply in_or_app. now left.
  - split; [reflexivity|]. intros t Ht. rewrite <- (T t Ht). now left.
Qed.
Print Assumptions C46_content_type_partial.

(** Refuted for every response in the URL: without headers passed in it has no content type. *)
Theorem C46_url_refuted : forall en ep args err kw r,
  do_response en ep args err kw = Ok r ->
  ep_placement ep = "url" -> kw_content_type kw = None -> kw_http_headers kw = None ->
  err <> "" \/ kw_response_msg kw = None ->
  how_many "content-type" (rs_headers r) = 0%nat.
Proof.
  intros en ep args err kw r H P C Hh Q.
  assert (X : exists b pl, r = finish "" b pl kw).
  { rewrite do_response_eq in H. unfold place in H. rewrite C, P in H. change (String.eqb "url" "body") with false in H.
    change (String.eqb "url" "url") with true in H. cbn iota in H. cbv zeta in H.
    destruct (nonempty err) eqn:N.
    - destruct (kw_return_uri kw); cbn in H; [|discriminate]. symmetry in H; injection H as ->. eauto.
    - destruct Q as [Q|Q]; [destruct err; [easy|discriminate]|]. rewrite Q in H. destruct (ep_construct ep args); cbn in H; [|discriminate].
      destruct (kw_return_uri kw); cbn in H; [|discriminate]. symmetry in H; injection H as ->. eauto. }
  destruct X as (b & pl & ->). unfold finish. rewrite Hh. reflexivity.
Qed.
Print Assumptions C46_url_refuted.

(** Refuted for every response with a content type of its own when a header passed in spells the name otherwise:
    then there are two or more. *)
Theorem C46_spelling_refuted : forall en ep args err kw r hs h ct,
  do_response en ep args err kw = Ok r ->
  kw_http_headers kw = Some hs -> In h hs -> named "content-type" h = true -> fst h <> "Content-type" ->
  kw_content_type kw = Some ct -> ct <> "" ->
  (2 <= how_many "content-type" (rs_headers r))%nat.
Proof.
  intros en ep args err kw r hs h ct H Hh I N S C Cn.
  apply do_response_finish in H. destruct H as (ct' & b & pl & -> & W).
  assert (ct' = ct).
  { destruct W as [(_ & _ & ->)|(_ & m & W)]; [unfold msg_content_type; now rewrite C|]. unfold place in W. rewrite C in W. congruence. }
  subst ct'. unfold finish. cbn [rs_headers]. rewrite how_many_app, Hh.
  assert (Nt : nonempty ct = true) by (destruct ct; [easy|reflexivity]). rewrite Nt. unfold set_content_type.
  destruct (existsb _ hs) eqn:E.
  - apply existsb_ct in E. destruct (in_split _ _ E) as (l1 & l2 & ->). rewrite how_many_app.
    change (how_many "content-type" (("Content-type", ct) :: l2)) with (1 + how_many "content-type" l2)%nat.
    apply in_app_or in I. destruct I as [I|[<-|I]]; [|easy|];
      pose proof (how_many_In _ _ _ I N); lia.
  - rewrite how_many_app. change (how_many "content-type" [("Content-type", ct)]) with 1%nat.
    assert (F : In h (filter (fun h0 => negb (String.eqb (fst h0) "Content-type")) hs)).
    { apply filter_In. split; [exact I|]. apply negb_true_iff. now apply String.eqb_neq. }
    pose proof (how_many_In _ _ _ F N). lia.
Qed.
Print Assumptions C46_spelling_refuted.

(** A list of headers passed in that has no content type to change grows with every response to which it is
    passed: the second response made from it says everything twice. *)
Theorem C46_reuse_refuted : forall en ep args kw r hs args' kw' r',
  do_response en ep args "" kw = Ok r -> do_response en ep args' "" kw' = Ok r' ->
  ep_placement ep = "url" -> kw_response_msg kw = None -> kw_response_msg kw' = None ->
  kw_content_type kw = None -> kw_content_type kw' = None ->
  kw_http_headers kw = Some hs -> kw_http_headers kw' = rs_given r ->
  (2 <= how_many "pragma" (rs_headers r'))%nat.
Proof.
  intros en ep args kw r hs args' kw' r' H H' P M M' C C' Hh Hh'.
  assert (X : forall a k x, do_response en ep a "" k = Ok x -> kw_response_msg k = None -> kw_content_type k = None -> exists b pl, x = finish "" b pl k).
  { intros a k x Hd Hm Hc. rewrite do_response_eq in Hd. cbn [nonempty] in Hd. rewrite Hm in Hd. destruct (ep_construct ep a); cbn in Hd; [|discriminate].
    unfold place in Hd. rewrite Hc, P in Hd. change (String.eqb "url" "body") with false in Hd. change (String.eqb "url" "url") with true in Hd.
    cbn iota in Hd. cbv zeta in Hd. destruct (kw_return_uri k); cbn in Hd; [|discriminate]. symmetry in Hd; injection Hd as ->. eauto. }
  destruct (X _ _ _ H M C) as (b & pl & ->). destruct (X _ _ _ H' M' C') as (b' & pl' & ->).
  unfold finish at 1 in Hh'. cbn [rs_given] in Hh'. rewrite Hh in Hh'. change (nonempty "") with false in Hh'. cbn [negb orb] in Hh'.
  unfold finish. change (nonempty "") with false in *. cbn [rs_headers negb orb]. rewrite Hh'. cbn iota. rewrite !how_many_app. change (how_many "pragma" nocache) with 1%nat. lia.
Qed.
Print Assumptions C46_reuse_refuted.

(** The userinfo endpoint always sends both. *)
Theorem C46_userinfo : forall en ep db pack args cid kw r,
  userinfo_response en ep db pack args "" cid kw = Ok r ->
  not_cacheable (rs_headers r) /\ how_many "content-type" (rs_headers r) = 1%nat.
Proof.
  intros en ep db pack args cid kw r. unfold userinfo_response. cbn [nonempty]. destruct (negb _); [discriminate|].
  destruct (dget cid db) as [ci|]; [|discriminate].
  match goal with |- context [rbind ?x _] => destruct x as [[t ct]|] end; [|discriminate].
  intros E. cbn in E. injection E as <-. cbn [rs_headers]. split; [split; cbn; auto|reflexivity].
Qed.
Print Assumptions C46_userinfo.

(** Refuted for the discovery endpoint: nothing forbids caching. *)
Theorem C46_discovery_refuted : forall t, ~ not_cacheable (rs_headers (discovery_response t)).
Proof. intros t [[H|[]] _]. discriminate. Qed.
Print Assumptions C46_discovery_refuted.

(** ** C56 *)
(** A response without content type of its own carries what the endpoint constructed, or the error and its
    description: in the body as JSON (or form-encoded, or as it is), or in the location. *)
(** the fragment is used when asked for; when nothing is asked for, if a return type other than code alone is given *)
Definition wants_fragment (kw : kwargs) : Prop :=
  kw_fragment_enc kw = Some true \/
  (kw_fragment_enc kw = None /\ exists rt, kw_return_type kw = Some rt /\ rt <> [] /\ rt <> ["code"]).
Definition carries (en : encoding) (ep : endp) (m : msg) (kw : kwargs) (b : body) : Prop :=
  (ep_placement ep = "body" /\
     ((ep_response_format ep = "json" /\ b = Text (to_json en m)) \/
      (ep_response_format ep <> "json" /\ (b = Object m \/ b = Text (to_urlencoded en m))))) \/
  (ep_placement ep = "url" /\ exists uri loc, kw_return_uri kw = Some uri /\ b = Text loc /\
     (free "#" uri -> free "#" (to_urlencoded en m) ->
      (wants_fragment kw /\ fragment_of loc = Some (to_urlencoded en m) /\ query_of loc = query_of uri) \/
      (~ wants_fragment kw /\ fragment_of loc = None /\
       query_of loc = Some (match query_of uri with Some q => q ++ "&" ++ to_urlencoded en m | None => to_urlencoded en m end)%string))).
Lemma place_carries en ep kw m ct b : kw_content_type kw = None -> place en ep kw m = Ok (ct, b) -> carries en ep m kw b.
Proof.
  intros C. unfold place. rewrite C. destruct (String.eqb_spec (ep_placement ep) "body") as [E|_].
  - intros H. left. split; [exact E|]. destruct (String.eqb_spec (ep_response_format ep) "json") as [J|J].
    + left. split; [exact J|congruence].
    + right. split; [exact J|]. destruct (smem _ _); [left|right]; congruence.
  - destruct (String.eqb_spec (ep_placement ep) "url") as [E|_]; [|discriminate]. cbv zeta.
    destruct (kw_return_uri kw) as [uri|] eqn:U; [|discriminate]. intros H. right. split; [exact E|].
    exists uri. eexists. split; [exact U|]. split; [injection H as _ <-; reflexivity|]. intros F Fe.
    match goal with |- context [msg_request en m uri ?f] => assert (W : if f then wants_fragment kw else ~ wants_fragment kw); [|destruct f] end.
    { unfold wants_fragment. destruct (kw_fragment_enc kw) as [[|]|].
      - now left.
      - intros [X|[X _]]; discriminate.
      - destruct (kw_return_type kw) as [[|x l]|].
        + intros [X|(_ & rt & X & N & _)]; [discriminate|congruence].
        + assert (Fx : fragment_encoding (x :: l) = true \/ x :: l = ["code"]).
          { destruct (list_eq_dec string_dec (x :: l) ["code"]) as [Y|Y]; [now right|left]. unfold fragment_encoding.
            destruct l; [|repeat match goal with |- context [match ?t with _ => _ end] => destruct t end; reflexivity].
            repeat match goal with |- context [match ?t with _ => _ end] => destruct t end; try reflexivity. now destruct Y. }
          match goal with |- if ?g then _ else _ => change g with (fragment_encoding (x :: l)) end. destruct (fragment_encoding (x :: l)) eqn:Fy.
          * right. split; [reflexivity|]. exists (x :: l). split; [reflexivity|]. split; [discriminate|]. intros Y. rewrite Y in Fy. discriminate.
          * destruct Fx as [Fx|Fx]; [discriminate|]. intros [X|(_ & rt & X & _ & N)]; [discriminate|congruence].
        + intros [X|(_ & rt & X & _)]; discriminate. }
    + left. split; [exact W|]. now apply loc_fragment.
    + right. split; [exact W|]. now apply loc_query.
Qed.
Theorem C56_message_partial : forall en ep args kw r,
  do_response en ep args "" kw = Ok r -> kw_content_type kw = None -> kw_response_msg kw = None ->
  exists m, ep_construct ep args = Ok m /\ carries en ep m kw (rs_body r).
Proof.
  intros en ep args kw r H C M. rewrite do_response_eq in H. cbn [nonempty] in H. rewrite M in H.
  destruct (ep_construct ep args) as [m|]; cbn in H; [|discriminate]. destruct (place en ep kw m) as [[ct b]|] eqn:P; cbn in H; [|discriminate].
  injection H as <-. exists m. split; [reflexivity|]. exact (place_carries _ _ _ _ _ _ C P).
Qed.
Print Assumptions C56_message_partial.
Theorem C56_error_partial : forall en ep args err kw r,
  do_response en ep args err kw = Ok r -> err <> "" -> kw_content_type kw = None ->
  exists m, carries en ep m kw (rs_body r) /\ dget "error" m = Some (VStr err) /\
            dget "error_description" m = kw_error_description kw /\
            (forall k, k <> "error" -> k <> "error_description" -> dget k m = None).
Proof.
  intros en ep args err kw r H E C. rewrite do_response_eq in H.
  assert (N : nonempty err = true) by (destruct err; [easy|reflexivity]). rewrite N in H.
  destruct (place en ep kw _) as [[ct b]|] eqn:P; cbn in H; [|discriminate]. injection H as <-.
  exists (error_msg err kw). split; [exact (place_carries _ _ _ _ _ _ C P)|]. unfold error_msg.
  destruct (kw_error_description kw) as [d|]; (split; [reflexivity|split; [reflexivity|]]); intros k H1 H2; cbn;
    rewrite ?(proj2 (String.eqb_neq k "error") H1), ?(proj2 (String.eqb_neq k "error_description") H2); try reflexivity;
    (destruct (String.eqb_spec k "error"); [easy|]); try (destruct (String.eqb_spec k "error_description"); [easy|]); reflexivity.
Qed.
Print Assumptions C56_error_partial.
(** A ready made message is sent as it is. *)
Theorem C56_ready : forall en ep args kw r t,
  do_response en ep args "" kw = Ok r -> kw_response_msg kw = Some t -> rs_body r = Text t.
Proof. intros en ep args kw r t H M. rewrite do_response_eq in H. cbn [nonempty] in H. rewrite M in H. injection H as <-. reflexivity. Qed.
Print Assumptions C56_ready.
(** Refuted where a content type is asked for: nothing is sent. *)
Theorem C56_content_type_refuted : forall en ep args err kw r ct,
  do_response en ep args err kw = Ok r -> kw_content_type kw = Some ct ->
  err <> "" \/ kw_response_msg kw = None -> rs_body r = Nothing.
Proof.
  intros en ep args err kw r ct H C Q. rewrite do_response_eq in H. unfold place in H. rewrite C in H.
  destruct (nonempty err) eqn:N; [cbn in H; injection H as <-; reflexivity|].
  destruct Q as [Q|Q]; [destruct err; [easy|discriminate]|]. rewrite Q in H. destruct (ep_construct ep args); cbn in H; [|discriminate].
  injection H as <-. reflexivity.
Qed.
Print Assumptions C56_content_type_refuted.
(** Refuted for errors of an endpoint that answers in the URL found before the return address is known: no response at all. *)
Theorem C56_no_address_refuted : forall en ep args err kw,
  ep_placement ep = "url" -> err <> "" -> kw_content_type kw = None -> kw_return_uri kw = None ->
  do_response en ep args err kw = Raise EKey.
Proof.
  intros en ep args err kw P E C U. rewrite do_response_eq.
  assert (N : nonempty err = true) by (destruct err; [easy|reflexivity]). rewrite N. unfold place. rewrite C, P, U. reflexivity.
Qed.
Print Assumptions C56_no_address_refuted.

(** ** Cases *)
Definition ex_enc : encoding :=
  mkEnc (fun m => "{" ++ join ", " (map fst m) ++ "}")%string
        (fun m => join "&" (map (fun kv => fst kv ++ "=" ++ match snd kv with VStr s => s | _ => "?" end)%string m)).
Definition ex_token_ep : endp := mkEP "body" "json" "urlencoded" (fun m => Ok m).
Definition ex_authz_ep : endp := mkEP "url" "urlencoded" "urlencoded" (fun m => Ok m).
Definition ex_kw : kwargs := mkKw None None None None None None None None None.
Example C46_ex1 : do_response ex_enc ex_token_ep [("access_token", VStr "T")] ""
    (mkKw None None None None None None None (Some [("Content-type", "text/html"); ("X", "y")]) None) =
  Ok (mkRs None (Text "{access_token}")
        [("X", "y"); ("Content-type", "application/json; charset=utf-8"); ("Pragma", "no-cache"); ("Cache-Control", "no-store")]
        None (Some [("Content-type", "text/html"); ("X", "y")])).
Proof. vm_compute. reflexivity. Qed.
Example C46_ex2 : orderly (Some [("Content-type", "text/html"); ("X", "y")]).
Proof. split; [vm_compute; lia|]. intros h [<-|[<-|[]]] H; [reflexivity|discriminate]. Qed.
Example C46_ex3 : exists r, do_response ex_enc ex_token_ep [] ""
    (mkKw None None None (Some "text/plain") None None None (Some [("content-type", "text/html")]) None) = Ok r /\
  how_many "content-type" (rs_headers r) = 2%nat /\ rs_body r = Nothing.
Proof. eexists. split; [reflexivity|split; reflexivity]. Qed.
Example C56_ex1 : exists r, do_response ex_enc ex_authz_ep [("code", VStr "C"); ("state", VStr "S")] ""
    (mkKw None None None None None None (Some "https://rp/cb?a=1") None None) = Ok r /\
  rs_body r = Text "https://rp/cb?a=1&code=C&state=S" /\ how_many "content-type" (rs_headers r) = 0%nat.
Proof. eexists. split; [reflexivity|split; reflexivity]. Qed.
Example C56_ex2 : exists r, do_response ex_enc ex_authz_ep [("id_token", VStr "I")] ""
    (mkKw None None None None None (Some ["id_token"]) (Some "https://rp/cb?a=1") None None) = Ok r /\
  rs_body r = Text "https://rp/cb?a=1#id_token=I".
Proof. eexists. split; reflexivity. Qed.

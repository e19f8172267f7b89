(** PropsParsed.v: where a request that has been let through may go (C20), what is said of tokens that are not known (C43). *)
From Verif Require Import Base BaseProofs Types Monad MonadProofs SessionKey Database DatabaseSpec Manager Token Grant Ctx Claims ClaimsSpec Uri UriSpec UriProofs
  AuthzRequest AuthzRequestSpec AuthzRequestProofs ParsedSpec UserInfo UserInfoSpec UserInfoProofs.
From Verif Require PropsUri.

Lemma get_uri_goes u db rq uri : get_uri u db rq "redirect_uri" = Ok uri ->
  goes_to_registered u db (dset "redirect_uri" (VStr uri) rq) \/ goes_nowhere db (dset "redirect_uri" (VStr uri) rq).
Proof.
  intros G.
  assert (N : dget "client_id" (dset "redirect_uri" (VStr uri) rq) = dget "client_id" rq) by (apply dget_dset_neq; discriminate).
  unfold goes_to_registered, goes_nowhere. rewrite N, dget_dset_eq. destruct (dmem "redirect_uri" rq) eqn:M.
  - left. destruct (PropsUri.C20_used u db rq "redirect_uri" uri M G) as (_ & c & l & [_ [Hc|[_ Hc]]] & R & Ma & _); [|discriminate].
    exists c, uri, l. auto.
  - assert (D : dget "redirect_uri" rq = None) by (unfold dmem in M; now destruct (dget "redirect_uri" rq)).
    destruct (dget "client_id" rq) as [v|] eqn:C.
    2:{ unfold get_uri, dsub in G. rewrite M, C in G. discriminate. }
    destruct (match v with VStr c => dget c db | _ => None end) as [info|] eqn:K.
    + left. destruct v as [| | |c| |]; try discriminate.
      destruct (PropsUri.C20_only u db rq "redirect_uri" uri c info D C K G) as (b & q & R & W).
      exists c, uri, [entry b q]. do 3 (split; [auto|]). right. exists b, q. auto.
    + right. split.
      * unfold get_uri, dsub in G. rewrite M, C in G. cbn [of_option rbind] in G. destruct v as [| | |c| |]; try rewrite K in G; congruence.
      * intros c E. injection E as ->. exact K.
Qed.
Lemma stage_goes e c p db m db' : stage e c p db = (Ok (Parsed m), db') -> (forall q, p <> Parsed q) \/
  goes_to_registered (re_u e) (re_cdb e) m \/ goes_nowhere (re_cdb e) m.
Proof.
  destruct p as [x|rq]; [intros _; left; discriminate|]. unfold stage. intros H. right.
  apply bind_ok in H. destruct H as (rq' & s1 & _ & H). unfold lift in H. injection H as H _.
  destruct (post_parse_inv _ _ _ _ H) as (cid & info & uri & _ & _ & _ & _ & G & ->). now apply get_uri_goes.
Qed.

(** Whatever the request, and whether or not it was pushed, fetched or brought an object of its own: when it has been let through its redirect_uri
    is one registered for the client it names. Or it is empty: when no client of the provider is named (see C20_unknown_refuted). *)
Theorem C20_parsed : forall e c rq db m db',
  parse_authz e c rq db = (Ok (Parsed m), db') \/ parse_authn e c rq db = (Ok (Parsed m), db') ->
  goes_to_registered (re_u e) (re_cdb e) m \/ goes_nowhere (re_cdb e) m.
Proof.
  intros e c rq db m db' [H|H].
  - destruct (stage_goes _ _ _ _ _ _ H) as [X|X]; [now destruct (X rq)|exact X].
  - unfold parse_authn in H. apply bind_ok in H. destruct H as (p & s1 & _ & H).
    destruct (stage_goes _ _ _ _ _ _ H) as [X|X]; [|exact X]. destruct p as [x|q]; [discriminate|now destruct (X q)].
Qed.
Print Assumptions C20_parsed.

(** ** C43 *)
(** A value that no handler recognises is not active. *)
Theorem C43_unknown : forall sid_of cx clients clock un request s value,
  dget "token" request = Some (VStr value) -> sid_of value = Raise EUnknownToken ->
  introspection_process sid_of cx clients clock un request s = (Ok (AOk [("active", VBool false)] None), s).
Proof.
  intros sid_of cx clients clock un request s value T U. unfold introspection_process, get_session_info_by_token, msub_str, bind, lift, gets, id.
  rewrite T, U. reflexivity.
Qed.
Print Assumptions C43_unknown.
(** Refuted for a value that is recognised but that stands for nothing any more: when the session or the grant has gone, or the grant has no such
    token, introspection ends in an exception. *)
Theorem C43_gone_refuted : forall sid_of cx clients clock un request s value sid u c gid,
  dget "token" request = Some (VStr value) -> sid_of value = Ok sid -> unpack3 sid = Ok (u, c, gid) ->
  view s [u; c; gid] = None \/ (exists g, view s [u; c; gid] = Some (EGrant g) /\ ~ In value (map t_value (g_issued g))) ->
  exists x, introspection_process sid_of cx clients clock un request s = (Raise x, s).
Proof.
  intros sid_of cx clients clock un request s value sid u c gid T U U3 G. unfold introspection_process, get_session_info_by_token, msub_str, bind, lift, gets, id.
  rewrite T, U. pose proof (read_grant sid s) as R. pose proof (read_not_unknown sid s) as Nu.
  destruct (get_session_info sid false false true false false s) as [[i|y] s0]; cbn [fst] in *.
  2:{ exists y. destruct y; try reflexivity. now destruct Nu. }
  destruct R as (E0 & u' & c' & gid' & y & E1 & E2 & _ & _ & _ & E3). assert (u' = u /\ c' = c /\ gid' = gid) as (-> & -> & ->) by (rewrite E1 in U3; injection U3; auto).
  destruct G as [G|(g & G & Ni)]; [congruence|]. assert (y = EGrant g) by congruence. subst y.
  unfold grant_of. rewrite E3. cbn.
  unfold get_token. destruct (find _ _) as [t|] eqn:F; [|eexists; reflexivity]. exfalso. apply find_split in F. apply Ni.
  destruct F as (F1 & l1 & l2 & F2 & _). rewrite F2, map_app. apply in_or_app. right. left. exact F1.
Qed.
Print Assumptions C43_gone_refuted.

(** A request with a registered redirect_uri, one without any, one with another's, and the request object that names another client *)
From Verif Require PropsAuthzRequest PropsClaims PropsIntrospection.
Import PropsAuthzRequest.
Example C20_ex_parsed :
  parse_authn ex_own_env (Some "A") (ex_rq "A" "https://a.example/cb" ["code"]) [] = (Ok (Parsed (ex_rq "A" "https://a.example/cb" ["code"])), []) /\
  (exists m, parse_authz ex_own_env (Some "A") [("client_id", VStr "A"); ("response_type", vstrs ["code"])] [] = (Ok (Parsed m), []) /\
     dget "redirect_uri" m = Some (VStr "https://a.example/cb")) /\
  parse_authn ex_own_env (Some "A") (ex_rq "A" "https://b.example/cb" ["code"]) [] = (Ok (Refused "invalid_request"), []) /\
  (exists m, parse_authz (ex_env ex_object) (Some "A") (ex_by_ref "A" "https://evil.example/ro") [] = (Ok (Parsed m), []) /\
     dget "redirect_uri" m = Some (VStr "https://b.example/cb")).
Proof.
  split; [vm_compute; reflexivity|]. split; [eexists; split; [vm_compute; reflexivity|reflexivity]|]. split; [vm_compute; reflexivity|].
  eexists; split; [vm_compute; reflexivity|reflexivity].
Qed.
Import PropsClaims PropsIntrospection.
Example C43_ex_gone :
  sids "zzz" = Raise EUnknownToken /\ (exists sid, sids "at1" = Ok sid /\ unpack3 sid = Ok ("diana", "c1", "g1")%string) /\
  view [] ["diana"; "c1"; "g1"]%string = None /\ introspection_process sids cx1 clients1 2000 true (irq "at1") [] = (Raise EKey, []).
Proof. split; [reflexivity|]. split; [eexists; split; reflexivity|]. split; reflexivity. Qed.

(** UserInfoProofs.v *)
From Verif Require Import Base BaseProofs Types Monad MonadProofs SessionKey Token Grant GrantSpec GrantProofs
  Database DatabaseSpec DatabaseProofs Manager ManagerProofs Ctx Scopes ScopesSpec ScopesProofs
  Claims ClaimsSpec ClaimsProofs UserInfo UserInfoSpec.

Lemma find_split v l t : find (fun t => String.eqb (t_value t) v) l = Some t ->
  t_value t = v /\ exists l1 l2, l = l1 ++ t :: l2 /\ ~ In v (map t_value l1).
Proof.
  induction l as [|a l IH]; cbn; [discriminate|]. destruct (String.eqb_spec (t_value a) v) as [E|E].
  - intros H. injection H as <-. split; [exact E|]. exists [], l. split; [reflexivity|intros []].
  - intros H. destruct (IH H) as (A & l1 & l2 & -> & B). split; [exact A|]. exists (a :: l1), l2.
    split; [reflexivity|]. intros [X|X]; [congruence|contradiction].
Qed.
Lemma find_app v l1 t l2 : t_value t = v -> ~ In v (map t_value l1) ->
  find (fun t => String.eqb (t_value t) v) (l1 ++ t :: l2) = Some t.
Proof.
  intros H. induction l1 as [|a l1 IH]; intros Hn; cbn.
  - rewrite H, String.eqb_refl. reflexivity.
  - destruct (String.eqb_spec (t_value a) v) as [E|E]; [exfalso; apply Hn; now left|]. apply IH. intros X. apply Hn. now right.
Qed.

(** reading the session of a token *)
Lemma read_grant sid s : 
  match get_session_info sid false false true false false s with
  | (Ok i, s') => s' = s /\ exists u c gid e, unpack3 sid = Ok (u, c, gid) /\ view s [u; c; gid] = Some e /\
                    in_uid i = u /\ in_cid i = c /\ in_gid i = gid /\ in_grant i = Some e
  | (Raise _, s') => s' = s
  end.
Proof.
  unfold get_session_info, bind, lift, ret. destruct (unpack3 sid) as [[[u c] gid]|e] eqn:E; [|reflexivity].
  destruct (read_cases [u; c; gid] s) as [(e & Hr & Hv)|(x & Hr & Hv)]; rewrite Hr; [|reflexivity].
  cbn. split; [reflexivity|]. exists u, c, gid, e. auto 7.
Qed.

Lemma unpack3_names sid_of s value u c g t : names sid_of s value u c g t ->
  exists sid gid, sid_of value = Ok sid /\
    get_session_info sid false false true false false s = (Ok (mkSI sid u c gid None None (Some (EGrant g)) None None), s) /\
    get_token value g = Some t.
Proof.
  intros (sid & gid & H1 & H2 & H3 & H4 & l1 & l2 & H5 & H6). exists sid, gid. split; [exact H1|]. split.
  - unfold get_session_info, bind, lift, ret. rewrite H2.
    destruct (read_cases [u; c; gid] s) as [(e & Hr & Hv)|(x & Hr & Hv)]; rewrite Hr; congruence.
  - unfold get_token. rewrite H5. now apply find_app.
Qed.

Lemma get_names sid_of s value sid u c gid g t :
  sid_of value = Ok sid -> unpack3 sid = Ok (u, c, gid) -> view s [u; c; gid] = Some (EGrant g) ->
  get_token value g = Some t -> names sid_of s value u c g t.
Proof.
  intros H1 H2 H3 H4. destruct (find_split _ _ _ H4) as (A & l1 & l2 & B & C).
  exists sid, gid. repeat (split; [assumption|]). exists l1, l2. auto.
Qed.

Lemma names_fun sid_of s value u c g t u' c' g' t' :
  names sid_of s value u c g t -> names sid_of s value u' c' g' t' -> u' = u /\ c' = c /\ g' = g /\ t' = t.
Proof.
  intros H H'. apply unpack3_names in H. apply unpack3_names in H'.
  destruct H as (sid & gid & A & B & C), H' as (sid' & gid' & A' & B' & C').
  assert (sid' = sid) by congruence. subst. rewrite B in B'. injection B' as <- <- <- <-. 
  split; [reflexivity|]. split; [reflexivity|]. split; [reflexivity|]. congruence.
Qed.

Lemma release_sound info restriction out k x : release info restriction = Ok out -> In (k, x) out ->
  exists spec, In (k, spec) restriction /\ dget k info = Some x /\ x <> VNone /\ (claim_request spec -> admits spec x).
Proof.
  revert out. induction restriction as [|[k0 spec] r IH]; intros out H Hi.
  - cbn in H. injection H as <-. destruct Hi.
  - cbn in H. destruct (claims_match (dget k0 info) spec) as [m|] eqn:Em; [|discriminate]. cbn in H.
    destruct (release info r) as [rest|]; [|discriminate]. cbn in H. injection H as <-.
    assert (D : (m = true /\ exists y, dget k0 info = Some y /\ (k, x) = (k0, y)) \/ In (k, x) rest).
    { destruct m; [|auto]. destruct (dget k0 info) as [y|]; [|auto]. destruct Hi as [E|Hi]; [|auto]. left. eauto. }
    destruct D as [(-> & y & Ey & E)|D].
    + injection E as -> ->. exists spec. split; [now left|]. split; [exact Ey|]. split.
      * rewrite Ey in Em. destruct y; try discriminate. 
      * intros Hs. destruct (claims_match_spec (dget k0 info) spec Hs) as (b & Hb & Hbi). assert (b = true) by congruence. subst b.
        destruct (proj1 Hbi eq_refl) as (z & Hz & _ & Ha). congruence.
    + destruct (IH rest eq_refl D) as (sp & A & B). exists sp. split; [now right|exact B].
Qed.

Lemma dget_user cx u k x : dget k (userinfo cx u) = Some x -> x <> VNone -> user_has cx u k x.
Proof.
  unfold userinfo, dget_or. destruct (dget u (cx_users cx)) as [r|] eqn:E; [|intros H; discriminate H]. intros H N. exists r. auto.
Qed.

Lemma grant_claims_listed clients usage g k spec :
  In (k, spec) (grant_claims clients usage g) <-> listed clients g usage k spec.
Proof.
  unfold grant_claims, listed. destruct (dget usage (g_claims g)) as [r|].
  - split; [eauto|]. intros (r' & E & H). congruence.
  - split; [intros []|]. intros (r' & E & H). discriminate.
Qed.

(** ** The userinfo endpoint *)
Section E.
Variable sid_of : string -> result string.

Lemma userinfo_state cx clients clock request s : snd (userinfo_process sid_of cx clients clock request s) = s.
Proof.
  unfold userinfo_process, get_session_info_by_token, grant_of, as_grant, bind, lift, ret, raise.
  destruct (msub_str "access_token" request) as [value|]; [|reflexivity].
  destruct (sid_of value) as [sid|]; [|reflexivity].
  assert (R := read_grant sid s). destruct (get_session_info sid false false true false false s) as [[i|e] s']; [|exact R].
  destruct R as [-> _]. destruct (in_grant i) as [[|g]|]; try reflexivity.
  destruct (get_token value g) as [t|]; [|reflexivity].
  destruct (negb _); [reflexivity|]. destruct (negb _); [reflexivity|]. destruct (g_authn g); [|reflexivity].
  destruct (clock <? _)%Z; [|reflexivity]. destruct (get_user_claims _ _ _); reflexivity.
Qed.

(** every outcome that is not an exception *)
Lemma userinfo_cases cx clients clock request s a s' :
  userinfo_process sid_of cx clients clock request s = (Ok a, s') ->
  exists value sid u c gid g,
    dget "access_token" request = Some (VStr value) /\
    sid_of value = Ok sid /\ unpack3 sid = Ok (u, c, gid) /\ view s [u; c; gid] = Some (EGrant g) /\
    ((get_token value g = None /\ a = AError "invalid_token" "Wrong type of token") \/
     exists t, names sid_of s value u c g t /\
     ((t_class t <> CAccess /\ a = AError "invalid_token" "Wrong type of token") \/
      (t_class t = CAccess /\ ~ token_usable clock t /\ a = AError "invalid_token" "Invalid Token") \/
      (t_class t = CAccess /\ token_usable clock t /\ exists ae, g_authn g = Some ae /\
       (((clock < ae_valid_until ae)%Z /\ exists info, get_user_claims cx u (grant_claims clients "userinfo" g) = Ok info /\
           a = AOk (dset "sub" (VStr (g_sub g)) info) (Some c)) \/
        ((ae_valid_until ae <= clock)%Z /\
         a = AOk [("error", VStr "invalid_request"); ("error_description", VStr "Access not granted")] (Some c)))))).
Proof.
  intros H. unfold userinfo_process, get_session_info_by_token, grant_of, as_grant, bind, lift, ret, raise in H.
  destruct (msub_str "access_token" request) as [value|] eqn:Ev; [|discriminate].
  destruct (sid_of value) as [sid|] eqn:Es; [|discriminate].
  assert (R := read_grant sid s). destruct (get_session_info sid false false true false false s) as [[i|e] s1]; [|discriminate].
  destruct R as (-> & u & c & gid & e & R1 & R2 & R3 & R4 & R5 & R6). rewrite R6 in H. destruct e as [|g]; [discriminate|].
  exists value, sid, u, c, gid, g. split. { unfold msub_str in Ev. destruct (dget _ request) as [[]|]; congruence. }
  split; [exact Es|]. split; [exact R1|]. split; [exact R2|].
  destruct (get_token value g) as [t|] eqn:Et; [|left; split; [reflexivity|congruence]].
  right. exists t. split. { eapply get_names; eauto. }
  destruct (tclass_eqb (t_class t) CAccess) eqn:Ec; cbn [negb] in H.
  2: { left. split; [intros X; rewrite X in Ec; discriminate|congruence]. }
  assert (Hc : t_class t = CAccess) by (destruct (t_class t); (reflexivity || discriminate)). right.
  destruct (t_active clock t) eqn:Ea; cbn [negb] in H.
  2: { left. split; [exact Hc|]. split; [|congruence]. intros X. apply t_active_iff in X. congruence. }
  right. split; [exact Hc|]. split; [now apply t_active_iff|].
  destruct (g_authn g) as [ae|]; [|discriminate]. exists ae. split; [reflexivity|].
  destruct (clock <? ae_valid_until ae)%Z eqn:El.
  - left. apply Z.ltb_lt in El. split; [exact El|].
    rewrite R3, R4 in H.
    destruct (get_user_claims cx u (grant_claims clients "userinfo" g)) as [info|]; [|discriminate].
    exists info. split; [reflexivity|congruence].
  - right. apply Z.ltb_ge in El. split; [exact El|]. rewrite R4 in H. congruence.
Qed.
End E.

(** ** Introspection *)
Definition std_member (k : string) : Prop :=
  In k ["scope"; "client_id"; "token_type"; "exp"; "iat"; "sub"; "iss"; "aud"; "username"].

Section I.
Variable sid_of : string -> result string.

Lemma introspect_iff cx clock t c g : introspect cx clock t c g <> None <->
  (t_type t = "access_token" \/ t_type t = "refresh_token") /\ token_usable clock t.
Proof.
  unfold introspect. destruct (smem (t_type t) ["access_token"; "refresh_token"]) eqn:E; cbn [negb].
  - apply smem_In in E. cbn in E. destruct (t_active clock t) eqn:A; cbn [negb].
    + apply t_active_iff in A. split; [intros _|discriminate]. split; [|exact A].
      destruct E as [E|[E|[]]]; auto.
    + split; [congruence|]. intros [_ X]. apply t_active_iff in X. congruence.
  - split; [congruence|]. intros [X _]. apply smem_false in E. exfalso. apply E. cbn. destruct X; auto.
Qed.

Lemma introspection_state cx clients clock un request s :
  snd (introspection_process sid_of cx clients clock un request s) = s.
Proof.
  unfold introspection_process, grant_of, as_grant, gets, id, bind, lift, ret, raise.
  destruct (msub_str "token" request) as [value|]; [|reflexivity].
  destruct (fst (get_session_info_by_token sid_of value false false true false false s)) as [i|e]; [|destruct e; reflexivity].
  destruct (in_grant i) as [[|g]|]; try reflexivity.
  destruct (get_token value g) as [t|]; [|reflexivity]. destruct (introspect cx clock t (in_cid i) g); [|reflexivity].
  destruct (if is_nil _ then _ else _); reflexivity.
Qed.

Lemma introspection_cases cx clients clock un request s a s' :
  introspection_process sid_of cx clients clock un request s = (Ok a, s') ->
  exists value, dget "token" request = Some (VStr value) /\
   ((sid_of value = Raise EUnknownToken /\ a = AOk [("active", VBool false)] None) \/
    (exists sid, sid_of value = Ok sid /\
       fst (get_session_info sid false false true false false s) = Raise EUnknownToken /\ a = AOk [("active", VBool false)] None) \/
    exists u c g t, names sid_of s value u c g t /\
     ((introspect cx clock t c g = None /\ a = AOk [("active", VBool false)] None) \/
      exists info ui, introspect cx clock t c g = Some info /\
        release (userinfo cx u) (grant_claims clients "introspection" g) = Ok ui /\
        a = AOk (dset "active" (VBool true)
                  (dupdate (dupdate [("active", VBool false)] (if un then dset "username" (VStr u) info else info)) ui)) None)).
Proof.
  intros H. unfold introspection_process, grant_of, as_grant, gets, id, bind, lift, ret, raise in H.
  destruct (msub_str "token" request) as [value|] eqn:Ev; [|discriminate].
  exists value. split. { unfold msub_str in Ev. destruct (dget _ request) as [[]|]; congruence. }
  unfold get_session_info_by_token, bind, lift in H.
  destruct (sid_of value) as [sid|e] eqn:Es.
  2: { cbn in H. left. destruct e; try discriminate. split; [reflexivity|congruence]. }
  assert (R := read_grant sid s). destruct (get_session_info sid false false true false false s) as [[i|e] s1] eqn:Eg; cbn [fst] in H.
  2: { right. left. exists sid. split; [reflexivity|]. rewrite Eg. destruct e; try discriminate. split; [reflexivity|congruence]. }
  right. right. destruct R as (-> & u & c & gid & e & R1 & R2 & R3 & R4 & R5 & R6). rewrite R6 in H. destruct e as [|g]; [discriminate|].
  destruct (get_token value g) as [t|] eqn:Et; [|discriminate].
  exists u, c, g, t. split. { eapply get_names; eauto. }
  rewrite R3, R4 in H. destruct (introspect cx clock t c g) as [info|]; [|left; split; [reflexivity|congruence]].
  right. exists info.
  assert (E : (if is_nil (grant_claims clients "introspection" g) then Ok (@nil (string * val)) else get_user_claims cx u (grant_claims clients "introspection" g))
              = release (userinfo cx u) (grant_claims clients "introspection" g)).
  { destruct (grant_claims clients "introspection" g); reflexivity. }
  rewrite E in H. destruct (release _ _) as [ui|]; [|discriminate].
  exists ui. split; [reflexivity|]. split; [reflexivity|]. congruence.
Qed.

(** reading cannot end in UnknownToken *)
Lemma read_not_unknown sid s : fst (get_session_info sid false false true false false s) <> Raise EUnknownToken.
Proof.
  unfold get_session_info, bind, lift, ret. unfold unpack3. destruct (unpack_session_key sid) as [|u [|c [|gid [|? ?]]]]; try discriminate.
  assert (R : forall e, fst (db_read [u; c; gid] s) = Raise e -> e <> EUnknownToken).
  { unfold db_read, bind, lift, catch, db_sub, dsub, ret, raise, eval_path.
    generalize (session_key [u; c]) (session_key [u; c; gid]). intros k1 k2.
    destruct (dget u s) as [[ui|]|]; cbn; try (intros x Hx; inversion Hx; subst; discriminate).
    destruct (smem c (si_sub ui)); cbn; try (intros x Hx; inversion Hx; subst; discriminate).
    destruct (dget k1 s) as [[ci|]|]; cbn; try (intros x Hx; inversion Hx; subst; discriminate).
    destruct (smem gid (si_sub ci)); cbn; try (intros x Hx; inversion Hx; subst; discriminate).
    destruct (dget k2 s); cbn; intros x Hx; inversion Hx; subst; discriminate. }
  destruct (db_read [u; c; gid] s) as [[e|e] s']; cbn in *; [discriminate|]. specialize (R e eq_refl). congruence.
Qed.

Lemma introspection_run cx clients clock un request s value u c g t info ui :
  dget "token" request = Some (VStr value) -> names sid_of s value u c g t ->
  introspect cx clock t c g = Some info -> release (userinfo cx u) (grant_claims clients "introspection" g) = Ok ui ->
  introspection_process sid_of cx clients clock un request s =
    (Ok (AOk (dset "active" (VBool true)
                  (dupdate (dupdate [("active", VBool false)] (if un then dset "username" (VStr u) info else info)) ui)) None), s).
Proof.
  intros Hv Hn Hi Hr. destruct (unpack3_names _ _ _ _ _ _ _ Hn) as (sid & gid & A & B & C).
  unfold introspection_process, get_session_info_by_token, grant_of, as_grant, gets, id, bind, lift, ret, raise.
  unfold msub_str. rewrite Hv, A, B. cbn [fst in_grant in_cid in_uid]. rewrite C, Hi.
  assert (E : (if is_nil (grant_claims clients "introspection" g) then Ok (@nil (string * val)) else get_user_claims cx u (grant_claims clients "introspection" g))
              = release (userinfo cx u) (grant_claims clients "introspection" g)).
  { destruct (grant_claims clients "introspection" g); reflexivity. }
  rewrite E, Hr. reflexivity.
Qed.

(** a member that no released user claim has the name of *)
Lemma introspect_member k (info ui : msg) (un : bool) u : proper info -> k <> "active" -> k <> "username" -> dget k (rev ui) = None ->
  dget k (dset "active" (VBool true)
     (dupdate (dupdate [("active", VBool false)] (if un then dset "username" (VStr u) info else info)) ui)) = dget k info.
Proof.
  intros Hp H1 H2 H3. rewrite dget_dset_neq by assumption. rewrite dget_dupdate, H3.
  assert (P : proper (if un : bool then dset "username" (VStr u) info else info)) by (destruct un; [now apply NoDup_dset|assumption]).
  rewrite dget_update by exact P. 
  assert (E : dget k (if un then dset "username" (VStr u) info else info) = dget k info).
  { destruct un; [now rewrite dget_dset_neq|reflexivity]. }
  rewrite E. destruct (dget k info); [reflexivity|]. cbn. apply String.eqb_neq in H1. now rewrite H1.
Qed.

Lemma introspect_proper cx clock t c g info : introspect cx clock t c g = Some info -> proper info.
Proof.
  unfold introspect. destruct (negb _); [discriminate|]. destruct (negb _); [discriminate|]. intros H. injection H as <-.
  destruct (is_nil (if is_nil (t_resources t) then g_resources g else t_resources t));
    unfold proper, dkeys; cbn [map fst]; repeat (constructor; [cbn; intuition discriminate|]); constructor.
Qed.
End I.

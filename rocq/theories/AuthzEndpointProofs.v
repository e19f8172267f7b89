(** AuthzEndpointProofs.v: see AuthzEndpointSpec.v *)
From Verif Require ClientAuthnProofs FormPostProofs AuthzProofs UserInfoProofs.
From Verif Require Import Base BaseProofs Monad MonadProofs Types SessionKey Token Grant GrantSpec GrantProofs Database DatabaseSpec
  DatabaseProofs Manager ManagerSpec ManagerProofs Ctx Claims Authz UserInfo World Minting WorldSpec WorldProofs ResponseSpec ResponseProofs
  Uri FormPost Cookie Response ResponseHeadSpec ResponseHeadProofs AuthzEndpoint AuthzEndpointSpec.
Local Open Scope Z_scope.

(** what the members of a response without error are *)
Record plain (request : msg) (rt : list string) (m : msg) : Prop := {
  pl_error : dget "error" m = None;
  pl_state : dget "state" m = truthy_get "state" request;
  pl_code : dmem "code" m = smem "code" rt;
  pl_access : dmem "access_token" m = smem "token" rt;
  pl_id : dmem "id_token" m = smem "id_token" rt;
  pl_iss : dget "iss" m = None;
  pl_cid : dget "client_id" m = None;
  pl_handled : rt = ["none"%string] \/ forall x, In x rt -> In x ["code"; "token"; "id_token"] }.

Ltac dd := repeat (first [rewrite dget_dset_eq | rewrite dget_dset_neq by (intros X; discriminate X)]).
Lemma dmem_dset_eq {A} k (v : A) d : dmem k (dset k v d) = true.
Proof. unfold dmem. now rewrite dget_dset_eq. Qed.
Lemma dmem_dset_neq {A} k k' (v : A) d : k <> k' -> dmem k (dset k' v d) = dmem k d.
Proof. intros H. unfold dmem. now rewrite dget_dset_neq. Qed.

Lemma code_part_shape e sid g rt a w c g' a' w' : code_part e sid g rt a w = (Ok (c, g', a'), w') ->
  if smem "code" rt then exists t, c = Some t /\ a' = dset "code" (VStr (t_value t)) a else c = None /\ a' = a /\ w' = w /\ g' = g.
Proof.
  unfold code_part. destruct (smem "code" rt).
  - unfold bind. destruct (endpoint_mint _ _ _ _ _ _ w) as [[[[t|] g2]|x] w1]; try discriminate. intros H. injection H as <- _ <- _. eauto.
  - intros H. injection H as <- <- <- <-. auto.
Qed.
Lemma token_part_shape e sid g rt c a w t' a' w' : token_part e sid g rt c a w = (Ok (t', a'), w') ->
  if smem "token" rt then exists t, t' = Some t /\
    a' = (let a1 := dset "token_type" (VStr "Bearer") (dset "access_token" (VStr (t_value t)) a) in
          if t_expires_at t =? 0 then a1 else dset "expires_in" (VInt (t_expires_at t - az_later e)) a1)
  else t' = None /\ a' = a /\ w' = w.
Proof.
  unfold token_part. destruct (smem "token" rt).
  - unfold bind. destruct (endpoint_mint _ _ _ _ _ _ w) as [[[[t|] g2]|x] w1]; try discriminate. intros H. injection H as <- <- _. eauto.
  - intros H. injection H as <- <- <-. auto.
Qed.
Lemma id_part_shape e i rt c t a w a' w' : id_part e i rt c t a w = (Ok (Some a'), w') ->
  if smem "id_token" rt then exists x, a' = dset "id_token" (VStr x) a else a' = a /\ w' = w.
Proof.
  unfold id_part. destruct (smem "id_token" rt).
  - unfold bind, gets. destruct (in_cdb _ w) as [[[x|]|] w1]; try discriminate.
    destruct (in_db _ w1) as [[[]|] w2]; [|discriminate]. intros H. injection H as <- _. eauto.
  - intros H. injection H as <- <-. auto.
Qed.

Definition none_only (request : msg) : bool :=
  match mget_list "response_type" request with Some l => only "none" l | None => false end.

Lemma forallb_handled rt : forallb (fun x => smem x ["code"; "token"; "id_token"]) rt = true ->
  rt = ["none"%string] \/ forall x, In x rt -> In x ["code"; "token"; "id_token"].
Proof. intros H. right. intros x I. rewrite forallb_forall in H. specialize (H x I). now apply smem_In in H. Qed.

Lemma create_shape e request sid w r w' : create_authn_response e request sid w = (Ok r, w') ->
  ri_ready r = None /\ exists rt, mget_list "response_type" request = Some rt /\
  ri_fragment r = Some (negb (none_only request) && negb (set_eqb rt ["code"])) /\
  ((exists d, ri_args r = error_args "invalid_request" d) \/ plain request rt (ri_args r)).
Proof.
  unfold create_authn_response. fold (none_only request). destruct (none_only request) eqn:N.
  - intros H. injection H as <- _. split; [reflexivity|]. unfold none_only in N.
    destruct (mget_list "response_type" request) as [[|x [|]]|]; try discriminate. cbn in N. apply String.eqb_eq in N. subst x.
    exists ["none"%string]. split; [reflexivity|]. split; [reflexivity|]. right. cbn [ri_args].
    destruct (truthy_get "state" request) eqn:E; constructor; try reflexivity; try (symmetry; exact E); try (now left).
  - intros H. head_bind H E1. destruct r0 as [i|x]; [|discriminate]. head_bind H E2. injection E2 as E2 <-.
    destruct (mget_list "response_type" request) as [rt|] eqn:R; [|subst r0; discriminate]. cbn in E2. subst r0.
    head_bind H E3. destruct r0 as [g|x]; [|discriminate].
    head_bind H E4. destruct r0 as [[[c g'] a1]|x]; [|discriminate].
    head_bind H E5. destruct r0 as [[t a2]|x]; [|discriminate].
    head_bind H E6. destruct r0 as [[a3|]|x]; [| |discriminate].
    2: { injection H as <- _. split; [reflexivity|]. exists rt. split; [reflexivity|]. split; [reflexivity|]. left. eexists. reflexivity. }
    destruct (forallb _ rt) eqn:F.
    2: { injection H as <- _. split; [reflexivity|]. exists rt. split; [reflexivity|]. split; [reflexivity|]. left. eexists. reflexivity. }
    injection H as <- _. split; [reflexivity|]. exists rt. split; [reflexivity|]. split; [reflexivity|]. right. cbn [ri_args].
    apply code_part_shape in E4. apply token_part_shape in E5. apply id_part_shape in E6. pose proof (forallb_handled rt F) as F2. clear F.
    set (a0 := match truthy_get "scope" request with Some v => dset "scope" v _ | None => _ end) in *.
    assert (A : dget "error" a0 = None /\ dget "state" a0 = truthy_get "state" request /\ dmem "code" a0 = false /\ dmem "access_token" a0 = false /\
            dmem "id_token" a0 = false /\ dget "iss" a0 = None /\ dget "client_id" a0 = None).
    { unfold a0. destruct (truthy_get "scope" request), (truthy_get "state" request); repeat split. }
    clearbody a0. destruct A as (A1 & A2 & A3 & A4 & A5 & A6 & A7).
    assert (B : dget "error" a1 = None /\ dget "state" a1 = truthy_get "state" request /\ dmem "code" a1 = smem "code" rt /\ dmem "access_token" a1 = false /\
            dmem "id_token" a1 = false /\ dget "iss" a1 = None /\ dget "client_id" a1 = None).
    { destruct (smem "code" rt).
      - destruct E4 as (tk & _ & ->). unfold dmem in *. dd. tauto.
      - destruct E4 as (_ & -> & _). tauto. }
    clear A1 A2 A3 A4 A5 A6 A7 E4. destruct B as (A1 & A2 & A3 & A4 & A5 & A6 & A7).
    assert (B : dget "error" a2 = None /\ dget "state" a2 = truthy_get "state" request /\ dmem "code" a2 = smem "code" rt /\ dmem "access_token" a2 = smem "token" rt /\
            dmem "id_token" a2 = false /\ dget "iss" a2 = None /\ dget "client_id" a2 = None).
    { destruct (smem "token" rt).
      - destruct E5 as (tk & _ & ->). cbv zeta. unfold dmem in *. destruct (_ =? 0); dd; tauto.
      - destruct E5 as (_ & -> & _). tauto. }
    clear A1 A2 A3 A4 A5 A6 A7 E5. destruct B as (A1 & A2 & A3 & A4 & A5 & A6 & A7).
    unfold dmem in *.
    destruct (smem "id_token" rt) eqn:I.
    + destruct E6 as (x & ->). constructor; unfold dmem; dd; try assumption. now rewrite I.
    + destruct E6 as (-> & _). constructor; unfold dmem; dd; try assumption. now rewrite I.
Qed.

(** ** The whole endpoint *)
(** the fragment is to be used *)
Definition wants (request : msg) (rt : list string) : bool := negb (none_only request) && negb (set_eqb rt ["code"]).

Definition refused (m : msg) : Prop := exists d, m = error_args "invalid_request" d.

Inductive outcome (e : authz_env) (request : msg) (r : rinfo) : Prop :=
| O_bare err d : r = error_response no_info err d -> outcome e request r
| O_lost rt : mget_list "response_type" request = Some rt -> ri_fragment r = Some (wants request rt) ->
    refused (ri_args r) -> ri_uri r = None -> ri_ready r = None -> outcome e request r
| O_sent rt uri clients : mget_list "response_type" request = Some rt -> ri_fragment r = Some (wants request rt) ->
    ri_uri r = Some uri -> get_uri (az_u e) clients request "redirect_uri" = Ok uri -> ri_ready r = None ->
    refused (ri_args r) \/
      (plain request rt (ri_args r) /\
        (dget "response_mode" request = None \/
         (dget "response_mode" request = Some (VStr "fragment") /\ wants request rt = true) \/
         (dget "response_mode" request = Some (VStr "query") /\ wants request rt = false))) -> outcome e request r
| O_form rt uri clients : mget_list "response_type" request = Some rt -> ri_fragment r = Some (wants request rt) ->
    ri_uri r = Some uri -> get_uri (az_u e) clients request "redirect_uri" = Ok uri ->
    dget "response_mode" request = Some (VStr "form_post") ->
    refused (ri_args r) \/ plain request rt (ri_args r) ->
    ri_ready r = Some (form_post uri (map (fun kv => (fst kv, az_show e (snd kv))) (ri_args r))) -> outcome e request r.

Lemma get_uri_addressed u db request uri : get_uri u db request "redirect_uri" = Ok uri -> addressed request uri.
Proof.
  unfold get_uri. intros H v E. unfold dmem in H. rewrite E in H. destruct (verify_uri _ _ _ _ _); cbn in H; [|discriminate].
  unfold msub_str in H. rewrite E in H. destruct v; try discriminate. congruence.
Qed.

Lemma post_shape e request sid w r w' : post_authentication e request sid w = (Ok r, w') -> outcome e request r.
Proof.
  unfold post_authentication. intros H. head_bind H E1.
  unfold attempt in E1. destruct (authorize e sid request w) as [[g|x] w1]; injection E1 as <- <-.
  2: { injection H as <- _. eapply O_bare. reflexivity. }
  head_bind H E1. destruct r0 as [[[u c] gid]|x]; [|discriminate].
  head_bind H E2. unfold attempt in E2. match type of E2 with context [in_db ?m ?y] => destruct (in_db m y) as [[[]|x] wq] end; injection E2 as <- <-.
  2: { injection H as <- _. eapply O_bare. reflexivity. }
  head_bind H E2. destruct r0 as [v|x]; [|discriminate]. head_bind H E3. destruct r0 as [r1|x]; [|discriminate].
  apply create_shape in E3. destruct E3 as (R1 & rt & R2 & R3 & R4). fold (wants request rt) in R3.
  head_bind H E4. injection E4 as <- <-. 
  set (r2 := mkRI (ri_args r1) (ri_fragment r1) (Some sid) None None None) in *.
  destruct (get_uri _ _ request "redirect_uri") as [uri|x] eqn:U.
  2: { assert (X : forall x, refused (ri_args (error_response r2 "invalid_request" x))) by (intros y; eexists; reflexivity).
       destruct x; try discriminate; injection H as <- _; (eapply O_lost; [exact R2|exact R3|apply X|reflexivity|reflexivity]). }
  head_bind H E5. destruct r0 as [cookie|x]; [|discriminate].
  destruct (dget "response_mode" request) as [mode|] eqn:M.
  2: { injection H as <- _. eapply (O_sent e request _ rt uri); try eassumption; try reflexivity. cbn [ri_args with_cookie].
       destruct R4 as [R4|R4]; [now left|]. right. auto. }
  unfold response_mode, r2 in H. cbn [ri_uri ri_fragment ri_args ri_sid ri_ready ri_cookie] in H. rewrite R3 in H.
  destruct (val_eqb mode (VStr "form_post")) eqn:M1.
  { apply ClientAuthnProofs.val_eqb_str in M1. subst mode. cbn in H. injection H as <- _.
    eapply (O_form e request _ rt uri); try eassumption; try reflexivity. }
  destruct (val_eqb mode (VStr "fragment")) eqn:M2.
  { apply ClientAuthnProofs.val_eqb_str in M2. subst mode. destruct (wants request rt) eqn:W; injection H as <- _.
    - eapply (O_sent e request _ rt uri); try eassumption; try reflexivity; cbn [ri_fragment ri_args with_cookie]; [congruence|].
      destruct R4 as [R4|R4]; [now left|]. right. rewrite W. auto.
    - eapply (O_sent e request _ rt uri); try eassumption; try reflexivity; cbn; try congruence; left; eexists; reflexivity. }
  destruct (val_eqb mode (VStr "query")) eqn:M3.
  { apply ClientAuthnProofs.val_eqb_str in M3. subst mode. destruct (wants request rt) eqn:W; injection H as <- _.
    - eapply (O_sent e request _ rt uri); try eassumption; try reflexivity; cbn; try congruence; left; eexists; reflexivity.
    - eapply (O_sent e request _ rt uri); try eassumption; try reflexivity; cbn [ri_fragment ri_args with_cookie]; [congruence|].
      destruct R4 as [R4|R4]; [now left|]. right. rewrite W. auto. }
  injection H as <- _. eapply (O_sent e request _ rt uri); try eassumption; try reflexivity; cbn; try congruence; left; eexists; reflexivity.
Qed.

(** what is added to the response after that *)
Definition completed (e : authz_env) (request : msg) (m m' : msg) : Prop :=
  exists cid, dget "client_id" request = Some cid /\
    (m' = dset "client_id" cid (dset "iss" (VStr (cx_issuer (az_cx e))) m) \/
     exists st, m' = dset "client_id" cid (dset "iss" (VStr (cx_issuer (az_cx e))) (dset "session_state" (VStr st) m))).

Lemma completed_get e request m m' : completed e request m m' ->
  dget "iss" m' = Some (VStr (cx_issuer (az_cx e))) /\ dget "client_id" m' = dget "client_id" request /\
  forall k, k <> "iss"%string -> k <> "client_id"%string -> k <> "session_state"%string -> dget k m' = dget k m.
Proof.
  intros (cid & -> & [->|(st & ->)]); (split; [dd; reflexivity|split; [dd; reflexivity|]]); intros k A B C;
    rewrite !dget_dset_neq by assumption; reflexivity.
Qed.

Lemma part2_shape e request sid w r w' : authz_part2 e request sid w = (Ok r, w') ->
  (exists err d, r = error_response no_info err d) \/
  exists r0 w1, post_authentication e request sid w = (Ok r0, w1) /\ w' = w1 /\
    ri_fragment r = ri_fragment r0 /\ ri_uri r = ri_uri r0 /\ ri_ready r = ri_ready r0 /\ ri_sid r = ri_sid r0 /\
    completed e request (ri_args r0) (ri_args r).
Proof.
  unfold authz_part2. intros H. head_bind H E1. unfold attempt in E1.
  destruct (post_authentication e request sid w) as [[r1|x] w1]; injection E1 as <- <-.
  2: { injection H as <- _. left. do 2 eexists. reflexivity. }
  destruct (az_iframe e).
  - head_bind H E1. unfold attempt in E1.
    assert (w0 = w1). { unfold in_db in E1. destruct (get_authentication_event sid (w_db w1)) as [q s] eqn:G.
      assert (s = w_db w1). { revert G. unfold get_authentication_event, get_session_info. unfold bind, lift, ret.
        destruct (unpack3 sid) as [[[a b] c]|]; [|congruence].
        destruct (db_read [a; b; c] (w_db w1)) as [[en|] s1] eqn:D; [|pose proof (db_read_state [a; b; c] (w_db w1)) as P; rewrite D in P; cbn in P; congruence].
        pose proof (db_read_state [a; b; c] (w_db w1)) as P; rewrite D in P; cbn in P. destruct en; cbn; intros Z; injection Z as _ <-; exact P. }
      subst s. injection E1 as _ <-. now destruct w1. }
    subst w0. clear E1. destruct r0 as [[[ae|]|x]|x]; try (destruct x; discriminate || (injection H as <- _; left; do 2 eexists; reflexivity)); try discriminate.
    destruct (negb _).
    { injection H as <- _. left. do 2 eexists. reflexivity. }
    head_bind H E1. injection E1 as E1 <-. destruct r0 as [o|x]; [|discriminate].
    head_bind H E2. injection E2 as E2 <-. destruct r0 as [cid|x]; [|discriminate].
    head_bind H E3. injection E3 as E3 <-. destruct r0 as [uri|x]; [|discriminate].
    head_bind H E4. injection E4 as E4 <-. destruct r0 as [org|x]; [|discriminate].
    set (r2 := match o with Some (v, c) => if nonempty v then add_cookie c r1 else r1 | None => r1 end) in *.
    assert (A : ri_args r2 = ri_args r1 /\ ri_fragment r2 = ri_fragment r1 /\ ri_uri r2 = ri_uri r1 /\ ri_ready r2 = ri_ready r1 /\ ri_sid r2 = ri_sid r1).
    { unfold r2. destruct o as [[v c]|]; [|auto]. destruct (nonempty v); [|auto]. unfold add_cookie. destruct (ri_cookie r1) as [[]|]; cbn; auto. }
    clearbody r2. destruct A as (A1 & A2 & A3 & A4 & A5).
    head_bind H E5. injection E5 as E5 <-. destruct r0 as [cv|x]; [|discriminate]. injection H as <- <-. right. exists r1, w1.
    cbn [with_args ri_fragment ri_uri ri_ready ri_sid ri_args]. repeat (split; [first [reflexivity|assumption]|]).
    exists cv. unfold dsub in E5. destruct (dget "client_id" request) eqn:Y; [|discriminate]. injection E5 as ->. split; [reflexivity|].
    right. eexists. rewrite A1. reflexivity.
  - head_bind H E5. injection E5 as E5 <-. destruct r0 as [cv|x]; [|discriminate]. injection H as <- <-. right. exists r1, w1.
    cbn [with_args ri_fragment ri_uri ri_ready ri_sid ri_args]. repeat (split; [first [reflexivity|assumption]|]).
    exists cv. unfold dsub in E5. destruct (dget "client_id" request) eqn:Y; [|discriminate]. injection E5 as ->. split; [reflexivity|].
    left. reflexivity.
Qed.

Lemma get_event_state sid s : snd (get_authentication_event sid s) = s.
Proof.
  unfold get_authentication_event, get_session_info. unfold bind, lift, ret. destruct (unpack3 sid) as [[[a b] c]|]; [|reflexivity].
  assert (P := db_read_state [a; b; c] s). destruct (db_read [a; b; c] s) as [[en|] s1]; cbn [snd] in P; subst s1; [|reflexivity]. destruct en; reflexivity.
Qed.
(** cookies *)
Lemma post_cookie e request sid w r w' : post_authentication e request sid w = (Ok r, w') -> dget "error" (ri_args r) = None ->
  exists cookie, az_cookie e sid (dget "state" request) = Ok cookie /\ ri_cookie r = Some (VList [cookie]).
Proof.
  unfold post_authentication. intros H N. head_bind H E1.
  unfold attempt in E1. destruct (authorize e sid request w) as [[g|x] w1]; injection E1 as <- <-.
  2: { injection H as <- _. discriminate. }
  head_bind H E1. destruct r0 as [[[u c] gid]|x]; [|discriminate].
  head_bind H E2. unfold attempt in E2. match type of E2 with context [in_db ?m ?y] => destruct (in_db m y) as [[[]|x] wq] end; injection E2 as <- <-.
  2: { injection H as <- _. discriminate. }
  head_bind H E2. destruct r0 as [v|x]; [|discriminate]. head_bind H E3. destruct r0 as [r1|x]; [|discriminate].
  head_bind H E4. injection E4 as <- <-.
  destruct (get_uri _ _ request "redirect_uri") as [uri|x] eqn:U.
  2: { destruct x; try discriminate; injection H as <- _; discriminate. }
  head_bind H E5. injection E5 as E5 <-. destruct r0 as [cookie|x]; [|discriminate]. exists cookie. split; [exact E5|].
  destruct (dget "response_mode" request) as [mode|] eqn:M; [|injection H as <- _; reflexivity].
  destruct (response_mode e mode _) as [r3|x]; [injection H as <- _; reflexivity|].
  destruct x; try discriminate; injection H as <- _; discriminate.
Qed.
Lemma post_uri e request sid w r w' : post_authentication e request sid w = (Ok r, w') ->
  ri_uri r = None \/ exists uri, ri_uri r = Some uri /\ get_uri (az_u e) (w_cdb w') request "redirect_uri" = Ok uri.
Proof.
  unfold post_authentication. intros H. head_bind H E1.
  unfold attempt in E1. destruct (authorize e sid request w) as [[g|x] w1]; injection E1 as <- <-.
  2: { injection H as <- _. now left. }
  head_bind H E1. destruct r0 as [[[u c] gid]|x]; [|discriminate].
  head_bind H E2. unfold attempt in E2. match type of E2 with context [in_db ?m ?y] => destruct (in_db m y) as [[[]|x] wq] end; injection E2 as <- <-.
  2: { injection H as <- _. now left. }
  head_bind H E2. destruct r0 as [v|x]; [|discriminate]. head_bind H E3. destruct r0 as [r1|x]; [|discriminate].
  head_bind H E4. injection E4 as <- <-.
  destruct (get_uri _ _ request "redirect_uri") as [uri|x] eqn:U.
  2: { destruct x; try discriminate; injection H as <- _; now left. }
  right. exists uri. head_bind H E5. injection E5 as E5 <-. destruct r0 as [cookie|x]; [|discriminate].
  destruct (dget "response_mode" request) as [mode|] eqn:M; [|injection H as <- <-; auto].
  match type of H with context [response_mode e mode ?r0] => destruct (response_mode e mode r0) as [r3|x] eqn:R end.
  - injection H as <- <-. split; [|exact U]. cbn [ri_uri with_cookie]. unfold response_mode in R. cbn [ri_uri ri_fragment of_option rbind] in R.
    destruct (val_eqb mode (VStr "form_post")); [injection R as <-; reflexivity|].
    destruct (val_eqb mode (VStr "fragment")); [destruct (ri_fragment r1) as [[|]|]; inversion R; reflexivity|].
    destruct (val_eqb mode (VStr "query")); [destruct (ri_fragment r1) as [[|]|]; inversion R; reflexivity|discriminate].
  - destruct x; try discriminate; injection H as <- <-. auto.
Qed.
Lemma part2_cookie e request sid w r w' : authz_part2 e request sid w = (Ok r, w') -> dget "error" (ri_args r) = None ->
  exists cookie, az_cookie e sid (dget "state" request) = Ok cookie /\
    if az_iframe e then
      exists ae o, fst (get_authentication_event sid (w_db w')) = Ok (Some ae) /\ az_opbs e (ae_authn_time ae) = Ok o /\
        ri_cookie r = Some (VList (cookie :: match o with Some (v, c) => if nonempty v then [c] else [] | None => [] end))
    else ri_cookie r = Some (VList [cookie]).
Proof.
  intros H N. destruct (part2_shape _ _ _ _ _ _ H) as [(err & d & ->)|(r0 & w1 & P & -> & _ & _ & _ & _ & C)]; [discriminate|].
  assert (N0 := N). destruct (completed_get _ _ _ _ C) as (_ & _ & O). rewrite O in N by discriminate. clear C O.
  destruct (post_cookie _ _ _ _ _ _ P N) as (cookie & E & Ck). exists cookie. split; [exact E|].
  unfold authz_part2 in H. head_bind H E1. unfold attempt in E1. rewrite P in E1. injection E1 as <- <-.
  destruct (az_iframe e).
  2: { head_bind H E5. injection E5 as E5 <-. destruct r1 as [cv|x]; [|discriminate]. injection H as <-. exact Ck. }
  head_bind H E1. unfold attempt, in_db in E1. destruct (get_authentication_event sid (w_db w1)) as [q s] eqn:G. injection E1 as <- <-.
  destruct q as [[ae|]|x]; [| |destruct x; discriminate || (injection H as <- _; discriminate N0)]; [|discriminate].
  exists ae. cbn [fst].
  destruct (negb _). { injection H as <- _. discriminate N0. }
  head_bind H E1. injection E1 as E1 <-. destruct r1 as [o|x]; [|discriminate].
  head_bind H E2. injection E2 as E2 <-. destruct r1 as [cid|x]; [|discriminate].
  head_bind H E3. injection E3 as E3 <-. destruct r1 as [uri|x]; [|discriminate].
  head_bind H E4. injection E4 as E4 <-. destruct r1 as [org|x]; [|discriminate].
  head_bind H E5. injection E5 as E5 <-. destruct r1 as [cv|x]; [|discriminate]. injection H as <- _.
  exists o. split; [reflexivity|]. split; [exact E1|]. cbn [with_args ri_cookie].
  destruct o as [[v c]|]; [|exact Ck]. destruct (nonempty v); [|exact Ck]. unfold add_cookie. rewrite Ck. reflexivity.
Qed.

(** the session state that is put in *)
Lemma part2_session_state e request sid w r w' : authz_part2 e request sid w = (Ok r, w') -> dget "error" (ri_args r) = None ->
  az_iframe e = true ->
  exists ae o cid uri org, fst (get_authentication_event sid (w_db w')) = Ok (Some ae) /\ az_later e < ae_valid_until ae /\
    az_opbs e (ae_authn_time ae) = Ok o /\ dget "client_id" request = Some (VStr cid) /\ ri_uri r = Some uri /\
    az_origin e uri = Ok org /\
    dget "session_state" (ri_args r) =
      Some (VStr (Cookie.compute_session_state (az_sha e) (match o with Some (v, _) => v | None => "" end) (az_salt e) cid org)).
Proof.
  intros H N0 I. unfold authz_part2 in H. head_bind H E1. unfold attempt in E1.
  destruct (post_authentication e request sid w) as [[r1|x] w1]; injection E1 as <- <-; [|injection H as <- _; discriminate N0].
  rewrite I in H.
  head_bind H E1. unfold attempt, in_db in E1. destruct (get_authentication_event sid (w_db w1)) as [q s] eqn:G.
  assert (s = w_db w1). { revert G. unfold get_authentication_event, get_session_info. unfold bind, lift, ret.
    destruct (unpack3 sid) as [[[a b] c]|]; [|congruence].
    destruct (db_read [a; b; c] (w_db w1)) as [[en|] s1] eqn:D; [|pose proof (db_read_state [a; b; c] (w_db w1)) as P; rewrite D in P; cbn in P; congruence].
    pose proof (db_read_state [a; b; c] (w_db w1)) as P; rewrite D in P; cbn in P. destruct en; cbn; intros Z; injection Z as _ <-; exact P. }
  subst s. injection E1 as <- <-. replace (mkW (w_db w1) (w_cdb w1)) with w1 in H by now destruct w1.
  destruct q as [[ae|]|x]; [| |destruct x; discriminate || (injection H as <- _; discriminate N0)]; [|discriminate].
  destruct (az_later e <? ae_valid_until ae)%Z eqn:V; cbn [negb] in H; [|injection H as <- _; discriminate N0].
  head_bind H E1. injection E1 as E1 <-. destruct r0 as [o|x]; [|discriminate].
  head_bind H E2. injection E2 as E2 <-. destruct r0 as [cid|x]; [|discriminate].
  head_bind H E3. injection E3 as E3 <-. destruct r0 as [uri|x]; [|discriminate].
  head_bind H E4. injection E4 as E4 <-. destruct r0 as [org|x]; [|discriminate].
  head_bind H E5. injection E5 as E5 <-. destruct r0 as [cv|x]; [|discriminate]. injection H as <- <-.
  exists ae, o, cid, uri, org. rewrite G. split; [reflexivity|]. split; [now apply Z.ltb_lt|]. split; [exact E1|].
  split. { unfold msub_str in E2. destruct (dget "client_id" request) as [[]|]; congruence. }
  split. { cbn [with_args ri_uri]. destruct (ri_uri r1) eqn:U; [|discriminate]. injection E3 as ->.
    destruct o as [[v c]|]; [|exact U]. destruct (nonempty v); [|exact U]. unfold add_cookie. destruct (ri_cookie r1) as [[]|]; exact U. }
  split; [exact E4|]. cbn [with_args ri_args]. dd. reflexivity.
Qed.

(** ** What is sent *)
Lemma respond_ready en r resp t : ri_ready r = Some t -> respond en authorization_endpoint r = Ok resp ->
  rs_body resp = Text t /\ as_page resp.
Proof.
  intros R H. unfold respond in H. rewrite do_response_eq in H. cbn [nonempty kwargs_of kw_response_msg] in H. rewrite R in H.
  injection H as <-. split; [reflexivity|]. split; [cbn; now rewrite R|]. unfold finish, msg_content_type. cbn. rewrite R. cbn. now left.
Qed.
Lemma respond_url en r resp : ri_ready r = None -> respond en authorization_endpoint r = Ok resp ->
  exists uri, ri_uri r = Some uri /\
    rs_body resp = Text (msg_request en (ri_args r) uri (match ri_fragment r with Some b => b | None => false end)).
Proof.
  intros R H. unfold respond in H. rewrite do_response_eq in H. cbn [nonempty kwargs_of kw_response_msg] in H. rewrite R in H.
  cbn [ep_construct authorization_endpoint rbind] in H. unfold place in H. cbn [kwargs_of kw_content_type] in H. rewrite R in H. cbn in H.
  destruct (ri_uri r) as [uri|] eqn:U; [|discriminate]. cbn in H. injection H as <-. exists uri. split; [reflexivity|]. cbn.
  now destruct (ri_fragment r).
Qed.
Lemma query_fragment en m uri : query_of (msg_request en m uri true) = query_of uri.
Proof.
  unfold msg_request, query_of. rewrite cut_app. destruct (cut "#" uri) as [a [b|]] eqn:C; cbn [fst snd]; [reflexivity|].
  assert (F : free "#" uri) by (unfold free; now rewrite C). rewrite (cut_free _ _ F) in C. injection C as ->. cbn. now rewrite FormPostProofs.sapp_nil.
Qed.

(** ** What is recorded *)
Lemma authz_call_grant cx clock c request res cs g cs' g' :
  authz_call cx clock c request res (cs, g) = (Ok tt, (cs', g')) ->
  exists scopes, mget_list "scope" request = Some scopes /\ AuthzProofs.untouched g g' /\
  g_scope g' = (match scopes with [] => g_scope g | _ => scopes end) /\
  g_rules g' = (match gc_rules (cx_grant_config cx) with Some r => r | None => g_rules g end) /\
  g_expires_at g' = (match gc_expires_in (cx_grant_config cx) with Some n => clock + n | None => g_expires_at g end) /\
  g_resources g' = (match res with Some l => l | None => [c] end).
Proof.
  intros H. unfold authz_call in H.
  set (K := iterM _ _) in H.
  assert (EK : exists g0, K (cs, g0) = (Ok tt, (cs', g')) /\ AuthzProofs.untouched g g0 /\
     g_scope g0 = (match mget_list "scope" request with Some (x :: l) => x :: l | _ => g_scope g end) /\
     g_rules g0 = (match gc_rules (cx_grant_config cx) with Some r => r | None => g_rules g end) /\
     g_expires_at g0 = (match gc_expires_in (cx_grant_config cx) with Some n => (clock + n)%Z | None => g_expires_at g end) /\
     g_resources g0 = (match res with Some l => l | None => [c] end)).
  { clearbody K. unfold bind, on_grant, modify, ret in H.
    destruct (gc_rules (cx_grant_config cx)), (gc_expires_in (cx_grant_config cx)), (mget_list "scope" request) as [[|x l]|];
      cbn [fst snd] in H; eexists; (split; [exact H|]); repeat split. }
  destruct EK as (g0 & EK & U & E1 & E2 & E3 & E4). clear H.
  assert (Hs : exists scopes, mget_list "scope" request = Some scopes).
  { unfold K in EK. cbn [iterM] in EK. apply bind_ok in EK. destruct EK as ([] & [cs1 g1] & H1 & _).
    apply AuthzProofs.claim_step_ok in H1. destruct H1 as (sc & r & Hs & _). eauto. }
  destruct Hs as (scopes & Hs). exists scopes. split; [exact Hs|]. rewrite Hs in E1.
  assert (L : forall l cs g, iterM (AuthzProofs.claim_step cx c request) l (cs, g) = (Ok tt, (cs', g')) ->
     AuthzProofs.untouched g g' /\ g_scope g' = g_scope g /\ g_rules g' = g_rules g /\ g_expires_at g' = g_expires_at g /\ g_resources g' = g_resources g).
  { clear. induction l as [|i l IH]; intros cs g H.
    - injection H as <- <-. repeat split.
    - cbn [iterM] in H. apply bind_ok in H. destruct H as ([] & [cs1 g1] & H1 & H2).
      apply AuthzProofs.claim_step_ok in H1. destruct H1 as (sc & r & _ & _ & ->). apply IH in H2.
      destruct H2 as (A & B). split; [|exact B]. eapply AuthzProofs.untouched_trans; [|exact A]. repeat split. }
  apply (L ["userinfo"; "introspection"; "id_token"; "access_token"]%string) in EK. destruct EK as (A & B1 & B2 & B3 & B4).
  split; [eapply AuthzProofs.untouched_trans; eauto|].
  repeat split; [rewrite B1, E1; now destruct scopes|congruence|congruence|congruence].
Qed.

(** everything but one grant is as before *)
Definition around (s : store) (u c gid : string) (s' : store) : Prop :=
  forall q, good_path q -> q <> [u; c; gid] -> view s' q = view s q.

Lemma poke_step sh s u c gid g0 g : fine s -> good u -> good c -> good gid -> view s [u; c; gid] = Some (EGrant g0) ->
  let s' := snd (poke sh (session_key [u; c; gid]) (EGrant g) s) in
  fine s' /\ (exists g1, view s' [u; c; gid] = Some (EGrant g1)) /\ around s u c gid s'.
Proof.
  intros [Hk Hl] Hu Hc Hg V s'. destruct sh.
  - destruct (poke3_view s u c gid g _ Hu Hc Hg V) as (s1 & P & V1 & Vo). unfold s'. rewrite P. cbn [snd].
    split; [|split; [eauto|exact Vo]].
    assert (E : s1 = snd (poke true (session_key [u; c; gid]) (EGrant g) s)) by (now rewrite P).
    assert (Hst : stored s [u; c; gid] <> None) by (rewrite (view3_grant _ _ _ _ _ V); discriminate).
    pose proof (fun q Hq => stored_poke true [u; c; gid] (EGrant g) s q (gp3 u c gid Hu Hc Hg) Hq Hst) as Hs. rewrite <- E in Hs.
    split.
    + intros q en Hq. rewrite Hs by auto. destruct (path_dec q [u; c; gid]) as [->|]; [intros X; inv X; reflexivity|apply Hk; auto].
    + intros u' c' Hu' Hc'. rewrite !Hs by auto with gp. rewrite !path_dec_neq by discriminate. apply Hl; auto.
  - subst s'. cbn. split; [split; assumption|]. split; [eauto|]. intros q _ _. reflexivity.
Qed.

Lemma handling_ok e u c gid request w g g' w' : fine (w_db w) -> good u -> good c -> good gid ->
  view (w_db w) [u; c; gid] = Some (EGrant g) -> handling e (session_key [u; c; gid]) request w = (Ok g', w') ->
  fine (w_db w') /\ (exists g1, view (w_db w') [u; c; gid] = Some (EGrant g1)) /\ around (w_db w) u c gid (w_db w') /\
  g_issued g' = g_issued g /\ g_used g' = g_used g /\
  authorized (gc_rules (cx_grant_config (az_cx e))) (gc_expires_in (cx_grant_config (az_cx e))) (az_clock e) c request g g'.
Proof.
  intros Hf Hu Hc Hg V H. unfold handling in H. head_bind H E1. unfold in_db in E1.
  assert (R := UserInfoProofs.read_grant (session_key [u; c; gid]) (w_db w)).
  destruct (get_session_info _ _ _ _ _ _ (w_db w)) as [[i|x] s]; [|injection E1 as <- <-; discriminate].
  destruct R as (-> & u1 & c1 & gid1 & en & U & V1 & I1 & I2 & I3 & I4). rewrite unpack3_good in U by assumption. injection U as <- <- <-.
  injection E1 as <- <-. assert (en = EGrant g) by congruence. subst en.
  head_bind H E2. unfold in_db, grant_of, as_grant, ret in E2. rewrite I4 in E2. cbn in E2. injection E2 as <- <-.
  cbn [w_db w_cdb] in H. rewrite I1, I2, I3 in H.
  destruct (authz_call _ _ _ _ _ _) as [r1 [cl g2]] eqn:A. 
  assert (P := poke_step (az_sharing e) (w_db w) u c gid g g2 Hf Hu Hc Hg V).
  cbn [w_db w_cdb] in H.
  unfold in_db in H. cbn [w_db w_cdb] in H. destruct (poke _ _ _ (w_db w)) as [r2 s2]. cbn [snd] in H, P. destruct r1 as [[]|x]; [|discriminate].
  injection H as <- <-. cbn [w_db]. apply authz_call_grant in A. destruct A as (scopes & A1 & (B1 & B2 & B3 & B4 & B5 & B6 & B7 & B8 & B9) & A3 & A4 & A5 & A6).
  destruct P as (P1 & P2 & P3). repeat (split; [assumption|]). constructor; try assumption. exists scopes. auto.
Qed.

Lemma implicit_ok keys u c gid w g g' w' : good u -> good c -> good gid ->
  view (w_db w) [u; c; gid] = Some (EGrant g) -> implicit keys (session_key [u; c; gid]) w = (Ok g', w') -> g' = g /\ w' = w.
Proof.
  intros Hu Hc Hg V H. unfold implicit in H. head_bind H E1. unfold in_db, get_grant, bind, lift in E1.
  rewrite unpack3_good in E1 by assumption.
  destruct (read_cases [u; c; gid] (w_db w)) as [(x & Hr & Hv)|(x & Hr & Hv)]; rewrite Hr in E1; [|congruence].
  assert (x = EGrant g) by congruence. subst x. unfold ret in E1. injection E1 as <- <-.
  destruct (forallb two_characters keys); [|discriminate]. injection H as <- <-. split; [reflexivity|now destruct w].
Qed.

Lemma authorize_ok e u c gid request w g g' w' : fine (w_db w) -> good u -> good c -> good gid ->
  view (w_db w) [u; c; gid] = Some (EGrant g) -> authorize e (session_key [u; c; gid]) request w = (Ok g', w') ->
  fine (w_db w') /\ (exists g1, view (w_db w') [u; c; gid] = Some (EGrant g1)) /\ around (w_db w) u c gid (w_db w') /\
  g_issued g' = g_issued g /\ g_used g' = g_used g /\
  decided (az_handler e) (gc_rules (cx_grant_config (az_cx e))) (gc_expires_in (cx_grant_config (az_cx e))) (az_clock e) c request g g'.
Proof.
  intros Hf Hu Hc Hg V H. unfold authorize in H. unfold decided. destruct (az_handler e); [eapply handling_ok; eauto|].
  destruct (implicit_ok _ _ _ _ _ _ _ _ Hu Hc Hg V H) as [-> ->].
  split; [exact Hf|]. split; [eauto|]. split; [intros q _ _; reflexivity|]. split; [reflexivity|]. split; [reflexivity|]. constructor; reflexivity.
Qed.

Lemma mint_made cx mt u c gid g g0 ttype base w t g' w' :
  fine (w_db w) -> good u -> good c -> good gid -> view (w_db w) [u; c; gid] = Some (EGrant g0) ->
  endpoint_mint cx mt (session_key [u; c; gid]) g ttype base w = (Ok (Some t, g'), w') ->
  only_grant (w_db w) u c gid g' (w_db w') /\ fine (w_db w') /\
  g' = g_set_used (g_used g + 1) (g_set_issued (g_issued g ++ [t]) g) /\ made (mt_clock mt) (g_rules g) ttype base t.
Proof.
  intros Hf Hu Hc Hg V H. unfold endpoint_mint in H. head_bind H E0.
  unfold mint_in in E0. unfold bind, lift, ret in E0.
  set (rules := dget ttype (gr_types (g_rules g))) in *.
  destruct (mint_token _ _ _ _ _ _ _ _ (Ok "")) as [[[t0|] g1]|x] in E0.
  2: { injection E0 as <- <-. destruct (negb _); [discriminate|]. unfold bind, ret in H. destruct (in_db _ _) as [[[]|] ?]; discriminate. }
  2: { injection E0 as <- <-. discriminate. }
  destruct (unpack3 (session_key [u; c; gid])) as [[[u1 c1] gid1]|]; [|injection E0 as <- <-; discriminate].
  destruct (payload_arguments _ _ _ _ _ _ w) as [[p|x] w1] eqn:Ep; [|injection E0 as <- <-; discriminate].
  apply payload_db in Ep. injection E0 as E0 <-.
  assert (C := mint_token_cases (mt_clock mt) (mt_id mt) g ttype base rules None Grant.no_kw (mt_value mt (session_key [u; c; gid]) p)).
  rewrite E0 in C. destruct r as [[[t2|] g2]|x]; [| |discriminate].
  2: { destruct (negb _); [discriminate|]. unfold bind, ret in H. destruct (in_db _ _) as [[[]|] ?]; discriminate. }
  destruct C as (C1 & C2 & C3 & C4 & C5 & C6 & C7 & C8 & C9 & C10 & C11 & C12 & _ & _ & C15).
  rewrite unpack_good in H by auto with gp.
  set (late := if lifetime rules =? 0 then fun t : token => t else t_set_expires_at (mt_clock mt + lifetime rules)) in *. cbv zeta in H.
  unfold bind, in_db, ret in H. rewrite Ep in H.
  assert (P := put_step (w_db w) u c gid g0 (upd_newest late g2) Hf Hu Hc Hg V).
  destruct (db_store [u; c; gid] _ (w_db w)) as [[[]|x] s1]; [|discriminate]. cbn [snd] in P. injection H as <- <- <-. cbn [w_db].
  destruct P as [P1 P2].
  assert (G : upd_newest late g2 = g_set_used (g_used g + 1) (g_set_issued (g_issued g ++ [late t2]) g)).
  { rewrite C15. unfold upd_newest. cbn. rewrite upd_last_app. reflexivity. }
  split; [exact P1|]. split; [exact P2|]. split; [exact G|].
  unfold made. fold rules.
  match goal with X : TOKEN_MAP _ = Some _ |- _ => apply token_map_of_type in X end.
  replace (t_type (late t2)) with (t_type t2) by (unfold late; destruct (lifetime rules =? 0); reflexivity).
  replace (t_class (late t2)) with (t_class t2) by (unfold late; destruct (lifetime rules =? 0); reflexivity).
  replace (t_based_on (late t2)) with (t_based_on t2) by (unfold late; destruct (lifetime rules =? 0); reflexivity).
  replace (t_revoked (late t2)) with (t_revoked t2) by (unfold late; destruct (lifetime rules =? 0); reflexivity).
  replace (t_used (late t2)) with (t_used t2) by (unfold late; destruct (lifetime rules =? 0); reflexivity).
  replace (t_issued_at (late t2)) with (t_issued_at t2) by (unfold late; destruct (lifetime rules =? 0); reflexivity).
  replace (t_not_before (late t2)) with (t_not_before t2) by (unfold late; destruct (lifetime rules =? 0); reflexivity).
  cbn in C11, C12. repeat (split; [assumption|]).
  subst late. unfold lifetime. destruct rules as [[a b [n|]]|]; cbn in *; try assumption. destruct (n =? 0); [assumption|reflexivity].
Qed.

Lemma note_step s u c gid g v s' : fine s -> good u -> good c -> good gid -> view s [u; c; gid] = Some (EGrant g) ->
  db_update [u; c] [("id_token"%string, v)] s = (Ok tt, s') ->
  noted (Some v) (view s [u; c]) (view s' [u; c]) /\ forall q, good_path q -> q <> [u; c] -> view s' q = view s q.
Proof.
  intros [Hk Hl] Hu Hc Hg V H. unfold db_update, bind in H.
  destruct (read_cases [u; c] s) as [(en & Rd & Ev)|(x & Rd & Ev)]; rewrite Rd in H; [|discriminate].
  assert (exists ci, en = EInfo ci) as [ci ->].
  { rewrite view3, Ev in V. destruct en as [ci|]; [eauto|discriminate]. }
  cbn [ret] in H. unfold ret in H. set (vi := mkSInfo _ _ _ _ _) in H.
  destruct (store2_view s u c vi Hk Hl Hu Hc) as (V2 & V1 & V3 & Vo).
  rewrite db_store2 in * by auto. cbn [snd] in *. injection H as <-.
  split. { exists ci. split; [exact Ev|]. rewrite V2. reflexivity. }
  destruct (view_user_case s u c) as (ui & Eu & Em & Es); [congruence|].
  intros q Hq Hn.
  destruct (good_path_cases q Hq) as [(u' & -> & Hu')|[(u' & c' & -> & Hu' & Hc')|(u' & c' & g' & -> & Hu' & Hc' & Hg')]].
  - destruct (string_dec u' u) as [->|]; [|apply Vo; auto; [intros (r & X); destruct r; inv X; congruence|congruence]].
    rewrite V1, view1, Eu. cbn [info_or]. unfold listing. rewrite Em. reflexivity.
  - apply Vo; auto; [|discriminate]. intros (r & X). inv X. congruence.
  - destruct (path_dec [u'; c'] [u; c]) as [X|N].
    + inv X. rewrite V3 by auto. rewrite view3, Ev. reflexivity.
    + apply Vo; auto; [|discriminate]. intros (r & X). inv X. congruence.
Qed.

Lemma around_refl s u c gid : around s u c gid s.
Proof. intros q _ _. reflexivity. Qed.
Lemma around_trans s1 s2 s3 u c gid : around s1 u c gid s2 -> around s2 u c gid s3 -> around s1 u c gid s3.
Proof. intros A B q Hq N. rewrite B, A; auto. Qed.

(** the grant [g] with more tokens *)
Definition with_tokens (l : list token) (g : grant) : grant :=
  g_set_used (g_used g + Z.of_nat (length l)) (g_set_issued (g_issued g ++ l) g).
Lemma with_none g : with_tokens [] g = g.
Proof. unfold with_tokens. destruct g; cbn. rewrite Z.add_0_r, app_nil_r. reflexivity. Qed.
Lemma with_more l t g : g_set_used (g_used (with_tokens l g) + 1) (g_set_issued (g_issued (with_tokens l g) ++ [t]) (with_tokens l g)) =
  with_tokens (l ++ [t]) g.
Proof. unfold with_tokens. destruct g; cbn. rewrite app_length, <- app_assoc, Nat2Z.inj_add. rewrite Z.add_assoc. reflexivity. Qed.

Definition single (o : option token) : list token := match o with Some t => [t] | None => [] end.

Lemma code_part_state e u c gid g rt a w o g' a' w' : fine (w_db w) -> good u -> good c -> good gid ->
  view (w_db w) [u; c; gid] = Some (EGrant g) -> code_part e (session_key [u; c; gid]) g rt a w = (Ok (o, g', a'), w') ->
  fine (w_db w') /\ view (w_db w') [u; c; gid] = Some (EGrant g') /\ around (w_db w) u c gid (w_db w') /\
  g' = with_tokens (single o) g /\ length (single o) = (if smem "code" rt then 1%nat else 0%nat) /\
  Forall (made (mt_clock (az_code e)) (g_rules g) "authorization_code" None) (single o) /\
  a' = match o with Some t => dset "code" (VStr (t_value t)) a | None => a end.
Proof.
  intros Hf Hu Hc Hg V H. unfold code_part in H. destruct (smem "code" rt).
  - head_bind H E. destruct r as [[[t|] g2]|x]; try discriminate. injection H as <- <- <- <-.
    destruct (mint_made _ _ _ _ _ _ _ _ _ _ _ _ _ Hf Hu Hc Hg V E) as ((A1 & A2) & A3 & A4 & A5).
    split; [exact A3|]. split; [exact A1|]. split; [exact A2|]. split; [rewrite A4; pose proof (with_more [] t g) as X; rewrite with_none in X; exact X|].
    split; [reflexivity|]. split; [constructor; [exact A5|constructor]|reflexivity].
  - injection H as <- <- <- <-. rewrite with_none. repeat (split; [first [assumption|reflexivity|apply around_refl|constructor]|]). reflexivity.
Qed.

Lemma token_part_state e u c gid g0 rt code a w o a' w' : let g := with_tokens (single code) g0 in
  fine (w_db w) -> good u -> good c -> good gid ->
  view (w_db w) [u; c; gid] = Some (EGrant g) -> token_part e (session_key [u; c; gid]) g rt code a w = (Ok (o, a'), w') ->
  fine (w_db w') /\ view (w_db w') [u; c; gid] = Some (EGrant (with_tokens (single code ++ single o) g0)) /\ around (w_db w) u c gid (w_db w') /\
  length (single o) = (if smem "token" rt then 1%nat else 0%nat) /\
  Forall (made (mt_clock (az_access e)) (g_rules g0) "access_token" code) (single o) /\
  a' = match o with
       | Some t => let a1 := dset "token_type" (VStr "Bearer") (dset "access_token" (VStr (t_value t)) a) in
                   if t_expires_at t =? 0 then a1 else dset "expires_in" (VInt (t_expires_at t - az_later e)) a1
       | None => a
       end.
Proof.
  intros g Hf Hu Hc Hg V H. unfold token_part in H. destruct (smem "token" rt).
  - head_bind H E. destruct r as [[[t|] g2]|x]; try discriminate. injection H as <- <- <-.
    destruct (mint_made _ _ _ _ _ _ _ _ _ _ _ _ _ Hf Hu Hc Hg V E) as ((A1 & A2) & A3 & A4 & A5).
    split; [exact A3|]. split; [rewrite A1, A4; unfold g; rewrite with_more; reflexivity|]. split; [exact A2|].
    split; [reflexivity|]. split; [constructor; [exact A5|constructor]|reflexivity].
  - injection H as <- <- <-. rewrite app_nil_r. repeat (split; [first [assumption|reflexivity|apply around_refl|constructor]|]). reflexivity.
Qed.

Lemma id_part_state e i u c gid g rt code access a w a' w' : in_uid i = u -> in_cid i = c ->
  fine (w_db w) -> good u -> good c -> good gid -> view (w_db w) [u; c; gid] = Some (EGrant g) ->
  id_part e i rt code access a w = (Ok (Some a'), w') ->
  exists o, length (match o with Some _ => [tt] | None => [] end) = (if smem "id_token" rt then 1%nat else 0%nat) /\
    noted o (view (w_db w) [u; c]) (view (w_db w') [u; c]) /\
    (forall q, good_path q -> q <> [u; c] -> view (w_db w') q = view (w_db w) q) /\
    a' = match o with Some v => dset "id_token" v a | None => a end /\
    (forall v, o = Some v -> exists x cs cs', v = VStr x /\
       az_idtoken e (w_db w) (in_sid i) (option_map t_value code) (option_map t_value access) cs = (Ok (Some x), cs')).
Proof.
  intros I1 I2 Hf Hu Hc Hg V H. unfold id_part in H. destruct (smem "id_token" rt).
  - head_bind H E. injection E as <- <-. head_bind H E. pose proof E as E0. apply in_cdb_db in E. destruct r as [[x|]|x]; try discriminate.
    unfold in_cdb in E0. destruct (az_idtoken _ _ _ _ _ _) as [r0 cs] eqn:T in E0. injection E0 as -> _.
    head_bind H E2. unfold in_db in E2. rewrite I1, I2, E in E2.
    destruct (db_update _ _ (w_db w)) as [r2 s2] eqn:U. injection E2 as <- <-. destruct r2 as [[]|y]; [|discriminate]. injection H as <- <-. cbn [w_db].
    destruct (note_step _ _ _ _ _ _ _ Hf Hu Hc Hg V U) as [N F]. exists (Some (VStr x)).
    split; [reflexivity|]. split; [exact N|]. split; [exact F|]. split; [reflexivity|]. intros v [= <-]. eauto.
  - injection H as <- <-. exists None. repeat split; auto. discriminate.
Qed.

Lemma create_state e request u c gid g w r w' : fine (w_db w) -> good u -> good c -> good gid ->
  view (w_db w) [u; c; gid] = Some (EGrant g) ->
  create_authn_response e request (session_key [u; c; gid]) w = (Ok r, w') -> dget "error" (ri_args r) = None ->
  exists rt code access idt, mget_list "response_type" request = Some rt /\
    view (w_db w') [u; c; gid] = Some (EGrant (with_tokens (single code ++ single access) g)) /\
    (forall q, good_path q -> q <> [u; c; gid] -> q <> [u; c] -> view (w_db w') q = view (w_db w) q) /\
    noted idt (view (w_db w) [u; c]) (view (w_db w') [u; c]) /\
    length (single code) = (if smem "code" rt then 1%nat else 0%nat) /\
    length (single access) = (if smem "token" rt then 1%nat else 0%nat) /\
    Forall (made (mt_clock (az_code e)) (g_rules g) "authorization_code" None) (single code) /\
    Forall (made (mt_clock (az_access e)) (g_rules g) "access_token" code) (single access) /\
    dget "id_token" (ri_args r) = idt /\
    reported "code" (ri_args r) (single code) /\ reported "access_token" (ri_args r) (single access) /\
    match access with
    | Some t => dget "token_type" (ri_args r) = Some (VStr "Bearer") /\
        dget "expires_in" (ri_args r) = if t_expires_at t =? 0 then None else Some (VInt (t_expires_at t - az_later e))
    | None => lacks "token_type" (ri_args r) /\ lacks "expires_in" (ri_args r)
    end /\
    (forall v, idt = Some v -> exists x s cs cs', v = VStr x /\ view s [u; c; gid] = view (w_db w') [u; c; gid] /\
       az_idtoken e s (session_key [u; c; gid]) (option_map t_value code) (option_map t_value access) cs = (Ok (Some x), cs')).
Proof.
  intros Hf Hu Hc Hg V H Er. unfold create_authn_response in H. fold (none_only request) in H. destruct (none_only request) eqn:N.
  - injection H as <- <-. unfold none_only in N. destruct (mget_list "response_type" request) as [rt|]; [|discriminate].
    exists rt, None, None, None. cbn [single app ri_args]. rewrite with_none.
    assert (rt = ["none"%string]) as ->. { destruct rt as [|x [|]]; try discriminate. cbn in N. apply String.eqb_eq in N. now subst. }
    destruct (truthy_get "state" request); repeat (split; [solve [assumption|reflexivity|constructor|intros; reflexivity|split; reflexivity]|]); discriminate.
  - head_bind H E1. unfold in_db in E1.
    assert (R := UserInfoProofs.read_grant (session_key [u; c; gid]) (w_db w)).
    destruct (get_session_info _ _ _ _ _ _ (w_db w)) as [[i|x] s] eqn:GS; [|injection E1 as <- <-; discriminate].
    destruct R as (-> & u1 & c1 & gid1 & en & U & V1 & I1 & I2 & I3 & I4). rewrite unpack3_good in U by assumption. injection U as <- <- <-.
    assert (I0 : in_sid i = session_key [u; c; gid]).
    { unfold get_session_info, bind, lift, ret in GS. rewrite unpack3_good in GS by assumption. cbv beta iota in GS. 
      destruct (db_read [u; c; gid] (w_db w)) as [[en1|] s1]; [|discriminate]. injection GS as <- _. reflexivity. }
    injection E1 as <- <-. assert (en = EGrant g) by congruence. subst en.
    head_bind H E2. injection E2 as E2 <-.
    destruct (mget_list "response_type" request) as [rt|] eqn:RT; [|subst r0; discriminate]. cbn in E2. subst r0.
    head_bind H E3. unfold in_db, grant_of, as_grant, ret in E3. rewrite I4 in E3. cbn in E3. injection E3 as <- <-.
    rewrite I0 in H.
    head_bind H E4. destruct r0 as [[[code g'] a1]|x]; [|discriminate].
    head_bind H E5. destruct r0 as [[t a2]|x]; [|discriminate].
    head_bind H E6. destruct r0 as [[a3|]|x]; [| |discriminate].
    2: { injection H as <- _. discriminate. }
    destruct (forallb _ rt) eqn:F; [|injection H as <- _; discriminate].
    injection H as <- <-. cbn [ri_args] in *. exists rt, code, t.
    apply code_part_state in E4; [|assumption..]. cbn [w_db] in E4. destruct E4 as (C1 & C2 & C3 & -> & C5 & C6 & C7).
    apply token_part_state in E5; [|assumption..]. destruct E5 as (D1 & D2 & D3 & D4 & D5 & D6).
    apply (id_part_state _ _ u c gid (with_tokens (single code ++ single t) g)) in E6; [|assumption..]. destruct E6 as (idt & G1 & G2 & G3 & G4 & G5).
    exists idt. split; [reflexivity|].
    match type of D3 with around _ _ _ _ (w_db ?y) =>
      assert (Q : forall q, good_path q -> q <> [u; c; gid] -> view (w_db y) q = view (w_db w) q) by (intros q Hq Hn; rewrite D3, C3; auto) end.
    split; [rewrite G3; [exact D2|auto with gp|discriminate]|].
    split. { intros q Hq Hn Hn2. rewrite G3, Q; auto. }
    split. { rewrite <- (Q [u; c]); [exact G2|auto with gp|discriminate]. }
    repeat (split; [assumption|]).
    match goal with |- _ /\ _ /\ _ /\ _ /\ ?p => assert (G6 : p) end.
    { intros v Ev. destruct (G5 v Ev) as (x & cs & cs' & X1 & X2). rewrite I0 in X2. do 4 eexists. split; [exact X1|]. split; [|exact X2].
      rewrite G3; [reflexivity|auto with gp|discriminate]. }
    clear G5. set (a0 := match truthy_get "scope" request with Some v => dset "scope" v _ | None => _ end) in *.
    assert (A : dget "code" a0 = None /\ dget "access_token" a0 = None /\ dget "id_token" a0 = None /\ dget "token_type" a0 = None /\ dget "expires_in" a0 = None).
    { unfold a0. destruct (truthy_get "scope" request), (truthy_get "state" request); repeat split. }
    clearbody a0. destruct A as (A3 & A4 & A5 & A6 & A7). cbv zeta in D6. subst a1 a2 a3. cbv zeta.
    match goal with |- ?a /\ ?b /\ ?c /\ ?d /\ _ => assert (G7 : a /\ b /\ c /\ d); [|tauto] end. clear G6.
    destruct code as [tc|], t as [ta|], idt as [v|]; cbn [single reported]; unfold lacks; try destruct (t_expires_at ta =? 0); dd; auto 10.
Qed.

Lemma post_state e request u c gid g w r w' : fine (w_db w) -> good u -> good c -> good gid ->
  view (w_db w) [u; c; gid] = Some (EGrant g) ->
  post_authentication e request (session_key [u; c; gid]) w = (Ok r, w') -> dget "error" (ri_args r) = None ->
  exists g1 w1 r1, fine (w_db w1) /\ view (w_db w1) [u; c; gid] = Some (EGrant g1) /\ around (w_db w) u c gid (w_db w1) /\
    g_issued g1 = g_issued g /\ g_used g1 = g_used g /\
    decided (az_handler e) (gc_rules (cx_grant_config (az_cx e))) (gc_expires_in (cx_grant_config (az_cx e))) (az_clock e) c request g g1 /\
    create_authn_response e request (session_key [u; c; gid]) w1 = (Ok r1, w') /\ ri_args r = ri_args r1.
Proof.
  intros Hf Hu Hc Hg V H Er. unfold post_authentication in H. head_bind H E1.
  unfold attempt in E1. destruct (authorize e _ request w) as [[g1|x] w1] eqn:A; injection E1 as <- <-.
  2: { injection H as <- _. discriminate. }
  destruct (authorize_ok _ _ _ _ _ _ _ _ _ Hf Hu Hc Hg V A) as (F1 & (g0 & V1) & O1 & G1 & G2 & G3).
  head_bind H E1. rewrite unpack3_good in E1 by assumption. injection E1 as <- <-.
  head_bind H E2. unfold attempt in E2. unfold in_db in E2.
  destruct (put_step (w_db w1) u c gid g0 g1 F1 Hu Hc Hg V1) as [[P1 P2] P3].
  destruct (db_store [u; c; gid] (EGrant g1) (w_db w1)) as [[[]|x] s2]; injection E2 as <- <-; cbn [snd] in P1, P2, P3.
  2: { injection H as <- _. discriminate. }
  head_bind H E2. injection E2 as E2 <-. destruct r0 as [v|x]; [|discriminate]. head_bind H E3. destruct r0 as [r1|x]; [|discriminate].
  exists g1. exists (mkW s2 (w_cdb w1)), r1. cbn [w_db]. split; [exact P3|]. split; [exact P1|].
  split; [eapply around_trans; [exact O1|exact P2]|]. repeat (split; [assumption|]).
  head_bind H E4. injection E4 as <- <-.
  set (r2 := mkRI (ri_args r1) (ri_fragment r1) (Some _) None None None) in *.
  destruct (get_uri _ _ request "redirect_uri") as [uri|x].
  2: { destruct x; try discriminate; injection H as <- _; discriminate. }
  head_bind H E5. injection E5 as _ <-. destruct r0 as [cookie|x]; [|discriminate].
  destruct (dget "response_mode" request) as [mode|] eqn:M.
  2: { injection H as <- <-. split; [exact E3|reflexivity]. }
  unfold response_mode, r2 in H. cbn [ri_uri ri_fragment ri_args ri_sid ri_ready ri_cookie] in H.
  destruct (val_eqb mode (VStr "form_post")).
  { cbn in H. injection H as <- <-. split; [exact E3|reflexivity]. }
  destruct (val_eqb mode (VStr "fragment")).
  { destruct (ri_fragment r1) as [[|]|]; injection H as <- <-; first [split; [exact E3|reflexivity]|discriminate]. }
  destruct (val_eqb mode (VStr "query")).
  { destruct (ri_fragment r1) as [[|]|]; injection H as <- <-; first [split; [exact E3|reflexivity]|discriminate]. }
  injection H as <- <-. discriminate.
Qed.

(** ** The two together *)
Lemma has_mem k m : has k m <-> dmem k m = true.
Proof. unfold has, dmem. destruct (dget k m); split; [eauto|eauto|intros [v X]; discriminate|discriminate]. Qed.
Lemma lacks_mem k m : lacks k m <-> dmem k m = false.
Proof. unfold lacks, dmem. destruct (dget k m); split; congruence. Qed.

(** how a response without error looks *)
Inductive success (e : authz_env) (en : encoding) (request : msg) (r : rinfo) (resp : response) (rt : list string) (m0 : msg) (uri : string) : Prop :=
| S_url : dget "response_mode" request <> Some (VStr "form_post") ->
    rs_body resp = Text (msg_request en (ri_args r) uri (wants request rt)) -> success e en request r resp rt m0 uri
| S_page : dget "response_mode" request = Some (VStr "form_post") -> as_page resp ->
    rs_body resp = Text (form_post uri (map (fun kv => (fst kv, az_show e (snd kv))) m0)) -> success e en request r resp rt m0 uri.

Lemma no_error_args err d m e request : completed e request (error_args err d) m -> dget "error" m = Some (VStr err).
Proof. intros C. destruct (completed_get _ _ _ _ C) as (_ & _ & O). now rewrite O. Qed.

Lemma success_shape e en request sid w r w' resp :
  authz_part2 e request sid w = (Ok r, w') -> dget "error" (ri_args r) = None -> respond en authorization_endpoint r = Ok resp ->
  exists r0 rt uri, post_authentication e request sid w = (Ok r0, w') /\ completed e request (ri_args r0) (ri_args r) /\
    mget_list "response_type" request = Some rt /\ plain request rt (ri_args r0) /\ addressed request uri /\
    (dget "response_mode" request = None \/ exists x, dget "response_mode" request = Some (VStr x) /\ In x ["form_post"; "fragment"; "query"]) /\
    (exists clients, get_uri (az_u e) clients request "redirect_uri" = Ok uri) /\
    success e en request r resp rt (ri_args r0) uri.
Proof.
  intros H Er Hr. destruct (part2_shape _ _ _ _ _ _ H) as [(err & d & ->)|(r0 & w1 & P & -> & Ef & Eu & Ey & _ & C)].
  { cbn in Er. discriminate. }
  exists r0. destruct (post_shape _ _ _ _ _ _ P) as [err d X|rt Rt F Rf U Y|rt uri cl Rt F U G Y D|rt uri cl Rt F U G M D Y].
  - subst r0. exfalso. cbn in C. apply no_error_args in C. congruence.
  - destruct Rf as [d Rf]. rewrite Rf in C. apply no_error_args in C. congruence.
  - destruct D as [[d Rf]|[Pl D]].
    { rewrite Rf in C. apply no_error_args in C. congruence. }
    exists rt, uri. split; [exact P|]. split; [exact C|]. split; [exact Rt|]. split; [exact Pl|]. split; [eapply get_uri_addressed; eauto|].
    split. { destruct D as [D|[[D _]|[D _]]]; [now left|right; eexists; split; [exact D|cbn; tauto]..]. }
    split; [eauto|]. apply S_url.
    + intros X. destruct D as [D|[[D _]|[D _]]]; congruence.
    + rewrite <- Ey in Y. destruct (respond_url en r resp Y Hr) as (uri' & U' & B). rewrite Eu, U in U'. injection U' as <-.
      rewrite Ef, F in B. exact B.
  - destruct D as [[d Rf]|Pl].
    { rewrite Rf in C. apply no_error_args in C. congruence. }
    exists rt, uri. split; [exact P|]. split; [exact C|]. split; [exact Rt|]. split; [exact Pl|]. split; [eapply get_uri_addressed; eauto|].
    split. { right; eexists; split; [exact M|cbn; tauto]. }
    split; [eauto|]. rewrite <- Ey in Y. destruct (respond_ready en r resp _ Y Hr) as [B A]. now apply S_page.
Qed.

Lemma wants_code request rt m : mget_list "response_type" request = Some rt -> plain request rt m ->
  smem "code" rt = true -> smem "token" rt = false -> smem "id_token" rt = false -> wants request rt = false.
Proof.
  intros R P Hc Ht Hi. unfold wants. apply andb_false_iff. right. apply negb_false_iff. apply set_eqb_spec. intros x. cbn.
  apply smem_In in Hc. destruct (pl_handled _ _ _ P) as [->|H].
  { exfalso. destruct Hc as [X|[]]; discriminate. }
  split.
  - intros I. destruct (H x I) as [<-|[<-|[<-|[]]]]; [now left| |]; apply smem_In in I; congruence.
  - intros [<-|[]]. exact Hc.
Qed.
Lemma wants_token request rt : mget_list "response_type" request = Some rt ->
  smem "token" rt = true \/ smem "id_token" rt = true -> wants request rt = true.
Proof.
  intros R H. unfold wants, none_only. rewrite R. apply andb_true_iff. split; apply negb_true_iff.
  - destruct rt as [|x [|]]; try reflexivity. cbn. destruct (String.eqb_spec x "none"); [subst|reflexivity]. destruct H; discriminate.
  - destruct (set_eqb rt ["code"]) eqn:S0; [|reflexivity]. rewrite set_eqb_spec in S0.
    destruct H as [H|H]; apply smem_In in H; apply S0 in H; destruct H as [X|[]]; discriminate.
Qed.

Lemma failed_shape e request sid w r w' v : authz_part2 e request sid w = (Ok r, w') -> dget "error" (ri_args r) = Some v ->
  lacks "code" (ri_args r) /\ lacks "access_token" (ri_args r) /\ lacks "id_token" (ri_args r) /\ lacks "state" (ri_args r).
Proof.
  intros H Er. destruct (part2_shape _ _ _ _ _ _ H) as [(err & d & ->)|(r0 & w1 & P & -> & Ef & Eu & Ey & _ & C)].
  { repeat split. }
  destruct (completed_get _ _ _ _ C) as (_ & _ & O). unfold lacks. rewrite !O by discriminate. rewrite O in Er by discriminate. clear - P Er.
  assert (X : exists err d, ri_args r0 = error_args err d).
  { destruct (post_shape _ _ _ _ _ _ P) as [err d X|rt Rt F [d Rf] U Y|rt uri cl Rt F U G Y D|rt uri cl Rt F U G M D Y].
    - subst r0. cbn. eauto.
    - eauto.
    - destruct D as [[d Rf]|[Pl _]]; [eauto|]. rewrite (pl_error _ _ _ Pl) in Er. discriminate.
    - destruct D as [[d Rf]|Pl]; [eauto|]. rewrite (pl_error _ _ _ Pl) in Er. discriminate. }
  destruct X as (err & d & ->). repeat split.
Qed.

Lemma failed_said e request sid w r w' v : authz_part2 e request sid w = (Ok r, w') -> dget "error" (ri_args r) = Some v ->
  exists err d, v = VStr err /\ dget "error_description" (ri_args r) = Some (VStr d).
Proof.
  intros H Er. destruct (part2_shape _ _ _ _ _ _ H) as [(err & d & ->)|(r0 & w1 & P & -> & Ef & Eu & Ey & _ & C)].
  { cbn in Er. injection Er as <-. exists err, d. split; reflexivity. }
  destruct (completed_get _ _ _ _ C) as (_ & _ & O). rewrite O in Er |- * by discriminate. clear - P Er.
  assert (X : exists err d, ri_args r0 = error_args err d).
  { destruct (post_shape _ _ _ _ _ _ P) as [err d X|rt Rt F [d Rf] U Y|rt uri cl Rt F U G Y D|rt uri cl Rt F U G M D Y].
    - subst r0. cbn. eauto.
    - eauto.
    - destruct D as [[d Rf]|[Pl _]]; [eauto|]. rewrite (pl_error _ _ _ Pl) in Er. discriminate.
    - destruct D as [[d Rf]|Pl]; [eauto|]. rewrite (pl_error _ _ _ Pl) in Er. discriminate. }
  destruct X as (err & d & X). rewrite X in Er |- *. cbn in Er. injection Er as <-. exists err, d. split; reflexivity.
Qed.
Lemma answered_types e request sid w r w' : authz_part2 e request sid w = (Ok r, w') -> dget "error" (ri_args r) = None ->
  exists rt, mget_list "response_type" request = Some rt /\
    (rt = ["none"%string] \/ forall x, In x rt -> In x ["code"; "token"; "id_token"]%string).
Proof.
  intros H Er. destruct (part2_shape _ _ _ _ _ _ H) as [(err & d & ->)|(r0 & w1 & P & -> & Ef & Eu & Ey & _ & C)]; [discriminate|].
  destruct (completed_get _ _ _ _ C) as (_ & _ & O). rewrite O in Er by discriminate. clear - P Er.
  destruct (post_shape _ _ _ _ _ _ P) as [err d X|rt Rt F [d Rf] U Y|rt uri cl Rt F U G Y D|rt uri cl Rt F U G M D Y].
  - subst r0. discriminate.
  - rewrite Rf in Er. discriminate.
  - destruct D as [[d Rf]|[Pl _]]; [rewrite Rf in Er; discriminate|]. exists rt. split; [exact Rt|]. exact (pl_handled _ _ _ Pl).
  - destruct D as [[d Rf]|Pl]; [rewrite Rf in Er; discriminate|]. exists rt. split; [exact Rt|]. exact (pl_handled _ _ _ Pl).
Qed.

Lemma failed_sent e en request sid w r w' resp v : authz_part2 e request sid w = (Ok r, w') -> dget "error" (ri_args r) = Some v ->
  respond en authorization_endpoint r = Ok resp ->
  exists uri, addressed request uri /\
    ((exists b, rs_body resp = Text (msg_request en (ri_args r) uri b)) \/
     (as_page resp /\ exists m0, rs_body resp = Text (form_post uri (map (fun kv => (fst kv, az_show e (snd kv))) m0)) /\
                       (forall k v, In (k, v) m0 -> In (k, v) (ri_args r)) /\ failed m0)).
Proof.
  intros H Er Hr. destruct (part2_shape _ _ _ _ _ _ H) as [(err & d & ->)|(r0 & w1 & P & -> & Ef & Eu & Ey & _ & C)].
  { exfalso. destruct (respond_url en (error_response no_info err d) _ eq_refl Hr) as (uri & U & _). discriminate. }
  destruct (post_shape _ _ _ _ _ _ P) as [err d X|rt Rt F [d Rf] U Y|rt uri cl Rt F U G Y D|rt uri cl Rt F U G M D Y].
  - exfalso. subst r0. cbn in Eu, Ey. destruct (respond_url en _ _ Ey Hr) as (uri & U & _). congruence.
  - exfalso. rewrite <- Ey in Y. destruct (respond_url en _ _ Y Hr) as (uri & U' & _). congruence.
  - exists uri. split; [eapply get_uri_addressed; eauto|]. left. rewrite <- Ey in Y. destruct (respond_url en _ _ Y Hr) as (uri' & U' & B).
    rewrite Eu, U in U'. injection U' as <-. eauto.
  - exists uri. split; [eapply get_uri_addressed; eauto|]. right. rewrite <- Ey in Y. destruct (respond_ready en r resp _ Y Hr) as [B A]. split; [exact A|].
    exists (ri_args r0). split; [exact B|].
    destruct (completed_get _ _ _ _ C) as (_ & _ & O). rewrite O in Er by discriminate.
    destruct D as [[d Rf]|Pl]; [|rewrite (pl_error _ _ _ Pl) in Er; discriminate]. rewrite Rf in *. split; [|eexists; reflexivity].
    intros k x I. destruct C as (cid & _ & [->|(st & ->)]); cbn in I |- *; destruct I as [[= <- <-]|[[= <- <-]|[]]]; tauto.
Qed.

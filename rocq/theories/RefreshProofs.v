(** RefreshProofs.v: see RefreshSpec.v *)
From Verif Require Import Base BaseProofs Monad MonadProofs Types SessionKey SessionKeyProofs Token Grant GrantSpec GrantProofs Database DatabaseSpec DatabaseProofs
  Manager ManagerSpec ManagerProofs Ctx Claims ClaimsSpec UserInfo UserInfoSpec UserInfoProofs World Minting TokenEndpoint WorldSpec WorldProofs ResponseSpec ResponseProofs
  AuthzEndpointSpec AuthzEndpointProofs FlowSpec FlowProofs RefreshSpec.
Local Open Scope Z_scope.

Section Refresh.
  Variable sid_of : string -> result string.
  Variable b64hash : string -> string -> string.
  Variable cx : ctx.
  Variable idt : store -> string -> ST cdb string.
  Variables u c gid : string.
  Hypotheses (Hu : good u) (Hc : good c) (Hg : good gid).
  Notation sid := (session_key [u; c; gid]).

  Lemma refresh_parse_works helpers clock request value g t s :
    sid_of value = Ok sid -> view s [u; c; gid] = Some (EGrant g) -> get_token value g = Some t -> t_class t = CRefresh ->
    token_usable clock t -> refresh_request request value -> dget "refresh_token" helpers = Some HRefresh ->
    token_parse sid_of b64hash helpers false clock request s = (Ok (PReq request), s).
  Proof.
    intros E V G Cl Us (R1 & R2) H. apply t_active_iff in Us. unfold token_parse.
    rewrite (bind_run _ _ s (PReq request) s); [reflexivity|]. unfold token_post_parse. unfold msub_str. rewrite R1. unfold bind at 1, lift at 1. rewrite H.
    unfold refresh_parse. unfold dmem. rewrite R2. cbn [negb].
    rewrite (bind_run _ _ s _ s (look_works sid_of u c gid Hu Hc Hg _ _ _ g s is_key_error R2 E V)). cbv beta iota.
    unfold bind at 1, grant_of. cbn [in_grant as_grant ret]. unfold ret at 1. rewrite G, Cl, Us. reflexivity.
  Qed.

  Lemma refresh_process_works sharing helpers m1 m2 ir rq value g t ar ms cli w :
    fine (w_db w) -> sid_of value = Ok sid -> view (w_db w) [u; c; gid] = Some (EGrant g) -> get_token value g = Some t ->
    g_authreq g = Some ar -> claims_asked ar -> dget c (w_cdb w) = Some cli -> claims_set_up cx cli ->
    ur_mints (t_rules t) = Some ms -> In "access_token"%string ms -> In "refresh_token"%string ms ->
    token_usable (mt_clock m1) t -> mintable (mt_clock m1) 0 g -> handles sid_of m1 sid ->
    token_usable (mt_clock m2) t -> mintable (mt_clock m2) 1 g -> handles sid_of m2 sid ->
    (In "id_token"%string ms -> id_tokens_made idt u c gid cli) ->
    refresh_request rq value -> dget "refresh_token" helpers = Some HRefresh ->
    exists args w' at_ rt rt' p1 p2,
      token_process sid_of cx idt sharing helpers m1 m2 ir (PReq rq) w = (Ok (AOk args None), w') /\
      dget "access_token" args = Some (VStr (t_value at_)) /\ mt_value m1 sid p1 = Ok (t_value at_) /\ sid_of (t_value at_) = Ok sid /\
      t_rules at_ = rule (g_rules g) "access_token" /\ made (mt_clock m1) (g_rules g) "access_token" (Some t) at_ /\
      dget "refresh_token" args = Some (VStr (t_value rt)) /\ mt_value m2 sid p2 = Ok (t_value rt) /\ sid_of (t_value rt) = Ok sid /\
      t_rules rt = set_defaults CRefresh (rule (g_rules g) "refresh_token") /\ made (mt_clock m2) (g_rules g) "refresh_token" (Some t) rt /\
      rt' = (if sharing then t_set_rules (t_rules t) rt else rt) /\
      only_grant (w_db w) u c gid (g_set_used (g_used g + 2) (g_set_issued (g_issued g ++ [at_; rt']) g)) (w_db w') /\
      fine (w_db w') /\ dget c (w_cdb w') = Some cli.
  Proof.
    intros Hf Sc V G Ar As C St Ms Ma Mr Us1 Mn1 Ha1 Us2 Mn2 Ha2 Hid (R1 & R2) Hh.
    assert (Sup : forall ty, In ty ms -> supports_minting t ty = true) by (intros ty I; unfold supports_minting; rewrite Ms; now apply smem_In).
    assert (Act : forall n k, mintable n k g -> forall g', g_rules g' = g_rules g -> g_used g' = g_used g + k -> g_revoked g' = g_revoked g ->
      g_not_before g' = g_not_before g -> g_expires_at g' = g_expires_at g -> g_active n g' = true).
    { intros n k M g' X1 X2 X3 X4 X5. apply g_active_iff. unfold grant_usable. rewrite X1, X2, X3, X4, X5. exact M. }
    unfold token_process. unfold msub_str at 1. rewrite R1. unfold bind at 1, lift at 1. rewrite Hh.
    (* the access token *)
    destruct (mint_works cx m1 u c gid cli g g ar "access_token" (Some t) w) as (at_ & g1 & w1 & p1 & cls & M1 & Cd1 & Pv1 & Tm & Tr & _); auto.
    { now left. }
    { eapply Act; eauto. lia. }
    { intros b Eb. injection Eb as <-. split; [auto|]. now apply t_active_iff. }
    { intros q. destruct (Ha1 q) as (v & Ev & _). eauto. }
    destruct (mint_made cx m1 u c gid g g "access_token" (Some t) w at_ g1 w1 Hf Hu Hc Hg V M1) as (O1 & F1 & G1 & Md1).
    injection Tm as <-.
    assert (Sa : sid_of (t_value at_) = Ok sid). { destruct (Ha1 p1) as (v & Ev & Es). congruence. }
    (* the refresh token *)
    destruct (mint_works cx m2 u c gid cli g1 g1 ar "refresh_token" (Some t) w1) as (rt & g2 & w2 & p2 & cls2 & M2 & Cd2 & Pv2 & Tm2 & Tr2 & _); auto.
    { right. right. now left. }
    { apply O1. }
    { now rewrite Cd1. }
    { rewrite G1. exact Ar. }
    { eapply Act; eauto; rewrite G1; reflexivity. }
    { intros b Eb. injection Eb as <-. split; [auto|]. now apply t_active_iff. }
    { intros q. destruct (Ha2 q) as (v & Ev & _). eauto. }
    destruct (mint_made cx m2 u c gid g1 g1 "refresh_token" (Some t) w1 rt g2 w2 F1 Hu Hc Hg (proj1 O1) M2) as (O2 & F2 & G2 & Md2).
    injection Tm2 as <-.
    assert (Rr : g_rules g1 = g_rules g) by (rewrite G1; reflexivity). rewrite Rr in Md2, Tr2.
    assert (Sr : sid_of (t_value rt) = Ok sid). { destruct (Ha2 p2) as (v & Ev & Es). congruence. }
    assert (E2 : g2 = g_set_used (g_used g + 2) (g_set_issued (g_issued g ++ [at_; rt]) g)).
    { rewrite G2, G1. cbn. rewrite <- app_assoc. cbn. unfold g_set_used. cbn. f_equal. lia. }
    (* its rules *)
    set (rt' := if sharing then t_set_rules (t_rules t) rt else rt).
    set (g4 := g_set_used (g_used g + 2) (g_set_issued (g_issued g ++ [at_; rt']) g)).
    set (w3 := mkW (snd (poke sharing sid (EGrant (upd_newest (t_set_rules (t_rules t)) g2)) (w_db w2))) (w_cdb w2)).
    assert (P3 : in_db (poke sharing (session_key (unpack_session_key sid)) (EGrant (upd_newest (t_set_rules (t_rules t)) g2))) w2 = (Ok tt, w3)).
    { rewrite unpack_good by auto with gp. reflexivity. }
    assert (X3 : fine (w_db w3) /\ only_grant (w_db w2) u c gid g4 (w_db w3)).
    { unfold w3. cbn [w_db]. destruct (poke_step sharing (w_db w2) u c gid g2 (upd_newest (t_set_rules (t_rules t)) g2) F2 Hu Hc Hg (proj1 O2)) as (F3 & _ & _).
      split; [exact F3|]. unfold g4, rt'. destruct sharing.
      - destruct (poke3_view (w_db w2) u c gid (upd_newest (t_set_rules (t_rules t)) g2) _ Hu Hc Hg (proj1 O2)) as (s1 & Pk & V1 & Vo). rewrite Pk. cbn [snd].
        split; [|exact Vo]. rewrite V1, E2. unfold upd_newest. cbn.
        replace (g_issued g ++ [at_; rt]) with ((g_issued g ++ [at_]) ++ [rt]) by (now rewrite <- app_assoc). rewrite upd_last_app, <- app_assoc. reflexivity.
      - cbn. split; [rewrite (proj1 O2), E2; reflexivity|reflexivity]. }
    destruct X3 as [F3 O3].
    set (resp0 := let resp := [("access_token", VStr (t_value at_)); ("token_type", VStr "Bearer"); ("scope", vstrs (g_scope g1))]%string in
                  if t_expires_at at_ =? 0 then resp else dset "expires_in" (VInt (t_expires_at at_ - mt_clock m1)) resp).
    set (resp := dset "refresh_token" (VStr (t_value rt)) resp0).
    assert (Ra : dget "access_token" resp = Some (VStr (t_value at_))).
    { unfold resp, resp0. rewrite dget_dset_neq by discriminate. destruct (t_expires_at at_ =? 0); [reflexivity|]. cbv zeta. rewrite dget_dset_neq by discriminate. reflexivity. }
    assert (Rf : dget "refresh_token" resp = Some (VStr (t_value rt))) by (unfold resp; apply dget_dset_eq).
    assert (Id : exists args w4, (if smem "id_token" ms then add_id_token idt sid resp else ret (AOk resp None)) w3 = (Ok (AOk args None), w4) /\
      dget "access_token" args = Some (VStr (t_value at_)) /\ dget "refresh_token" args = Some (VStr (t_value rt)) /\
      w_db w4 = w_db w3 /\ dget c (w_cdb w4) = Some cli).
    { assert (C3 : dget c (w_cdb w3) = Some cli) by (unfold w3; cbn [w_cdb]; rewrite Cd2, Cd1; exact C).
      destruct (smem "id_token" ms) eqn:Ex.
      - apply smem_In in Ex. destruct (id_token_works idt u c gid cli g4 w3 resp (Hid Ex) (proj1 O3) C3) as (x & w4 & E4 & D4 & C4).
        exists (dset "id_token" (VStr x) resp), w4. split; [exact E4|]. rewrite !dget_dset_neq by discriminate. auto.
      - exists resp, w3. split; [reflexivity|]. auto. }
    destruct Id as (args & w4 & Ei & Aa & Ar' & D4 & C4).
    assert (CP : refresh_process sid_of cx idt sharing m1 m2 rq w = (Ok (AOk args None), w4)).
    { unfold refresh_process. unfold msub_str at 1. rewrite R1. unfold bind at 1, lift at 1. rewrite String.eqb_refl. cbn [negb].
      unfold msub_str at 1. rewrite R2. unfold bind at 1, lift at 1.
      assert (SB : in_db (session_by sid_of value) w = (Ok (mkSI sid u c gid None None (Some (EGrant g)) None None, g), w)).
      { unfold in_db. rewrite (session_by_works sid_of u c gid Hu Hc Hg value g (w_db w) Sc V). now destruct w. }
      rewrite (bind_run _ _ w _ w SB). cbv beta iota zeta. cbn [in_sid]. rewrite G.
      rewrite (bind_run _ _ w _ w1 M1). cbv beta iota. unfold the_token at 1. cbn [of_option].
      rewrite (bind_run _ _ w1 at_ w1 eq_refl). cbv beta. unfold the_token at 1. cbn [of_option]. rewrite (bind_run _ _ w1 t w1 eq_refl). cbv beta. rewrite Ms. cbn [of_option].
      rewrite (bind_run _ _ w1 ms w1 eq_refl). cbv beta. assert (Hms : smem "refresh_token" ms = true) by now apply smem_In. rewrite Hms.
      match goal with |- bind ?m ?f w1 = _ => rewrite (bind_run m f w1 resp w3) end; [exact Ei|].
      rewrite (bind_run _ _ w1 _ w2 M2). cbv beta iota. unfold the_token at 1. cbn [of_option]. rewrite (bind_run _ _ w2 rt w2 eq_refl). cbv beta.
      rewrite (bind_run _ _ w2 tt w3 P3). reflexivity. }
    exists args, w4, at_, rt, rt', p1, p2. rewrite (bind_run _ _ w _ w4 CP). cbv beta iota.
    assert (V4 : view (w_db w4) [u; c; gid] = Some (EGrant g4)) by (rewrite D4; apply O3).
    split.
    { unfold msub_str. rewrite Aa. unfold bind at 1, lift at 1. unfold bind, in_db.
      rewrite (session_by_works sid_of u c gid Hu Hc Hg (t_value at_) g4 (w_db w4) Sa V4). now destruct w4. }
    split; [exact Aa|]. split; [exact Pv1|]. split; [exact Sa|]. split; [exact Tr|]. split; [exact Md1|]. split; [exact Ar'|]. split; [exact Pv2|]. split; [exact Sr|].
    split; [exact Tr2|]. split; [exact Md2|]. split; [reflexivity|]. split; [|split; [rewrite D4; exact F3|exact C4]].
    rewrite D4. exact (only_trans _ _ _ _ _ _ _ _ (only_trans _ _ _ _ _ _ _ _ O1 O2) O3).
  Qed.
End Refresh.

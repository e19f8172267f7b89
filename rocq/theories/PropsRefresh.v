(** PropsRefresh.v: a client with a refresh token goes on getting access tokens. *)
From Verif Require Import Base BaseProofs Monad MonadProofs Types SessionKey SessionKeyProofs Token Grant GrantSpec GrantProofs Database DatabaseSpec DatabaseProofs
  Manager ManagerSpec ManagerProofs Ctx Claims ClaimsSpec UserInfo UserInfoSpec UserInfoProofs World Minting TokenEndpoint WorldSpec WorldProofs ResponseSpec ResponseProofs
  Uri UriSpec AuthzEndpoint Response AuthzEndpointSpec AuthzEndpointProofs SetupAuth SetupAuthSpec SetupAuthProofs FlowSpec FlowProofs FlowAuthzProofs RefreshSpec RefreshProofs PropsFlow.
Local Open Scope Z_scope.

Lemma get_token_first v g l1 t l2 : g_issued g = l1 ++ t :: l2 -> t_value t = v -> ~ In v (map t_value l1) -> get_token v g = Some t.
Proof.
  intros Is Tv Ni. unfold get_token, find_token. rewrite Is. clear Is. induction l1 as [|a l1 IH]; cbn in *.
  - now rewrite Tv, String.eqb_refl.
  - destruct (String.eqb_spec (t_value a) v) as [E|N]; [destruct Ni; now left|]. apply IH. tauto.
Qed.

Lemma room_mintable now k n g : stands g now -> has_room g n -> k < n -> mintable now k g.
Proof. intros (A & B & C) H L. repeat split; auto. intros m E. specialize (H m E). lia. Qed.

Lemma made_is_usable clock now R ty src t r : made clock R ty src t -> ur_max_usage (t_rules t) = ur_max_usage r -> usable_once r ->
  in_time (ur_expires_in (rule R ty)) clock now -> token_usable now t.
Proof.
  intros M E U I. assert (Is : t_issued_at t = clock) by apply M. eapply made_usable; [rewrite Is; exact M|reflexivity|rewrite Is; exact I|].
  intros n En. unfold usable_once in U. rewrite <- E, En in U. exact U.
Qed.

(** What it takes to go on, at one time *)
Record ready (sid_of : string -> result string) (cx : ctx) (idt : store -> string -> ST cdb string) (helpers : dict helper) (u c gid : string)
    (cli ar : msg) (l : list round) (w : world) (value : string) (g : grant) (t : token) (l1 l2 : list token) : Prop := {
  ry_names : good u /\ good c /\ good gid;
  ry_store : kinds_ok (w_db w) /\ linked (w_db w);
  ry_sid : sid_of value = Ok (session_key [u; c; gid]);
  ry_grant : view (w_db w) [u; c; gid] = Some (EGrant g);
  ry_issued : g_issued g = l1 ++ t :: l2;
  ry_value : t_value t = value /\ ~ In value (map t_value l1);
  ry_class : t_class t = CRefresh;
  ry_may : may_mint t "access_token" /\ may_mint t "refresh_token";
  ry_uses : usable_once (t_rules t) /\ lets_refresh (rule (g_rules g) "refresh_token");
  ry_usable : forall r l', l = r :: l' -> at_times (fun now => token_usable now t) r;
  ry_turn : in_turn (g_rules g) l;
  ry_stands : Forall (at_times (stands g)) l;
  ry_room : has_room g (2 * Z.of_nat (length l));
  ry_helper : dget "refresh_token" helpers = Some HRefresh;
  ry_request : g_authreq g = Some ar /\ claims_asked ar;
  ry_client : dget c (w_cdb w) = Some cli /\ claims_set_up cx cli;
  ry_handlers : Forall (fun m => handles sid_of m (session_key [u; c; gid])) (mintings l);
  ry_new : all_new (session_key [u; c; gid]) (map t_value (g_issued g)) l;
  ry_id_token : with_id_token (t_rules t) \/ with_id_token (rule (g_rules g) "refresh_token") -> id_tokens_made idt u c gid cli }.
Lemma ready_moved sid_of cx idt helpers u c gid cli ar l w value g t l1 l2 w0 cli0 :
  ready sid_of cx idt helpers u c gid cli ar l w value g t l1 l2 ->
  view (w_db w0) [u; c; gid] = view (w_db w) [u; c; gid] -> kinds_ok (w_db w0) -> linked (w_db w0) -> dget c (w_cdb w0) = Some cli0 -> claims_set_up cx cli0 ->
  (with_id_token (t_rules t) \/ with_id_token (rule (g_rules g) "refresh_token") -> id_tokens_made idt u c gid cli0) ->
  ready sid_of cx idt helpers u c gid cli0 ar l w0 value g t l1 l2.
Proof. intros [] V K L C St Hid. constructor; auto. congruence. Qed.
Lemma ready_round sid_of b64hash cx idt sharing helpers ir u c gid cli ar r l w value g t l1 l2 request :
  ready sid_of cx idt helpers u c gid cli ar (r :: l) w value g t l1 l2 -> refresh_request request value ->
  exists args w1 access next g' at_ t' l1',
    token_parse sid_of b64hash helpers false (rd_now r) request (w_db w) = (Ok (PReq request), w_db w) /\
    token_process sid_of cx idt sharing helpers (rd_access r) (rd_refresh r) ir (PReq request) w = (Ok (AOk args None), w1) /\
    dget "access_token" args = Some (VStr access) /\ dget "refresh_token" args = Some (VStr next) /\ next <> value /\
    names sid_of (w_db w1) access u c g' at_ /\ t_class at_ = CAccess /\
    (usable_once (rule (g_rules g) "access_token") -> forall later,
       in_time (ur_expires_in (rule (g_rules g) "access_token")) (mt_clock (rd_access r)) later -> token_usable later at_) /\
    g_rules g' = g_rules g /\ ready sid_of cx idt helpers u c gid cli ar l w1 next g' t' l1' [] /\
    (with_id_token (t_rules t') -> with_id_token (t_rules t) \/ with_id_token (rule (g_rules g) "refresh_token")).
Proof.
  intros [(Hu & Hc & Hg) (Hk & Hl) Sc V Is (Tv & Ni) Cl (Ma & Mr) (Uo & Lr) Us Tn Sg Ro Hh (Ar & As) (C & St) Ha Nw Hid] Rq.
  destruct (Us r l eq_refl) as (Us0 & Us1 & Us2). inversion Sg as [|? ? (Sg0 & Sg1 & Sg2) Sg']; subst. cbn [mintings flat_map app] in Ha.
  inversion Ha as [|? ? Ha1 Ha']; subst. inversion Ha' as [|? ? Ha2 Ha'']; subst. clear Ha Ha'. cbn [length] in Ro.
  destruct Ma as (ms & Ms & Ma). destruct Mr as (ms' & Ms' & Mr). assert (ms' = ms) by congruence. subst ms'.
  assert (G : get_token (t_value t) g = Some t) by (eapply get_token_first; eauto).
  destruct (refresh_process_works sid_of cx idt u c gid Hu Hc Hg sharing helpers (rd_access r) (rd_refresh r) ir request (t_value t) g t ar ms cli w)
    as (args & w1 & at_ & rt & rt' & p1 & p2 & E & Aa & Pv1 & Sa & Ra & Md1 & Af & Pv2 & Sr & Rr & Md2 & Ert & O & F & C1); auto.
  { split; assumption. }
  { apply (room_mintable _ 0 _ g Sg1 Ro). lia. }
  { apply (room_mintable _ 1 _ g Sg2 Ro). lia. }
  { intros I. apply Hid. left. exists ms. auto. }
  set (g' := g_set_used (g_used g + 2) (g_set_issued (g_issued g ++ [at_; rt']) g)) in *.
  assert (Er : t_value rt' = t_value rt) by (subst rt'; destruct sharing; reflexivity).
  destruct Nw as [Nw Ap]. cbn [mintings flat_map app] in Nw, Ap.
  inversion Ap as [|? ? Ap1 Ap2]; subst. inversion Ap2 as [|? ? Ap3 Ap4]; subst. inversion Ap1 as [|? ? Ap0 Ap5]; subst. rewrite Forall_forall in Ap3, Ap5. clear Ap Ap1 Ap2.
  assert (Na : ~ In (t_value at_) (map t_value (g_issued g))) by (apply (Nw (rd_access r) p1); [now left|exact Pv1]).
  assert (Nr : ~ In (t_value rt) (map t_value (g_issued g))) by (apply (Nw (rd_refresh r) p2); [right; now left|exact Pv2]).
  assert (Nar : t_value at_ <> t_value rt) by exact (Ap0 _ _ _ _ Pv1 Pv2).
  exists args, w1, (t_value at_), (t_value rt), g', at_, (if sharing then t_set_rules (t_rules t) rt else rt), (g_issued g ++ [at_]).
  split; [apply (refresh_parse_works sid_of b64hash u c gid Hu Hc Hg helpers _ request (t_value t) g t); auto|].
  split; [exact E|]. split; [exact Aa|]. split; [exact Af|].
  split. { intros X. apply Nr. rewrite X, Is, map_app. apply in_or_app. right. now left. }
  split. { exists (session_key [u; c; gid]), gid. split; [exact Sa|]. split; [now apply unpack3_good|]. split; [apply O|]. split; [reflexivity|].
    exists (g_issued g), [if sharing then t_set_rules (t_rules t) rt else rt]. split; [reflexivity|exact Na]. }
  split. { destruct Md1 as (_ & X & _). apply token_map_of_type in X. cbn in X. congruence. }
  split. { intros U later It. eapply made_is_usable; [exact Md1|rewrite Ra; reflexivity|exact U|exact It]. }
  set (rt' := if sharing then t_set_rules (t_rules t) rt else rt) in *.
  split; [reflexivity|].
  assert (Rl : t_rules rt' = t_rules t /\ sharing = true \/ t_rules rt' = set_defaults CRefresh (rule (g_rules g) "refresh_token")).
  { unfold rt'. destruct sharing; [left; auto|right; exact Rr]. }
  destruct Lr as [Lr1 Lr2].
  assert (Uo' : usable_once (t_rules rt')) by (destruct Rl as [[-> _]| ->]; [exact Uo|exact Lr1]).
  assert (My : forall ty, ty = "access_token"%string \/ ty = "refresh_token"%string -> may_mint rt' ty).
  { intros ty Hty. unfold may_mint. destruct Rl as [[-> _]| ->]; [exists ms; destruct Hty as [-> | ->]; auto|].
    cbn. destruct (ur_mints (rule (g_rules g) "refresh_token")) as [k|]; [exists k|eexists; split; [reflexivity|]].
    - destruct Lr2, Hty as [-> | ->]; auto.
    - destruct Hty as [-> | ->]; cbn; auto. }
  assert (Md : made (mt_clock (rd_refresh r)) (g_rules g) "refresh_token" (Some t) rt') by (unfold rt'; destruct sharing; exact Md2).
  assert (Wi : with_id_token (t_rules rt') -> with_id_token (t_rules t) \/ with_id_token (rule (g_rules g) "refresh_token")).
  { intros (k & X1 & X2). destruct Rl as [[Rl _]|Rl]; rewrite Rl in X1; [left; exists k; auto|]. right. exists k. split; [|exact X2]. cbn in X1.
    destruct (ur_mints (rule (g_rules g) "refresh_token")); [exact X1|]. injection X1 as <-. cbn in X2. intuition discriminate. }
  split; [|exact Wi].
  constructor; auto.
  - apply O.
  - unfold g'. cbn. now rewrite <- app_assoc.
  - split; [congruence|]. rewrite map_app. intros X. apply in_app_or in X. cbn in X. intuition congruence.
  - destruct Md as (_ & X & _). apply token_map_of_type in X. cbn in X. congruence.
  - split; [exact Uo'|split; assumption].
  - intros b l' ->. cbn in Tn. destruct Tn as [(T1 & T2 & T3) _].
    split; [|split]; (eapply made_is_usable; [exact Md|reflexivity|exact Uo'|assumption]).
  - destruct l; [exact I|]. apply Tn.
  - intros k Ek. specialize (Ro k Ek). change (g_used g') with (g_used g + 2). lia.
  - split; [|exact Ap4]. unfold g'. cbn. rewrite map_app. intros m p v Im Ev X. apply in_app_or in X. destruct X as [X|X].
    + apply (Nw m p v); [right; now right|exact Ev|exact X].
    + cbn in X. destruct X as [X|[X|[]]].
      * apply (Ap5 m Im _ _ _ _ Pv1 Ev). exact X.
      * apply (Ap3 m Im _ _ _ _ Pv2 Ev). congruence.
  - intros X. apply Hid. destruct X as [X|X]; [exact (Wi X)|right; exact X].
Qed.

(** ** C87 *)
Theorem C87_goes_on :
  forall sid_of b64hash cx idt sharing helpers ir u c gid cli ar l w value g t l1 l2,
  good u -> good c -> good gid -> kinds_ok (w_db w) -> linked (w_db w) ->
  (* the refresh token is one of the session *)
  sid_of value = Ok (session_key [u; c; gid]) -> view (w_db w) [u; c; gid] = Some (EGrant g) ->
  g_issued g = l1 ++ t :: l2 -> t_value t = value -> ~ In value (map t_value l1) -> t_class t = CRefresh ->
  (* the rules let it be used, and the tokens that come after it *)
  may_mint t "access_token" -> may_mint t "refresh_token" -> usable_once (t_rules t) -> lets_refresh (rule (g_rules g) "refresh_token") ->
  (* the times are right *)
  (forall r l', l = r :: l' -> at_times (fun now => token_usable now t) r) -> in_turn (g_rules g) l ->
  Forall (at_times (stands g)) l -> has_room g (2 * Z.of_nat (length l)) ->
  (* what it takes to make the tokens is there *)
  dget "refresh_token" helpers = Some HRefresh -> g_authreq g = Some ar -> claims_asked ar ->
  dget c (w_cdb w) = Some cli -> claims_set_up cx cli ->
  Forall (fun m => handles sid_of m (session_key [u; c; gid])) (mintings l) ->
  all_new (session_key [u; c; gid]) (map t_value (g_issued g)) l ->
  (with_id_token (t_rules t) \/ with_id_token (rule (g_rules g) "refresh_token") -> id_tokens_made idt u c gid cli) ->
  goes_on sid_of b64hash cx idt sharing helpers ir u c gid (g_rules g) l w value.
Proof.
  intros sid_of b64hash cx idt sharing helpers ir u c gid cli ar l w value g t l1 l2 Hu Hc Hg Hk Hl Sc V Is Tv Ni Cl Ma Mr Uo Lr Us Tn Sg Ro Hh Ar As C St Ha Nw Hid.
  assert (Ry : ready sid_of cx idt helpers u c gid cli ar l w value g t l1 l2) by (constructor; auto).
  clear Hu Hc Hg Hk Hl Sc V Is Tv Ni Cl Ma Mr Uo Lr Us Tn Sg Ro Hh Ar As C St Ha Nw Hid.
  revert w value g t l1 l2 Ry. induction l as [|r l IH]; [intros; exact I|]. intros w value g t l1 l2 Ry.
  cbn [goes_on]. intros w0 request (V0 & C0 & Hk0 & Hl0) Rq.
  assert (Ry0 : ready sid_of cx idt helpers u c gid cli ar (r :: l) w0 value g t l1 l2).
  { apply (ready_moved _ _ _ _ _ _ _ _ _ _ w value g t l1 l2 w0 cli Ry); auto; [rewrite C0| |]; apply Ry. }
  destruct (ready_round sid_of b64hash cx idt sharing helpers ir u c gid cli ar r l w0 value g t l1 l2 request Ry0 Rq)
    as (args & w1 & access & next & g' & at_ & t' & l1' & E1 & E2 & E3 & E4 & E5 & E6 & E7 & E8 & Er & Rn & _).
  exists args, w1, access, next, g', at_. do 8 (split; [assumption|]). rewrite <- Er. eapply IH. exact Rn.
Qed.
Print Assumptions C87_goes_on.

Lemma flow_ready : forall sid_of b64hash is_user e az oidc w0 request c cli uri u m scopes,
  recognised is_user e az oidc w0 request c cli uri u m -> asks_code az w0 request c uri scopes ->
  code_provided sid_of e az w0 c cli uri u m ->
  exists r w1 code,
    process_request e az oidc (inr request) w0 = (Ok (AResponse r), w1) /\ dget "code" (ri_args r) = Some (VStr code) /\ dget c (w_cdb w1) = Some cli /\
  forall w2 cli2 idt sharing helpers pkce m1 m2 ir now token_request,
    view (w_db w2) [u; c; au_newid e] = view (w_db w1) [u; c; au_newid e] -> kinds_ok (w_db w2) -> linked (w_db w2) ->
    dget c (w_cdb w2) = Some cli2 -> claims_set_up (az_cx az) cli2 -> code_request b64hash pkce request token_request code ->
    tokens_provided sid_of e az w0 c cli2 u scopes idt helpers m1 m2 ir now ->
    match ir with Some b => b = true | None => In "offline_access"%string (scope_then az scopes) end ->
    told_apart (az_code az) m2 (session_key [u; c; au_newid e]) -> told_apart m1 m2 (session_key [u; c; au_newid e]) ->
    exists rq args w3 refresh_token,
      token_parse sid_of b64hash helpers pkce now token_request (w_db w2) = (Ok (PReq rq), w_db w2) /\
      token_process sid_of (az_cx az) idt sharing helpers m1 m2 ir (PReq rq) w2 = (Ok (AOk args None), w3) /\
      dget "refresh_token" args = Some (VStr refresh_token) /\
  forall l, refreshing sid_of e az w0 c cli2 u idt helpers m1 m2 now l ->
    exists g t l1 l2 ar, g_rules g = rules_of e az w0 c /\ (with_id_token (t_rules t) -> with_id_token (rule (rules_of e az w0 c) "refresh_token")) /\
      ready sid_of (az_cx az) idt helpers u c (au_newid e) cli2 ar l w3 refresh_token g t l1 l2.
Proof.
  intros sid_of b64hash is_user e az oidc w request c cli uri u m scopes R A P.
  set (gid := au_newid e). set (sid := session_key [u; c; gid]). set (rl := rules_of e az w c).
  assert (Cc : dget c (w_cdb w) = Some cli) by apply (re_entered _ _ _ _ _ _ _ _ _ _ _ R).
  assert (Gu : get_uri (az_u az) (w_cdb w) (changed e request) "redirect_uri" = Ok uri).
  { destruct (re_entered _ _ _ _ _ _ _ _ _ _ _ R) as (Ci & _ & _ & Ru & _).
    apply (uri_works az w e request c uri scopes); auto; [apply R|apply P]. }
  destruct (session_works sid_of is_user e az oidc w request c cli uri u m scopes R A P Gu)
    as (r & w1 & g & code & p & E & Er & Ec & Eu & V1 & F1 & Cd1 & Gs & Gr & Gi & Gu1 & Grv & Gnb & Grl & Gex & _ & Gsc & _ & Mdc & Clc & Trc & Pv).
  fold gid sid rl in V1, Mdc, Trc, Pv, Grl.
  exists r, w1, (t_value code). split; [exact E|]. split; [exact Ec|]. split; [rewrite Cd1; exact Cc|].
  destruct (re_names _ _ _ _ _ _ _ _ _ _ _ R) as (Hu & Hc & Hg & _ & _). fold gid in Hg.
  intros w2 cli2 idt sharing helpers pkce m1 m2 ir now tr Un1 Un3 Un4 C2 Su Cr [Hh Bp Xn Xa Hm Ap Hr Hid] Rf Ap2 Ap3.
  fold gid in Un1. fold gid sid in Bp, Hm, Ap, Hr, Hid, Ap2, Ap3.
  assert (K := changed_get e request).
  assert (Sc : sid_of (t_value code) = Ok sid).
  { destruct (cp_handler _ _ _ _ _ _ _ _ _ P p) as (v & Ev & Es). unfold sid, gid in *. congruence. }
  assert (Is : t_issued_at code = mt_clock (az_code az)) by apply Mdc.
  assert (Use : forall ty n t, exchangeable e az w c ty n t -> token_usable t code).
  { intros ty n t (_ & _ & It). eapply made_usable; [rewrite Is; exact Mdc|reflexivity| |].
    - rewrite Is. exact It.
    - rewrite Trc. cbn. intros k Ek. injection Ek as <-. lia. }
  assert (Mnt : forall ty n t, exchangeable e az w c ty n t -> mintable t (n - 2) g).
  { intros ty n t (_ & (L1 & L2) & _). unfold mintable, usable_at. rewrite Grl, Gu1, Grv, Gnb, Gex. split; [reflexivity|].
    split. { intros k Hk. apply L1 in Hk. lia. }
    split; [congruence|exact L2]. }
  assert (May : forall ty n t, exchangeable e az w c ty n t -> may_mint code ty).
  { intros ty n t (Gv & _). unfold may_mint. rewrite Trc. cbn [set_defaults ur_mints]. unfold code_gives in Gv. fold rl in Gv.
    destruct (ur_mints (rule rl "authorization_code")); eauto. }
  assert (Rf' : match ir with Some b => b | None => smem "offline_access" (scope_then az scopes) end = true) by (destruct ir; [exact Rf|now apply smem_In]).
  assert (As : claims_asked (changed e request)).
  { eapply claims_asked_ext; [|exact (ac_claims _ _ _ _ _ _ A)]. apply K. discriminate. }
  assert (Cr' : code_request b64hash pkce (changed e request) tr (t_value code)).
  { destruct Cr as [T1 T2 T3 T4 T5]. constructor; auto.
    - rewrite K by discriminate. exact T3.
    - rewrite K by discriminate. exact T4.
    - intros Hp. specialize (T5 Hp). unfold answers_challenge in *. rewrite !K by discriminate. exact T5. }
  assert (V2 : view (w_db w2) [u; c; gid] = Some (EGrant g)) by (now rewrite Un1).
  assert (G : get_token (t_value code) g = Some code) by (apply (get_token_first _ _ [] code []); auto).
  destruct (parse_works sid_of b64hash u c gid Hu Hc Hg helpers pkce now tr (t_value code) g code (changed e request) (w_db w2) Sc V2 G Clc (Use _ _ _ Xn) Gr Cr' Hh) as (rq & Pa & Kq).
  destruct (process_works sid_of (az_cx az) idt u c gid Hu Hc Hg sharing helpers m1 m2 ir rq (t_value code) g code (changed e request) (map VStr scopes) cli2 w2)
    as (args & w3 & g' & at_ & rest & p1 & Pr & Aa & Pv1 & Sa & Ca & Ra & Md & O & F & C3 & Sb & Le & Us & Q); auto.
  { split; assumption. }
  { eapply Bp; exact Pv. }
  { rewrite K by discriminate. apply A. }
  { exact (Use _ _ _ Xa). }
  { exact (Mnt _ _ _ Xa). }
  { exact (May _ _ _ Xa). }
  { rewrite Gsc. intros _. destruct (Hr Rf') as (Xr & Hm2). split; [exact (Use _ _ _ Xr)|]. split; [exact (Mnt _ _ _ Xr)|]. split; [exact (May _ _ _ Xr)|exact Hm2]. }
  { intros I. apply Hid. apply in_map_iff in I. destruct I as (x & Ex & Ix). injection Ex as ->. exact Ix. }
  { rewrite Kq by discriminate. apply Cr. }
  { rewrite Kq by discriminate. apply Cr. }
  { rewrite (Kq "redirect_uri"%string) by discriminate. apply Cr'. }
  rewrite Gsc, Rf' in Le. destruct rest as [|rt [|? ?]]; try discriminate Le. clear Le.
  destruct (Q rt (or_introl eq_refl)) as (Af & (p2 & Pv2) & Trr & Mdr).
  exists rq, args, w3, (t_value rt). split; [exact Pa|]. split; [exact Pr|]. split; [exact Af|].
  intros l [Qh Ql Qt Qg Qm Qn Qi]. fold gid sid in Qm, Qn, Qi. fold rl in Ql, Qt, Qi.
  assert (Grl' : g_rules g' = rl) by (rewrite Sb; exact Grl). rewrite Grl in Trr, Mdr.
  assert (Iss : g_issued g' = upd_first (t_value code) register_usage [code] ++ [at_; rt]) by (rewrite Sb, Gi; reflexivity).
  cbn in Iss. rewrite String.eqb_refl in Iss. cbn in Iss.
  assert (Nr : t_value code <> t_value rt) by exact (Ap2 _ _ _ _ Pv Pv2). assert (Nar : t_value at_ <> t_value rt) by exact (Ap3 _ _ _ _ Pv1 Pv2).
  assert (Sr : sid_of (t_value rt) = Ok sid). { destruct (Hr Rf') as (_ & Hm2). destruct (Hm2 p2) as (v & Ev & Es). unfold sid, gid in *. congruence. }
  destruct Ql as [Ql1 Ql2].
  assert (Uo : usable_once (t_rules rt)) by (rewrite Trr; exact Ql1).
  assert (My : forall ty, ty = "access_token"%string \/ ty = "refresh_token"%string -> may_mint rt ty).
  { intros ty Hty. unfold may_mint. rewrite Trr. cbn. destruct (ur_mints (rule rl "refresh_token")) as [k|]; [exists k|eexists; split; [reflexivity|]].
    - destruct Ql2, Hty as [-> | ->]; auto.
    - destruct Hty as [-> | ->]; cbn; auto. }
  assert (Wi : with_id_token (t_rules rt) -> with_id_token (rule rl "refresh_token")).
  { intros (k & X1 & X2). rewrite Trr in X1. exists k. split; [|exact X2]. cbn in X1.
    destruct (ur_mints (rule rl "refresh_token")); [exact X1|]. injection X1 as <-. cbn in X2. intuition discriminate. }
  exists g', rt, [register_usage code; at_], [], (changed e request). split; [exact Grl'|]. split; [exact Wi|]. constructor; auto.
  - apply O.
  - split; [reflexivity|]. cbn. intros [X|[X|[]]]; [apply Nr|apply Nar]; exact X.
  - destruct Mdr as (_ & X & _). apply token_map_of_type in X. cbn in X. congruence.
  - rewrite Grl'. split; [exact Uo|split; assumption].
  - intros b l' ->. cbn in Qt. destruct Qt as [(T1 & T2 & T3) _].
    split; [|split]; (eapply made_is_usable; [exact Mdr|reflexivity|exact Uo|assumption]).
  - rewrite Grl'. destruct l; [exact I|]. apply Qt.
  - eapply Forall_impl; [|exact Qg]. intros a (L1 & L2 & L3). assert (X : forall now0, leaves e az w c (3 + 2 * Z.of_nat (length l)) now0 -> stands g' now0).
    { intros now0 (_ & X). unfold stands. rewrite Sb. cbn. rewrite Grv, Gnb, Gex. split; [reflexivity|]. split; [congruence|exact X]. }
    split; [|split]; apply X; assumption.
  - intros k Ek. rewrite Grl' in Ek. rewrite Us, Gu1. destruct l as [|a l].
    + destruct (Hr Rf') as ((_ & (X & _) & _) & _). specialize (X k Ek). cbn [length]. lia.
    + inversion Qg as [|? ? ((X & _) & _) _]; subst. specialize (X k Ek). change (length [rt]) with 1%nat. lia.
  - split; [rewrite Sb; exact Gr|exact As].
  - inversion Qn as [|? ? Q1 Qn1]; subst. inversion Qn1 as [|? ? Q2 Qn2]; subst. inversion Qn2 as [|? ? Q3 Qn3]; subst.
    rewrite Forall_forall in Q1, Q2, Q3. split; [|exact Qn3]. rewrite Iss. cbn. intros m0 q v Im Ev [X|[X|[X|[]]]].
    + revert X. apply (Q1 m0 (or_intror (or_intror Im)) _ _ _ _ Pv Ev).
    + revert X. apply (Q2 m0 (or_intror Im) _ _ _ _ Pv1 Ev).
    + revert X. apply (Q3 m0 Im _ _ _ _ Pv2 Ev).
  - rewrite Grl'. intros X. apply Qi. destruct X as [X|X]; [exact (Wi X)|exact X].
Qed.
(** From the beginning: the user is recognised, the client gets a code; with the code it gets a refresh token, if it has asked for offline access
    (or the provider gives refresh tokens anyway); and with that it goes on. *)
Theorem C87_flow : forall sid_of b64hash is_user e az oidc w0 request c cli uri u m scopes,
  recognised is_user e az oidc w0 request c cli uri u m -> asks_code az w0 request c uri scopes ->
  code_provided sid_of e az w0 c cli uri u m ->
  exists r w1 code,
    process_request e az oidc (inr request) w0 = (Ok (AResponse r), w1) /\ dget "code" (ri_args r) = Some (VStr code) /\
  forall w2 idt sharing helpers pkce m1 m2 ir now token_request,
    undisturbed u c (au_newid e) w1 w2 -> code_request b64hash pkce request token_request code ->
    tokens_provided sid_of e az w0 c cli u scopes idt helpers m1 m2 ir now ->
    match ir with Some b => b = true | None => In "offline_access"%string (scope_then az scopes) end ->
    told_apart (az_code az) m2 (session_key [u; c; au_newid e]) -> told_apart m1 m2 (session_key [u; c; au_newid e]) ->
    exists rq args w3 refresh_token,
      token_parse sid_of b64hash helpers pkce now token_request (w_db w2) = (Ok (PReq rq), w_db w2) /\
      token_process sid_of (az_cx az) idt sharing helpers m1 m2 ir (PReq rq) w2 = (Ok (AOk args None), w3) /\
      dget "refresh_token" args = Some (VStr refresh_token) /\
  forall l ir', refreshing sid_of e az w0 c cli u idt helpers m1 m2 now l ->
    goes_on sid_of b64hash (az_cx az) idt sharing helpers ir' u c (au_newid e) (rules_of e az w0 c) l w3 refresh_token.
Proof.
  intros sid_of b64hash is_user e az oidc w0 request c cli uri u m scopes R A P.
  destruct (flow_ready sid_of b64hash is_user e az oidc w0 request c cli uri u m scopes R A P) as (r & w1 & code & E & Ec & C1 & K).
  exists r, w1, code. split; [exact E|]. split; [exact Ec|].
  intros w2 idt sharing helpers pkce m1 m2 ir now tr (Un1 & Un2 & Un3 & Un4) Cr Tp Rf Ap2 Ap3. rewrite C1 in Un2.
  destruct (K w2 cli idt sharing helpers pkce m1 m2 ir now tr Un1 Un3 Un4 Un2 (cp_claims _ _ _ _ _ _ _ _ _ P) Cr Tp Rf Ap2 Ap3) as (rq & args & w3 & rt & Pa & Pr & Af & K3).
  exists rq, args, w3, rt. split; [exact Pa|]. split; [exact Pr|]. split; [exact Af|].
  intros l ir' Q. destruct (K3 l Q) as (g & t & l1 & l2 & ar & Gr & _ & Ry). rewrite <- Gr.
  destruct Ry as [(Hu & Hc & Hg) (Hk & Hl) Sc V Is (Tv & Ni) Cl (Ma & Mr) (Uo & Lr) Us Tn Sg Ro Hh (Ar & As) (C & St) Ha Nw Hid].
  eapply C87_goes_on; eauto.
Qed.
Print Assumptions C87_flow.

(** The refresh token that was exchanged is as good as before: the same goes on with it, for as long as its own lifetime lasts. *)
Theorem C87_replaced_refuted :
  forall sid_of b64hash cx idt sharing helpers ir u c gid cli ar r l w request value g t l1 l2,
  good u -> good c -> good gid -> kinds_ok (w_db w) -> linked (w_db w) ->
  sid_of value = Ok (session_key [u; c; gid]) -> view (w_db w) [u; c; gid] = Some (EGrant g) ->
  g_issued g = l1 ++ t :: l2 -> t_value t = value -> ~ In value (map t_value l1) -> t_class t = CRefresh ->
  may_mint t "access_token" -> may_mint t "refresh_token" -> usable_once (t_rules t) -> lets_refresh (rule (g_rules g) "refresh_token") ->
  at_times (fun now => token_usable now t) r -> (forall r' l', l = r' :: l' -> at_times (fun now => token_usable now t) r') -> in_turn (g_rules g) l ->
  Forall (at_times (stands g)) (r :: l) -> has_room g (2 * Z.of_nat (length (r :: l))) ->
  dget "refresh_token" helpers = Some HRefresh -> g_authreq g = Some ar -> claims_asked ar ->
  dget c (w_cdb w) = Some cli -> claims_set_up cx cli ->
  Forall (fun m => handles sid_of m (session_key [u; c; gid])) (mintings (r :: l)) ->
  all_new (session_key [u; c; gid]) (map t_value (g_issued g)) (r :: l) ->
  (with_id_token (t_rules t) \/ with_id_token (rule (g_rules g) "refresh_token") -> id_tokens_made idt u c gid cli) ->
  refresh_request request value ->
  exists args w1 next,
    token_process sid_of cx idt sharing helpers (rd_access r) (rd_refresh r) ir (PReq request) w = (Ok (AOk args None), w1) /\
    dget "refresh_token" args = Some (VStr next) /\ next <> value /\
    goes_on sid_of b64hash cx idt sharing helpers ir u c gid (g_rules g) l w1 value.
Proof.
  intros sid_of b64hash cx idt sharing helpers ir u c gid cli ar r l w request value g t l1 l2
    Hu Hc Hg Hk Hl Sc V Is Tv Ni Cl Ma Mr Uo Lr (Us0 & Us1 & Us2) Us' Tn Sg Ro Hh Ar As C St Ha Nw Hid Rq.
  inversion Sg as [|? ? (Sg0 & Sg1 & Sg2) Sg']; subst. cbn [mintings flat_map app] in Ha.
  inversion Ha as [|? ? Ha1 Ha']; subst. inversion Ha' as [|? ? Ha2 Ha'']; subst. clear Ha Ha'. cbn [length] in Ro.
  destruct Ma as (ms & Ms & Ma). destruct Mr as (ms' & Ms' & Mr). assert (ms' = ms) by congruence. subst ms'.
  assert (G : get_token (t_value t) g = Some t) by (eapply get_token_first; eauto).
  destruct (refresh_process_works sid_of cx idt u c gid Hu Hc Hg sharing helpers (rd_access r) (rd_refresh r) ir request (t_value t) g t ar ms cli w)
    as (args & w1 & at_ & rt & rt' & p1 & p2 & E & Aa & Pv1 & Sa & Ra & Md1 & Af & Pv2 & Sr & Rr & Md2 & Ert & O & F & C1); auto.
  { split; assumption. }
  { apply (room_mintable _ 0 _ g Sg1 Ro). lia. }
  { apply (room_mintable _ 1 _ g Sg2 Ro). lia. }
  { intros I. apply Hid. left. exists ms. auto. }
  set (g' := g_set_used (g_used g + 2) (g_set_issued (g_issued g ++ [at_; rt']) g)) in *.
  assert (Er : t_value rt' = t_value rt) by (subst rt'; destruct sharing; reflexivity).
  destruct Nw as [Nw Ap]. cbn [mintings flat_map app] in Nw, Ap.
  inversion Ap as [|? ? Ap1 Ap2]; subst. inversion Ap2 as [|? ? Ap3 Ap4]; subst. inversion Ap1 as [|? ? Ap0 Ap5]; subst. rewrite Forall_forall in Ap3, Ap5. clear Ap Ap1 Ap2.
  exists args, w1, (t_value rt). split; [exact E|]. split; [exact Af|].
  split. { intros X. apply (Nw (rd_refresh r) p2 (t_value rt)); [right; now left|exact Pv2|]. rewrite X, Is, map_app. apply in_or_app. right. now left. }
  set (rt' := if sharing then t_set_rules (t_rules t) rt else rt) in *.
  change (g_rules g) with (g_rules g').
  eapply (C87_goes_on _ _ _ _ _ _ _ _ _ _ cli ar l w1 (t_value t) g' t l1 (l2 ++ [at_; rt'])); auto.
  - apply F.
  - apply F.
  - apply O.
  - unfold g'. cbn. now rewrite Is, <- app_assoc.
  - exists ms. auto.
  - exists ms. auto.
  - intros k Ek. specialize (Ro k Ek). change (g_used g') with (g_used g + 2). lia.
  - split; [|exact Ap4]. unfold g'. cbn. rewrite map_app. intros m p v Im Ev X. apply in_app_or in X. destruct X as [X|X].
    + apply (Nw m p v); [right; now right|exact Ev|exact X].
    + cbn in X. destruct X as [X|[X|[]]].
      * apply (Ap5 m Im _ _ _ _ Pv1 Ev). exact X.
      * apply (Ap3 m Im _ _ _ _ Pv2 Ev). congruence.
Qed.
Print Assumptions C87_replaced_refuted.

(** ** A case: diana and c1 as in the example of C81; the provider gives refresh tokens, which live 500 seconds, and c1 refreshes twice *)
From Verif Require Import Authz PropsClaims PropsTokenEndpoint PropsAuthzEndpoint PropsSetupAuth PropsSystem PyUrl FlowSpec RefreshSpec.
Definition rules87 : grules :=
  mkGRules (Some 7) [("authorization_code", mkURules (Some 1) (Some ["access_token"; "refresh_token"]) (Some 120)); ("access_token", mkURules None None (Some 600));
                 ("refresh_token", mkURules None (Some ["access_token"; "refresh_token"; "id_token"]) (Some 500))]%string.
Definition cx87 : ctx :=
  mkCtx (cx_issuer cx1) (cx_provider_info cx1) (cx_capabilities cx1) (cx_scope2claims cx1) (cx_modules cx1) (cx_users cx1) (mkGConf (Some rules87) (Some 3600)).
Definition az87 : authz_env :=
  let a := az7 true in
  mkAZ cx87 (az_u a) true 2000 2010 "salt" (az_code a) (az_access a) (az_idtoken a) (az_cookie a) (az_opbs a) (az_sha a) (az_origin a) (az_show a) (az_text a) true AHandling.
Definition sid87 (v : string) : result string :=
  if smem v ["code7"; "at8"; "rt8"; "at81"; "rt81"; "at82"; "rt82"]%string then Ok "diana;;c1;;g9"%string else Raise EUnknownToken.
Definition mt87 (clock : Z) (v : string) : minting := mkMinting clock "tid" (fun _ _ => Ok v).
Definition rounds87 : list round :=
  [mkRound 2400 (mt87 2400 "at81") (mt87 2401 "rt81"); mkRound 2800 (mt87 2801 "at82") (mt87 2802 "rt82")].

Example C87_ex_recognised : recognised usr9 e81 az87 true w7 rq81 "c1" cli81 cb "diana" (mkMethod (cookie9 "diana" "1900") 600).
Proof. destruct C81_ex_recognised as [A B C D E]. constructor; assumption. Qed.
Example C87_ex_asks : asks_code az87 w7 rq81 "c1" cb ["openid"; "email"]%string.
Proof. destruct C81_ex_asks as [A B C D E]. constructor; assumption. Qed.
Example C87_ex_provided : code_provided sid87 e81 az87 w7 "c1" cli81 cb "diana" (mkMethod (cookie9 "diana" "1900") 600).
Proof.
  destruct C81_ex_provided as [A B C D E F G]. constructor; auto.
  - destruct A. constructor; assumption.
  - split; [intros k X; injection X as <-; lia|]. intros _. cbn. lia.
  - intros p. exists "code7"%string. split; reflexivity.
Qed.
Example C87_ex_tokens : tokens_provided sid87 e81 az87 w7 "c1" cli81 "diana" ["openid"; "email"]%string idt2 both (mt87 2000 "at8") (mt87 2001 "rt8") (Some true) 2000.
Proof.
  assert (X : exchangeable e81 az87 w7 "c1" "access_token" 2 2000).
  { split; [left; reflexivity|]. split; [split; [intros k E; injection E as <-; lia|intros _; cbn; lia]|]. cbn. lia. }
  constructor; auto.
  - intros p v E. cbn in E. injection E as <-. reflexivity.
  - intros p. exists "at8"%string. split; reflexivity.
  - intros p1 p2 v1 v2 E1 E2. cbn in E1, E2. injection E1 as <-. injection E2 as <-. discriminate.
  - intros _. split; [|intros p; exists "rt8"%string; split; reflexivity].
    split; [right; left; reflexivity|]. split; [split; [intros k E; injection E as <-; lia|intros _; cbn; lia]|]. cbn. lia.
  - intros _ s gr clients V C. eexists. exists clients. split; [reflexivity|exact C].
Qed.
Example C87_ex_refreshing : refreshing sid87 e81 az87 w7 "c1" cli81 "diana" idt2 both (mt87 2000 "at8") (mt87 2001 "rt8") 2000 rounds87.
Proof.
  assert (L : forall now, now <= 5600 -> leaves e81 az87 w7 "c1" (3 + 2 * Z.of_nat (length rounds87)) now).
  { intros now H. split; [intros k E; injection E as <-; cbn; lia|intros _; cbn; lia]. }
  constructor.
  - reflexivity.
  - split; [exact I|]. split; [left; reflexivity|right; left; reflexivity].
  - cbn. unfold at_times. cbn. lia.
  - constructor; [|constructor; [|constructor]]; (split; [|split]); apply L; cbn; lia.
  - repeat (constructor; [intros p; eexists; split; reflexivity|]). constructor.
  - repeat (constructor; [repeat (constructor; [intros p1 p2 v1 v2 E1 E2; cbn in E1, E2; injection E1 as <-; injection E2 as <-; discriminate|]); constructor|]). constructor.
  - intros _ s gr clients V C. eexists. exists clients. split; [reflexivity|exact C].
Qed.
(** All of it together: the refresh tokens and the last access token *)
Definition refresh87 (v : string) : msg := [("grant_type", VStr "refresh_token"); ("refresh_token", VStr v)]%string.
Definition run87 : option (val * val * val) :=
  match process_request e81 az87 true (inr rq81) w7 with
  | (Ok (AResponse _), w1) =>
      match exchange sid87 hash2 cx87 idt2 false both true 2000 (mt87 2000 "at8") (mt87 2001 "rt8") (Some true) tr81 w1 with
      | (Ok (AOk a1 _), w2) =>
          match exchange sid87 hash2 cx87 idt2 false both false 2400 (mt87 2400 "at81") (mt87 2401 "rt81") None (refresh87 "rt8") w2 with
          | (Ok (AOk a2 _), w3) =>
              match exchange sid87 hash2 cx87 idt2 false both false 2800 (mt87 2801 "at82") (mt87 2802 "rt82") None (refresh87 "rt81") w3 with
              | (Ok (AOk a3 _), _) =>
                  match dget "refresh_token" a1, dget "refresh_token" a2, dget "access_token" a3 with
                  | Some x, Some y, Some z => Some (x, y, z)
                  | _, _, _ => None
                  end
              | _ => None
              end
          | _ => None
          end
      | _ => None
      end
  | _ => None
  end.
Example C87_ex : run87 = Some (VStr "rt8", VStr "rt81", VStr "at82").
Proof. vm_compute. reflexivity. Qed.

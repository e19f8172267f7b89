From Verif Require Import Base BaseProofs SplitProofs SessionKey SessionKeyProofs Monad MonadProofs Types Token Grant GrantSpec GrantProofs Database DatabaseSpec DatabaseProofs
  Manager ManagerSpec ManagerProofs Ctx Claims Authz AuthzProofs UserInfo UserInfoSpec UserInfoProofs World Minting TokenEndpoint WorldSpec WorldProofs AuthzEndpoint Logout
  Uri Response SetupAuthSpec SetupAuthProofs System SystemSpec Preserve.
From Verif Require Import SetupAuth.
Local Open Scope Z_scope.

(** ** What a call does to the store *)
Section Inv.
  (** the store at the beginning; new grants at a key with a sub; new tokens at a key *)
  Variables (s0 : store) (P : string -> string -> Prop) (T : string -> tclass -> string -> Prop).

  Definition ok_tokens (k : string) (old : list token) (g : grant) : Prop :=
    forall t, In t (g_issued g) -> (exists t0, In t0 old /\ t_class t0 = t_class t /\ t_value t0 = t_value t) \/ T k (t_class t) (t_value t).
  Definition okg (k : string) (g : grant) : Prop :=
    (exists g0, dget k s0 = Some (EGrant g0) /\ g_sub g = g_sub g0 /\ ok_tokens k (g_issued g0) g) \/
    (P k (g_sub g) /\ ok_tokens k [] g).

  Lemma okg_step k g g' : okg k g -> g_sub g' = g_sub g -> ok_tokens k (g_issued g) g' -> okg k g'.
  Proof.
    intros [(g0 & D & S & O)|(Pk & O)] S' O'.
    - left. exists g0. split; [exact D|]. split; [congruence|]. intros t I. destruct (O' t I) as [(t1 & I1 & C1 & V1)|X]; [|now right].
      destruct (O t1 I1) as [(t0 & I0 & C0 & V0)|X].
      + left. exists t0. split; [exact I0|]. split; congruence.
      + right. congruence.
    - right. split; [congruence|]. intros t I. destruct (O' t I) as [(t1 & I1 & C1 & V1)|X]; [|now right].
      destruct (O t1 I1) as [(t0 & [] & _)|X]. right. congruence.
  Qed.
  Lemma okg_same k g g' : okg k g -> g_sub g' = g_sub g -> g_issued g' = g_issued g -> okg k g'.
  Proof. intros O S I. eapply okg_step; eauto. intros t H. left. exists t. rewrite <- I. auto. Qed.
  Lemma okg_core k g l : okg k g -> Forall2 same_core (g_issued g) l -> okg k (g_set_issued l g).
  Proof.
    intros O F. eapply okg_step; [exact O|reflexivity|]. cbn [g_issued g_set_issued]. clear O.
    assert (X : forall t, In t l -> exists t0, In t0 (g_issued g) /\ same_core t0 t).
    { induction F as [|a b la lb H F IH]; intros t I; [destruct I|]. destruct I as [<-|I]; [exists a; split; [now left|exact H]|].
      destruct (IH t I) as (t0 & I0 & S0). exists t0. split; [now right|exact S0]. }
    intros t I. left. destruct (X t I) as (t0 & I0 & S0). exists t0. split; [exact I0|]. unfold same_core in S0. intuition congruence.
  Qed.

  Lemma okg_revoked k g : okg k g -> okg k (g_set_revoked true g).
  Proof. intros O. eapply okg_same; [exact O|reflexivity|reflexivity]. Qed.
  Lemma okg_settles az sid request : settles okg az sid request.
  Proof. unfold settles. destruct (az_handler az); [|exact I]. intros g g' O (_ & S1 & _ & _ & I1 & _) _. eapply okg_same; eauto. Qed.
  Lemma okg_takes mt sid ttype cl : TOKEN_MAP ttype = Some cl -> (forall payload v, mt_value mt sid payload = Ok v -> T sid cl v) -> takes okg mt sid ttype.
  Proof.
    intros TM H g t O (C & (payload & V) & _). eapply okg_step; [exact O|reflexivity|]. cbn. intros t' I. apply in_app_or in I. destruct I as [I|[<-|[]]].
    - left. eauto.
    - right. assert (t_class t = cl) by congruence. subst cl. eauto.
  Qed.
  Lemma okg_opens e u c request : P (session_key [u; c; au_newid e]) (public_id (au_sha e) u (au_salt e)) -> opens_here okg e u c request.
  Proof. intros H clock authn rules. right. split; [exact H|]. intros t []. Qed.
  Lemma okg_mints_token m1 m2 sid : (forall payload v, mt_value m1 sid payload = Ok v -> T sid CAccess v) ->
    (forall payload v, mt_value m2 sid payload = Ok v -> T sid CRefresh v) -> mints_token okg m1 m2 sid.
  Proof. intros H1 H2. split; eapply okg_takes; first [reflexivity|assumption]. Qed.
  Lemma okg_mints_here az sid request : (forall payload v, mt_value (az_code az) sid payload = Ok v -> T sid CCode v) ->
    (forall payload v, mt_value (az_access az) sid payload = Ok v -> T sid CAccess v) -> mints_here okg az sid request.
  Proof. intros H1 H2. split; [|split; [|apply okg_settles]]; eapply okg_takes; first [reflexivity|assumption]. Qed.
End Inv.
Notation inv s0 P T := (Preserve.inv (okg s0 P T)).

Section Token.
  Variable sid_of : string -> result string.
  Hypothesis Hsid : sids_ok sid_of.

  Definition made (m1 m2 : minting) (k : string) (cl : tclass) (v : string) : Prop :=
    exists payload, cl = CAccess /\ mt_value m1 k payload = Ok v \/ cl = CRefresh /\ mt_value m2 k payload = Ok v.
  Definition based (s : store) (rq : msg) (k : string) : Prop :=
    exists k0 p g0 t0, presents rq k0 p /\ dget k s = Some (EGrant g0) /\ In t0 (g_issued g0) /\ t_value t0 = p.
  Definition new_token {A} (s : store) (rq : msg) (m1 m2 : minting) (r : result A) (k : string) (cl : tclass) (v : string) : Prop :=
    made m1 m2 k cl v /\ ((exists x, r = Raise x) \/ based s rq k).
  Definition no_new (k sub : string) : Prop := False.

  Lemma inv_start P T s : inv s P T s.
  Proof. intros k g D. left. exists g. split; [exact D|]. split; [reflexivity|]. intros t I. left. eauto. Qed.
  Lemma inv_weaken s (P P' : string -> string -> Prop) (T T' : string -> tclass -> string -> Prop) s' :
    (forall k b, P k b -> P' k b) -> (forall k cl v, T k cl v -> T' k cl v) -> inv s P T s' -> inv s P' T' s'.
  Proof.
    intros HP HT I k g D. assert (F : forall l, ok_tokens T k l g -> ok_tokens T' k l g).
    { intros l O t H. destruct (O t H); auto. }
    destruct (I k g D) as [(g0 & D0 & S & O)|[Pk O]]; [left; eauto|right; auto].
  Qed.
  Lemma made_mints s rq m1 m2 {A} (r : result A) sid : ((exists x, r = Raise x) \/ based s rq sid) ->
    forall P, mints_token (okg s P (new_token s rq m1 m2 r)) m1 m2 sid.
  Proof. intros H P. apply okg_mints_token; intros payload v V; (split; [exists payload; auto|exact H]). Qed.

  Lemma get_token_in v g t : get_token v g = Some t -> In t (g_issued g) /\ t_value t = v.
  Proof. unfold get_token. intros H. apply find_some in H. destruct H as [A B]. apply String.eqb_eq in B. auto. Qed.

  Lemma code_inv mk cx m1 m2 ir rq w r w' : code_process sid_of cx mk m1 m2 ir rq w = (r, w') ->
    inv (w_db w) no_new (new_token (w_db w) rq m1 m2 r) (w_db w').
  Proof.
    intros H. unfold code_process in H. assert (St : forall T, inv (w_db w) no_new T (w_db w)) by (intros; apply inv_start).
    head_bind H E0. unfold lift in E0. assert (r0 = msub_str "grant_type" rq /\ w0 = w) as [-> ->] by (split; congruence). clear E0.
    destruct (msub_str "grant_type" rq) as [gt|e] eqn:Eg; [|injection H as <- <-; apply St].
    destruct (String.eqb_spec gt "authorization_code") as [->|N]; cbn [negb] in H; [|injection H as <- <-; apply St].
    destruct (dmem "code" rq); cbn [negb] in H; [|injection H as <- <-; apply St].
    head_bind H E0. unfold lift in E0. assert (r0 = msub_str "code" rq /\ w0 = w) as [-> ->] by (split; congruence). clear E0.
    destruct (msub_str "code" rq) as [raw|e] eqn:Er; [|injection H as <- <-; apply St]. cbv zeta in H.
    head_bind H Es. apply (in_session_by sid_of Hsid) in Es. destruct Es as [-> Es].
    destruct r0 as [[i g]|e]; [|injection H as <- <-; apply St]. destruct Es as (u & c & gid & L & ->). cbn [in_sid] in H.
    destruct L as (Hu & Hc & Hg & Sv & V). apply view_key in V. apply msub_str_ok in Eg, Er.
    assert (Pr : presents rq CCode (blank_to_plus raw)) by (left; eauto).
    head_bind H E0. unfold the_request, lift in E0. assert (r0 = of_option EType (g_authreq g) /\ w0 = w) as [-> ->] by (split; congruence). clear E0.
    destruct (g_authreq g) as [ar|]; cbn [of_option] in H; [|injection H as <- <-; apply St].
    head_bind H E0. assert (w0 = w) as ->.
    { destruct (dget "redirect_uri" ar); unfold bind, lift, ret in E0; [destruct (dsub "redirect_uri" rq)|]; congruence. } clear E0.
    destruct r0 as [[|]|e]; [injection H as <- <-; apply St| |injection H as <- <-; apply St].
    set (refresh := match ir with Some b => b | None => smem "offline_access" (g_scope g) end) in H.
    set (resp := [("token_type", VStr "Bearer"); ("scope", vstrs (g_scope g))]) in H.
    change (code_rest mk cx m1 m2 refresh (blank_to_plus raw) (session_key [u; c; gid]) g (get_token (blank_to_plus raw) g) ar resp w = (r, w')) in H.
    assert (X : (exists x, r = Raise x) \/ based (w_db w) rq (session_key [u; c; gid])).
    { destruct (get_token (blank_to_plus raw) g) as [t|] eqn:G.
      - right. destruct (get_token_in _ _ _ G) as [I1 V1]. exists CCode, (blank_to_plus raw), g, t. auto.
      - left. destruct r as [a|x]; [exfalso; eapply code_rest_none, H|eauto]. }
    eassert (Y := tri_code_rest (okg (w_db w) no_new (new_token (w_db w) rq m1 m2 r)) (okg_core _ _ _) mk cx m1 m2 refresh (blank_to_plus raw) _ _ _ _ g
      (get_token (blank_to_plus raw) g) ar resp (unpack3_good _ _ _ Hu Hc Hg) (good_tr _ Hg) _ (made_mints _ _ _ _ _ _ X _) w (St _)).
    rewrite H in Y. exact (proj1 Y).
    Unshelve. apply (St _). exact V.
  Qed.
  Lemma refresh_inv mk cx sh m1 m2 rq w r w' : refresh_process sid_of cx mk sh m1 m2 rq w = (r, w') ->
    inv (w_db w) no_new (new_token (w_db w) rq m1 m2 r) (w_db w').
  Proof.
    intros H. unfold refresh_process in H. assert (St : forall T, inv (w_db w) no_new T (w_db w)) by (intros; apply inv_start).
    head_bind H E0. unfold lift in E0. assert (r0 = msub_str "grant_type" rq /\ w0 = w) as [-> ->] by (split; congruence). clear E0.
    destruct (msub_str "grant_type" rq) as [gt|e] eqn:Eg; [|injection H as <- <-; apply St].
    destruct (String.eqb_spec gt "refresh_token") as [->|N]; cbn [negb] in H; [|injection H as <- <-; apply St].
    head_bind H E0. unfold lift in E0. assert (r0 = msub_str "refresh_token" rq /\ w0 = w) as [-> ->] by (split; congruence). clear E0.
    destruct (msub_str "refresh_token" rq) as [raw|e] eqn:Er; [|injection H as <- <-; apply St].
    head_bind H Es. apply (in_session_by sid_of Hsid) in Es. destruct Es as [-> Es].
    destruct r0 as [[i g]|e]; [|injection H as <- <-; apply St]. destruct Es as (u & c & gid & L & ->). cbn [in_sid] in H.
    destruct L as (Hu & Hc & Hg & Sv & V). apply view_key in V. apply msub_str_ok in Eg, Er.
    assert (Pr : presents rq CRefresh raw) by (right; eauto).
    change (refresh_rest mk cx sh m1 m2 (session_key [u; c; gid]) g (get_token raw g) w = (r, w')) in H.
    assert (X : (exists x, r = Raise x) \/ based (w_db w) rq (session_key [u; c; gid])).
    { destruct (get_token raw g) as [t|] eqn:G.
      - right. destruct (get_token_in _ _ _ G) as [I1 V1]. exists CRefresh, raw, g, t. auto.
      - left. destruct r as [a|x]; [exfalso; eapply refresh_rest_none, H|eauto]. }
    eassert (Y := tri_refresh_rest (okg (w_db w) no_new (new_token (w_db w) rq m1 m2 r)) mk cx sh m1 m2 _ _ _ _ g
      (get_token raw g) (unpack3_good _ _ _ Hu Hc Hg) (good_tr _ Hg) _ (made_mints _ _ _ _ _ _ X _) w (St _)).
    rewrite H in Y. exact (proj1 Y).
    Unshelve. apply (St _). exact V.
  Qed.
  Lemma token_inv cx mk sh helpers m1 m2 ir rq w r w' : token_process sid_of cx mk sh helpers m1 m2 ir (PReq rq) w = (r, w') ->
    inv (w_db w) no_new (new_token (w_db w) rq m1 m2 r) (w_db w').
  Proof.
    intros H. unfold token_process in H. assert (St : forall T, inv (w_db w) no_new T (w_db w)) by (intros; apply inv_start).
    head_bind H E0. unfold lift in E0. assert (r0 = msub_str "grant_type" rq /\ w0 = w) as [-> ->] by (split; congruence). clear E0.
    destruct (msub_str "grant_type" rq) as [gt|e] eqn:Eg; [|injection H as <- <-; apply St].
    destruct (dget gt helpers) as [h|]; [|injection H as <- <-; apply St].
    assert (Fin : forall r1 w1, inv (w_db w) no_new (new_token (w_db w) rq m1 m2 r1) (w_db w1) ->
      match r1 with Ok a => match a with
            | UserInfo.AError e d => ret (UserInfo.AError e d)
            | AOk args _ => v <-- lift (msub_str "access_token" args) ;; in_db (session_by sid_of v) ;;; ret (AOk args None)
            end w1 | Raise e => (Raise e, w1) end = (r, w') ->
      inv (w_db w) no_new (new_token (w_db w) rq m1 m2 r) (w_db w')).
    { intros r1 w1 I1 H1. destruct r1 as [a|e].
      - assert (w' = w1) as ->.
        { destruct a as [e d|args cl]; [unfold ret in H1; congruence|]. head_bind H1 E1. unfold lift in E1. assert (w0 = w1) by congruence. subst w0.
          destruct r0 as [v|e]; [|congruence]. head_bind H1 E2. apply (in_session_by sid_of Hsid) in E2. destruct E2 as [-> _].
          destruct r0; [unfold ret in H1|]; congruence. }
        eapply inv_weaken; [| |exact I1]; [auto|]. intros k cl v [M [[x X]|B]]; [discriminate|]. split; auto.
      - assert (r = Raise e /\ w' = w1) as [-> ->] by (split; congruence).
        eapply inv_weaken; [| |exact I1]; [auto|]. intros k cl v [M _]. split; [exact M|]. left. eauto. }
    destruct h; [| |injection H as <- <-; apply St]; head_bind H E0; eapply Fin; [eapply code_inv, E0|exact H|eapply refresh_inv, E0|exact H].
  Qed.

  (** a request that is answered presents a value of a session *)
  Lemma code_based mk cx m1 m2 ir rq w a c0 w' : code_process sid_of cx mk m1 m2 ir rq w = (Ok (AOk a c0), w') -> exists k, based (w_db w) rq k.
  Proof.
    intros H. unfold code_process in H.
    destruct (bind_ok _ _ _ _ _ H) as (gt & w1 & Eg & H1). clear H. unfold lift in Eg. assert (w1 = w) by congruence. subst w1.
    assert (Eg' : msub_str "grant_type" rq = Ok gt) by congruence. clear Eg.
    destruct (gt =? "authorization_code")%string eqn:Q; cbn [negb] in H1; [|discriminate].
    apply String.eqb_eq in Q. rewrite Q in Eg'. clear gt Q.
    destruct (dmem "code" rq); cbn [negb] in H1; [|discriminate].
    destruct (bind_ok _ _ _ _ _ H1) as (raw & w1 & Er & H2). clear H1. unfold lift in Er. assert (w1 = w) by congruence. subst w1.
    assert (Er' : msub_str "code" rq = Ok raw) by congruence. clear Er. cbv zeta in H2.
    destruct (bind_ok _ _ _ _ _ H2) as ([i g] & w1 & Es & H3). clear H2. apply (in_session_by sid_of Hsid) in Es. destruct Es as [-> Es].
    destruct Es as (u & c & gid & L & ->). cbn [in_sid] in H3. destruct L as (Hu & Hc & Hg & Sv & V). apply view_key in V.
    destruct (bind_ok _ _ _ _ _ H3) as (ar & w1 & _ & H4). clear H3. destruct (bind_ok _ _ _ _ _ H4) as (b & w2 & _ & H5). clear H4.
    destruct b; [discriminate|]. exists (session_key [u; c; gid]), CCode, (blank_to_plus raw), g.
    destruct (get_token (blank_to_plus raw) g) as [t|] eqn:G.
    - destruct (get_token_in _ _ _ G). apply msub_str_ok in Eg', Er'. exists t. split; [left; eauto|]. auto.
    - exfalso. eapply (code_rest_none mk cx m1 m2), H5.
  Qed.
  Lemma refresh_based mk cx sh m1 m2 rq w a c0 w' : refresh_process sid_of cx mk sh m1 m2 rq w = (Ok (AOk a c0), w') -> exists k, based (w_db w) rq k.
  Proof.
    intros H. unfold refresh_process in H.
    destruct (bind_ok _ _ _ _ _ H) as (gt & w1 & Eg & H1). clear H. unfold lift in Eg. assert (w1 = w) by congruence. subst w1.
    assert (Eg' : msub_str "grant_type" rq = Ok gt) by congruence. clear Eg.
    destruct (gt =? "refresh_token")%string eqn:Q; cbn [negb] in H1; [|discriminate].
    apply String.eqb_eq in Q. rewrite Q in Eg'. clear gt Q.
    destruct (bind_ok _ _ _ _ _ H1) as (raw & w1 & Er & H2). clear H1. unfold lift in Er. assert (w1 = w) by congruence. subst w1.
    assert (Er' : msub_str "refresh_token" rq = Ok raw) by congruence. clear Er.
    destruct (bind_ok _ _ _ _ _ H2) as ([i g] & w1 & Es & H3). clear H2. apply (in_session_by sid_of Hsid) in Es. destruct Es as [-> Es].
    destruct Es as (u & c & gid & L & ->). cbn [in_sid] in H3. destruct L as (Hu & Hc & Hg & Sv & V). apply view_key in V.
    exists (session_key [u; c; gid]), CRefresh, raw, g. destruct (get_token raw g) as [t|] eqn:G.
    - destruct (get_token_in _ _ _ G). apply msub_str_ok in Eg', Er'. exists t. split; [right; eauto|]. auto.
    - exfalso. eapply (refresh_rest_none mk cx sh m1 m2), H3.
  Qed.
  Lemma token_based cx mk sh helpers m1 m2 ir rq w a c0 w' :
    token_process sid_of cx mk sh helpers m1 m2 ir (PReq rq) w = (Ok (AOk a c0), w') -> exists k, based (w_db w) rq k.
  Proof.
    intros H. unfold token_process in H. destruct (bind_ok _ _ _ _ _ H) as (gt & w1 & Eg & H1). clear H. unfold lift in Eg.
    assert (w1 = w) by congruence. subst w1. destruct (dget gt helpers) as [h|]; [|discriminate].
    destruct h; [| |discriminate]; destruct (bind_ok _ _ _ _ _ H1) as ([e d|args cl] & w2 & E & H2); try discriminate;
      [eapply code_based, E|eapply refresh_based, E].
  Qed.
End Token.

(** ** Histories *)
Definition right_grant (p : past) (k : string) (g : grant) : Prop :=
  exists u c gid, good u /\ good c /\ good gid /\ k = session_key [u; c; gid] /\ opened p u c gid (g_sub g) /\
    forall t, In t (g_issued g) -> traced p u c gid (t_class t) (t_value t).
Definition right_state (s : sys) (p : past) : Prop :=
  (forall k g, dget k (w_db (ss_world s)) = Some (EGrant g) -> right_grant p k g) /\
  (forall rq, In rq (ss_accepted s) -> accepted p rq).

Lemma key3_inj u c g u' c' g' : good u -> good c -> good g -> good u' -> good c' -> good g' ->
  session_key [u; c; g] = session_key [u'; c'; g'] -> u = u' /\ c = c' /\ g = g'.
Proof.
  intros Hu Hc Hg Hu' Hc' Hg' E. assert (X : unpack3 (session_key [u; c; g]) = unpack3 (session_key [u'; c'; g'])) by now rewrite E.
  rewrite !unpack3_good in X by assumption. repeat split; congruence.
Qed.
Lemma opened_old h p u c g b : opened p u c g b -> opened (h :: p) u c g b.
Proof. intros (x & I & O). exists x. split; [now right|exact O]. Qed.
Lemma accepted_old h p rq : accepted p rq -> accepted (h :: p) rq.
Proof. intros (cl & r0 & I). exists cl, r0. now right. Qed.

Lemma right_step h p s s' (P : string -> string -> Prop) (T : string -> tclass -> string -> Prop) :
  (forall k b, P k b -> exists u c g, good u /\ good c /\ good g /\ k = session_key [u; c; g] /\ opens (fst h) u c g b) ->
  (forall u c g cl v, good u -> good c -> good g -> T (session_key [u; c; g]) cl v -> traced (h :: p) u c g cl v) ->
  inv (w_db (ss_world s)) P T (w_db (ss_world s')) -> right_state s p ->
  (forall rq, In rq (ss_accepted s') -> In rq (ss_accepted s) \/ accepted (h :: p) rq) -> right_state s' (h :: p).
Proof.
  intros HP HT I [R A] HA. split.
  - intros k g D. destruct (I k g D) as [(g0 & D0 & Sb & O)|[Pk O]].
    + destruct (R k g0 D0) as (u & c & gid & Hu & Hc & Hg & -> & Op & Tr). exists u, c, gid. repeat (split; [assumption|]).
      split; [reflexivity|]. split; [rewrite Sb; now apply opened_old|]. intros t It. destruct (O t It) as [(t0 & I0 & C0 & V0)|X].
      * rewrite <- C0, <- V0. apply tr_old. auto.
      * now apply HT.
    + destruct (HP _ _ Pk) as (u & c & gid & Hu & Hc & Hg & -> & Op). exists u, c, gid. repeat (split; [assumption|]).
      split; [reflexivity|]. split; [exists h; split; [now left|exact Op]|]. intros t It. destruct (O t It) as [(t0 & [] & _)|X]. now apply HT.
  - intros rq Irq. destruct (HA rq Irq) as [X|X]; [apply accepted_old; auto|exact X].
Qed.
Lemma right_same h p s s' : w_db (ss_world s') = w_db (ss_world s) -> right_state s p ->
  (forall rq, In rq (ss_accepted s') -> In rq (ss_accepted s) \/ accepted (h :: p) rq) -> right_state s' (h :: p).
Proof.
  intros E R A. eapply right_step with (P := fun _ _ => False) (T := fun _ _ _ => False); [contradiction|contradiction| |exact R|exact A].
  rewrite E. apply inv_start.
Qed.
Lemma right_call y o s p : sids_ok (sy_sid_of y) -> call_ok o -> right_state s p ->
  right_state (fst (sstep y o s)) ((o, snd (sstep y o s)) :: p).
Proof.
  intros Hs Ho R. destruct o as [e az oidc request|clock request|m1 m2 ir n|clock request|clock un request|e sid alla|op|f]; cbn [sstep].
  - destruct (process_request e az oidc request (ss_world s)) as [r w'] eqn:E. cbn [fst snd].
    destruct request as [m|request]; [apply right_same with (s := s); [cbn; unfold process_request, ret in E; congruence|exact R|auto]|].
    set (P := fun k b => exists id u c, recognises e request id /\ dget "uid" id = Some (VStr u) /\ dget "client_id" request = Some (VStr c) /\
                           k = session_key [u; c; au_newid e] /\ b = public_id (au_sha e) u (au_salt e)).
    set (T := fun k cl v => exists id payload, recognises e request id /\ goes_on e request id k /\
                (cl = CCode /\ mt_value (az_code az) k payload = Ok v \/ cl = CAccess /\ mt_value (az_access az) k payload = Ok v)).
    assert (Ho' := Ho). destruct Ho' as (Gn & Gc & Gi).
    eapply right_step with (s := s) (P := P) (T := T); [| | |exact R|auto].
    + intros k b (id & u & c & Rec & Eu & Ec & -> & ->). exists u, c, (au_newid e). destruct (Gi id Rec) as [Gu _].
      repeat (split; [auto|]). exists e, az, id. split; [|auto]. exists oidc, request. auto.
    + intros u c g cl v Hu Hc Hg (id & payload & Rec & Go & M). apply tr_visit. exists e, az, id, payload.
      destruct Go as (u' & c' & g' & U & Ec & W). rewrite unpack3_good in U by assumption.
      assert (u' = u /\ c' = c /\ g' = g) as (-> & -> & ->) by (repeat split; congruence). split; [exists oidc, request; auto|]. auto.
    + cbn [ss_world].
      assert (X : tri (okg (w_db (ss_world s)) P T) (process_request e az oidc (inr request)) (fun _ => True)).
      { apply tri_process; [exact Ho| |].
        - intros id u c Rec Eu Ec. apply okg_opens. exists id, u, c. auto.
        - intros id sid Rec Go. apply okg_mints_here; intros payload v V; exists id, payload; auto. }
      specialize (X (ss_world s) (inv_start _ _ _)). rewrite E in X. exact (proj1 X).
  - destruct (in_db _ (ss_world s)) as [r w'] eqn:E. cbn [fst snd].
    apply right_same with (s := s); [| exact R|].
    + cbn [ss_world]. replace w' with (snd (r, w')) by reflexivity. rewrite <- E. apply in_db_same.
      destruct (token_parse _ _ _ _ _ _ _) as [r1 s1] eqn:E1. apply (token_parse_cases _ _ Hs) in E1. apply E1.
    + cbn [ss_accepted]. intros rq. destruct r as [[rq0|er d]|x]; auto. intros I. apply in_app_or in I. destruct I as [I|[<-|[]]]; [now left|].
      right. exists clock, request. now left.
  - destruct (nth_error (ss_accepted s) n) as [rq|] eqn:En; [|apply right_same with (s := s); auto].
    destruct (token_process _ _ _ _ _ _ _ _ _ _) as [r w'] eqn:E. cbn [fst snd]. assert (Ac : accepted p rq) by (apply R; eapply nth_error_In, En).
    eapply right_step with (s := s); [| |cbn [ss_world]; eapply token_inv; [exact Hs|exact E]|exact R|auto].
    + contradiction.
    + intros u c g cl v Hu Hc Hg [(payload & M) B].
      assert (Ex : exchanges (SProcess m1 m2 ir n, OProcess rq r) u c g cl v rq r) by (exists m1, m2, ir, n, payload; auto).
      destruct B as [[x ->]|(k0 & v0 & g0 & t0 & Pr & D0 & I0 & V0)]; [eapply tr_lost; eauto|].
      destruct (proj1 R _ _ D0) as (u' & c' & g' & Hu' & Hc' & Hg' & K & _ & Tr).
      destruct (key3_inj _ _ _ _ _ _ Hu Hc Hg Hu' Hc' Hg' K) as (<- & <- & <-).
      eapply tr_exchange; [exact Ex|exact Ac|exact Pr|]. rewrite <- V0. now apply Tr.
  - destruct (in_db _ (ss_world s)) as [r w'] eqn:E. cbn [fst snd].
    apply right_same with (s := s); [|exact R|auto]. cbn [ss_world]. replace w' with (snd (r, w')) by reflexivity. rewrite <- E. apply in_db_same, userinfo_state.
  - destruct (in_db _ (ss_world s)) as [r w'] eqn:E. cbn [fst snd].
    apply right_same with (s := s); [|exact R|auto]. cbn [ss_world]. replace w' with (snd (r, w')) by reflexivity. rewrite <- E.
    apply in_db_same, introspection_state.
  - cbn [fst snd]. eapply right_step with (s := s) (P := fun _ _ => False) (T := fun _ _ _ => False); [contradiction|contradiction| |exact R|auto].
    cbn [ss_world]. apply inv_logout; [apply okg_revoked|apply inv_start].
  - cbn [fst snd]. eapply right_step with (s := s) (P := fun _ _ => False) (T := fun _ _ _ => False); [contradiction|contradiction| |exact R|auto].
    cbn [ss_world]. eapply tri_in_db; [apply trid_revocation; [apply okg_core|apply okg_revoked|exact Ho]|apply inv_start].
  - apply right_same with (s := s); auto.
Qed.

Lemma right_run y l s p : sids_ok (sy_sid_of y) -> Forall call_ok l -> right_state s p -> right_state (fst (srun y l s p)) (snd (srun y l s p)).
Proof.
  intros Hs. revert s p. induction l as [|o l IH]; intros s p F R; [exact R|]. inversion F as [|? ? Ho Fl]; subst. cbn [srun].
  pose proof (right_call y o s p Hs Ho R) as X. destruct (sstep y o s) as [s' r]. apply IH; [exact Fl|exact X].
Qed.
Lemma right_fresh clients : right_state (fresh clients) [].
Proof. split; [intros k g D; discriminate|intros rq []]. Qed.

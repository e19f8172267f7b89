(** IsolationProofs.v: calls about other sessions leave a session as it is. *)
From Verif Require Import Base BaseProofs SplitProofs SessionKey SessionKeyProofs Monad MonadProofs Types Token Grant GrantSpec GrantProofs Database DatabaseSpec DatabaseProofs
  Manager ManagerSpec ManagerProofs Ctx Claims Authz AuthzProofs UserInfo UserInfoSpec UserInfoProofs World Minting TokenEndpoint WorldSpec WorldProofs AuthzEndpoint Logout
  Uri Response SetupAuthSpec SetupAuthProofs System SystemSpec.
From Verif Require Import SetupAuth.
From Verif Require Import Preserve SystemProofs IsolationSpec.

Section Keep.
  (** [safe u c]: the sessions of user [u] at client [c] are to stay as they are in [s0] *)
  Variables (is_user : string -> Prop) (safe : string -> string -> Prop) (s0 : store).

  Definition inv (s : store) : Prop :=
    well_formed is_user s /\ tidy s /\ forall u c g, good u -> good c -> good g -> safe u c -> view s [u; c; g] = view s0 [u; c; g].
  Definition trid {A} (m : DB A) (Q : A -> Prop) : Prop :=
    forall s, inv s -> inv (snd (m s)) /\ match fst (m s) with Ok a => Q a | Raise _ => True end.
  Definition tri {A} (m : W A) (Q : A -> Prop) : Prop :=
    forall w, inv (w_db w) -> inv (w_db (snd (m w))) /\ match fst (m w) with Ok a => Q a | Raise _ => True end.
  Notation keepsd m := (trid m (fun _ => True)).
  Notation keeps m := (tri m (fun _ => True)).

  Lemma tri_in_db {A} (m : DB A) Q : trid m Q -> tri (in_db m) Q.
  Proof. intros H w I. unfold in_db. specialize (H (w_db w) I). destruct (m (w_db w)); exact H. Qed.
  Lemma tri_in_cdb {A} (m : ST cdb A) : keeps (in_cdb m).
  Proof. intros w I. unfold in_cdb. destruct (m (w_cdb w)) as [[a|e] c]; cbn; auto. Qed.
  Lemma tri_bind {A B} (m : W A) (k : A -> W B) Q Q' : tri m Q -> (forall a, Q a -> tri (k a) Q') -> tri (bind m k) Q'.
  Proof.
    intros Hm Hk w I. unfold bind. specialize (Hm w I). destruct (m w) as [[a|e] w1]; cbn in *; [|tauto]. destruct Hm as [I1 Qa]. now apply Hk.
  Qed.
  Lemma trid_bind {A B} (m : DB A) (k : A -> DB B) Q Q' : trid m Q -> (forall a, Q a -> trid (k a) Q') -> trid (bind m k) Q'.
  Proof.
    intros Hm Hk w I. unfold bind. specialize (Hm w I). destruct (m w) as [[a|e] w1]; cbn in *; [|tauto]. destruct Hm as [I1 Qa]. now apply Hk.
  Qed.
  Lemma tri_ret {A} (a : A) (Q : A -> Prop) : Q a -> tri (ret a) Q.
  Proof. intros H w I. cbn. auto. Qed.
  Lemma trid_ret {A} (a : A) (Q : A -> Prop) : Q a -> trid (ret a) Q.
  Proof. intros H w I. cbn. auto. Qed.
  Lemma tri_raise {A} e (Q : A -> Prop) : tri (raise e) Q.
  Proof. intros w I. cbn. auto. Qed.
  Lemma trid_raise {A} e (Q : A -> Prop) : trid (raise e) Q.
  Proof. intros w I. cbn. auto. Qed.
  Lemma tri_lift {A} (r : result A) : tri (lift r) (fun a => r = Ok a).
  Proof. intros w I. cbn. split; [exact I|]. destruct r; auto. Qed.
  Lemma trid_lift {A} (r : result A) : trid (lift r) (fun a => r = Ok a).
  Proof. intros w I. cbn. split; [exact I|]. destruct r; auto. Qed.
  Lemma tri_gets {A} (f : world -> A) : keeps (gets f).
  Proof. intros w I. cbn. auto. Qed.
  Lemma tri_attempt {A} (m : W A) Q : tri m Q -> tri (attempt m) (fun r => match r with Ok a => Q a | Raise _ => True end).
  Proof. intros H w I. unfold attempt. specialize (H w I). destruct (m w); exact H. Qed.
  Lemma tri_weaken {A} (m : W A) (Q Q' : A -> Prop) : (forall a, Q a -> Q' a) -> tri m Q -> tri m Q'.
  Proof. intros X H w I. destruct (H w I) as [I1 Q1]. split; [exact I1|]. destruct (fst (m w)); auto. Qed.
  Lemma trid_weaken {A} (m : DB A) (Q Q' : A -> Prop) : (forall a, Q a -> Q' a) -> trid m Q -> trid m Q'.
  Proof. intros X H w I. destruct (H w I) as [I1 Q1]. split; [exact I1|]. destruct (fst (m w)); auto. Qed.
  Lemma tri_catch {A} (m : W A) (Q : A -> Prop) f h : tri m Q -> tri h Q -> tri (catch m f h) Q.
  Proof.
    intros Hm Hh w I. unfold catch. specialize (Hm w I). destruct (m w) as [[a|e] w1]; cbn in *; [exact Hm|]. destruct (f e); [|exact Hm].
    apply Hh, Hm.
  Qed.
  Lemma tri_db_same {A} (m : W A) : (forall w r w', m w = (r, w') -> w_db w' = w_db w) -> keeps m.
  Proof. intros H w I. destruct (m w) as [r w'] eqn:E. cbn. rewrite (H _ _ _ E). split; [exact I|]. destruct r; exact Logic.I. Qed.
  Lemma trid_same {A} (m : DB A) : (forall s, snd (m s) = s) -> keepsd m.
  Proof. intros H s I. rewrite H. split; [exact I|]. destruct (fst (m s)); exact Logic.I. Qed.

  (** *** The store *)
  Lemma trid_read q : trid (db_read q) (fun e => exists s, inv s /\ view s q = Some e).
  Proof.
    intros s I. destruct (read_cases q s) as [(e & -> & V)|(x & -> & V)]; cbn; split; auto. exists s. auto.
  Qed.
  Lemma keep_read q : keepsd (db_read q).
  Proof. eapply trid_weaken; [|apply trid_read]. auto. Qed.
  Lemma eff_inv u c G s s' : ~ safe u c -> inv s -> eff is_user u c G s s' -> tidy s' -> inv s'.
  Proof.
    intros N (W & _ & F) [E1 E2 _] T. split; [auto|]. split; [exact T|]. intros u1 c1 g Hu1 Hc1 Hg Sf. rewrite E2; auto.
    intros X. injection X as -> ->. contradiction.
  Qed.
  Lemma good_listing x i : good x -> Forall good (si_sub i) -> Forall good (si_sub (listing x i)).
  Proof. intros Hx F. unfold listing. destruct (smem x (si_sub i)); [exact F|]. cbn. apply Forall_app. auto. Qed.
  Lemma good_uopt s u : tidy s -> good u -> Forall good (si_sub (uopt s u)).
  Proof. intros T Hu. unfold uopt, info_or. destruct (stored s [u]) as [[i|g]|] eqn:E; cbn; auto. eapply T; [|exact E]. auto with gp. Qed.
  Lemma good_copt s u c : tidy s -> good u -> good c -> Forall good (si_sub (copt s u c)).
  Proof. intros T Hu Hc. unfold copt, info_or. destruct (stored s [u; c]) as [[i|g]|] eqn:E; cbn; auto. eapply T; [|exact E]. auto with gp. Qed.

  Lemma keep_store3 u c gid g : good u -> good c -> good gid -> is_user u -> ~ safe u c -> keepsd (db_store [u; c; gid] (EGrant g)).
  Proof.
    intros Hu Hc Hg Hi N s I. split; [|destruct (fst _); exact Logic.I].
    eapply (eff_inv u c (eq gid)); [exact N|exact I|apply eff_store3; auto|].
    destruct I as ((Hk & _ & _) & T & _). intros q i Hq. rewrite stored_store3 by auto.
    destruct (path_dec q [u]). { intros X. injection X as <-. apply good_listing; auto. now apply good_uopt. }
    destruct (path_dec q [u; c]). { intros X. injection X as <-. apply good_listing; auto. now apply good_copt. }
    destruct (path_dec q [u; c; gid]); [discriminate|]. now apply T.
  Qed.
  Lemma keep_store2 u c v : good u -> good c -> is_user u -> ~ safe u c -> Forall good (si_sub v) ->
    forall s, inv s -> inv (snd (db_store [u; c] (EInfo v) s)).
  Proof.
    intros Hu Hc Hi N F s I.
    eapply (eff_inv u c (fun _ => True)); [exact N|exact I| |].
    - (* without the last part of eff *)
      destruct I as ((Hk & Hl & Hs) & _ & _). constructor.
      + intros _. split; [apply kinds_store2; auto|]. split; [apply linked_store2; auto|].
        intros u' c' Hu' Hc'. rewrite stored_store2 by auto with gp.
        rewrite (path_dec_neq [u'; c'] [u]) by discriminate.
        destruct (path_dec [u'; c'] [u; c]) as [X|]; [inv X; auto|]. apply Hs; auto.
      + intros _ u' c' g' Hu' Hc' Hg' Hn. apply store2_view; auto with gp; [|discriminate].
        intros (r & Er). inv Er. congruence.
      + auto.
    - destruct I as ((Hk & _ & _) & T & _). intros q i Hq. rewrite stored_store2 by auto.
      destruct (path_dec q [u]). { intros X. injection X as <-. apply good_listing; auto. now apply good_uopt. }
      destruct (path_dec q [u; c]). { intros X. injection X as <-. exact F. }
      now apply T.
  Qed.
  Lemma keep_poke sh u c gid g : good u -> good c -> good gid -> ~ safe u c -> keepsd (poke sh (session_key [u; c; gid]) (EGrant g)).
  Proof.
    intros Hu Hc Hg N s I. split; [|destruct (fst _); exact Logic.I]. unfold poke, modify. cbn [snd].
    destruct (sh && dmem (session_key [u; c; gid]) s); [|exact I].
    assert (Gp : good_path [u; c; gid]) by auto with gp.
    assert (St := fun q => stored_dset [u; c; gid] q (EGrant g) s Gp).
    set (s' := dset (session_key [u; c; gid]) (EGrant g) s) in *.
    assert (Oth : forall q, good_path q -> q <> [u; c; gid] -> stored s' q = stored s q).
    { intros q Hq Hn. rewrite St by auto. now apply path_dec_neq. }
    destruct I as ((Hk & Hl & Hs) & T & F). split; [split; [|split]|split].
    - intros q e Hq. rewrite St by auto. destruct (path_dec q [u; c; gid]) as [->|]; [intros X; inv X; reflexivity|apply Hk; auto].
    - intros u' c' Hu' Hc'. rewrite !Oth by (auto with gp; discriminate). apply Hl; auto.
    - intros u' c' Hu' Hc'. rewrite !Oth by (auto with gp; discriminate). apply Hs; auto.
    - intros q i Hq. rewrite St by auto. destruct (path_dec q [u; c; gid]); [discriminate|now apply T].
    - intros u1 c1 g' Hu1 Hc1 Hg' Sf. rewrite <- F by auto. apply view_ext; auto with gp.
      intros p Hp (r & Ep). apply Oth; auto. intros ->. destruct r; inv Ep. contradiction.
  Qed.
  Lemma Forall_sremove x l : Forall good l -> Forall good (sremove x l).
  Proof.
    intros F. apply Forall_forall. intros y Iy. rewrite Forall_forall in F. apply F. clear F. induction l as [|a l IH]; cbn in *; [contradiction|].
    destruct (String.eqb x a); [now right|]. destruct Iy as [<-|Iy]; [now left|right; auto].
  Qed.
  Lemma keep_delete sh u c g : good u -> good c -> good g -> is_user u -> ~ is_user c -> ~ safe u c -> keepsd (db_delete sh [u; c; g]).
  Proof.
    intros Hu Hc Hg Hi Hn N s I. split; [|destruct (fst _); exact Logic.I].
    eapply (eff_inv u c (fun _ => False)); [exact N|exact I|apply eff_delete3; auto|].
    destruct I as ((Hk & Hl & _) & T & _). destruct (view s [u; c]) as [e|] eqn:Ev.
    - destruct (view_user_case s u c) as (ui0 & Eu & Em & Es0); [congruence|].
      rewrite Ev in Es0. destruct (kinds_info s [u; c] e Hk (gp2 u c Hu Hc) ltac:(cbn; lia) Es0) as [ci ->].
      destruct (delete3_spec sh s u c g ui0 ci Hu Hc Hg Hk Eu Em Es0) as (s2 & E2 & H2). rewrite E2. cbn [snd].
      assert (T1 : Forall good (si_sub ui0)) by (eapply T; [|exact Eu]; auto with gp).
      assert (T2 : Forall good (si_sub ci)) by (eapply T; [|exact Es0]; auto with gp).
      intros q i Hq. rewrite H2 by auto. cbv zeta.
      destruct (path_dec q [u]).
      { destruct (is_nil _); [destruct (is_nil _); [discriminate|]|]; intros X; injection X as <-; cbn; auto using Forall_sremove. }
      destruct (path_dec q [u; c]).
      { unfold del3_client. destruct (is_nil _); [discriminate|]. destruct sh; intros X; injection X as <-; cbn; auto using Forall_sremove. }
      destruct (path_dec q [u; c; g]). { destruct (smem g (si_sub ci)); [discriminate|]. now apply T. }
      destruct (path_dec q [c]). { destruct (is_nil _); [now apply T|]. intros X; injection X as <-; cbn; auto using Forall_sremove. }
      now apply T.
    - destruct (delete3_noop sh s u c g Hu Hc Hg Hk Ev) as (s2 & E2 & H2). rewrite E2. cbn [snd].
      intros q i Hq. rewrite H2 by auto. now apply T.
  Qed.

  Lemma keep_mget sid : keepsd (mget sid).
  Proof. apply keep_read. Qed.
  (** what is readable belongs to a user *)
  Lemma inv_user s u c g : good u -> good c -> inv s -> view s [u; c; g] <> None -> is_user u.
  Proof.
    intros Hu Hc ((_ & _ & Hs) & _) V. apply (Hs u c Hu Hc). rewrite view3 in V. destruct (view s [u; c]) as [e|] eqn:E; [|congruence].
    destruct (view_user_case s u c) as (ui & _ & _ & X); [congruence|]. rewrite X. congruence.
  Qed.
  Lemma keep_as_grant e : keepsd (as_grant e).
  Proof. destruct e; [apply trid_raise|now apply trid_ret]. Qed.
  Lemma keep_revoke_client u c sid : good u -> good c -> ~ safe u c -> (unpack_session_key sid = [u; c] \/ exists g, unpack_session_key sid = [u; c; g]) ->
    keepsd (revoke_client_session sid).
  Proof.
    intros Hu Hc N Hs. unfold revoke_client_session.
    eapply trid_bind with (Q := fun p => p = (u, c)). { destruct Hs as [->|[g ->]]; now apply trid_ret. }
    intros p ->. cbv beta iota. eapply trid_bind; [apply trid_read|]. intros e (s & I & V).
    assert (Us : is_user u).
    { destruct I as ((_ & _ & Hs') & _). apply (Hs' u c Hu Hc). destruct (view_user_case s u c) as (ui & _ & _ & X); [congruence|]. rewrite X. congruence. }
    assert (exists i, e = EInfo i) as [i ->].
    { destruct I as ((Hk & _) & _). pose proof (view_kind s _ _ Hk (gp2 u c Hu Hc) V) as X. destruct e as [i|gr]; [eauto|cbn in X; lia]. }
    intros s1 I1. split; [|destruct (fst _); exact Logic.I]. cbn [revoke_entry]. apply keep_store2; auto. cbn.
    destruct I as (_ & T & _). apply (T [u; c]); [auto with gp|]. apply view_stored; auto with gp.
  Qed.
  Lemma keep_revoke_grant u c g : good u -> good c -> good g -> ~ safe u c -> keepsd (revoke_grant (session_key [u; c; g])).
  Proof.
    intros Hu Hc Hg N. unfold revoke_grant. rewrite unpack_good by auto with gp. cbv zeta. eapply trid_bind; [apply trid_read|]. intros e (s & I & V).
    pose proof (inv_user s u c g Hu Hc I ltac:(congruence)) as Us.
    assert (exists gr, e = EGrant gr) as [gr ->].
    { destruct I as ((Hk & _) & _). pose proof (view_kind s _ _ Hk (gp3 u c g Hu Hc Hg) V) as X. destruct e as [i|gr]; [cbn in X; lia|eauto]. }
    apply keep_store3; auto.
  Qed.
  Lemma keep_revoke_token sh d u c g v rc : good u -> good c -> good g -> ~ safe u c -> keepsd (mgr_revoke_token sh d (session_key [u; c; g]) v rc).
  Proof.
    intros Hu Hc Hg N. unfold mgr_revoke_token. rewrite unpack3_good by assumption. eapply trid_bind; [apply trid_lift|].
    intros [[u' c'] g'] E. assert (u' = u /\ c' = c /\ g' = g) as (-> & -> & ->) by (repeat split; congruence). clear E. cbv beta iota.
    eapply trid_bind; [apply keep_read|]. intros x _. eapply trid_bind; [apply keep_as_grant|]. intros gr _.
    destruct (get_token v gr); [|apply trid_raise]. eapply trid_bind; [apply keep_poke; auto|].
    intros _ _. destruct rc; [|now apply trid_ret]. eapply trid_bind; [apply keep_mget|]. intros e2 _.
    eapply trid_bind; [apply keep_as_grant|]. intros gr2 _. destruct (revoke_dependent d v (g_issued gr2)) as [l r].
    eapply trid_bind; [apply keep_poke; auto|]. intros _ _. eapply trid_weaken; [|apply trid_lift]. auto.
  Qed.
  Lemma keep_revocation sh op : proper_names is_user (SRevoke op) -> ~ safe (op_user op) (op_client op) -> keepsd (mstep sh op).
  Proof.
    intros [(Hu & Hc & Hg & Hi & Hn) Hk] N.
    destruct op; try contradiction; cbn [op_user op_client op_grant mstep] in *.
    - apply (keep_revoke_client u c); auto. right. exists g. apply unpack_good. auto with gp.
    - now apply keep_revoke_grant.
    - now apply keep_revoke_token.
    - unfold remove_session. eapply trid_bind; [apply trid_lift|]. intros [[u' c'] g'] E. rewrite unpack3_good in E by assumption.
      assert (u' = u /\ c' = c /\ g' = g) as (-> & -> & ->) by (repeat split; congruence). now apply keep_delete.
  Qed.

  (** *** Reading *)
  Lemma keep_info sid us cs gr ae ar : trid (get_session_info sid us cs gr ae ar)
    (fun i => in_sid i = sid /\ unpack3 sid = Ok (in_uid i, in_cid i, in_gid i)).
  Proof.
    unfold get_session_info. eapply trid_bind; [apply trid_lift|]. intros [[u c] g] U. cbv beta iota.
    assert (Rd : forall (b : bool) q, keepsd (if b then e <-- db_read q ;; ret (Some e) else ret None)).
    { intros [|] q; [|now apply trid_ret]. eapply trid_bind; [apply keep_read|]. intros. now apply trid_ret. }
    eapply trid_bind; [apply Rd|]. intros a1 _. eapply trid_bind; [apply Rd|]. intros a2 _. eapply trid_bind; [apply Rd|]. intros a3 _.
    eapply trid_bind with (Q := fun _ => True).
    { destruct ae; [|now apply trid_ret]. destruct a3 as [[i|x]|]; [apply trid_raise|apply trid_raise|].
      eapply trid_bind; [apply keep_read|]. intros e _. eapply trid_bind; [apply keep_as_grant|]. intros. now apply trid_ret. }
    intros a4 _. eapply trid_bind with (Q := fun _ => True).
    { destruct ar; [|now apply trid_ret]. destruct a3 as [x|].
      - eapply trid_bind; [apply keep_as_grant|]. intros. now apply trid_ret.
      - eapply trid_bind; [apply keep_read|]. intros e _. eapply trid_bind; [apply keep_as_grant|]. intros. now apply trid_ret. }
    intros a5 _. apply trid_ret. auto.
  Qed.
  Lemma keep_grant_of i : keepsd (grant_of i).
  Proof. unfold grant_of. destruct (in_grant i); [apply keep_as_grant|apply trid_raise]. Qed.
  Lemma keep_event sid : keepsd (get_authentication_event sid).
  Proof. unfold get_authentication_event. eapply trid_bind; [apply keep_info|]. intros. now apply trid_ret. Qed.

  (** *** The endpoints, for a session elsewhere *)
  Section There.
    Variables (u c gid : string).
    Hypotheses (Hu : good u) (Hc : good c) (Hg : good gid) (Hi : is_user u) (Hn : ~ safe u c).
    Notation sid := (session_key [u; c; gid]).

    Lemma keep_mint cx mt g ttype base : keeps (endpoint_mint cx mt sid g ttype base).
    Proof.
      unfold endpoint_mint. eapply tri_bind with (Q := fun _ => True).
      { unfold mint_in. cbv zeta. eapply tri_bind; [apply tri_lift|]. intros [[t|] g0] _; [|now apply tri_ret].
        eapply tri_bind; [apply tri_lift|]. intros [[u' c'] g'] _. cbv beta iota.
        eapply tri_bind; [apply tri_db_same, payload_db|]. intros payload _. eapply tri_weaken; [|apply tri_lift]. auto. }
      intros [[t|] g1] _; cbv beta iota zeta; rewrite unpack_good by auto with gp.
      - eapply tri_bind; [apply tri_in_db, keep_store3; auto|]. intros. now apply tri_ret.
      - destruct (negb _); [apply tri_raise|]. eapply tri_bind; [apply tri_in_db, keep_store3; auto|]. intros. now apply tri_ret.
    Qed.
    Lemma keep_update x : keepsd (db_update [u; c] [("id_token", x)]).
    Proof.
      unfold db_update. eapply trid_bind; [apply trid_read|]. intros e0 (s & I & V).
      eapply trid_bind with (Q := fun e => exists j, e = EInfo j /\ Forall good (si_sub j)).
      - destruct e0 as [i|g]; [|apply trid_raise]. apply trid_ret. eexists. split; [reflexivity|]. cbn.
        destruct I as (_ & T & _). apply (T [u; c]); [auto with gp|]. apply view_stored; auto with gp.
      - intros e (j & -> & F) s1 I1. split; [|destruct (fst _); exact Logic.I]. now apply keep_store2.
    Qed.
    Lemma keep_code_part e g rt a : keeps (code_part e sid g rt a).
    Proof.
      unfold code_part. destruct (smem "code" rt); [|now apply tri_ret].
      eapply tri_bind; [apply keep_mint|]. intros [[t|] g2] _; cbv beta iota; [now apply tri_ret|apply tri_raise].
    Qed.
    Lemma keep_token_part e g rt code a : keeps (token_part e sid g rt code a).
    Proof.
      unfold token_part. destruct (smem "token" rt); [|now apply tri_ret].
      eapply tri_bind; [apply keep_mint|]. intros [[t|] g2] _; cbv beta iota; [now apply tri_ret|apply tri_raise].
    Qed.
    Lemma keep_id_part e i rt code access a : in_uid i = u -> in_cid i = c -> keeps (id_part e i rt code access a).
    Proof.
      intros Eu Ec. unfold id_part. destruct (smem "id_token" rt); [|now apply tri_ret].
      eapply tri_bind; [apply tri_gets|]. intros s _. eapply tri_bind; [apply tri_in_cdb|]. intros [x|] _; [|now apply tri_ret].
      rewrite Eu, Ec. eapply tri_bind; [apply tri_in_db, keep_update|]. intros. now apply tri_ret.
    Qed.
    Lemma keep_create e request : keeps (create_authn_response e request sid).
    Proof.
      unfold create_authn_response. cbv zeta.
      destruct (match mget_list "response_type" request with Some l => only "none" l | None => false end); [now apply tri_ret|].
      eapply tri_bind; [apply tri_in_db, keep_info|]. intros i (Si & Ui). rewrite unpack3_good in Ui by assumption.
      assert (in_uid i = u /\ in_cid i = c) as [Eu Ec] by (split; congruence).
      eapply tri_bind; [apply tri_lift|]. intros rt _. eapply tri_bind; [apply tri_in_db, keep_grant_of|]. intros g _. rewrite Si.
      eapply tri_bind; [apply keep_code_part|]. intros [[code g2] a] _. cbv beta iota.
      eapply tri_bind; [apply keep_token_part|]. intros [access a2] _. cbv beta iota.
      eapply tri_bind; [now apply keep_id_part|]. intros [a3|] _; [|now apply tri_ret]. destruct (forallb _ rt); now apply tri_ret.
    Qed.
    Lemma keep_authorize e request : keeps (authorize e sid request).
    Proof.
      unfold authorize. destruct (az_handler e) as [|keys].
      2: { unfold implicit. eapply tri_bind; [apply tri_in_db; unfold get_grant; eapply trid_bind with (Q := fun _ => True);
             [eapply trid_weaken; [|apply trid_lift]; auto|]|].
        - intros [[u' c'] g'] _. cbv beta iota. eapply trid_bind; [apply keep_read|]. intros en _.
          instantiate (1 := fun _ => True). destruct en as [x|g0]; [apply trid_raise|now apply trid_ret].
        - intros g _. destruct (forallb two_characters keys); [now apply tri_ret|apply tri_raise]. }
      unfold handling. eapply tri_bind; [apply tri_in_db, keep_info|]. intros i (_ & Ui). rewrite unpack3_good in Ui by assumption.
      assert (in_uid i = u /\ in_cid i = c /\ in_gid i = gid) as (Eu & Ec & Eg) by (repeat split; congruence).
      eapply tri_bind; [apply tri_in_db, keep_grant_of|]. intros g _. intros w I.
      destruct (authz_call _ _ _ _ _ _) as [r [cl g']]. rewrite Eu, Ec, Eg.
      destruct (tri_in_db _ _ (keep_poke (az_sharing e) u c gid g' Hu Hc Hg Hn) (mkW (w_db w) cl) I) as [I2 _].
      destruct r; cbn [fst snd]; auto.
    Qed.
    Lemma keep_post e request : keeps (post_authentication e request sid).
    Proof.
      unfold post_authentication. eapply tri_bind; [eapply tri_attempt, keep_authorize|]. intros [g|x] _; [|now apply tri_ret].
      eapply tri_bind; [apply tri_lift|]. intros [[u' c'] g'] U'. cbv beta iota. rewrite unpack3_good in U' by assumption.
      assert (u' = u /\ c' = c /\ g' = gid) as (-> & -> & ->) by (repeat split; congruence).
      eapply tri_bind; [eapply tri_attempt, tri_in_db, keep_store3; auto|]. intros [?|x] _; [|now apply tri_ret].
      eapply tri_bind; [apply tri_lift|]. intros rt _. eapply tri_bind; [apply keep_create|]. intros r _. cbv zeta.
      eapply tri_bind; [apply tri_gets|]. intros clients _.
      destruct (get_uri _ _ _ _) as [uri|x]; [|destruct x; first [now apply tri_ret|apply tri_raise]].
      eapply tri_bind; [apply tri_lift|]. intros ck _. destruct (dget "response_mode" request) as [mode|]; [|now apply tri_ret].
      destruct (response_mode _ _ _) as [r'|x]; [now apply tri_ret|]. destruct x; first [now apply tri_ret|apply tri_raise].
    Qed.
    Lemma keep_part2 e request : keeps (authz_part2 e request sid).
    Proof.
      unfold authz_part2. eapply tri_bind; [eapply tri_attempt, keep_post|]. intros [r|x] _; [|now apply tri_ret]. cbv zeta.
      assert (F : forall r0 : rinfo, keeps (cid <-- lift (dsub "client_id" request) ;;
          ret (with_args (dset "client_id" cid (dset "iss" (VStr (cx_issuer (az_cx e))) (ri_args r0))) r0))).
      { intros r0. eapply tri_bind; [apply tri_lift|]. intros. now apply tri_ret. }
      destruct (az_iframe e); [|apply F].
      eapply tri_bind; [eapply tri_attempt, tri_in_db, keep_event|].
      intros [[ae|]|x] _; [| apply tri_raise | destruct x; first [now apply tri_ret|apply tri_raise]].
      destruct (negb _); [now apply tri_ret|]. eapply tri_bind; [apply tri_lift|]. intros o _. cbv zeta.
      eapply tri_bind; [apply tri_lift|]. intros cid _. eapply tri_bind; [apply tri_lift|]. intros uri _.
      eapply tri_bind; [apply tri_lift|]. intros origin _. apply F.
    Qed.

    (** the token endpoint *)
    Lemma keep_add_id mk sid' resp : keeps (add_id_token mk sid' resp).
    Proof.
      unfold add_id_token, id_token_for. eapply tri_bind with (Q := fun _ => True).
      - apply tri_catch; [|now apply tri_ret]. eapply tri_bind with (Q := fun _ => True); [|intros; now apply tri_ret].
        eapply tri_bind; [apply tri_gets|]. intros w _. apply tri_in_cdb.
      - intros [t|] _; now apply tri_ret.
    Qed.
    Lemma keep_the_token o : keeps (the_token o).
    Proof. unfold the_token. eapply tri_weaken; [|apply tri_lift]. auto. Qed.
    Lemma keep_code_rest mk cx m1 m2 refresh ac g code ar resp : keeps (code_rest mk cx m1 m2 refresh ac sid g code ar resp).
    Proof.
      unfold code_rest. eapply tri_bind; [apply keep_mint|]. intros [o g1] _. cbv beta iota. eapply tri_bind; [apply keep_the_token|]. intros at_ _. cbv zeta.
      eapply tri_bind with (Q := fun _ => True).
      { destruct refresh; [|now apply tri_ret]. eapply tri_bind; [apply keep_mint|]. intros [o2 g2] _. cbv beta iota.
        eapply tri_bind; [apply keep_the_token|]. intros rt _. now apply tri_ret. }
      intros [g2 resp2] _. cbv beta iota. eapply tri_bind with (Q := fun _ => True). { destruct code; [now apply tri_ret|apply tri_raise]. }
      intros _ _. eapply tri_bind. { apply tri_in_db. unfold mset. rewrite unpack_good by auto with gp. apply keep_store3; auto. }
      intros _ _. eapply tri_bind; [apply tri_lift|]. intros sc _. eapply tri_bind; [apply tri_lift|]. intros [|] _; [apply keep_add_id|now apply tri_ret].
    Qed.
    Lemma keep_refresh_rest mk cx sh m1 m2 g tok : keeps (refresh_rest mk cx sh m1 m2 sid g tok).
    Proof.
      unfold refresh_rest. eapply tri_bind; [apply keep_mint|]. intros [o g1] _. cbv beta iota. eapply tri_bind; [apply keep_the_token|]. intros at_ _. cbv zeta.
      eapply tri_bind; [apply keep_the_token|]. intros t _. eapply tri_bind; [apply tri_lift|]. intros mints _.
      eapply tri_bind with (Q := fun _ => True).
      { destruct (smem "refresh_token" mints); [|now apply tri_ret]. eapply tri_bind; [apply keep_mint|].
        intros [o2 g2] _. cbv beta iota. eapply tri_bind; [apply keep_the_token|]. intros rt _.
        eapply tri_bind; [apply tri_in_db; rewrite unpack_good by auto with gp; apply keep_poke; auto|intros; now apply tri_ret]. }
      intros resp _. destruct (smem "id_token" mints); [apply keep_add_id|now apply tri_ret].
    Qed.
    Lemma keep_create_grant clock authn ar sub rules scopes : trid (create_grant clock gid authn ar u c sub rules scopes) (fun s => s = sid).
    Proof.
      unfold create_grant. eapply trid_bind; [apply trid_lift|]. intros s _. cbv zeta. eapply trid_bind; [apply keep_store3; auto|].
      intros. now apply trid_ret.
    Qed.
    Lemma keep_create_session clock authn ar sub rules scopes : trid (create_session clock gid authn ar u c sub rules scopes) (fun s => s = sid).
    Proof.
      unfold create_session. eapply trid_bind with (Q := fun _ => True).
      { intros s I. split; [|destruct (fst _); exact Logic.I]. unfold catch, bind at 1. rewrite db_read1.
        destruct (stored s [u]) as [e|] eqn:E; [exact I|]. cbn [is_key_error].
        eapply (eff_inv u c (fun _ => False)); [exact Hn|exact I|apply eff_store1; auto; now rewrite view1|].
        intros q i Hq. rewrite stored_store1 by auto. destruct I as (_ & T & _).
        destruct (path_dec q [u]); [intros X; injection X as <-; constructor|now apply T]. }
      intros _ _. rewrite good_tr by assumption. eapply trid_bind; [apply (trid_ret _ (fun x => x = c)); reflexivity|]. intros c' ->.
      eapply trid_bind with (Q := fun _ => True).
      { intros s I. split; [|destruct (fst _); exact Logic.I]. apply keep_store2; auto. constructor. }
      intros _ _. apply keep_create_grant.
    Qed.
  End There.

  (** *** Who the user is *)
  Lemma keep_identify e m request : tri (identify e m request) (fun r => match fst r with
    | None => True
    | Some id => exists limit id0 ts, age_limit request = Ok limit /\ me_auth m limit = Ok (Some id0, ts) /\
        (id = id0 \/ exists uid, dget "uid" id0 = Some uid /\ au_decode e uid = Ok (Some (VDict id)))
    end).
  Proof.
    intros w I. destruct (identify e m request w) as [[[o ts]|x] w'] eqn:E; cbn [fst snd].
    - destruct (identify_inv _ _ _ _ _ _ _ E) as (-> & limit & L & F). split; [exact I|]. destruct o as [id|]; [|exact Logic.I].
      destruct F as [[F _]|(id0 & uid & sid & g & F1 & F2 & F3 & _)].
      + exists limit, id, ts. auto.
      + exists limit, id0, ts. split; [exact L|]. split; [exact F1|]. right. eauto.
    - split; [|exact Logic.I]. revert E. unfold identify, bind, lift. destruct (age_limit request) as [limit|]; [|intros X; injection X as _ <-; exact I].
      destruct (me_auth m limit) as [[[id|] ts]|y].
      + destruct id as [|kv id]; [discriminate|]. destruct (dsub "uid" (kv :: id)) as [uid|]; [|intros X; injection X as _ <-; exact I].
        destruct (au_decode e uid) as [[v|]|]; [|discriminate|intros X; injection X as _ <-; exact I].
        destruct v as [| | | | |id2]; try (intros X; injection X as _ <-; exact I).
        destruct (dget "sid" id2) as [[]|]; try (intros X; injection X as _ <-; exact I).
        unfold in_db at 1. unfold mget. pose proof (db_read_state (unpack_session_key s) (w_db w)) as St.
        destruct (db_read _ (w_db w)) as [[en|] s']; cbn [snd] in St; subst s'; [|intros X; injection X as _ <-; exact I].
        unfold in_db. cbn [w_db]. destruct en; cbn; [intros X; injection X as _ <-; exact I|discriminate].
      + discriminate.
      + destruct y; try discriminate; intros X; injection X as _ <-; exact I.
  Qed.
  Lemma keep_valid_event e sid : keeps (valid_event e sid).
  Proof.
    unfold valid_event. eapply tri_bind; [apply tri_in_db, keep_event|]. intros [ae|] _; [now apply tri_ret|apply tri_raise].
  Qed.

  (** a session one may go on with *)
  Definition free (sid : string) : Prop :=
    exists u c g, good u /\ good c /\ good g /\ is_user u /\ ~ safe u c /\ sid = session_key [u; c; g].
  Lemma keep_first e m acr (request : msg) user : good (au_newid e) ->
    (forall u c, user = VStr u -> dget "client_id" request = Some (VStr c) -> good u /\ good c /\ is_user u /\ ~ safe u c) ->
    tri (first_session e m acr request user) free.
  Proof.
    intros G H. unfold first_session. eapply tri_bind; [apply tri_lift|]. intros u Eu. cbv zeta.
    eapply tri_bind; [apply tri_lift|]. intros c Ec. apply msub_str_ok in Ec.
    assert (user = VStr u) by (destruct user; try discriminate; cbn in Eu; congruence). subst user. destruct (H u c eq_refl Ec) as (Hu & Hc & Hi & Hn).
    eapply tri_bind; [apply tri_gets|]. intros clients _. apply tri_in_db. unfold login_session.
    eapply trid_weaken; [|apply keep_create_session; auto]. intros s ->. exists u, c, (au_newid e). auto 8.
  Qed.
  Lemma keep_known e (request : msg) user v : good (au_newid e) ->
    (forall u c, user = VStr u -> dget "client_id" request = Some (VStr c) -> good u /\ good c /\ is_user u /\ ~ safe u c) ->
    (forall sid, v = VStr sid -> free sid) ->
    tri (known_session e request user v) (fun o => match o with None => True | Some sid => free sid end).
  Proof.
    intros G H Hv. unfold known_session. eapply tri_bind; [apply tri_lift|]. intros sid Ev.
    assert (v = VStr sid) by (destruct v; congruence). subst v. clear Ev.
    eapply tri_bind; [apply tri_lift|]. intros [[u c] g] U. cbv beta iota. eapply tri_bind; [apply tri_lift|]. intros cid C. apply dsub_ok in C.
    destruct (val_eqb cid (VStr c)) eqn:Ec; cbn [negb]; [|now apply tri_ret].
    assert (cid = VStr c) by (destruct cid; try discriminate; cbn in Ec; apply String.eqb_eq in Ec; congruence). subst cid.
    eapply tri_bind; [apply tri_in_db, keep_mget|]. intros x _. eapply tri_bind; [apply tri_in_db, keep_as_grant|]. intros gr _.
    destruct (negb _); [now apply tri_ret|].
    destruct (match g_authreq gr with Some r => au_same e request r | None => false end). { apply tri_ret. auto. }
    eapply tri_bind; [apply keep_valid_event|]. intros [ae|] _; [|now apply tri_ret].
    eapply tri_bind; [apply tri_lift|]. intros us Eu. eapply tri_bind; [apply tri_lift|]. intros c' Ec'.
    assert (c' = c) by (cbn in Ec'; congruence). subst c'.
    assert (user = VStr us) by (destruct user; try discriminate; cbn in Eu; congruence). subst user.
    destruct (H us c eq_refl C) as (Hu & Hc & Hi & Hn).
    eapply tri_bind; [apply tri_in_db, keep_create_grant; auto|].
    intros sid' ->. apply tri_ret. exists us, c, (au_newid e). auto 8.
  Qed.

  Lemma keep_setup e (request : msg) uri cinfo ru : good (au_newid e) ->
    (forall c, dget "client_id" request = Some (VStr c) -> good c) ->
    (forall id, recognises e request id -> (forall u, dget "uid" id = Some (VStr u) -> good u /\ is_user u) /\ (forall sid, dget "sid" id = Some (VStr sid) -> names_session is_user sid)) ->
    (forall id, recognises e request id -> forall u c, safe u c -> ~ (dget "uid" id = Some (VStr u) /\ dget "client_id" request = Some (VStr c)) /\
       forall g, dget "sid" id <> Some (VStr (session_key [u; c; g]))) ->
    tri (setup_auth e request uri cinfo ru) (fun s => match s with SDone sid id _ => free sid | _ => True end).
  Proof.
    intros Gn Gc Gi Ho. unfold setup_auth. eapply tri_bind; [apply tri_lift|]. intros [name acr] Pk. cbv beta iota zeta.
    eapply tri_bind; [apply tri_lift|]. intros m Em. apply dsub_ok in Em.
    assert (Mf : method_for e request name acr m) by (split; assumption).
    eapply tri_bind; [apply keep_identify|]. intros [o ts] Hi. cbn [fst] in Hi. cbv beta iota.
    eapply tri_bind; [apply tri_lift|]. intros args _. destruct o as [id|].
    2: { eapply tri_bind; [apply tri_lift|]. intros [|] _; [|now apply tri_ret]. eapply tri_bind; [apply tri_lift|]. intros. now apply tri_ret. }
    destruct (re_authenticate _); [now apply tri_ret|].
    destruct Hi as (limit & id0 & ts0 & L & A & D). rewrite age_limit_changed in L.
    assert (Rec : recognises e request id). { exists name, acr, m, limit, id0, ts0. auto. }
    destruct (Gi id Rec) as [Gu Gs]. pose proof (Ho id Rec) as Hx.
    assert (Cg : forall c, dget "client_id" (changed e request) = Some (VStr c) -> dget "client_id" request = Some (VStr c)).
    { intros c. rewrite changed_get; [auto|discriminate]. }
    eapply tri_bind; [apply tri_lift|]. intros user Us. apply dsub_ok in Us.
    assert (Op : forall u c, user = VStr u -> dget "client_id" (changed e request) = Some (VStr c) -> good u /\ good c /\ is_user u /\ ~ safe u c).
    { intros u c -> C. apply Cg in C. destruct (Gu u Us). split; [assumption|]. split; [auto|]. split; [assumption|]. intros Sf. now apply (Hx u c Sf). }
    destruct (match ru with Some r => negb (val_eqb user r) | None => false end).
    { eapply tri_bind; [apply tri_lift|]. intros none _. destruct none; now apply tri_ret. }
    eapply tri_bind with (Q := fun o => match o with Some sid => nonempty sid = true -> free sid | None => True end).
    { destruct (dget "sid" id) as [v|] eqn:Sd; [|apply tri_ret; discriminate].
      eapply tri_weaken; [|apply keep_known; [exact Gn|exact Op|]].
      - intros [sid|]; auto.
      - intros sid ->. destruct (Gs sid eq_refl) as (u & c & g & Hu & Hc & Hg & Hi & _ & ->). exists u, c, g. do 4 (split; [assumption|]). split; [|reflexivity].
        intros Sf. now apply (proj2 (Hx u c Sf) g). }
    intros [sid|] Hf; [|now apply tri_ret]. destruct (nonempty sid) eqn:Ns.
    - eapply tri_bind; [apply keep_valid_event|]. intros [v|] _; apply tri_ret; [|exact Logic.I]. auto.
    - eapply tri_bind; [apply keep_first; [exact Gn|exact Op]|]. intros sid' X. now apply tri_ret.
  Qed.

  Lemma keep_process e az oidc (request : msg) : proper_names is_user (SAuthorize e az oidc (inr request)) ->
    (forall id, recognises e request id -> forall u c, safe u c -> ~ (dget "uid" id = Some (VStr u) /\ dget "client_id" request = Some (VStr c)) /\
       forall g, dget "sid" id <> Some (VStr (session_key [u; c; g]))) ->
    keeps (process_request e az oidc (inr request)).
  Proof.
    intros (Gn & Gc & Gi) Ho. unfold process_request.
    eapply tri_bind; [apply tri_lift|]. intros cid C. eapply tri_bind; [apply tri_gets|]. intros clients _.
    eapply tri_bind; [apply tri_lift|]. intros cinfo _. eapply tri_bind with (Q := fun _ => True).
    { destruct (is_nil cinfo); [now apply tri_ret|]. eapply tri_bind; [apply tri_lift|]. intros sc _. eapply tri_weaken; [|apply tri_lift]. auto. }
    intros _ _. eapply tri_bind; [apply tri_lift|]. intros ru _. eapply tri_bind; [apply tri_lift|]. intros uri _.
    eapply tri_bind; [apply keep_setup; auto|].
    { intros c Ec. now apply Gc. }
    intros [info|name args|sid id user] H; [now apply tri_ret|now apply tri_ret|].
    destruct H as (u & c & g & Hu & Hc & Hg & Hi & Hn & ->).
    eapply tri_bind; [apply keep_part2; auto|]. intros. now apply tri_ret.
  Qed.

  (** *** Logout *)
  Lemma keep_clean u l : good u -> (forall sid, In sid l -> exists c, good c /\ ~ safe u c /\
      (unpack_session_key sid = [u; c] \/ exists g, unpack_session_key sid = [u; c; g])) -> keeps (clean_sessions l).
  Proof.
    intros Hu. induction l as [|sid l IH]; intros H; [now apply tri_ret|]. cbn [clean_sessions].
    destruct (H sid (or_introl eq_refl)) as (c & Hc & Hn & Hk).
    eapply tri_bind; [apply tri_in_db, (keep_revoke_client u c); auto|]. intros _ _. apply IH. intros x Ix. apply H. now right.
  Qed.
  Lemma noted_sids e clients u cs : forall sids n sids' n', note_clients e clients u cs sids n = Ok (sids', n') ->
    forall sid, In sid sids' -> In sid sids \/ exists c, In c cs /\ sid = session_key [u; c].
  Proof.
    induction cs as [|c cs IH]; cbn; intros sids n sids' n' H sid I; [injection H as <- <-; auto|].
    destruct (note_client e clients c _ n) as [[b n1]|]; cbn in H; [|discriminate].
    destruct (IH _ _ _ _ H sid I) as [J|(c1 & J & ->)]; [|eauto]. destruct b; [|auto].
    apply in_app_or in J. destruct J as [J|[<-|[]]]; eauto.
  Qed.
  Lemma keep_logout e u c g (alla : bool) : good u -> good c -> good g -> (if alla then forall c', ~ safe u c' else ~ safe u c) ->
    keeps (if alla then logout_all_clients e (session_key [u; c; g]) else logout_from_client e (session_key [u; c; g])).
  Proof.
    intros Hu Hc Hg N. destruct alla.
    - unfold logout_all_clients. intros w I.
      assert (X := keep_info (session_key [u; c; g]) true true false false false). 
      assert (Bd : forall (A B : Type) (m : DB A) (k : A -> W B) (w : world), bind (in_db m) k w = match m (w_db w) with (Ok a, s') => k a (mkW s' (w_cdb w)) | (Raise x, s') => (Raise x, mkW s' (w_cdb w)) end).
      { intros A B m k w1. unfold bind, in_db. destruct (m (w_db w1)) as [[a|x] s']; reflexivity. }
      rewrite Bd. clear Bd.
      assert (Y : forall i s', get_session_info (session_key [u; c; g]) true true false false false (w_db w) = (Ok i, s') ->
                 s' = w_db w /\ in_uid i = u /\ exists x, in_usi i = Some x /\ stored (w_db w) [u] = Some x).
      { intros i s'. unfold get_session_info. rewrite unpack3_good by assumption. unfold bind, lift, ret. rewrite db_read1.
        destruct (stored (w_db w) [u]) as [x|]; [|discriminate].
        destruct (read_cases [u; c] (w_db w)) as [(x2 & -> & _)|(x2 & -> & _)]; [|discriminate].
        intros E. injection E as <- <-. split; [reflexivity|]. split; [reflexivity|]. exists x. auto. }
      specialize (X (w_db w) I).
      destruct (get_session_info (session_key [u; c; g]) true true false false false (w_db w)) as [[i|x] s'] eqn:E; [|exact (conj (proj1 X) Logic.I)].
      destruct (Y i s' eq_refl) as (-> & Eu & x & Ex & St). clear X Y E.
      assert (Tx : forall l, subordinate x = Ok l -> Forall good l).
      { intros l El. destruct x as [si|gr]; [|discriminate]. injection El as <-. destruct I as (_ & T & _). apply (T [u] si); auto with gp. }
      assert (Z : keeps (clients <-- gets w_cdb ;;
         subs <-- lift (match in_usi i with Some x => subordinate x | None => Raise EKey end) ;;
         '(sids, n) <-- lift (note_clients e clients (in_uid i) subs [] (mkNotes [] [])) ;;
         clean_sessions sids ;;; ret n)).
      { eapply tri_bind; [apply tri_gets|]. intros cl _. eapply tri_bind; [apply tri_lift|]. intros subs Es. rewrite Ex in Es.
        eapply tri_bind; [apply tri_lift|]. intros [sids n] En. cbv beta iota.
        eapply tri_bind; [apply (keep_clean u); [exact Hu|]|intros; now apply tri_ret].
        intros sid Isid. destruct (noted_sids _ _ _ _ _ _ _ _ En sid Isid) as [[]|(c1 & J & ->)]. rewrite Eu.
        pose proof (Tx _ Es) as F. rewrite Forall_forall in F. specialize (F _ J).
        exists c1. split; [exact F|]. split; [apply N|]. left. apply unpack_good. auto with gp. }
      exact (Z (mkW (w_db w) (w_cdb w)) I).
    - unfold logout_from_client. eapply tri_bind; [apply tri_in_db, keep_info|]. intros i _.
      eapply tri_bind; [apply tri_gets|]. intros cl _. eapply tri_bind; [apply tri_lift|]. intros [b n] _. cbv beta iota.
      eapply tri_bind; [apply (keep_clean u); [exact Hu|]|intros; now apply tri_ret].
      intros sid [<-|[]]. exists c. split; [exact Hc|]. split; [exact N|]. right. exists g. apply unpack_good. auto with gp.
  Qed.

  (** *** The token endpoint *)
  Section Token.
    Variable sid_of : string -> result string.
    Hypothesis Hsid : sids_ok sid_of.
    Lemma keep_session_by v : keepsd (session_by sid_of v).
    Proof.
      unfold session_by, get_session_info_by_token. eapply trid_bind with (Q := fun _ => True).
      - eapply trid_bind; [apply trid_lift|]. intros sid _. eapply trid_weaken; [|apply keep_info]. auto.
      - intros i _. eapply trid_bind; [apply keep_grant_of|]. intros. now apply trid_ret.
    Qed.
    (** the session of a token that is presented is there *)
    Lemma session_by_free v w i g w' : inv (w_db w) -> (forall u c g', safe u c -> sid_of v <> Ok (session_key [u; c; g'])) ->
      in_db (session_by sid_of v) w = (Ok (i, g), w') -> w' = w /\ free (in_sid i).
    Proof.
      intros I N E. apply (in_session_by sid_of Hsid) in E. destruct E as [-> (u & c & gid & (Hu & Hc & Hg & Sv & V) & ->)]. split; [reflexivity|].
      exists u, c, gid. do 3 (split; [assumption|]). split; [|split; [|reflexivity]].
      - apply (inv_user (w_db w) u c gid); auto. congruence.
      - intros X. eapply N; [exact X|exact Sv].
    Qed.
    Lemma tri_session_by v : (forall u c g', safe u c -> sid_of v <> Ok (session_key [u; c; g'])) ->
      tri (in_db (session_by sid_of v)) (fun r => free (in_sid (fst r))).
    Proof.
      intros N w I. destruct (in_db (session_by sid_of v) w) as [[[i g]|x] w'] eqn:E.
      - destruct (session_by_free v w i g w' I N E) as [-> F]. auto.
      - assert (X := tri_in_db _ _ (keep_session_by v) w I). rewrite E in X. exact X.
    Qed.
    Lemma keep_code cx mk m1 m2 ir rq : (forall k p u c g, presents rq k p -> safe u c -> sid_of p <> Ok (session_key [u; c; g])) ->
      keeps (code_process sid_of cx mk m1 m2 ir rq).
    Proof.
      intros N. unfold code_process. eapply tri_bind; [apply tri_lift|]. intros gt Eg.
      destruct (String.eqb_spec gt "authorization_code") as [->|Ng]; cbn [negb]; [|now apply tri_ret].
      destruct (dmem "code" rq); cbn [negb]; [|now apply tri_ret].
      eapply tri_bind; [apply tri_lift|]. intros raw Er. cbv zeta. apply msub_str_ok in Eg, Er.
      assert (Pr : presents rq CCode (blank_to_plus raw)) by (left; eauto).
      eapply tri_bind; [apply tri_session_by; intros u' c' g' Sf; eapply N; [exact Pr|exact Sf]|]. intros [i g] F. cbn [fst] in F. cbv beta iota.
      destruct F as (u & c & gid & Hu & Hc & Hg & Hi & Hn & ->).
      eapply tri_bind with (Q := fun _ => True). { unfold the_request. eapply tri_weaken; [|apply tri_lift]. auto. }
      intros ar _. eapply tri_bind with (Q := fun _ => True).
      { destruct (dget "redirect_uri" ar); [|now apply tri_ret]. eapply tri_bind; [apply tri_lift|]. intros. now apply tri_ret. }
      intros [|] _; [now apply tri_ret|]. apply (keep_code_rest u c gid Hu Hc Hg Hi Hn).
    Qed.
    Lemma keep_refresh cx mk sh m1 m2 rq : (forall k p u c g, presents rq k p -> safe u c -> sid_of p <> Ok (session_key [u; c; g])) ->
      keeps (refresh_process sid_of cx mk sh m1 m2 rq).
    Proof.
      intros N. unfold refresh_process. eapply tri_bind; [apply tri_lift|]. intros gt Eg.
      destruct (String.eqb_spec gt "refresh_token") as [->|Ng]; cbn [negb]; [|now apply tri_ret].
      eapply tri_bind; [apply tri_lift|]. intros raw Er. apply msub_str_ok in Eg, Er.
      assert (Pr : presents rq CRefresh raw) by (right; eauto).
      eapply tri_bind; [apply tri_session_by; intros u' c' g' Sf; eapply N; [exact Pr|exact Sf]|]. intros [i g] F. cbn [fst] in F. cbv beta iota.
      destruct F as (u & c & gid & Hu & Hc & Hg & Hi & Hn & ->).
      apply (keep_refresh_rest u c gid Hu Hc Hg Hi Hn).
    Qed.
    Lemma keep_token cx mk sh helpers m1 m2 ir rq : (forall k p u c g, presents rq k p -> safe u c -> sid_of p <> Ok (session_key [u; c; g])) ->
      keeps (token_process sid_of cx mk sh helpers m1 m2 ir (PReq rq)).
    Proof.
      intros N. unfold token_process. eapply tri_bind; [apply tri_lift|]. intros gt _. destruct (dget gt helpers) as [h|]; [|now apply tri_ret].
      assert (F : forall m : W UserInfo.answer, keeps m -> keeps (a <-- m ;; match a with
            | UserInfo.AError e d => ret (UserInfo.AError e d)
            | AOk args _ => v <-- lift (msub_str "access_token" args) ;; in_db (session_by sid_of v) ;;; ret (AOk args None)
            end)).
      { intros m Hm. eapply tri_bind; [exact Hm|]. intros [e d|args cl] _; [now apply tri_ret|]. eapply tri_bind; [apply tri_lift|]. intros v _.
        eapply tri_bind; [apply tri_in_db, keep_session_by|]. intros. now apply tri_ret. }
      destruct h; [apply F; now apply keep_code|apply F; now apply keep_refresh|apply tri_raise].
    Qed.
  End Token.

  Lemma call_keeps y o s : sids_ok (sy_sid_of y) -> proper_names is_user o -> (forall u c, safe u c -> ~ about y s o u c) ->
    inv (w_db (ss_world s)) -> inv (w_db (ss_world (fst (sstep y o s)))).
  Proof.
    intros Hs P N St.
    destruct o as [e az oidc [m|request]|clock request|m1 m2 ir n|clock request|clock un request|e sid alla|op|f]; cbn [sstep].
    - exact St.
    - destruct (process_request e az oidc (inr request) (ss_world s)) as [r w] eqn:E. cbn [fst ss_world].
      assert (X := keep_process e az oidc request P). lapply X; [intros Y|].
      + specialize (Y (ss_world s) St). rewrite E in Y. apply Y.
      + intros id Rec u c Sf. split.
        * intros [A B]. apply (N u c Sf). exists id. auto.
        * intros g A. apply (N u c Sf). exists id. eauto.
    - match goal with |- context [in_db ?m ?w] => assert (Q : w_db (snd (in_db m w)) = w_db w) end.
      { apply in_db_same. destruct (token_parse _ _ _ _ _ _ _) as [r1 s1] eqn:E1. apply (token_parse_cases _ _ Hs) in E1. apply E1. }
      destruct (in_db _ (ss_world s)) as [r w]. cbn [fst ss_world]. cbn [snd] in Q. rewrite Q. exact St.
    - destruct (nth_error (ss_accepted s) n) as [rq|] eqn:En; [|exact St].
      destruct (token_process _ _ _ _ _ _ _ _ _ _) as [r w] eqn:E. cbn [fst ss_world].
      assert (X := keep_token (sy_sid_of y) Hs (sy_cx y) (sy_idtoken y) (sy_sharing y) (sy_helpers y) m1 m2 ir rq).
      lapply X; [intros Y|].
      + specialize (Y (ss_world s) St). rewrite E in Y. apply Y.
      + intros k p u c g Pr Sf Sp. apply (N u c Sf). exists rq, k, p, g. auto.
    - match goal with |- context [in_db ?m ?w] => assert (Q : w_db (snd (in_db m w)) = w_db w) end.
      { apply in_db_same, userinfo_state. }
      destruct (in_db _ (ss_world s)) as [r w]. cbn [fst ss_world]. cbn [snd] in Q. rewrite Q. exact St.
    - match goal with |- context [in_db ?m ?w] => assert (Q : w_db (snd (in_db m w)) = w_db w) end.
      { apply in_db_same, introspection_state. }
      destruct (in_db _ (ss_world s)) as [r w]. cbn [fst ss_world]. cbn [snd] in Q. rewrite Q. exact St.
    - destruct P as (u1 & c1 & g1 & H1 & H2 & H3 & _ & _ & ->). cbn [fst ss_world].
      assert (X := keep_logout e u1 c1 g1 alla H1 H2 H3). lapply X; [intros Y|].
      + specialize (Y (ss_world s) St). unfold do_verified_logout.
        destruct ((if alla then logout_all_clients e _ else logout_from_client e _) (ss_world s)) as [[nn|x] w']; [|exact (proj1 Y)].
        destruct (post_all e (no_back nn)) as [sent r]. exact (proj1 Y).
      + destruct alla.
        * intros c' Sf. apply (N u1 c' Sf). exists c1, g1. auto.
        * intros Sf. apply (N u1 c1 Sf). exists c1, g1. auto.
    - cbn [fst ss_world]. lapply (keep_revocation (sy_sharing y) op P).
      + intros X. apply (tri_in_db _ _ X (ss_world s) St).
      + intros Sf. apply (N _ _ Sf). split; reflexivity.
    - exact St.
  Qed.
End Keep.

Lemma order_step is_user y o s : sids_ok (sy_sid_of y) -> proper_names is_user o -> orderly is_user s -> orderly is_user (fst (sstep y o s)).
Proof.
  intros Hs P [Wf T]. destruct (call_keeps is_user (fun _ _ => False) (w_db (ss_world s)) y o s Hs P) as (A & B & _).
  - contradiction.
  - split; [exact Wf|]. split; [exact T|]. contradiction.
  - split; assumption.
Qed.
Lemma view_step is_user y o s u c g : sids_ok (sy_sid_of y) -> good u -> good c -> good g -> orderly is_user s -> proper_names is_user o -> ~ about y s o u c ->
  view (w_db (ss_world (fst (sstep y o s)))) [u; c; g] = view (w_db (ss_world s)) [u; c; g].
Proof.
  intros Hs Hu Hc Hg [Wf T] P N. destruct (call_keeps is_user (fun u' c' => u' = u /\ c' = c) (w_db (ss_world s)) y o s Hs P) as (_ & _ & F).
  - intros u' c' [-> ->]. exact N.
  - split; [exact Wf|]. split; [exact T|]. reflexivity.
  - apply F; auto.
Qed.

(** ** Histories *)
Lemma srun_state y l : forall s p p', fst (srun y l s p) = fst (srun y l s p').
Proof. induction l as [|o l IH]; intros s p p'; [reflexivity|]. cbn [srun]. destruct (sstep y o s) as [s' r]. apply IH. Qed.
Lemma orderly_run is_user y l : sids_ok (sy_sid_of y) -> Forall (proper_names is_user) l ->
  forall s p, orderly is_user s -> orderly is_user (fst (srun y l s p)).
Proof.
  intros Hs. induction 1 as [|o l Ho Hl IH]; intros s p O; [exact O|]. cbn [srun]. pose proof (order_step is_user y o s Hs Ho O) as X.
  destruct (sstep y o s) as [s' r]. now apply IH.
Qed.
Lemma elsewhere_run is_user y u c l : sids_ok (sy_sid_of y) -> good u -> good c -> forall s p, orderly is_user s -> elsewhere is_user y u c l s ->
  orderly is_user (fst (srun y l s p)) /\ forall g, good g -> view (w_db (ss_world (fst (srun y l s p)))) [u; c; g] = view (w_db (ss_world s)) [u; c; g].
Proof.
  intros Hs Hu Hc. induction l as [|o l IH]; intros s p O E; [auto|]. destruct E as (P & N & E). cbn [srun].
  pose proof (order_step is_user y o s Hs P O) as X.
  assert (Y : forall g, good g -> view (w_db (ss_world (fst (sstep y o s)))) [u; c; g] = view (w_db (ss_world s)) [u; c; g]).
  { intros g Hg. eapply view_step; eauto. }
  destruct (sstep y o s) as [s' r]. cbn [fst] in *. destruct (IH s' ((o, r) :: p) X E) as [A B]. split; [exact A|].
  intros g Hg. rewrite B by assumption. now apply Y.
Qed.

(** ** Reading depends on the session only *)
Lemma read_same q s s' e : view s q = Some e -> view s' q = Some e -> fst (db_read q s') = fst (db_read q s).
Proof.
  intros V V'. destruct (read_cases q s) as [(x & -> & Vx)|(x & _ & Vx)]; [|congruence].
  destruct (read_cases q s') as [(x' & -> & Vx')|(x' & _ & Vx')]; [|congruence]. cbn. congruence.
Qed.
Lemma info_same u c g s s' e : good u -> good c -> good g -> view s [u; c; g] = Some e -> view s' [u; c; g] = Some e ->
  get_session_info (session_key [u; c; g]) false false true false false s =
    (Ok (mkSI (session_key [u; c; g]) u c g None None (Some e) None None), s) /\
  get_session_info (session_key [u; c; g]) false false true false false s' =
    (Ok (mkSI (session_key [u; c; g]) u c g None None (Some e) None None), s').
Proof.
  intros Hu Hc Hg V V'. unfold get_session_info. rewrite unpack3_good by assumption. unfold bind, lift, ret.
  destruct (read_cases [u; c; g] s) as [(x & -> & Vx)|(x & _ & Vx)]; [|congruence].
  destruct (read_cases [u; c; g] s') as [(x' & -> & Vx')|(x' & _ & Vx')]; [|congruence].
  assert (x = e) by congruence. assert (x' = e) by congruence. subst. auto.
Qed.

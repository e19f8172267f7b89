(** SetupAuthProofs.v: proofs about finding out who the user is. *)
From Verif Require Import Base BaseProofs Monad MonadProofs Types SessionKey SessionKeyProofs Token Grant Database DatabaseSpec DatabaseProofs
  Manager ManagerSpec ManagerProofs Ctx Scopes Claims World Minting WorldSpec WorldProofs AuthnBroker Response AuthzEndpoint SetupAuth SetupAuthSpec.
Local Open Scope Z_scope.

Lemma changed_get e request k : k <> "acr_values"%string -> dget k (changed e request) = dget k request.
Proof.
  intros N. assert (L : forall b, dget k (listed_acrs b request) = dget k request).
  { intros b. unfold listed_acrs.
    destruct (br_db b) as [|x [|y l]]; auto; (destruct (dget "acr_values" request) as [[]|]; auto; apply dget_dset_neq; auto). }
  unfold changed. destruct (au_method_id e) as [[|]|], (au_acr e) as [[|]|]; auto.
Qed.

Lemma age_limit_ext r r' : (forall k, k <> "acr_values"%string -> dget k r' = dget k r) -> age_limit r' = age_limit r.
Proof.
  intros H. unfold age_limit, max_age, dget_or. rewrite !H by discriminate. reflexivity.
Qed.
Lemma age_limit_changed e request : age_limit (changed e request) = age_limit request.
Proof. apply age_limit_ext. intros. apply changed_get. auto. Qed.
Lemma asks_none_changed e request : asks_none (changed e request) = asks_none request.
Proof. unfold asks_none. rewrite changed_get by discriminate. reflexivity. Qed.

Lemma val_eqb_str s v : val_eqb (VStr s) v = true -> v = VStr s.
Proof. destruct v; try discriminate. intros H. apply String.eqb_eq in H. congruence. Qed.

Lemma prompts_none_asks request : prompts "none" request -> asks_none request = Ok true.
Proof.
  intros (l & E & I). unfold asks_none. rewrite E. cbn [val_in]. f_equal. apply existsb_exists. exists (VStr "none").
  split; [exact I|]. reflexivity.
Qed.

Lemma dsub_ok {A} k (d : dict A) v : dsub k d = Ok v -> dget k d = Some v.
Proof. unfold dsub, of_option. destruct (dget k d); congruence. Qed.

Lemma dsub_get {A} k (d : dict A) v : dget k d = Some v -> dsub k d = Ok v.
Proof. unfold dsub. now intros ->. Qed.

(** ** Reading *)
Lemma in_db_ok {A} (m : DB A) w a w' : in_db m w = (Ok a, w') -> exists s', m (w_db w) = (Ok a, s') /\ w' = mkW s' (w_cdb w).
Proof. unfold in_db. destruct (m (w_db w)) as [r s']. intros H. assert (r = Ok a) by congruence. subst. exists s'. split; congruence. Qed.
Lemma world_eta w : mkW (w_db w) (w_cdb w) = w.
Proof. destruct w; reflexivity. Qed.
Lemma mget_ok sid w x w' : in_db (mget sid) w = (Ok x, w') -> w' = w /\ db_read (unpack_session_key sid) (w_db w) = (Ok x, w_db w).
Proof.
  intros H. destruct (in_db_ok _ _ _ _ H) as (s' & E & ->). unfold mget in E.
  pose proof (db_read_state (unpack_session_key sid) (w_db w)) as S. rewrite E in S. cbn in S. subst s'.
  split; [apply world_eta|exact E].
Qed.
Lemma as_grant_ok x w g w' : in_db (as_grant x) w = (Ok g, w') -> w' = w /\ x = EGrant g.
Proof.
  intros H. destruct (in_db_ok _ _ _ _ H) as (s' & E & ->). destruct x; cbn in E; [discriminate|].
  assert (g0 = g /\ s' = w_db w) as [-> ->] by (unfold ret in E; split; congruence). split; [apply world_eta|reflexivity].
Qed.

(** The identity comes from the method, or from what it gives as uid *)
Lemma identify_inv e m request w o ts w' : identify e m request w = (Ok (o, ts), w') ->
  w' = w /\ exists limit, age_limit request = Ok limit /\
  match o with
  | None => nobody m request \/
      exists id0 uid id sid g, me_auth m limit = Ok (Some id0, ts) /\ dget "uid" id0 = Some uid /\
        au_decode e uid = Ok (Some (VDict id)) /\ dget "sid" id = Some (VStr sid) /\
        db_read (unpack_session_key sid) (w_db w) = (Ok (EGrant g), w_db w) /\ g_active (au_now e) g = false
  | Some id =>
      (me_auth m limit = Ok (Some id, ts) /\ (id = [] \/ exists uid, dget "uid" id = Some uid /\ au_decode e uid = Ok None)) \/
      exists id0 uid sid g, me_auth m limit = Ok (Some id0, ts) /\ dget "uid" id0 = Some uid /\
        au_decode e uid = Ok (Some (VDict id)) /\ dget "sid" id = Some (VStr sid) /\
        db_read (unpack_session_key sid) (w_db w) = (Ok (EGrant g), w_db w) /\ g_active (au_now e) g = true
  end.
Proof.
  intros H. unfold identify in H. destruct (bind_ok _ _ _ _ _ H) as (limit & w1 & E1 & H1). clear H.
  assert (age_limit request = Ok limit /\ w1 = w) as [E ->] by (unfold lift in E1; split; congruence). clear E1.
  destruct (me_auth m limit) as [[[id0|] t0]|x] eqn:A.
  - destruct id0 as [|p id0].
    + assert (o = Some [] /\ ts = t0 /\ w' = w) as (-> & -> & ->) by (unfold ret in H1; repeat split; congruence).
      split; [reflexivity|]. exists limit. split; [exact E|]. left. auto.
    + destruct (bind_ok _ _ _ _ _ H1) as (uid & w2 & E2 & H2). clear H1.
      assert (dsub "uid" (p :: id0) = Ok uid /\ w2 = w) as [U ->] by (unfold lift in E2; split; congruence). clear E2.
      assert (U' : dget "uid" (p :: id0) = Some uid) by (apply dsub_ok; exact U).
      destruct (bind_ok _ _ _ _ _ H2) as (d & w3 & E3 & H3). clear H2.
      assert (au_decode e uid = Ok d /\ w3 = w) as [D ->] by (unfold lift in E3; split; congruence). clear E3.
      destruct d as [[| | | | |id2]|]; try discriminate.
      * destruct (bind_ok _ _ _ _ _ H3) as (x & w4 & E4 & H4). clear H3.
        destruct (dget "sid" id2) as [[| | |sid| |]|] eqn:S; try discriminate.
        destruct (mget_ok _ _ _ _ E4) as [-> R].
        destruct (bind_ok _ _ _ _ _ H4) as (g & w5 & E5 & H5). clear H4.
        destruct (as_grant_ok _ _ _ _ E5) as [-> ->].
        unfold ret in H5. injection H5 as <- <- <-.
        split; [reflexivity|]. exists limit. split; [exact E|].
        destruct (g_active (au_now e) g) eqn:Ga; [right; exists (p :: id0), uid, sid, g|right; exists (p :: id0), uid, id2, sid, g]; auto 8.
      * unfold ret in H3. injection H3 as <- <- <-.
        split; [reflexivity|]. exists limit. split; [exact E|]. left. eauto.
  - unfold ret in H1. injection H1 as <- <- <-.
    split; [reflexivity|]. exists limit. split; [exact E|]. left. exists limit. eauto.
  - destruct x; try discriminate;
      (unfold ret in H1; injection H1 as <- <- <-;
       split; [reflexivity|]; exists limit; split; [exact E|]; left; exists limit; auto).
Qed.

Lemma identify_nobody e m request w : nobody m request -> exists ts, identify e m request w = (Ok (None, ts), w).
Proof.
  intros (limit & E & H). unfold identify, bind, lift. rewrite E.
  destruct H as [[ts ->]|[-> | ->]]; eexists; reflexivity.
Qed.
Lemma identify_finds e m request id ts w : finds e m request id ts -> identify e m request w = (Ok (Some id, ts), w).
Proof.
  intros (limit & uid & E & A & U & D). unfold identify, bind, lift. rewrite E, A.
  destruct id as [|p id]; [reflexivity|]. rewrite (dsub_get _ _ _ U), D. reflexivity.
Qed.
Lemma nobody_changed e m request : nobody m (changed e request) <-> nobody m request.
Proof. unfold nobody. rewrite age_limit_changed. tauto. Qed.
Lemma finds_changed e m request id ts : finds e m (changed e request) id ts <-> finds e m request id ts.
Proof. unfold finds. rewrite age_limit_changed. tauto. Qed.

Lemma authn_args_ok e request acr cinfo ru uri : dget "redirect_uri" request = Some uri ->
  exists args, authn_args e (changed e request) acr cinfo ru = Ok args.
Proof.
  intros U. assert (U' : dget "redirect_uri" (changed e request) = Some uri) by (rewrite changed_get; [exact U|discriminate]).
  unfold authn_args. rewrite (dsub_get _ _ _ U'). eexists. reflexivity.
Qed.

(** ** setup_auth *)
(** What follows once the identity is known *)
Definition go_on (e : auth_env) (request : msg) (name : string) (args : msg) (m : method) (acr : string) (ru : option val)
    (uri : val) (identity : option msg) : W setup :=
  match identity with
  | None =>
      none <-- lift (asks_none request) ;;
      if none : bool then
        rt <-- lift (dsub "response_type" request) ;;
        ret (SError [("error", VStr "login_required"); ("return_uri", uri); ("return_type", rt)])
      else ret (SLogin name args)
  | Some id =>
        user <-- lift (dsub "uid" id) ;;
        if match ru with Some r => negb (val_eqb user r) | None => false end then
          none <-- lift (asks_none request) ;;
          ret (if none : bool then SError [("error", VStr "login_required"); ("return_uri", uri)]
               else SLogin name args)
        else
          o <-- match dget "sid" id with
                | Some v => known_session e request user v
                | None => ret (Some ""%string)
                end ;;
          match o with
          | None => ret (SLogin name args)
          | Some sid =>
              if nonempty sid then
                v <-- valid_event e sid ;;
                ret (match v with None => SLogin name args | Some _ => SDone sid id user end)
              else
                sid <-- first_session e m acr request user ;;
                ret (SDone sid id user)
          end
  end.

Lemma setup_inv e request uri cinfo ru w s w' : setup_auth e request uri cinfo ru w = (Ok s, w') ->
  exists name acr m identity ts args, method_for e request name acr m /\
    identify e m (changed e request) w = (Ok (identity, ts), w) /\
    authn_args e (changed e request) acr cinfo ru = Ok args /\
    go_on e (changed e request) name args m acr ru uri identity w = (Ok s, w').
Proof.
  intros H. unfold setup_auth in H.
  destruct (bind_ok _ _ _ _ _ H) as ([name acr] & w1 & E1 & H1). clear H. unfold lift in E1.
  assert (pick_authn_method (au_broker e) (au_hint2acrs e) request (au_method_id e) (au_acr e) = Ok (name, acr) /\ w1 = w) as [P ->]
    by (split; congruence). clear E1.
  destruct (bind_ok _ _ _ _ _ H1) as (m & w2 & E2 & H2). clear H1. unfold lift in E2.
  assert (dsub name (au_methods e) = Ok m /\ w2 = w) as [M ->] by (split; congruence). clear E2.
  destruct (bind_ok _ _ _ _ _ H2) as ([identity ts] & w3 & E3 & H3). clear H2.
  destruct (identify_inv _ _ _ _ _ _ _ E3) as [-> _].
  destruct (bind_ok _ _ _ _ _ H3) as (args & w4 & E4 & H4). clear H3. unfold lift in E4.
  assert (authn_args e (changed e request) acr cinfo ru = Ok args /\ w4 = w) as [A ->] by (split; congruence). clear E4.
  exists name, acr, m, identity, ts, args. split; [|split; [exact E3|split; [exact A|exact H4]]].
  split; [exact P|]. apply dsub_ok. exact M.
Qed.

Lemma setup_run e request uri cinfo ru w name acr m identity ts args :
  method_for e request name acr m -> identify e m (changed e request) w = (Ok (identity, ts), w) ->
  authn_args e (changed e request) acr cinfo ru = Ok args ->
  setup_auth e request uri cinfo ru w = go_on e (changed e request) name args m acr ru uri identity w.
Proof.
  intros [P M] I A. unfold setup_auth. rewrite P. unfold lift at 1. rewrite (bind_run _ _ w (name, acr) w eq_refl). cbv beta iota zeta.
  rewrite (dsub_get _ _ _ M). unfold lift at 1. rewrite (bind_run _ _ w m w eq_refl). cbv beta.
  rewrite (bind_run _ _ _ _ _ I). cbv beta iota. rewrite A. unfold lift at 1. rewrite (bind_run _ _ w args w eq_refl). reflexivity.
Qed.
Lemma setup_raise e request uri cinfo ru w name acr m x :
  method_for e request name acr m -> identify e m (changed e request) w = (Raise x, w) ->
  setup_auth e request uri cinfo ru w = (Raise x, w).
Proof.
  intros [P M] I. unfold setup_auth. rewrite P. unfold lift at 1. rewrite (bind_run _ _ w (name, acr) w eq_refl). cbv beta iota zeta.
  rewrite (dsub_get _ _ _ M). unfold lift at 1. rewrite (bind_run _ _ w m w eq_refl). cbv beta.
  exact (bind_raise _ _ _ _ _ I).
Qed.

Lemma lift_ok {A} (r : result A) (w : world) a w' : lift r w = (Ok a, w') -> r = Ok a /\ w' = w.
Proof. unfold lift. intros; split; congruence. Qed.

(** reading an event *)
Lemma event_read u c g s gr : good u -> good c -> good g -> view s [u; c; g] = Some (EGrant gr) ->
  get_authentication_event (session_key [u; c; g]) s = (Ok (g_authn gr), s).
Proof.
  intros Hu Hc Hg V. unfold get_authentication_event, get_session_info.
  rewrite unpack3_good by auto. unfold bind, lift, ret, as_grant.
  destruct (read_cases [u; c; g] s) as [(x & R & V')|(x & R & V')]; [|congruence].
  rewrite R. assert (x = EGrant gr) by congruence. subst x. reflexivity.
Qed.
Lemma event_ok sid w ae w' : in_db (get_authentication_event sid) w = (Ok ae, w') ->
  w' = w /\ exists u c g gr, unpack3 sid = Ok (u, c, g) /\ db_read [u; c; g] (w_db w) = (Ok (EGrant gr), w_db w) /\ ae = g_authn gr.
Proof.
  intros H. destruct (in_db_ok _ _ _ _ H) as (s' & E & ->). clear H. unfold get_authentication_event, get_session_info, bind, lift, ret in E.
  destruct (unpack3 sid) as [[[u c] g]|]; [|discriminate].
  destruct (read_cases [u; c; g] (w_db w)) as [(x & R & V)|(x & R & V)]; rewrite R in E; [|discriminate].
  destruct x as [i|gr]; cbn [as_grant] in E; [discriminate|]. unfold ret in E. cbn [in_ae] in E.
  assert (ae = g_authn gr /\ s' = w_db w) as [-> ->] by (split; congruence).
  split; [apply world_eta|]. exists u, c, g, gr. auto.
Qed.
Lemma valid_event_ok e sid w o w' : valid_event e sid w = (Ok o, w') ->
  w' = w /\ exists u c g gr ae, unpack3 sid = Ok (u, c, g) /\ db_read [u; c; g] (w_db w) = (Ok (EGrant gr), w_db w) /\
    g_authn gr = Some ae /\ o = if ae_is_valid (au_now e) ae then Some ae else None.
Proof.
  intros H. unfold valid_event in H. destruct (bind_ok _ _ _ _ _ H) as (a & w1 & E & H1). clear H.
  destruct (event_ok _ _ _ _ E) as (-> & u & c & g & gr & U & R & ->).
  destruct (g_authn gr) as [ae|] eqn:A; [|discriminate].
  split; [unfold ret in H1; congruence|]. exists u, c, g, gr, ae. repeat split; auto. unfold ret in H1. congruence.
Qed.
Lemma valid_event_read e u c g gr ae w : good u -> good c -> good g -> view (w_db w) [u; c; g] = Some (EGrant gr) ->
  g_authn gr = Some ae ->
  valid_event e (session_key [u; c; g]) w = (Ok (if ae_is_valid (au_now e) ae then Some ae else None), w).
Proof.
  intros Hu Hc Hg V A. unfold valid_event, bind, in_db. rewrite (event_read u c g _ gr) by auto. rewrite A, world_eta. reflexivity.
Qed.

Lemma mget_read u c g x s : good u -> good c -> good g -> view s [u; c; g] = Some x -> mget (session_key [u; c; g]) s = (Ok x, s).
Proof.
  intros Hu Hc Hg V. unfold mget. rewrite unpack_good by auto with gp.
  destruct (read_cases [u; c; g] s) as [(y & R & V')|(y & R & V')]; [|congruence]. rewrite R. congruence.
Qed.

Lemma make_sub_public sha u sec salt r : make_sub sha "public" u sec salt r = Ok (public_id sha u salt).
Proof. reflexivity. Qed.

Lemma session_key3_ne u c g : nonempty (session_key [u; c; g]) = true.
Proof. unfold session_key. cbn [join]. destruct u; reflexivity. Qed.

(** ** A first session *)
Definition first_event (e : auth_env) (m : method) (u acr : string) : authn_event :=
  mkAE u (Some acr) (au_now e) (au_now e + lifetime m) None.
Lemma first_session_effect is_user e m acr (request : msg) u c w :
  well_formed is_user (w_db w) -> good u -> good c -> good (au_newid e) -> is_user u -> ~ is_user c ->
  dget "client_id" request = Some (VStr c) ->
  exists s', first_session e m acr request (VStr u) w = (Ok (session_key [u; c; au_newid e]), mkW s' (w_cdb w)) /\
    view s' [u; c; au_newid e] = Some (EGrant (new_grant (au_now e) (au_newid e) (public_id (au_sha e) u (au_salt e))
      (Some request) (Some (first_event e m u acr)) (au_rules e (w_cdb w) c) None)) /\
    (forall q, good_path q -> q <> [u] -> ~ is_prefix [u; c] q -> view s' q = view (w_db w) q).
Proof.
  intros W Hu Hc Hn Uu Uc C. unfold first_session. unfold bind at 1, lift at 1. cbn [str_of].
  unfold bind at 1, lift at 1, msub_str. rewrite C. unfold bind, gets, in_db, login_session. rewrite make_sub_public.
  set (ae := if me_expires m =? 0 then _ else _).
  assert (Ae : ae = first_event e m u acr).
  { unfold ae, first_event, lifetime, create_authn_event. cbn. destruct (me_expires m =? 0); reflexivity. }
  rewrite Ae.
  destruct (create_session_effect is_user (au_now e) (au_newid e) (Some (first_event e m u acr)) (Some request) u c
              (public_id (au_sha e) u (au_salt e)) (au_rules e (w_cdb w) c) None (w_db w) W Hu Hc Hn Uu Uc)
    as (s' & R & V & _ & _ & _ & F).
  rewrite R. exists s'. auto.
Qed.

(** a first session that succeeds is one of the user and the client *)
Lemma first_session_ok e m acr (request : msg) user w sid w' : first_session e m acr request user w = (Ok sid, w') ->
  exists u c, user = VStr u /\ msub_str "client_id" request = Ok c /\ (c <> "" -> sid = session_key [u; c; au_newid e])%string.
Proof.
  intros H. unfold first_session in H. destruct (bind_ok _ _ _ _ _ H) as (u & w1 & E1 & H1). clear H.
  destruct (lift_ok _ _ _ _ E1) as [U ->]. destruct (bind_ok _ _ _ _ _ H1) as (c & w2 & E2 & H2). clear H1.
  destruct (lift_ok _ _ _ _ E2) as [C ->]. destruct user; try discriminate. assert (s = u) by (cbn in U; congruence). subst s.
  exists u, c. split; [reflexivity|]. split; [exact C|]. intros N.
  destruct (bind_ok _ _ _ _ _ H2) as (cl & w3 & E3 & H3). clear H2. destruct (in_db_ok _ _ _ _ H3) as (s' & E & _).
  unfold login_session, create_session in E. destruct (bind_ok _ _ _ _ _ E) as (t & s1 & _ & E4). clear E.
  destruct (bind_ok _ _ _ _ _ E4) as (c' & s2 & E5 & E6). clear E4.
  assert (c' = c). { destruct c; [congruence|]. cbn [nonempty] in E5. unfold ret in E5. cbn in E5. congruence. } subst c'.
  destruct (bind_ok _ _ _ _ _ E6) as (t' & s3 & _ & E7). clear E6. unfold create_grant in E7.
  destruct (bind_ok _ _ _ _ _ E7) as (sb & s4 & _ & E8). destruct (bind_ok _ _ _ _ _ E8) as (t'' & s5 & _ & E9).
  unfold ret in E9. congruence.
Qed.

(** ** A known session *)
Lemma known_inv e (request : msg) user v w o w' : known_session e request user v w = (Ok o, w') ->
  exists sid u c g cid, v = VStr sid /\ unpack3 sid = Ok (u, c, g) /\ dget "client_id" request = Some cid /\
  ((o = None /\ w' = w) \/
   cid = VStr c /\ exists gr, db_read (unpack_session_key sid) (w_db w) = (Ok (EGrant gr), w_db w) /\ g_active (au_now e) gr = true /\
    ((o = Some sid /\ w' = w /\ exists r, g_authreq gr = Some r /\ au_same e request r = true) \/
     exists gr2 ae us, db_read [u; c; g] (w_db w) = (Ok (EGrant gr2), w_db w) /\ g_authn gr2 = Some ae /\ ae_is_valid (au_now e) ae = true /\
       user = VStr us /\ o = Some (session_key [us; c; au_newid e]) /\
       in_db (create_grant (au_now e) (au_newid e) (Some ae) (Some request) us c (sub_of e us request) None None) w
         = (Ok (session_key [us; c; au_newid e]), w'))).
Proof.
  intros H. unfold known_session in H. destruct (bind_ok _ _ _ _ _ H) as (sid & w1 & E1 & H1). clear H.
  destruct (lift_ok _ _ _ _ E1) as [V ->]. clear E1. destruct v as [| | |s0| |]; try discriminate. assert (s0 = sid) by congruence. subst s0. clear V.
  destruct (bind_ok _ _ _ _ _ H1) as ([[u c] g] & w2 & E2 & H2). clear H1. destruct (lift_ok _ _ _ _ E2) as [U ->]. clear E2.
  destruct (bind_ok _ _ _ _ _ H2) as (cid & w3 & E3 & H3). clear H2. destruct (lift_ok _ _ _ _ E3) as [C ->]. clear E3.
  assert (C' : dget "client_id" request = Some cid) by (apply dsub_ok; exact C).
  exists sid, u, c, g, cid. split; [reflexivity|]. split; [exact U|]. split; [exact C'|].
  destruct (val_eqb cid (VStr c)) eqn:Ec; cbn [negb] in H3.
  2: { left. unfold ret in H3. split; congruence. }
  assert (cid = VStr c). { destruct cid; try discriminate. cbn in Ec. apply String.eqb_eq in Ec. congruence. } subst cid.
  destruct (bind_ok _ _ _ _ _ H3) as (x & w4 & E4 & H4). clear H3. destruct (mget_ok _ _ _ _ E4) as [-> R]. clear E4.
  destruct (bind_ok _ _ _ _ _ H4) as (gr & w5 & E5 & H5). clear H4. destruct (as_grant_ok _ _ _ _ E5) as [-> ->]. clear E5.
  destruct (g_active (au_now e) gr) eqn:Ga; cbn [negb] in H5.
  2: { left. unfold ret in H5. split; congruence. }
  destruct (g_authreq gr) as [r|] eqn:Gr; [destruct (au_same e request r) eqn:S|].
  - right. split; [reflexivity|]. exists gr. split; [exact R|]. split; [exact Ga|]. left. unfold ret in H5.
    split; [congruence|]. split; [congruence|]. eauto.
  - destruct (bind_ok _ _ _ _ _ H5) as (o1 & w6 & E6 & H6). clear H5.
    destruct (valid_event_ok _ _ _ _ _ E6) as (-> & u' & c' & g' & gr2 & ae & U' & R' & A & ->).
    assert (u' = u /\ c' = c /\ g' = g) as (-> & -> & ->) by (repeat split; congruence).
    destruct (ae_is_valid (au_now e) ae) eqn:Av; [|left; unfold ret in H6; split; congruence].
    destruct (bind_ok _ _ _ _ _ H6) as (us & w7 & E7 & H7). clear H6. destruct (lift_ok _ _ _ _ E7) as [Us ->]. clear E7.
    destruct (bind_ok _ _ _ _ _ H7) as (cs & w8 & E8 & H8). clear H7. destruct (lift_ok _ _ _ _ E8) as [Cs ->]. clear E8.
    destruct (bind_ok _ _ _ _ _ H8) as (sid' & w9 & E9 & H9). clear H8. unfold ret in H9.
    assert (w9 = w') by congruence. subst w9. destruct user; try discriminate. assert (s = us) by (cbn in Us; congruence). subst s.
    assert (cs = c) by (cbn in Cs; congruence). subst cs.
    assert (sid' = session_key [us; c; au_newid e]).
    { destruct (in_db_ok _ _ _ _ E9) as (s' & Cg & _). unfold create_grant in Cg. destruct (bind_ok _ _ _ _ _ Cg) as (sb & s4 & _ & E).
      destruct (bind_ok _ _ _ _ _ E) as (t & s5 & _ & E'). unfold ret in E'. congruence. } subst sid'.
    right. split; [reflexivity|]. exists gr. split; [exact R|]. split; [exact Ga|]. right. exists gr2, ae, us.
    split; [exact R'|]. split; [exact A|]. split; [exact Av|]. split; [reflexivity|]. split; [congruence|exact E9].
  - destruct (bind_ok _ _ _ _ _ H5) as (o1 & w6 & E6 & H6). clear H5.
    destruct (valid_event_ok _ _ _ _ _ E6) as (-> & u' & c' & g' & gr2 & ae & U' & R' & A & ->).
    assert (u' = u /\ c' = c /\ g' = g) as (-> & -> & ->) by (repeat split; congruence).
    destruct (ae_is_valid (au_now e) ae) eqn:Av; [|left; unfold ret in H6; split; congruence].
    destruct (bind_ok _ _ _ _ _ H6) as (us & w7 & E7 & H7). clear H6. destruct (lift_ok _ _ _ _ E7) as [Us ->]. clear E7.
    destruct (bind_ok _ _ _ _ _ H7) as (cs & w8 & E8 & H8). clear H7. destruct (lift_ok _ _ _ _ E8) as [Cs ->]. clear E8.
    destruct (bind_ok _ _ _ _ _ H8) as (sid' & w9 & E9 & H9). clear H8. unfold ret in H9.
    assert (w9 = w') by congruence. subst w9. destruct user; try discriminate. assert (s = us) by (cbn in Us; congruence). subst s.
    assert (cs = c) by (cbn in Cs; congruence). subst cs.
    assert (sid' = session_key [us; c; au_newid e]).
    { destruct (in_db_ok _ _ _ _ E9) as (s' & Cg & _). unfold create_grant in Cg. destruct (bind_ok _ _ _ _ _ Cg) as (sb & s4 & _ & E).
      destruct (bind_ok _ _ _ _ _ E) as (t & s5 & _ & E'). unfold ret in E'. congruence. } subst sid'.
    right. split; [reflexivity|]. exists gr. split; [exact R|]. split; [exact Ga|]. right. exists gr2, ae, us.
    split; [exact R'|]. split; [exact A|]. split; [exact Av|]. split; [reflexivity|]. split; [congruence|exact E9].
Qed.

(** ** The endpoint *)
Lemma process_entered e az oidc w (request : msg) cid cinfo uri : entered e az oidc w request cid cinfo uri ->
  process_request e az oidc (inr request) w =
  (s <-- setup_auth e request uri cinfo None ;;
   match s with
   | SError info => ret (AError info)
   | SLogin name args => ret (AInteraction name args uri)
   | SDone sid _ _ => r <-- authz_part2 az (changed e request) sid ;; ret (AResponse r)
   end) w.
Proof.
  intros (C & Ci & P & U & R). unfold process_request.
  assert (C' : msub_str "client_id" request = Ok cid) by (unfold msub_str; rewrite C; reflexivity).
  rewrite C'. unfold lift at 1. rewrite (bind_run _ _ w cid w eq_refl). cbv beta.
  rewrite (bind_run (gets w_cdb) _ w (w_cdb w) w eq_refl). cbv beta.
  rewrite (dsub_get _ _ _ Ci). unfold lift at 1. rewrite (bind_run _ _ w cinfo w eq_refl). cbv beta.
  assert (X : (if is_nil cinfo then ret tt
     else scope <-- lift (of_option EKey (mget_list "scope" request)) ;;
          lift (check_unknown_scopes_policy (az_cx az) scope cinfo)) w = (Ok tt, w)).
  { destruct P as [-> |(sc & M & P)]; [reflexivity|]. destruct cinfo; [reflexivity|]. cbn [is_nil]. unfold bind, lift. rewrite M. cbn [of_option]. rewrite P. reflexivity. }
  rewrite (bind_run _ _ _ _ _ X). cbv beta. rewrite R. unfold lift at 1. rewrite (bind_run _ _ w None w eq_refl). cbv beta.
  rewrite (dsub_get _ _ _ U). unfold lift at 1. rewrite (bind_run _ _ w uri w eq_refl). reflexivity.
Qed.
Lemma process_inv e az oidc request w a w' : process_request e az oidc (inr request) w = (Ok a, w') ->
  exists uri cinfo ru s w1, dget "redirect_uri" request = Some uri /\
    (if oidc then do_request_user e request else Ok None) = Ok ru /\
    setup_auth e request uri cinfo ru w = (Ok s, w1) /\
    match s with
    | SError info => a = AError info /\ w' = w1
    | SLogin name args => a = AInteraction name args uri /\ w' = w1
    | SDone sid _ _ => exists r, a = AResponse r /\ authz_part2 az (changed e request) sid w1 = (Ok r, w')
    end.
Proof.
  intros H. unfold process_request in H. destruct (bind_ok _ _ _ _ _ H) as (cid & w1 & E1 & H1). clear H. destruct (lift_ok _ _ _ _ E1) as [_ ->].
  destruct (bind_ok _ _ _ _ _ H1) as (cl & w2 & E2 & H2). clear H1. assert (w2 = w) by (unfold gets in E2; congruence). subst w2.
  destruct (bind_ok _ _ _ _ _ H2) as (cinfo & w3 & E3 & H3). clear H2. destruct (lift_ok _ _ _ _ E3) as [_ ->].
  destruct (bind_ok _ _ _ _ _ H3) as (t & w4 & E4 & H4). clear H3.
  assert (w4 = w). { destruct (is_nil cinfo); [unfold ret in E4; congruence|]. destruct (bind_ok _ _ _ _ _ E4) as (sc & w5 & E5 & H5).
    destruct (lift_ok _ _ _ _ E5) as [_ ->]. destruct (lift_ok _ _ _ _ H5) as [_ ->]. reflexivity. } subst w4. clear E4.
  destruct (bind_ok _ _ _ _ _ H4) as (ru & w5 & E5 & H5). clear H4. destruct (lift_ok _ _ _ _ E5) as [R ->]. clear E5.
  destruct (bind_ok _ _ _ _ _ H5) as (uri & w6 & E6 & H6). clear H5. destruct (lift_ok _ _ _ _ E6) as [U ->]. clear E6.
  destruct (bind_ok _ _ _ _ _ H6) as (s & w7 & E7 & H7). clear H6.
  exists uri, cinfo, ru, s, w7. split; [apply dsub_ok; exact U|].
  split; [exact R|]. split; [exact E7|].
  destruct s; [unfold ret in H7; split; congruence..|].
  destruct (bind_ok _ _ _ _ _ H7) as (r & w8 & E8 & H8). unfold ret in H8. exists r. split; [congruence|].
  assert (w8 = w') by congruence. congruence.
Qed.

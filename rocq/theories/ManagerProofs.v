(** ManagerProofs.v: proofs about Manager.v. *)
From Verif Require Import Base BaseProofs Monad Types SessionKey SessionKeyProofs Token Grant GrantSpec GrantProofs
  Database DatabaseSpec DatabaseProofs Manager ManagerSpec.

Lemma unpack_good q : good_path q -> unpack_session_key (session_key q) = q.
Proof.
  intros [HF Hl]. apply session_key_roundtrip_iff. apply good_ids_ok; auto. intros ->. cbn in Hl. lia.
Qed.
Lemma unpack3_good u c g : good u -> good c -> good g -> unpack3 (session_key [u; c; g]) = Ok (u, c, g).
Proof. intros. unfold unpack3. rewrite unpack_good by auto with gp. reflexivity. Qed.

(** ** What an operation on one (user, client) pair may do *)
Record eff (is_user : string -> Prop) (u c : string) (G : string -> Prop) (s s' : store) : Prop := {
  eff_wf : well_formed is_user s -> well_formed is_user s';
  eff_frame : well_formed is_user s -> forall u' c' g', good u' -> good c' -> good g' ->
    (u', c') <> (u, c) -> view s' [u'; c'; g'] = view s [u'; c'; g'];
  eff_new : well_formed is_user s -> forall g, good g -> readable s' u c g -> readable s u c g \/ G g }.

Section Eff.
Context (is_user : string -> Prop) (u c : string) (G : string -> Prop).
Context (Hu : good u) (Hc : good c) (Huu : is_user u) (Hcc : ~ is_user c).
Notation E := (eff is_user u c G).

Lemma eff_refl s : E s s.
Proof. constructor; auto. Qed.
Lemma eff_trans s1 s2 s3 : E s1 s2 -> E s2 s3 -> E s1 s3.
Proof.
  intros [A1 A2 A3] [B1 B2 B3]. constructor; auto.
  - intros. rewrite B2; auto.
  - intros W g Hg R. destruct (B3 (A1 W) g Hg R); auto.
Qed.

Lemma eff_store3 s g v : good g -> G g \/ readable s u c g ->
  E s (snd (db_store [u; c; g] (EGrant v) s)).
Proof.
  intros Hg HG. constructor.
  - intros (Hk & Hl & Hs). split; [apply kinds_store3; auto|]. split; [apply linked_store3; auto|].
    intros u' c' Hu' Hc'. rewrite stored_store3 by auto with gp.
    rewrite (path_dec_neq [u'; c'] [u]), (path_dec_neq [u'; c'] [u; c; g]) by discriminate.
    destruct (path_dec [u'; c'] [u; c]) as [X|]; [inv X; auto|]. apply Hs; auto.
  - intros (Hk & Hl & Hs) u' c' g' Hu' Hc' Hg' Hn. apply store3_view; auto with gp; congruence.
  - intros (Hk & Hl & Hs) g' Hg' R. destruct (string_dec g' g) as [->|Hn]; [destruct HG; auto|].
    left. unfold readable in *.
    destruct (store3_view s u c g v Hk Hl Hu Hc Hg) as (_ & _ & _ & Vo).
    rewrite Vo in R; auto with gp; congruence.
Qed.

Lemma eff_store2 s v :
  (forall ci g, view s [u; c] = Some (EInfo ci) -> In g (si_sub v) -> In g (si_sub ci) \/ G g) ->
  (view s [u; c] = None -> si_sub v = []) ->
  E s (snd (db_store [u; c] (EInfo v) s)).
Proof.
  intros Hsub Hnone. constructor.
  - intros (Hk & Hl & Hs). split; [apply kinds_store2; auto|]. split; [apply linked_store2; auto|].
    intros u' c' Hu' Hc'. rewrite stored_store2 by auto with gp.
    rewrite (path_dec_neq [u'; c'] [u]) by discriminate.
    destruct (path_dec [u'; c'] [u; c]) as [X|]; [inv X; auto|]. apply Hs; auto.
  - intros (Hk & Hl & Hs) u' c' g' Hu' Hc' Hg' Hn. apply store2_view; auto with gp; [|discriminate].
    intros (r & Er). inv Er. congruence.
  - intros (Hk & Hl & Hs) g' Hg' R. unfold readable in *.
    destruct (store2_view s u c v Hk Hl Hu Hc) as (_ & _ & V3 & _).
    rewrite V3 in R by auto. destruct (smem g' (si_sub v)) eqn:Em; [|congruence]. apply smem_In in Em.
    destruct (view s [u; c]) as [e|] eqn:Ev.
    + assert (Ev' := Ev). rewrite linked_view2 in Ev' by auto.
      destruct (kinds_info s [u; c] e Hk (gp2 u c Hu Hc) ltac:(cbn; lia) Ev') as [ci ->].
      destruct (Hsub ci g' eq_refl Em) as [Hi|]; auto. left. rewrite view3, Ev.
      apply smem_In in Hi. rewrite Hi. exact R.
    + rewrite Hnone in Em by auto. contradiction.
Qed.

Lemma eff_store1 s v : view s [u] = None -> E s (snd (db_store [u] (EInfo v) s)).
Proof.
  intros Hv. rewrite view1 in Hv.
  assert (H0 : linked s -> forall c', good c' -> stored s [u; c'] = None).
  { intros Hl c' Hc'. destruct (stored s [u; c']) eqn:X; auto.
    destruct (Hl u c' Hu Hc' ltac:(congruence)) as (ui & Y & _). congruence. }
  constructor.
  - intros (Hk & Hl & Hs). split; [apply kinds_store1; auto|]. split.
    + intros u' c' Hu' Hc'. rewrite !stored_store1 by auto with gp.
      rewrite (path_dec_neq [u'; c'] [u]) by discriminate. intros Hne.
      destruct (path_dec [u'] [u]) as [X|]; [inv X; rewrite H0 in Hne by auto; congruence|]. apply Hl; auto.
    + intros u' c' Hu' Hc'. rewrite stored_store1 by auto with gp.
      rewrite (path_dec_neq [u'; c'] [u]) by discriminate. apply Hs; auto.
  - intros (Hk & Hl & Hs) u' c' g' Hu' Hc' Hg' Hn.
    destruct (store1_view s u v Hk Hu) as (_ & V2 & Vo).
    destruct (string_dec u' u) as [->|Hne].
    + rewrite !view3, V2 by auto. rewrite H0 by auto. rewrite (view2 s), Hv.
      destruct (smem c' (si_sub v)); reflexivity.
    + apply Vo; auto with gp. intros (r & X). inv X. congruence.
  - intros (Hk & Hl & Hs) g Hg R. exfalso. unfold readable in R.
    destruct (store1_view s u v Hk Hu) as (_ & V2 & Vo).
    rewrite view3, V2, H0 in R by auto. destruct (smem c (si_sub v)); congruence.
Qed.

Lemma eff_poke3 sh s g v : good g -> view s [u; c; g] <> None ->
  E s (snd (poke sh (session_key [u; c; g]) (EGrant v) s)).
Proof.
  intros Hg Hv.
  assert (Hst : stored s [u; c; g] <> None).
  { rewrite view3 in Hv. destruct (view s [u; c]) as [[i|]|]; try congruence. destruct (smem g (si_sub i)); congruence. }
  pose proof (fun q => stored_poke sh [u; c; g] (EGrant v) s q (gp3 u c g Hu Hc Hg)) as Hs'.
  set (s' := snd (poke sh (session_key [u; c; g]) (EGrant v) s)) in *.
  assert (Hoth : forall q, good_path q -> q <> [u; c; g] -> stored s' q = stored s q).
  { intros q Hq Hn. rewrite Hs' by auto. apply path_dec_neq; auto. }
  constructor.
  - intros (Hk & Hl & Hs). split; [|split].
    + intros q e Hq. rewrite Hs' by auto. destruct (path_dec q [u; c; g]) as [->|]; [|apply Hk; auto].
      destruct sh; [intros X; inv X; reflexivity|apply Hk; auto].
    + intros u' c' Hu' Hc'. rewrite !Hoth by (auto with gp; discriminate). apply Hl; auto.
    + intros u' c' Hu' Hc'. rewrite !Hoth by (auto with gp; discriminate). apply Hs; auto.
  - intros W u' c' g' Hu' Hc' Hg' Hn. apply view_ext; auto with gp.
    intros p Hp (r & Ep). apply Hoth; auto. intros ->. destruct r; inv Ep. congruence.
  - intros W g' Hg' R. left. unfold readable in *.
    destruct (string_dec g' g) as [->|Hn]; [exact Hv|].
    rewrite view_ext with (s := s) in R; auto with gp.
    intros p Hp (r & Ep). apply Hoth; auto. intros ->. destruct r; inv Ep. congruence.
Qed.

Lemma eff_delete3 sh s g : good g -> E s (snd (db_delete sh [u; c; g] s)).
Proof.
  intros Hg.
  assert (W' : well_formed is_user s -> well_formed is_user (snd (db_delete sh [u; c; g] s))).
  { intros (Hk & Hl & Hs).
    assert (Hx : forall x, good x -> stored s [c; x] = None).
    { intros x Hx. destruct (stored s [c; x]) eqn:X; auto. exfalso. apply Hcc, (Hs c x); auto. congruence. }
    destruct (delete3_view sh s u c g Hk Hl Hu Hc Hg) as (s' & Es & Hk' & V3 & V2 & V1 & Vo & Hl').
    rewrite Es. cbn [snd]. split; [auto|]. split; [auto|].
    intros u' c' Hu' Hc' Hne.
    destruct (Hl' ltac:(auto) u' c' Hu' Hc' Hne) as (ui & X1 & X2).
    destruct (string_dec u' u) as [->|Hn]; auto.
    destruct (string_dec u' c) as [->|Hn2].
    - exfalso. apply smem_In in X2.
      assert (Hv : view s' [c; c'] <> None) by (rewrite view2, X1, X2; auto).
      (* below c nothing can appear: its key is untouched *)
      destruct (view s [u; c]) as [e|] eqn:Ev.
      + destruct (view_user_case s u c) as (ui0 & Eu & Em & Es0); [congruence|].
        rewrite Ev in Es0. destruct (kinds_info s [u; c] e Hk (gp2 u c Hu Hc) ltac:(cbn; lia) Es0) as [ci ->].
        destruct (delete3_spec sh s u c g ui0 ci Hu Hc Hg Hk Eu Em Es0) as (s2 & E2 & H2).
        rewrite Es in E2. inv E2. rewrite H2 in Hne by auto with gp.
        rewrite (path_dec_neq [c; c'] [u]), (path_dec_neq [c; c'] [u; c]),
          (path_dec_neq [c; c'] [u; c; g]), (path_dec_neq [c; c'] [c]) in Hne by congruence.
        rewrite Hx in Hne by auto. congruence.
      + destruct (delete3_noop sh s u c g Hu Hc Hg Hk Ev) as (s2 & E2 & H2). rewrite Es in E2. inv E2.
        rewrite H2, Hx in Hne by auto with gp. congruence.
    - assert (Hv : view s' [u'; c'] <> None) by (apply smem_In in X2; rewrite view2, X1, X2; auto).
      rewrite Vo in Hv; auto with gp; try congruence.
      rewrite linked_view2 in Hv by auto. eauto. }
  constructor; auto.
  - intros W u' c' g' Hu' Hc' Hg' Hn. assert (W2 := W' W). destruct W as (Hk & Hl & Hs).
    destruct (delete3_view sh s u c g Hk Hl Hu Hc Hg) as (s' & Es & Hk' & V3 & V2 & V1 & Vo & Hl').
    rewrite Es in *. cbn [snd] in *.
    destruct (string_dec u' c) as [->|Hne].
    + destruct W2 as (Hk2 & Hl2 & Hs2).
      assert (Hz : forall s0, linked s0 -> (forall u c, good u -> good c -> stored s0 [u; c] <> None -> is_user u) ->
        view s0 [c; c'; g'] = None).
      { intros s0 L S0. rewrite view3. rewrite linked_view2 by auto.
        destruct (stored s0 [c; c']) eqn:X; auto. exfalso. apply Hcc, (S0 c c'); auto. congruence. }
      rewrite !Hz; auto.
    + apply Vo; auto with gp; congruence.
  - intros W g' Hg' R. left. destruct W as (Hk & Hl & Hs).
    destruct (delete3_view sh s u c g Hk Hl Hu Hc Hg) as (s' & Es & Hk' & V3 & V2 & V1 & Vo & Hl').
    rewrite Es in *. cbn [snd] in *. unfold readable in *.
    destruct (string_dec g' g) as [->|Hn]; [congruence|].
    destruct (string_dec u c) as [X|Hne]; [subst; contradiction|].
    rewrite Vo in R; auto with gp; congruence.
Qed.
End Eff.

(** ** Each operation *)
Lemma eff_create_grant (is_user : string -> Prop) clock newid authn ar u c sub rules scopes s :
  good u -> good c -> good newid -> is_user u -> ~ is_user c ->
  eff is_user u c (eq newid) s (snd (create_grant clock newid authn ar u c sub rules scopes s)).
Proof.
  intros. unfold create_grant, bind at 1, lift at 1. destruct sub as [sb|e]; [|apply eff_refl].
  set (gr := new_grant _ _ _ _ _ _ _). unfold bind, ret.
  pose proof (eff_store3 is_user u c (eq newid) H H0 H2 s newid gr H1 (or_introl eq_refl)) as X.
  destruct (db_store [u; c; newid] (EGrant gr) s) as [[] s1]; exact X.
Qed.

Lemma db_read1 s u : db_read [u] s = (match stored s [u] with Some e => Ok e | None => Raise EKey end, s).
Proof.
  unfold db_read, bind, lift, db_sub, dsub, ret, stored. cbn [eval_path].
  change (session_key [u]) with u. destruct (dget u s); reflexivity.
Qed.

Lemma read_cases q s : (exists e, db_read q s = (Ok e, s) /\ view s q = Some e) \/
  (exists x, db_read q s = (Raise x, s) /\ view s q = None).
Proof.
  assert (H := db_read_state q s). unfold view. destruct (db_read q s) as [[e|x] s']; cbn in *; subst; eauto.
Qed.

Lemma view_kind s q e : kinds_ok s -> good_path q -> view s q = Some e ->
  match e with EInfo _ => (length q < 3)%nat | EGrant _ => length q = 3%nat end.
Proof. intros Hk Hq E. apply Hk; auto. apply view_stored; auto. Qed.

Lemma mstep_eff sh is_user op s : op_ok is_user op -> well_formed is_user s ->
  eff is_user (op_user op) (op_client op) (makes op) s (snd (mstep sh op s)).
Proof.
  intros (Hu & Hc & Hg & Huu & Hcc) W. destruct op; cbn [op_user op_client op_grant mstep makes] in *.
  - (* create_session *)
    unfold bind at 1, create_session, bind at 1, catch, bind at 1. rewrite db_read1.
    assert (P : forall s1, eff is_user u c (eq newid) s s1 ->
      eff is_user u c (eq newid) s (snd (match (cid <-- (if nonempty c then ret c else match ar with
                | Some m => lift (msub_str "client_id" m) | None => raise EType end) ;;
        db_store [u; cid] (EInfo (ClientSessionInfo (Some cid))) ;;;
        create_grant clock newid authn ar u cid sub rules scopes) s1 with
        | (Ok _, s') => (Ok tt, s') | (Raise e, s') => (Raise e, s') end))).
    { intros s1 Es1. rewrite good_tr by auto. unfold bind at 1, ret at 1. unfold bind at 1.
      pose proof (eff_store2 is_user u c (eq newid) Hu Hc Huu s1 (ClientSessionInfo (Some c))) as X.
      rewrite db_store2 in * by (auto; apply (eff_wf _ _ _ _ _ _ Es1 W)).
      cbn [snd] in X.
      match type of X with context [eff _ _ _ _ _ ?y] => set (s2 := y) in * end.
      assert (E2 : eff is_user u c (eq newid) s s2).
      { eapply eff_trans; [exact Es1|]. apply X; [|reflexivity]. intros ci g _ []. }
      pose proof (eff_create_grant is_user clock newid authn ar u c sub rules scopes s2 Hu Hc Hg Huu Hcc) as Y.
      destruct (create_grant clock newid authn ar u c sub rules scopes s2) as [[] s3]; eapply eff_trans; eauto. }
    destruct (stored s [u]) as [e|] eqn:Est; cbn [is_key_error].
    + unfold ret at 1. eapply P, eff_refl.
    + pose proof (eff_store1 is_user u c (eq newid) Hu Hc s (UserSessionInfo (Some u))) as X.
      rewrite db_store1 in *. cbn [snd] in X. apply P, X. rewrite view1. exact Est.
  - (* create_grant *)
    unfold bind at 1.
    pose proof (eff_create_grant is_user clock newid authn ar u c sub rules scopes s Hu Hc Hg Huu Hcc) as Y.
    destruct (create_grant clock newid authn ar u c sub rules scopes s) as [[] s3]; exact Y.
  - (* add_grant *)
    unfold add_grant, bind at 1.
    pose proof (eff_store3 is_user u c (fun g => g_id gr = g) Hu Hc Huu s (g_id gr) gr Hg (or_introl eq_refl)) as X.
    destruct W as (Hk & Hl & Hs). rewrite db_store3 in * by auto.
    cbn [snd] in X. match type of X with context [eff _ _ _ _ _ ?y] => set (s1 := y) in * end.
    assert (W1 := eff_wf _ _ _ _ _ _ X (conj Hk (conj Hl Hs))).
    unfold bind at 1. destruct (read_cases [u; c] s1) as [(e & -> & Ev)|(x & -> & Ev)]; [|exact X].
    destruct e as [ci|gg].
    + cbn [subordinate]. unfold bind at 1, lift at 1. cbn [set_subordinate].
      eapply eff_trans; [exact X|]. apply eff_store2; auto.
      * intros ci' g E Hi. assert (ci' = ci) by congruence. subst ci'. cbn in Hi.
        apply in_app_or in Hi as [Hi|[<-|[]]]; [left; exact Hi|right; reflexivity].
      * intros E; congruence.
    + exact X.
  - (* revoke_client_session *)
    unfold revoke_client_session. rewrite unpack_good by auto with gp. unfold bind at 1, ret at 1, bind at 1.
    destruct (read_cases [u; c] s) as [(e & -> & Ev)|(x & -> & Ev)]; [|apply eff_refl].
    destruct e as [ci|gg].
    + cbn [revoke_entry]. apply eff_store2; auto; [|congruence].
      intros ci' g' E Hi. assert (ci' = ci) by congruence. subst ci'. auto.
    + apply (view_kind s) in Ev; [discriminate|apply W|auto with gp].
  - (* revoke_grant *)
    unfold revoke_grant. rewrite unpack_good by auto with gp. unfold bind at 1.
    destruct (read_cases [u; c; g] s) as [(e & -> & Ev)|(x & -> & Ev)]; [|apply eff_refl].
    destruct e as [ci|gg].
    + apply (view_kind s) in Ev; [cbn in Ev; lia|apply W|auto with gp].
    + cbn [revoke_entry]. apply eff_store3; auto. right. unfold readable. congruence.
  - (* revoke_token *)
    unfold mgr_revoke_token. rewrite unpack3_good by auto. unfold bind at 1, lift at 1, bind at 1.
    destruct (read_cases [u; c; g] s) as [(e & -> & Ev)|(x & -> & Ev)]; [|apply eff_refl].
    unfold bind at 1. destruct e as [|gr]; [apply eff_refl|]. cbn [as_grant]. unfold ret at 1.
    destruct (get_token value gr); [|apply eff_refl]. unfold bind at 1.
    set (v1 := upd_token value (t_set_revoked true) gr).
    pose proof (eff_poke3 is_user u c (fun _ => False) Hu Hc sh s g v1 Hg ltac:(congruence)) as X.
    destruct (poke sh (session_key [u; c; g]) (EGrant v1) s) as [r s1] eqn:Ep. cbn [snd] in X.
    assert (Er : r = Ok tt) by (unfold poke, modify in Ep; inv Ep; auto). subst r.
    destruct recursive; [|exact X].
    unfold bind at 1, mget. rewrite unpack_good by auto with gp.
    destruct (read_cases [u; c; g] s1) as [(e & -> & Ev1)|(x & -> & Ev1)]; [|exact X].
    unfold bind at 1. destruct e as [|gr2]; [exact X|]. cbn [as_grant]. unfold ret at 1.
    destruct (revoke_dependent depth value (g_issued gr2)) as [l r].
    unfold bind at 1.
    pose proof (eff_poke3 is_user u c (fun _ => False) Hu Hc sh s1 g (g_set_issued l gr2) Hg ltac:(congruence)) as Y.
    destruct (poke sh (session_key [u; c; g]) (EGrant (g_set_issued l gr2)) s1) as [r2 s2] eqn:Ep2. cbn [snd] in Y.
    destruct r2; eapply eff_trans; eauto.
  - (* remove_session *)
    unfold remove_session. rewrite unpack3_good by auto. unfold bind, lift. apply eff_delete3; auto.
  - (* write back *)
    unfold get_grant. rewrite unpack3_good by auto. unfold bind at 1, bind at 1, lift at 1, bind at 1.
    destruct (read_cases [u; c; g] s) as [(e & -> & Ev)|(x & -> & Ev)]; [|apply eff_refl].
    destruct e as [|gr]; [apply eff_refl|]. unfold ret at 1, mset. rewrite unpack_good by auto with gp.
    apply eff_store3; auto. right. unfold readable. congruence.
Qed.

(** ** Histories *)
Lemma wf_empty is_user : well_formed is_user [].
Proof. split; [exact kinds_empty|]. split; [exact linked_empty|]. intros u c _ _ H. contradiction. Qed.

Lemma mrun_wf sh is_user ops : Forall (op_ok is_user) ops -> forall s, well_formed is_user s ->
  well_formed is_user (mrun sh ops s).
Proof.
  intros HF. induction HF as [|op ops Hop HF IH]; intros s W; [exact W|].
  cbn [mrun fold_left]. apply IH. apply (eff_wf _ _ _ _ _ _ (mstep_eff sh is_user op s Hop W)), W.
Qed.

Lemma mrun_frame sh is_user ops : Forall (op_ok is_user) ops -> forall s, well_formed is_user s ->
  forall u c g, good u -> good c -> good g ->
  (forall op, In op ops -> (op_user op, op_client op) <> (u, c)) ->
  view (mrun sh ops s) [u; c; g] = view s [u; c; g].
Proof.
  intros HF. induction HF as [|op ops Hop HF IH]; intros s W u c g Hu Hc Hg Hn; [reflexivity|].
  cbn [mrun fold_left]. pose proof (mstep_eff sh is_user op s Hop W) as X.
  change (view (mrun sh ops (snd (mstep sh op s))) [u; c; g] = view s [u; c; g]).
  rewrite IH; auto; [|apply (eff_wf _ _ _ _ _ _ X), W|intros op' Hi; apply Hn; right; auto].
  apply (eff_frame _ _ _ _ _ _ X); auto. intros Y. apply (Hn op); [left; auto|congruence].
Qed.

Lemma mrun_new sh is_user ops : Forall (op_ok is_user) ops -> forall s, well_formed is_user s ->
  forall u c g, good u -> good c -> good g -> ~ readable s u c g ->
  (forall op, In op ops -> ~ makes op g) -> ~ readable (mrun sh ops s) u c g.
Proof.
  intros HF. induction HF as [|op ops Hop HF IH]; intros s W u c g Hu Hc Hg Hr Hn; [exact Hr|].
  cbn [mrun fold_left]. pose proof (mstep_eff sh is_user op s Hop W) as X.
  change (~ readable (mrun sh ops (snd (mstep sh op s))) u c g).
  apply IH; auto; [apply (eff_wf _ _ _ _ _ _ X), W| |intros op' Hi; apply Hn; right; auto].
  intros R. destruct (string_dec u (op_user op)) as [Eu|Nu]; [destruct (string_dec c (op_client op)) as [Ec|Nc]|].
  - subst. destruct (eff_new _ _ _ _ _ _ X W g Hg R) as [Y|Y]; [auto|]. apply (Hn op); [left; auto|auto].
  - apply Hr. unfold readable in *. rewrite (eff_frame _ _ _ _ _ _ X) in R; auto. congruence.
  - apply Hr. unfold readable in *. rewrite (eff_frame _ _ _ _ _ _ X) in R; auto. congruence.
Qed.

Lemma removed_stays sh is_user h1 u c g h2 :
  Forall (op_ok is_user) (h1 ++ ORemove u c g :: h2) ->
  (forall op, In op h2 -> ~ makes op g) ->
  ~ readable (mrun sh (h1 ++ ORemove u c g :: h2) []) u c g.
Proof.
  intros HF Hn. apply Forall_app in HF as [HF1 HF2]. inv HF2.
  assert (W1 := mrun_wf sh is_user h1 HF1 [] (wf_empty is_user)).
  pose proof (mstep_eff sh is_user _ _ H1 W1) as X.
  destruct H1 as (Hu & Hc & Hg & Huu & Hcc). cbn [op_user op_client op_grant] in *.
  unfold mrun. rewrite fold_left_app. cbn [fold_left].
  change (~ readable (mrun sh h2 (snd (mstep sh (ORemove u c g) (mrun sh h1 [])))) u c g).
  eapply mrun_new; eauto; [apply (eff_wf _ _ _ _ _ _ X), W1|].
  intros R. apply R. cbn [mstep]. unfold remove_session. rewrite unpack3_good by auto.
  unfold bind, lift. destruct W1 as (Hk & Hl & Hs).
  destruct (delete3_view sh (mrun sh h1 []) u c g Hk Hl Hu Hc Hg) as (s' & Es & _ & V3 & _).
  rewrite Es. exact V3.
Qed.

(** ** revoke_token *)
Lemma dloop_rloop (rec1 rec2 : string -> list token -> list token * result unit) w : w <> ""%string ->
  forall rest i l, (forall t x, In t rest -> rec1 (t_value t) x = rec2 (t_value t) x \/ map sk x <> map sk l) ->
  (forall v x, map sk (fst (rec2 v x)) = map sk x) ->
  dloop rec1 w i rest l = rloop rec2 "" w true i rest l.
Proof.
  intros Hw. assert (En : nonempty w = true) by (apply nonempty_true; auto).
  induction rest as [|t rest IH]; intros i l H Hsk; [reflexivity|].
  cbn [dloop rloop]. rewrite En. cbn [nonempty negb andb orb].
  destruct (opt_eqb (t_based_on t) w).
  - destruct (H t (revoke_nth i l) (or_introl eq_refl)) as [->|X]; [|rewrite sk_revoke_nth in X; congruence].
    pose proof (Hsk (t_value t) (revoke_nth i l)) as Hs.
    destruct (rec2 (t_value t) (revoke_nth i l)) as [l2 [|]]; [|reflexivity].
    apply IH; auto. intros t' x Ht'. destruct (H t' x (or_intror Ht')) as [|X]; auto.
    right. cbn [fst] in Hs. rewrite Hs, sk_revoke_nth. auto.
  - apply IH; auto. intros t' x Ht'. apply H. right; auto.
Qed.

Lemma flagged_sk_list l l' : Forall2 flagged l l' -> map sk l' = map sk l.
Proof. intros H. apply Forall2_core_sk, flagged_core_list, H. Qed.

Lemma revoke_dependent_go d : forall w l, w <> ""%string -> (forall t, In t l -> t_value t <> ""%string) ->
  revoke_dependent d w l = revoke_go d "" w true l.
Proof.
  induction d as [|d IH]; intros w l Hw Hv; [reflexivity|].
  cbn [revoke_dependent]. rewrite revoke_go_S. apply dloop_rloop; auto.
  - intros t x Ht. destruct (list_eq_dec (fun a b : string * option string =>
      ltac:(repeat decide equality)) (map sk x) (map sk l)) as [E|]; [left|right; auto].
    apply IH; [auto|]. intros t' Ht'. apply (in_map sk) in Ht'. rewrite E in Ht'.
    apply in_map_iff in Ht' as (t2 & E2 & H2). injection E2 as E2 _. rewrite <- E2. auto.
  - intros v x. apply flagged_sk_list, revoke_go_flagged.
Qed.

Lemma upd_first_exact v l : NoDup (map t_value l) ->
  revokes_exactly (fun t => t_value t = v) l (upd_first v (t_set_revoked true) l).
Proof.
  intros Hnd. induction l as [|t l IH]; cbn in *; [constructor|]. inv Hnd.
  destruct (String.eqb (t_value t) v) eqn:E.
  - apply String.eqb_eq in E. constructor; [split; [auto|]; split; [auto|congruence]|].
    assert (Hn : forall t', In t' l -> t_value t' <> v).
    { intros t' Hi Heq. apply H1. rewrite E, <- Heq. apply in_map; auto. }
    clear -Hn. induction l as [|t' l IH]; [constructor|]. constructor.
    + split; [auto|]. split; [|auto]. intros X. exfalso. apply (Hn t'); [left; auto|auto].
    + apply IH. intros; apply Hn; right; auto.
  - apply String.eqb_neq in E. constructor; [|auto; apply IH; auto]. split; [auto|]. split; [congruence|auto].
Qed.

Lemma revokes_compose (P Q : string -> Prop) l l1 l2 :
  revokes_exactly (fun t => P (t_value t)) l l1 -> revokes_exactly (fun t => Q (t_value t)) l1 l2 ->
  revokes_exactly (fun t => P (t_value t) \/ Q (t_value t)) l l2.
Proof.
  intros H. revert l2. induction H as [|t t1 l l1 (A & B & C) H IH]; intros l2 H2; inv H2; constructor; [|apply IH; auto].
  destruct H3 as (A2 & B2 & C2).
  assert (Hval : t_value t1 = t_value t) by (destruct A as [-> | ->]; reflexivity). rewrite Hval in *.
  assert (Hrr : t_set_revoked true (t_set_revoked true t) = t_set_revoked true t) by reflexivity.
  split; [|split].
  - destruct A as [-> | ->], A2 as [-> | ->]; auto.
  - intros [HP|HQ].
    + rewrite (B HP) in A2. destruct A2 as [-> | ->]; auto.
    + rewrite (B2 HQ). destruct A as [-> | ->]; auto.
  - intros N. rewrite C2 by tauto. apply C. tauto.
Qed.

Lemma revokes_ext (P Q : token -> Prop) l l' : (forall t, In t l -> (P t <-> Q t)) ->
  revokes_exactly P l l' -> revokes_exactly Q l l'.
Proof.
  intros Hpq H. induction H as [|t t' l l' (A & B & C) H IH]; constructor.
  - assert (X := Hpq t (or_introl eq_refl)). split; [auto|]. split; intros; [apply B|apply C]; tauto.
  - apply IH. intros; apply Hpq; right; auto.
Qed.

Lemma get_token_in v g t : get_token v g = Some t -> In v (map t_value (g_issued g)).
Proof.
  unfold get_token. intros H. apply find_some in H as [Hi He]. apply String.eqb_eq in He. subst. apply in_map; auto.
Qed.
Lemma get_token_none v g : get_token v g = None -> ~ In v (map t_value (g_issued g)).
Proof.
  unfold get_token. intros H Hi. apply in_map_iff in Hi as (t & E & Hi).
  apply (find_none _ _ H) in Hi. rewrite E, String.eqb_refl in Hi. discriminate.
Qed.

Lemma mgr_revoke_false depth sid value r s : snd (mgr_revoke_token false depth sid value r s) = s.
Proof.
  unfold mgr_revoke_token, bind, lift. destruct (unpack3 sid) as [[[u c] g]|]; [|reflexivity].
  destruct (read_cases [u; c; g] s) as [(e & -> & Ev)|(x & -> & Ev)]; [|reflexivity].
  destruct e as [|gr]; [reflexivity|]. cbn [as_grant]. unfold ret.
  destruct (get_token value gr); [|reflexivity]. unfold poke, modify, mget. cbn [andb].
  destruct r; [|reflexivity].
  destruct (read_cases (unpack_session_key sid) s) as [(e & -> & _)|(x & -> & _)]; [|reflexivity].
  destruct e as [|gr2]; [reflexivity|]. cbn [as_grant]. unfold ret. destruct (revoke_dependent depth value (g_issued gr2)) as [l [|]]; reflexivity.
Qed.

Lemma view3_grant s u c g e : view s [u; c; g] = Some e -> stored s [u; c; g] = Some e.
Proof.
  rewrite view3. destruct (view s [u; c]) as [[i|]|]; try discriminate. destruct (smem g (si_sub i)); [auto|discriminate].
Qed.

(** changing the grant object in a sharing store *)
Lemma poke3_view s u c g v e : good u -> good c -> good g -> view s [u; c; g] = Some e ->
  exists s', poke true (session_key [u; c; g]) (EGrant v) s = (Ok tt, s') /\
    view s' [u; c; g] = Some (EGrant v) /\
    forall q, good_path q -> q <> [u; c; g] -> view s' q = view s q.
Proof.
  intros Hu Hc Hg Ev. eexists. split; [reflexivity|].
  match goal with |- view ?y _ = _ /\ _ => set (s' := y) end.
  assert (Hst := view3_grant _ _ _ _ _ Ev).
  assert (Hs' : forall q, good_path q -> stored s' q = if path_dec q [u; c; g] then Some (EGrant v) else stored s q).
  { intros q Hq. exact (stored_poke true [u; c; g] (EGrant v) s q (gp3 u c g Hu Hc Hg) Hq ltac:(congruence)). }
  assert (Hoth : forall q, good_path q -> q <> [u; c; g] -> view s' q = view s q).
  { intros q Hq Hn. apply view_ext; auto. intros p Hp (r & Er). rewrite Hs' by auto.
    apply path_dec_neq. intros ->. subst q. destruct r; [cbn in Hn; congruence|].
    destruct Hq as [_ Hq]. cbn in Hq. lia. }
  split; [|exact Hoth].
  rewrite view3 in *. rewrite Hoth by (auto with gp; discriminate).
  destruct (view s [u; c]) as [[i|]|]; try discriminate. destruct (smem g (si_sub i)); [|discriminate].
  rewrite Hs' by auto with gp. apply path_dec_refl.
Qed.

Lemma mgr_revoke_exact s u c g gr value recursive depth :
  good u -> good c -> good g -> view s [u; c; g] = Some (EGrant gr) ->
  lineage_ok (g_issued gr) -> In value (map t_value (g_issued gr)) ->
  (length (g_issued gr) < depth)%nat ->
  exists l' s', mgr_revoke_token true depth (session_key [u; c; g]) value recursive s = (Ok tt, s') /\
    view s' [u; c; g] = Some (EGrant (g_set_issued l' gr)) /\
    revokes_exactly (fun t => t_value t = value \/ recursive = true /\ derived (g_issued gr) value (t_value t))
      (g_issued gr) l' /\
    forall q, good_path q -> q <> [u; c; g] -> view s' q = view s q.
Proof.
  intros Hu Hc Hg Ev Hlin Hin Hd.
  assert (Hval : forall t, In t (g_issued gr) -> t_value t <> ""%string) by apply Hlin.
  assert (Hne : value <> ""%string).
  { apply in_map_iff in Hin as (t & <- & Hi). auto. }
  unfold mgr_revoke_token. rewrite unpack3_good by auto. unfold bind at 1, lift at 1, bind at 1.
  destruct (read_cases [u; c; g] s) as [(e & -> & Ev')|(x & _ & Ev')]; [|congruence].
  assert (e = EGrant gr) by congruence. subst e. cbn [as_grant]. unfold bind at 1, ret at 1.
  destruct (get_token value gr) as [t|] eqn:Et; [|apply get_token_none in Et; contradiction].
  unfold bind at 1.
  destruct (poke3_view s u c g (upd_token value (t_set_revoked true) gr) _ Hu Hc Hg Ev) as (s1 & Ep & V1 & Vo1).
  rewrite Ep. set (l1 := upd_first value (t_set_revoked true) (g_issued gr)).
  assert (R1 : revokes_exactly (fun t => t_value t = value) (g_issued gr) l1) by (apply upd_first_exact, Hlin).
  destruct recursive.
  - unfold bind at 1, mget. rewrite unpack_good by auto with gp.
    destruct (read_cases [u; c; g] s1) as [(e & -> & Ev1)|(x & _ & Ev1)]; [|congruence].
    rewrite V1 in Ev1. injection Ev1 as <-. cbn [as_grant]. unfold bind at 1, ret at 1.
    cbn [upd_token g_issued g_set_issued]. fold l1.
    assert (Hsk : map sk l1 = map sk (g_issued gr)) by (apply flagged_sk_list; eapply revokes_flagged; eauto).
    rewrite revoke_dependent_go; auto.
    2:{ intros t' Ht'. apply (in_map sk) in Ht'. rewrite Hsk in Ht'. apply in_map_iff in Ht' as (t2 & E2 & H2).
        injection E2 as E2 _. rewrite <- E2. auto. }
    destruct (revoke_based_exact depth value 0 (g_issued gr) l1 Hsk Hlin Hne) as (l2 & E2 & R2); [intros; lia|lia|].
    rewrite E2. unfold bind at 1.
    match goal with |- context [poke true _ (EGrant ?x) s1] =>
      destruct (poke3_view s1 u c g x _ Hu Hc Hg V1) as (s2 & Ep2 & V2 & Vo2) end.
    rewrite Ep2. unfold lift. exists l2, s2. split; [reflexivity|]. split; [exact V2|]. split.
    + pose proof (revokes_compose (fun x => x = value) (fun x => derived (g_issued gr) value x) _ _ _ R1 R2) as R.
      eapply revokes_ext; [|exact R]. intros; cbn; intuition.
    + intros q Hq Hn. rewrite Vo2, Vo1 by auto. reflexivity.
  - unfold ret. exists l1, s1. split; [reflexivity|]. split; [exact V1|]. split; [|exact Vo1].
    eapply revokes_ext; [|exact R1]. intros; cbn; intuition discriminate.
Qed.

(** ** revoke_grant, revoke_client_session *)
Lemma revoke_grant_effect s u c g gr : kinds_ok s -> linked s -> good u -> good c -> good g ->
  view s [u; c; g] = Some (EGrant gr) ->
  exists s', revoke_grant (session_key [u; c; g]) s = (Ok tt, s') /\
    view s' [u; c; g] = Some (EGrant (g_set_revoked true gr)) /\
    forall q, good_path q -> q <> [u; c; g] -> view s' q = view s q.
Proof.
  intros Hk Hl Hu Hc Hg Ev. unfold revoke_grant. rewrite unpack_good by auto with gp. unfold bind.
  destruct (read_cases [u; c; g] s) as [(e & -> & Ev')|(x & _ & Ev')]; [|congruence].
  assert (e = EGrant gr) by congruence. subst e. cbn [revoke_entry].
  destruct (store3_view s u c g (g_set_revoked true gr) Hk Hl Hu Hc Hg) as (V3 & V2 & V1 & Vo).
  rewrite db_store3 in * by auto. cbn [snd] in *. eexists. split; [reflexivity|]. split; [exact V3|].
  rewrite view3 in Ev. destruct (view s [u; c]) as [[ci|]|] eqn:Ec; try discriminate.
  destruct (smem g (si_sub ci)) eqn:Eg; [|discriminate].
  destruct (view_user_case s u c) as (ui & Eu & Em & Es); [congruence|].
  intros q Hq Hn. destruct (path_dec q [u; c]) as [->|N2]; [|destruct (path_dec q [u]) as [->|N1]; [|apply Vo; auto]].
  - rewrite V2, Ec. cbn [info_or]. unfold listing. rewrite Eg. reflexivity.
  - rewrite V1. rewrite view1, Eu. cbn [info_or]. unfold listing. rewrite Em. reflexivity.
Qed.

Lemma revoke_client_effect s u c g ci : kinds_ok s -> linked s -> good u -> good c -> good g ->
  view s [u; c] = Some (EInfo ci) ->
  exists s', revoke_client_session (session_key [u; c; g]) s = (Ok tt, s') /\
    view s' [u; c] = Some (EInfo (mkSInfo (si_kind ci) (si_id ci) (si_sub ci) true (si_extra ci))) /\
    forall q, good_path q -> q <> [u; c] -> view s' q = view s q.
Proof.
  intros Hk Hl Hu Hc Hg Ev. unfold revoke_client_session. rewrite unpack_good by auto with gp.
  unfold bind at 1, ret at 1, bind.
  destruct (read_cases [u; c] s) as [(e & -> & Ev')|(x & _ & Ev')]; [|congruence].
  assert (e = EInfo ci) by congruence. subst e. cbn [revoke_entry].
  set (v := mkSInfo _ _ _ _ _).
  destruct (store2_view s u c v Hk Hl Hu Hc) as (V2 & V1 & V3 & Vo).
  rewrite db_store2 in * by auto. cbn [snd] in *. eexists. split; [reflexivity|]. split; [exact V2|].
  destruct (view_user_case s u c) as (ui & Eu & Em & Es); [congruence|].
  intros q Hq Hn.
  destruct (good_path_cases q Hq) as [(u' & -> & Hu')|[(u' & c' & -> & Hu' & Hc')|(u' & c' & g' & -> & Hu' & Hc' & Hg')]].
  - destruct (string_dec u' u) as [->|]; [|apply Vo; auto; [intros (r & X); destruct r; inv X; congruence|congruence]].
    rewrite V1, view1, Eu. cbn [info_or]. unfold listing. rewrite Em. reflexivity.
  - apply Vo; auto; [|discriminate]. intros (r & X). inv X. congruence.
  - destruct (path_dec [u'; c'] [u; c]) as [X|N].
    + inv X. rewrite V3 by auto. rewrite view3, Ev. reflexivity.
    + apply Vo; auto; [|discriminate]. intros (r & X). inv X. congruence.
Qed.

(** ** create_session *)
Lemma create_session_effect is_user clock newid authn ar u c sub rules scopes s :
  well_formed is_user s -> good u -> good c -> good newid -> is_user u -> ~ is_user c ->
  exists s', create_session clock newid authn ar u c (Ok sub) rules scopes s = (Ok (session_key [u; c; newid]), s') /\
    view s' [u; c; newid] = Some (EGrant (new_grant clock newid sub ar authn rules scopes)) /\
    view s' [u; c] = Some (EInfo (with_sub [newid] (ClientSessionInfo (Some c)))) /\
    view s' [u] = Some (EInfo (listing c (info_or (UserSessionInfo (Some u)) (view s [u])))) /\
    (forall g, good g -> g <> newid -> view s' [u; c; g] = None) /\
    (forall q, good_path q -> q <> [u] -> ~ is_prefix [u; c] q -> view s' q = view s q).
Proof.
  intros W Hu Hc Hn Huu Hcc.
  assert (S0 : exists s0, catch (_ <-- db_read [u] ;; ret tt) is_key_error
        (db_store [u] (EInfo (UserSessionInfo (Some u)))) s = (Ok tt, s0) /\ kinds_ok s0 /\ linked s0 /\
        view s0 [u] = Some (EInfo (info_or (UserSessionInfo (Some u)) (view s [u]))) /\
        (forall q, good_path q -> q <> [u] -> view s0 q = view s q)).
  { destruct W as (Hk & Hl & Hs). unfold catch, bind. rewrite db_read1, view1.
    destruct (stored s [u]) as [e|] eqn:Eu.
    - destruct (kinds_info s [u] e Hk (gp1 u Hu) ltac:(cbn; lia) Eu) as [i ->].
      exists s. split; [reflexivity|]. rewrite view1, Eu. auto.
    - cbn [is_key_error]. rewrite db_store1. eexists. split; [reflexivity|].
      pose proof (eff_store1 is_user u c (fun _ => False) Hu Hc s (UserSessionInfo (Some u))) as X.
      rewrite view1 in X. specialize (X Eu). rewrite db_store1 in X. cbn [snd] in X.
      destruct (eff_wf _ _ _ _ _ _ X (conj Hk (conj Hl Hs))) as (Hk1 & Hl1 & _).
      destruct (store1_view s u (UserSessionInfo (Some u)) Hk Hu) as (V1 & V2 & Vo).
      rewrite db_store1 in *. cbn [snd] in *.
      split; [exact Hk1|]. split; [exact Hl1|]. split; [exact V1|].
      intros q Hq Nq. destruct (string_dec (hd "" q) u) as [Eh|Nh].
      + destruct (good_path_cases q Hq) as [(u' & -> & Hu')|[(u' & c' & -> & Hu' & Hc')|(u' & c' & g' & -> & Hu' & Hc' & Hg')]];
          cbn in Eh; subst u'; [congruence| |].
        * rewrite V2 by auto. rewrite view2, Eu. reflexivity.
        * rewrite view3, V2 by auto. cbn. rewrite view3, view2, Eu. reflexivity.
      + apply Vo; auto. intros (r & ->). cbn in Nh. congruence. }
  destruct S0 as (s0 & E0 & Hk0 & Hl0 & V0 & Vo0).
  unfold create_session. unfold bind at 1. rewrite E0. rewrite good_tr by auto. unfold bind at 1, ret at 1, bind at 1.
  destruct (store2_view s0 u c (ClientSessionInfo (Some c)) Hk0 Hl0 Hu Hc) as (V2 & V1 & V3 & Vo).
  assert (Hk1 : kinds_ok (snd (db_store [u; c] (EInfo (ClientSessionInfo (Some c))) s0))) by (apply kinds_store2; auto).
  assert (Hl1 : linked (snd (db_store [u; c] (EInfo (ClientSessionInfo (Some c))) s0))) by (apply linked_store2; auto).
  rewrite db_store2 in * by auto. cbn [snd] in *.
  match type of V2 with view ?y _ = _ => set (s1 := y) in * end.
  unfold create_grant. unfold bind at 1, lift at 1. unfold bind at 1.
  set (gr := new_grant _ _ _ _ _ _ _).
  destruct (store3_view s1 u c newid gr Hk1 Hl1 Hu Hc Hn) as (W3 & W2 & W1 & Wo).
  rewrite db_store3 in * by auto. cbn [snd] in *. unfold ret.
  eexists. split; [reflexivity|]. split; [exact W3|].
  split; [rewrite W2, V2; reflexivity|].
  split; [rewrite W1, V1, V0; cbn [info_or]; rewrite (listing_idem c); reflexivity|]. split.
  - intros g Hg Hgn. rewrite Wo by (auto with gp; congruence). rewrite V3 by auto. reflexivity.
  - intros q Hq N1 Np. rewrite Wo; auto.
    + rewrite Vo by auto. apply Vo0; auto.
    + intros ->. apply Np. exists [newid]. reflexivity.
    + intros ->. apply Np. exists []. reflexivity.
Qed.

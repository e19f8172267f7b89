(** SchedLost.v: writers that overwrite each other. *)
From Verif Require Import Base BaseProofs Monad Types SessionKey SessionKeyProofs Token Grant Database DatabaseSpec DatabaseProofs
  Manager ManagerSpec ManagerProofs Ctx Scopes Claims World Minting UserInfo TokenEndpoint WorldSpec WorldProofs Prog ProgProofs CrashSpec CrashProofs SchedSpec SchedProofs SchedRead.
From Verif Require IDToken.
Local Open Scope prog_scope.

(** ** One worker makes steps alone *)
Definition steps {A} (p : prog A) (w : world) (p' : prog A) (w' : world) : Prop :=
  exists n, still_to_do n p w = p' /\ after n p w = w'.
Lemma steps_refl {A} (p : prog A) w : steps p w p w.
Proof. now exists O. Qed.
Lemma steps_one {A} (p p1 p' : prog A) w w1 w' : pstep p w = Some (p1, w1) -> steps p1 w1 p' w' -> steps p w p' w'.
Proof. intros E (n & X & Y). exists (S n). cbn [still_to_do after]. rewrite E. auto. Qed.
Lemma steps_trans {A} n : forall (p p1 p' : prog A) w w1 w', still_to_do n p w = p1 -> after n p w = w1 -> steps p1 w1 p' w' -> steps p w p' w'.
Proof.
  induction n as [|n IH]; intros p p1 p' w w1 w' E1 E2 H; cbn [still_to_do after] in *; [subst; exact H|].
  destruct (pstep p w) as [[q wq]|] eqn:E; [|subst; exact H]. eapply steps_one; [exact E|]. eapply IH; eauto.
Qed.
Lemma steps_then {A} (p p1 p' : prog A) w w1 w' : steps p w p1 w1 -> steps p1 w1 p' w' -> steps p w p' w'.
Proof. intros (n & X & Y) H. eapply steps_trans; eauto. Qed.
Lemma steps_exec {A} (p : prog A) : forall w, steps p w (Done (fst (exec p w))) (snd (exec p w)).
Proof.
  induction p as [x|k f IH|k v p IH|k f IH|B m f IH]; intros w; cbn [exec].
  - apply steps_refl.
  - eapply steps_one; [reflexivity|apply IH].
  - eapply steps_one; [reflexivity|apply IH].
  - eapply steps_one; [reflexivity|apply IH].
  - destruct (m (w_db w) (w_cdb w)) as [r c] eqn:E. eapply steps_one; [cbn [pstep]; rewrite E; reflexivity|apply IH].
Qed.
Lemma pstep_bind {A B} (p p' : prog A) (k : A -> prog B) w w' : pstep p w = Some (p', w') -> pstep (pbind p k) w = Some (pbind p' k, w').
Proof.
  destruct p as [[a|e]|x f|x v p|x f|C m f]; cbn [pstep pbind]; intros E; try discriminate; try (injection E as <- <-; reflexivity).
  destruct (m (w_db w) (w_cdb w)) as [r c]. injection E as <- <-. reflexivity.
Qed.
Lemma steps_bind {A B} (p p' : prog A) (k : A -> prog B) w w' : steps p w p' w' -> steps (pbind p k) w (pbind p' k) w'.
Proof.
  intros (n & X & Y). revert p w X Y. induction n as [|n IH]; intros p w X Y; cbn [still_to_do after] in *; [subst; apply steps_refl|].
  destruct (pstep p w) as [[q wq]|] eqn:E; [|subst; apply steps_refl]. eapply steps_one; [apply pstep_bind; exact E|]. now apply IH.
Qed.
Lemma steps_ok {A B} (p : prog A) (k : A -> prog B) w a w1 : exec p w = (Ok a, w1) -> steps (pbind p k) w (k a) w1.
Proof. intros E. assert (X := steps_bind _ _ k _ _ (steps_exec p w)). rewrite E in X. exact X. Qed.
Lemma steps_same {A} (p p' : prog A) w w' : steps p w p' w' -> exec p' w' = exec p w.
Proof.
  intros (n & X & Y). revert p w X Y. induction n as [|n IH]; intros p w X Y; cbn [still_to_do after] in *; [subst; reflexivity|].
  destruct p as [x|k f|k v p|k f|B m f]; cbn [pstep] in *; try (subst; reflexivity); try (cbn [exec]; now apply IH).
  cbn [exec]. destruct (m (w_db w) (w_cdb w)) as [r c]. now apply IH.
Qed.

(** ** One goes so far, then the other does its call, then the first goes on *)
Lemma turns_app {A} l l' : forall (ps : list (prog A)) w, turns (l ++ l') ps w = turns l' (fst (turns l ps w)) (snd (turns l ps w)).
Proof. induction l as [|i l IH]; intros ps w; cbn [turns app fst snd]; [reflexivity|]. destruct (turn i ps w) as [ps' w']. apply IH. Qed.
Lemma turns_first {A} n : forall (p q : prog A) w, turns (repeat O n) [p; q] w = ([still_to_do n p w; q], after n p w).
Proof.
  induction n as [|n IH]; intros p q w; cbn [repeat turns still_to_do after turn]; [reflexivity|].
  destruct (pstep p w) as [[p' w']|] eqn:E; [apply IH|]. rewrite IH. destruct n; cbn [still_to_do after]; [reflexivity|]. now rewrite E.
Qed.
Lemma turns_second {A} n : forall (p q : prog A) w, turns (repeat 1%nat n) [p; q] w = ([p; still_to_do n q w], after n q w).
Proof.
  induction n as [|n IH]; intros p q w; cbn [repeat turns still_to_do after turn]; [reflexivity|].
  destruct (pstep q w) as [[q' w']|] eqn:E; [apply IH|]. rewrite IH. destruct n; cbn [still_to_do after]; [reflexivity|]. now rewrite E.
Qed.
Lemma in_between {A} (p q p1 : prog A) w w1 : steps p w p1 w1 ->
  exists l, turns l [p; q] w = ([Done (fst (exec p1 (snd (exec q w1)))); Done (fst (exec q w1))], snd (exec p1 (snd (exec q w1)))).
Proof.
  intros (n & X & Y). destruct (steps_exec q w1) as (m & X2 & Y2). destruct (steps_exec p1 (snd (exec q w1))) as (k & X3 & Y3).
  exists (repeat 0%nat n ++ repeat 1%nat m ++ repeat 0%nat k). rewrite !turns_app, turns_first. cbn [fst snd]. rewrite X, Y, turns_second. cbn [fst snd].
  rewrite X2, Y2, turns_first, X3, Y3. reflexivity.
Qed.

(** ** A revocation *)
Lemma exec_get_grant w u c g gr : good u -> good c -> good g -> view (w_db w) [u; c; g] = Some (EGrant gr) ->
  exec (p_get_grant (session_key [u; c; g])) w = (Ok gr, w).
Proof.
  intros Hu Hc Hg V. unfold p_get_grant. rewrite unpack3_good by assumption. cbn [pbind]. rewrite exec_bind, does_read. unfold in_db.
  assert (Z := db_read_state [u; c; g] (w_db w)). unfold view in V. destruct (db_read [u; c; g] (w_db w)) as [[e|x] s]; cbn [fst snd] in *; [|discriminate].
  subst s. rewrite mkW_eta. injection V as ->. reflexivity.
Qed.
Lemma view_after_set w u c g v : kinds_ok (w_db w) -> good u -> good c -> good g ->
  exec (p_store [u; c; g] (EGrant v)) w = (Ok tt, snd (exec (p_store [u; c; g] (EGrant v)) w)) /\
  view (w_db (snd (exec (p_store [u; c; g] (EGrant v)) w))) [u; c; g] = Some (EGrant v) /\
  kinds_ok (w_db (snd (exec (p_store [u; c; g] (EGrant v)) w))) /\
  w_cdb (snd (exec (p_store [u; c; g] (EGrant v)) w)) = w_cdb w.
Proof.
  intros Hk Hu Hc Hg. rewrite exec_store3 by assumption. cbn [snd w_db w_cdb]. split; [reflexivity|].
  assert (K1 : kinds_ok (dset (session_key [u; c; g]) (EGrant v) (w_db w))) by (apply kinds_dset; cbn; auto with gp).
  assert (K2 := kinds_store_client _ u c g K1 Hu Hc). split; [|split; [now apply kinds_store_user|reflexivity]].
  rewrite view3, view2, !stored_store_user by auto with gp.
  destruct (path_dec [u] [u]) as [_|N]; [|contradiction]. rewrite smem_listing. pd.
  rewrite !stored_store_client by auto with gp. pd. rewrite smem_listing. rewrite stored_dset by auto with gp. pd. reflexivity.
Qed.

Lemma revocation_lost w u c g gr f : kinds_ok (w_db w) -> good u -> good c -> good g ->
  view (w_db w) [u; c; g] = Some (EGrant gr) ->
  exists l w', turns l [p_mop (OWrite u c g f); p_mop (ORevokeGrant u c g)] w = ([Done (Ok tt); Done (Ok tt)], w') /\
    view (w_db w') [u; c; g] = Some (EGrant (f gr)).
Proof.
  intros Hk Hu Hc Hg V. cbn [p_mop].
  assert (G := exec_get_grant w u c g gr Hu Hc Hg V).
  assert (S1 : steps (p_write (session_key [u; c; g]) f) w (p_mset (session_key [u; c; g]) (EGrant (f gr))) w).
  { unfold p_write. exact (steps_ok _ (fun gr => p_mset _ (EGrant (f gr))) _ _ _ G). }
  destruct (in_between _ (p_revoke_grant (session_key [u; c; g])) _ _ _ S1) as [l El]. exists l. rewrite El. clear El S1.
  assert (R : exists w1, exec (p_revoke_grant (session_key [u; c; g])) w = (Ok tt, w1) /\ kinds_ok (w_db w1)).
  { unfold p_revoke_grant. rewrite unpack_good by auto with gp. rewrite exec_bind, does_read. unfold in_db.
    assert (Z := db_read_state [u; c; g] (w_db w)). unfold view in V. destruct (db_read [u; c; g] (w_db w)) as [[e|x] s]; cbn [fst snd] in *; [|discriminate].
    subst s. rewrite mkW_eta. injection V as ->. cbn [revoke_entry].
    eexists. destruct (view_after_set w u c g (g_set_revoked true gr) Hk Hu Hc Hg) as (E & _ & K & _). split; [exact E|exact K]. }
  destruct R as (w1 & E1 & K1). rewrite E1. cbn [fst snd]. unfold p_mset. rewrite unpack_good by auto with gp.
  destruct (view_after_set w1 u c g (f gr) K1 Hu Hc Hg) as (E & V1 & _ & _). rewrite E. cbn [fst]. eexists. split; [reflexivity|]. exact V1.
Qed.

(** ** Two log-ins of one user *)
Lemma set2_halfway w u c v : kinds_ok (w_db w) -> good u -> good c ->
  let s1 := dset (session_key [u; c]) (EInfo v) (w_db w) in
  smem c (si_sub (uopt (w_db w) u)) = false ->
  steps (p_store [u; c] (EInfo v)) w (Put u (EInfo (listing c (uopt (w_db w) u))) (Done (Ok tt))) (mkW s1 (w_cdb w)).
Proof.
  intros Hk Hu Hc s1 L. rewrite p_store2_eq by assumption.
  eapply steps_one; [reflexivity|]. eapply steps_one; [reflexivity|]. fold s1.
  unfold p_user_block, p_get. cbn [pbind pret]. eapply steps_one; [reflexivity|]. cbn [pbind pret w_db w_cdb]. cbv zeta.
  assert (Es : dget u s1 = stored (w_db w) [u]).
  { change (stored s1 [u] = stored (w_db w) [u]). unfold s1. rewrite stored_dset by auto with gp. pd. reflexivity. }
  rewrite Es. unfold uopt, info_or in *. unfold listing. rewrite L.
  destruct (stored (w_db w) [u]) as [e|] eqn:E.
  - destruct (kinds_info _ [u] e Hk (gp1 u Hu) ltac:(cbn; lia) E) as [i ->]. cbn [subordinate pbind set_subordinate negb]. rewrite L. cbn [negb]. apply steps_refl.
  - cbn [subordinate pbind set_subordinate negb UserSessionInfo si_sub smem existsb] in *. apply steps_refl.
Qed.
Definition greet (u : string) : prog unit :=
  pcatch (p_read [u] ;~ pret tt) is_key_error (p_store [u] (EInfo (UserSessionInfo (Some u)))).
Lemma exec_catch_ {A} (p : prog A) c h : forall w, exec (pcatch p c h) w =
  match exec p w with (Ok a, w1) => (Ok a, w1) | (Raise e, w1) => if c e then exec h w1 else (Raise e, w1) end.
Proof.
  induction p as [[a|e]|x f IH|x v p IH|x f IH|D m f IH]; intros w; cbn [pcatch exec]; auto.
  - destruct (c e); reflexivity.
  - destruct (m (w_db w) (w_cdb w)) as [r d]. auto.
Qed.
Lemma exec_greet w u : kinds_ok (w_db w) -> good u ->
  exists wa, exec (greet u) w = (Ok tt, wa) /\ kinds_ok (w_db wa) /\ w_cdb wa = w_cdb w /\
    (exists ui, stored (w_db wa) [u] = Some (EInfo ui)) /\ (forall c, unlisted_by (w_db w) u c -> unlisted_by (w_db wa) u c).
Proof.
  intros Hk Hu. unfold greet. rewrite exec_catch_, exec_bind.
  assert (R : exec (p_read [u]) w = (match stored (w_db w) [u] with Some e => Ok e | None => Raise EKey end, w)).
  { unfold p_read. cbn [eval_path pbind]. unfold p_sub. cbn [pbind exec]. unfold stored. cbn [session_key].
    change (session_key [u]) with u. destruct (dget u (w_db w)); reflexivity. }
  rewrite R. destruct (stored (w_db w) [u]) as [e|] eqn:E; cbn [exec pret is_key_error].
  - exists w. split; [reflexivity|]. split; [assumption|]. split; [reflexivity|].
    destruct (kinds_info _ [u] e Hk (gp1 u Hu) ltac:(cbn; lia) E) as [i ->]. split; [eauto|auto].
  - rewrite does_store. unfold in_db. rewrite db_store1. eexists. split; [reflexivity|]. cbn [w_db w_cdb].
    split; [exact (kinds_dset (w_db w) [u] (EInfo _) Hk (gp1 u Hu) ltac:(cbn; lia))|]. split; [reflexivity|].
    split; [rewrite stored_dset1 by auto with gp; pd; eauto|].
    intros c _ ui H. rewrite stored_dset1 in H by auto with gp. destruct (path_dec [u] [u]) as [_|N]; [|contradiction]. injection H as <-. reflexivity.
Qed.
Lemma exec_login w clock newid authn ar u c x rules scopes : kinds_ok (w_db w) -> good u -> good c -> good newid ->
  exists w', exec (p_create_session clock newid authn ar u c (Ok x) rules scopes) w = (Ok (session_key [u; c; newid]), w') /\ kinds_ok (w_db w').
Proof.
  intros Hk Hu Hc Hn. unfold p_create_session. fold (greet u). rewrite exec_bind.
  destruct (exec_greet w u Hk Hu) as (wa & Ea & Ka & _). rewrite Ea.
  assert (Ne : nonempty c = true) by (apply good_tr; assumption). rewrite Ne. cbn [pbind pret].
  rewrite exec_bind, exec_store2 by assumption. unfold p_create_grant. cbn [pbind].
  set (wb := mkW _ _). assert (Kb : kinds_ok (w_db wb)).
  { apply kinds_store_user; [|assumption]. apply kinds_dset; cbn; auto with gp. }
  rewrite exec_bind, exec_store3 by assumption. cbn [pret exec]. eexists. split; [reflexivity|]. cbn [w_db].
  apply kinds_store_user; [|assumption]. apply kinds_store_client; [|assumption..]. apply kinds_dset; cbn; auto with gp.
Qed.
Lemma login_lost w u c1 c2 clock1 newid1 authn1 ar1 x1 rules1 scopes1 clock2 newid2 authn2 ar2 x2 rules2 scopes2 :
  kinds_ok (w_db w) -> good u -> good c1 -> good c2 -> c1 <> c2 -> good newid1 -> good newid2 ->
  unlisted_by (w_db w) u c1 -> unlisted_by (w_db w) u c2 ->
  exists l w', turns l [p_create_session clock1 newid1 authn1 ar1 u c1 (Ok x1) rules1 scopes1;
                        p_create_session clock2 newid2 authn2 ar2 u c2 (Ok x2) rules2 scopes2] w =
      ([Done (Ok (session_key [u; c1; newid1])); Done (Ok (session_key [u; c2; newid2]))], w') /\
    view (w_db w') [u; c2; newid2] = None /\ view (w_db w') [u; c1; newid1] <> None.
Proof.
  intros Hk Hu H1 H2 N Hn1 Hn2 U1 U2.
  destruct (exec_greet w u Hk Hu) as (wa & Ea & Ka & Da & (ui & Su) & La). apply La in U1, U2.
  assert (L1 : smem c1 (si_sub (uopt (w_db wa) u)) = false) by (unfold uopt; rewrite Su; exact (U1 ui Su)).
  assert (L2 : smem c2 (si_sub (uopt (w_db wa) u)) = false) by (unfold uopt; rewrite Su; exact (U2 ui Su)).
  assert (Ne : nonempty c1 = true) by (apply good_tr; assumption).
  set (ci := ClientSessionInfo (Some c1)).
  set (s1 := dset (session_key [u; c1]) (EInfo ci) (w_db wa)).
  set (rest := p_create_grant clock1 newid1 authn1 ar1 u c1 (Ok x1) rules1 scopes1).
  assert (S1 : steps (p_create_session clock1 newid1 authn1 ar1 u c1 (Ok x1) rules1 scopes1) w
                 (Put u (EInfo (listing c1 (uopt (w_db wa) u))) rest) (mkW s1 (w_cdb wa))).
  { unfold p_create_session. fold (greet u). eapply steps_then; [exact (steps_ok (greet u) _ _ _ _ Ea)|].
    rewrite Ne. cbn [pbind pret]. fold ci rest.
    exact (steps_bind _ _ (fun _ => rest) _ _ (set2_halfway wa u c1 ci Ka Hu H1 L1)). }
  destruct (in_between _ (p_create_session clock2 newid2 authn2 ar2 u c2 (Ok x2) rules2 scopes2) _ _ _ S1) as [l El]. clear S1. exists l.
  assert (K1 : kinds_ok s1) by (apply kinds_dset; cbn; auto with gp).
  destruct (exec_login (mkW s1 (w_cdb wa)) clock2 newid2 authn2 ar2 u c2 x2 rules2 scopes2 K1 Hu H2 Hn2) as (w2 & E2 & K2).
  rewrite E2 in El. cbn [fst snd] in El. rewrite El. clear El. cbn [exec].
  set (w3 := mkW (dset u _ _) _). assert (K3 : kinds_ok (w_db w3)) by (exact (kinds_dset (w_db w2) [u] (EInfo _) K2 (gp1 u Hu) ltac:(cbn; lia))).
  unfold rest, p_create_grant. cbn [pbind]. rewrite exec_bind.
  destruct (view_after_set w3 u c1 newid1 (new_grant clock1 newid1 x1 ar1 authn1 rules1 scopes1) K3 Hu H1 Hn1) as (E3 & V3 & _ & _).
  rewrite E3. cbn [pret exec fst snd]. eexists. split; [reflexivity|]. split; [|rewrite V3; discriminate].
  rewrite exec_store3 by assumption. cbn [snd w_db]. rewrite view3, view2.
  assert (K4 : kinds_ok (dset (session_key [u; c1; newid1]) (EGrant (new_grant clock1 newid1 x1 ar1 authn1 rules1 scopes1)) (w_db w3))) by (apply kinds_dset; cbn; auto with gp).
  rewrite stored_store_user by (auto using kinds_store_client with gp). destruct (path_dec [u] [u]) as [_|X]; [|contradiction].
  rewrite smem_listing_neq by congruence. unfold uopt at 1. rewrite stored_store_client by auto with gp. pd. rewrite stored_dset by auto with gp. pd.
  unfold w3. cbn [w_db]. rewrite stored_dset1 by auto with gp. destruct (path_dec [u] [u]) as [_|X]; [|contradiction]. cbn [info_or].
  rewrite smem_listing_neq by congruence. rewrite L2. reflexivity.
Qed.

(** ** Two exchanges of one code *)
(** The same program in two worlds *)
Definition rel {A} (P Q : world -> world -> Prop) (p : prog A) : Prop :=
  forall w w', P w w' -> fst (exec p w) = fst (exec p w') /\
  match fst (exec p w) with Ok _ => Q (snd (exec p w)) (snd (exec p w')) | Raise _ => True end.
Lemma rel_bind {A B} (P Q R : world -> world -> Prop) (p : prog A) (k : A -> prog B) : rel P Q p -> (forall a, rel Q R (k a)) -> rel P R (pbind p k).
Proof.
  intros Hp Hk w w' H. destruct (Hp w w' H) as [E X]. rewrite !exec_bind.
  destruct (exec p w) as [r w1]. destruct (exec p w') as [r' w1']. cbn [fst snd] in *. subst r'. destruct r as [a|e]; [now apply Hk|]. cbn [fst]. auto.
Qed.
Lemma rel_done {A} (P : world -> world -> Prop) (r : result A) : rel P P (Done r).
Proof. intros w w' H. cbn [exec fst snd]. split; [reflexivity|]. destruct r; auto. Qed.
Lemma rel_raise {A} (P Q : world -> world -> Prop) e : rel P Q (Done (@Raise A e)).
Proof. intros w w' _. cbn [exec fst]. auto. Qed.
Lemma rel_catch {A} (P : world -> world -> Prop) (p : prog A) c h :
  (forall w w', P w w' -> fst (exec p w) = fst (exec p w') /\ P (snd (exec p w)) (snd (exec p w'))) -> rel P P h -> rel P P (pcatch p c h).
Proof.
  intros Hp Hh w w' H. destruct (Hp w w' H) as [E X]. rewrite !exec_catch_. destruct (exec p w) as [r w1]. destruct (exec p w') as [r' w1'].
  cbn [fst snd] in *. subst r'. destruct r as [a|e]; [cbn [fst snd]; auto|]. destruct (c e); [now apply Hh|]. cbn [fst]. auto.
Qed.
Lemma rel_weaken {A} (P P' Q Q' : world -> world -> Prop) (p : prog A) : (forall w w', P' w w' -> P w w') -> (forall w w', Q w w' -> Q' w w') -> rel P Q p -> rel P' Q' p.
Proof. intros HP HQ H w w' X. destruct (H w w' (HP _ _ X)) as [E Y]. split; [exact E|]. destruct (fst (exec p w)); auto. Qed.

Section Twice.
  Variable cx : ctx.
  Variable idt : store -> string -> ST cdb string.
  Variable d : cdb.
  Variables u c g : string.
  Hypothesis Hu : good u.
  Hypothesis Hc : good c.
  Hypothesis Hg : good g.
  Notation sid := (session_key [u; c; g]).
  Hypothesis calm : forall c ar scope ttype, snd (get_claims cx c ar scope ttype d) = d.
  Hypothesis same_idt : forall s s' gr, kinds_ok s -> kinds_ok s' ->
    view s [u; c; g] = Some (EGrant gr) -> view s' [u; c; g] = Some (EGrant gr) -> idt s' sid d = idt s sid d.
  Hypothesis calm_idt : forall s, snd (idt s sid d) = d.

  Definition weak (w w' : world) : Prop := kinds_ok (w_db w) /\ kinds_ok (w_db w') /\ w_cdb w = d /\ w_cdb w' = d.
  Definition strong (w w' : world) : Prop := weak w w' /\ exists gr, view (w_db w) [u; c; g] = Some (EGrant gr) /\ view (w_db w') [u; c; g] = Some (EGrant gr).
  Lemma strong_weak w w' : strong w w' -> weak w w'.
  Proof. intros [H _]. exact H. Qed.

  Lemma rel_set v : rel weak strong (p_store [u; c; g] (EGrant v)).
  Proof.
    intros w w' (K1 & K2 & D1 & D2). destruct (view_after_set w u c g v K1 Hu Hc Hg) as (E1 & V1 & X1 & Y1).
    destruct (view_after_set w' u c g v K2 Hu Hc Hg) as (E2 & V2 & X2 & Y2). split; [rewrite E1, E2; reflexivity|].
    rewrite E1. cbn [fst]. cbn [snd]. split; [|exists v; split; assumption]. split; [exact X1|]. split; [exact X2|]. split; congruence.
  Qed.
  Lemma rel_payload u' c' gr ttype : rel weak weak (p_payload cx u' c' gr ttype).
  Proof.
    unfold p_payload. eapply rel_bind with (Q := weak).
    - intros w w' (K1 & K2 & D1 & D2). unfold p_act. cbn [exec]. rewrite D1, D2.
      assert (C := calm c' (g_authreq gr) (g_scope gr) ttype). destruct (get_claims cx c' (g_authreq gr) (g_scope gr) ttype d) as [r d'].
      cbn [exec fst snd] in *. subst d'. split; [reflexivity|]. destruct r; [|exact I]. cbn [exec snd]. unfold weak. cbn [w_db w_cdb]. auto.
    - intros r. eapply rel_bind with (Q := weak).
      + intros w w' (K1 & K2 & D1 & D2). unfold p_act. cbn [exec]. rewrite D1, D2. cbn [gets exec fst snd]. split; [reflexivity|].
        unfold weak. cbn [w_db w_cdb]. auto.
      + intros clients. eapply rel_bind; [apply rel_done|]. intros ui. apply rel_done.
  Qed.
  Lemma rel_mint mt gr ttype b : rel weak strong (p_mint cx mt sid gr ttype b).
  Proof.
    unfold p_mint. cbv zeta. eapply rel_bind with (Q := weak).
    - unfold p_mint_in. cbv zeta. eapply rel_bind; [apply rel_done|]. intros [[t|] gg]; [|apply rel_done].
      rewrite unpack3_good by assumption. eapply rel_bind; [apply rel_done|]. intros [[u0 c0] g0].
      eapply rel_bind; [apply rel_payload|]. intros pl. apply rel_done.
    - intros [[t|] gg]; rewrite ?unpack_good by auto with gp.
      + eapply rel_bind; [apply rel_set|]. intros _. apply rel_done.
      + destruct (negb _).
        * intros w w' H. cbn [praise exec fst]. auto.
        * eapply rel_bind; [apply rel_set|]. intros _. apply rel_done.
  Qed.
  Lemma rel_id_token resp : rel strong strong (p_id_token idt sid resp).
  Proof.
    unfold p_id_token. eapply rel_bind with (Q := strong).
    - apply rel_catch; [|apply rel_done]. intros w w' ((K1 & K2 & D1 & D2) & gr & V & V'). unfold p_act. cbn [pbind exec]. rewrite D1, D2.
      rewrite (same_idt (w_db w) (w_db w') gr K1 K2 V V'). assert (C := calm_idt (w_db w)). destruct (idt (w_db w) sid d) as [r d']. cbn [snd] in C. subst d'.
      destruct r; cbn [pbind exec fst snd pret]; (split; [reflexivity|]; split; [unfold weak; cbn [w_db w_cdb]; auto|exists gr; split; assumption]).
    - intros [t|]; apply rel_done.
  Qed.

  Variable sid_of : string -> result string.
  Lemma code_split m1 m2 ir rq raw gr w : dget "code" rq = Some (VStr raw) -> sid_of (blank_to_plus raw) = Ok sid ->
    view (w_db w) [u; c; g] = Some (EGrant gr) ->
    (forall args oc, fst (exec (p_code_process sid_of cx idt m1 m2 ir rq) w) <> Ok (AOk args oc)) \/
    exists k, steps (p_code_process sid_of cx idt m1 m2 ir rq) w k w /\ rel weak strong k.
  Proof.
    intros Er Hv V. unfold p_code_process.
    destruct (msub_str "grant_type" rq) as [gt|e]; cbn [pbind]; [|left; discriminate].
    destruct (negb (String.eqb gt "authorization_code")); [left; discriminate|].
    destruct (negb (dmem "code" rq)); [left; discriminate|].
    destruct (msub_str "code" rq) as [raw'|e] eqn:Em; cbn [pbind]; [|left; discriminate].
    assert (raw' = raw). { unfold msub_str, dsub in Em. rewrite Er in Em. cbn in Em. congruence. } subst raw'. cbv zeta.
    assert (Es : exec (p_session_by sid_of (blank_to_plus raw)) w = (Ok (sid, gr), w)).
    { unfold p_session_by. rewrite Hv. cbn [pbind]. rewrite unpack3_good by assumption. cbn [pbind]. rewrite exec_bind, does_read. unfold in_db.
      assert (Z := db_read_state [u; c; g] (w_db w)). unfold view in V. destruct (db_read [u; c; g] (w_db w)) as [[e|x] s]; cbn [fst snd] in *; [|discriminate].
      subst s. rewrite mkW_eta. injection V as ->. reflexivity. }
    destruct (g_authreq gr) as [ar|] eqn:Ea; [|left; intros args oc; rewrite exec_bind, Es, Ea; discriminate].
    assert (M : exists mm, (match dget "redirect_uri" ar with
                 | Some u => u' <~ Done (dsub "redirect_uri" rq) ;; pret (negb (val_eqb u' u))
                 | None => pret false
                 end) = Done mm).
    { destruct (dget "redirect_uri" ar); [|unfold pret; eauto]. destruct (dsub "redirect_uri" rq); cbn [pbind]; unfold pret; eauto. }
    destruct M as [mm Em2]. cbn [pbind] in Em2. destruct mm as [[|]|e];
      [left; intros args oc; rewrite exec_bind, Es, Ea; cbn [of_option pbind]; rewrite Em2; discriminate| |
       left; intros args oc; rewrite exec_bind, Es, Ea; cbn [of_option pbind]; rewrite Em2; discriminate].
    right. eexists. split; [apply (steps_ok _ _ _ _ _ Es)|]. cbv beta iota. rewrite Ea. cbn [of_option pbind]. rewrite Em2. cbn [pbind].
    eapply rel_bind; [apply rel_mint|]. intros [o g1]. destruct (of_option EAttr o) as [at_|]; cbn [pbind]; [|apply rel_raise].
    eapply rel_bind with (Q := strong).
    { destruct (match ir with Some b => b | None => smem "offline_access" (g_scope gr) end); [|apply rel_done].
      eapply rel_bind; [eapply rel_weaken; [exact strong_weak| |apply rel_mint]; intros ? ? X; exact X|]. intros [o2 g2].
      destruct (of_option EAttr o2) as [rt|]; cbn [pbind]; [apply rel_done|apply rel_raise]. }
    intros [g2 resp]. eapply rel_bind with (Q := strong).
    { destruct (get_token _ gr); [apply rel_done|apply rel_raise]. }
    intros _. eapply rel_bind with (Q := strong).
    { unfold p_mset. rewrite unpack_good by auto with gp. eapply rel_weaken; [exact strong_weak| |apply rel_set]. intros ? ? X; exact X. }
    intros _. destruct (dsub "scope" ar) as [sc|]; cbn [pbind]; [|apply rel_raise].
    destruct (val_in (VStr "openid") sc) as [[|]|]; cbn [pbind]; [apply rel_id_token|apply rel_done|apply rel_raise].
  Qed.
  Lemma exchange_twice m1 m2 m1' m2' ir ir' rq raw gr w args oc args' oc' :
    kinds_ok (w_db w) -> w_cdb w = d -> dget "code" rq = Some (VStr raw) -> sid_of (blank_to_plus raw) = Ok sid ->
    view (w_db w) [u; c; g] = Some (EGrant gr) ->
    let A := p_code_process sid_of cx idt m1 m2 ir rq in
    let B := p_code_process sid_of cx idt m1' m2' ir' rq in
    fst (exec A w) = Ok (AOk args oc) -> fst (exec B w) = Ok (AOk args' oc') ->
    exists l w', turns l [A; B] w = ([Done (Ok (AOk args oc)); Done (Ok (AOk args' oc'))], w') /\
      view (w_db w') [u; c; g] = view (w_db (snd (exec A w))) [u; c; g].
  Proof.
    intros Hk Hd Er Hv V A B EA EB.
    destruct (code_split m1 m2 ir rq raw gr w Er Hv V) as [X|(k & Sk & Rk)]; [destruct (X _ _ EA)|].
    destruct (code_split m1' m2' ir' rq raw gr w Er Hv V) as [X|(k' & Sk' & Rk')]; [destruct (X _ _ EB)|].
    fold A in Sk. fold B in Sk'. assert (W : weak w w) by (unfold weak; auto).
    destruct (Rk' w w W) as [_ Y]. rewrite (steps_same _ _ _ _ Sk'), EB in Y. destruct Y as ((K2 & _ & D2 & _) & _).
    destruct (in_between A B k w w Sk) as [l El]. rewrite EB in El. exists l. rewrite El.
    assert (W2 : weak w (snd (exec B w))) by (unfold weak; auto).
    destruct (Rk w _ W2) as [E Y]. rewrite (steps_same _ _ _ _ Sk), EA in E, Y. rewrite <- E. eexists. split; [reflexivity|].
    destruct Y as [_ (gr' & V1 & V2)]. congruence.
  Qed.
End Twice.

(** Providers whose modules take no claims from the clients are not disturbed by minting. *)
Lemma claims_calm cx c ar scopes usage d : no_client_claims cx -> snd (get_claims cx c ar scopes usage d) = d.
Proof.
  intros N. unfold get_claims.
  assert (O : match match (if smem usage ["userinfo"; "id_token"; "introspection"; "access_token"] then dget usage (cx_modules cx) else None) with
                    | Some kw => dget "enable_claims_per_client" kw | None => None end with Some v => truthy v | None => false end = false).
  { destruct (smem usage _); [|reflexivity]. destruct (dget usage (cx_modules cx)) as [kw|] eqn:E; [|reflexivity].
    specialize (N usage kw E). destruct (dget "enable_claims_per_client" kw); [exact N|reflexivity]. }
  cbv zeta. unfold bind at 1. cbn [gets]. rewrite O. unfold bind, lift, ret, gets. cbn [cupdate].
  destruct (match _ with Some v => as_dict v | None => Ok [] end) as [base|]; [|reflexivity]. cbn [cupdate]. unfold ret.
  match goal with |- context [if ?b then _ else _] => destruct b end.
  - destruct (filter_scopes _ _ _ _) as [sc|]; [|reflexivity]. destruct (convert_scopes2claims _ _ _ _) as [cl|]; [|reflexivity].
    cbn [cupdate]. unfold ret. destruct (authorization_request_claims ar usage) as [[v|]|]; try reflexivity.
    destruct (truthy v); [|reflexivity]. destruct (as_dict v); reflexivity.
  - destruct (authorization_request_claims ar usage) as [[v|]|]; try reflexivity.
    destruct (truthy v); [|reflexivity]. destruct (as_dict v); reflexivity.
Qed.

(** ** The ID Token of the provider *)
Lemma payload_view ic cx d u c g s s' alg code at_ x : good u -> good c -> good g -> fst (db_read [u; c; g] s') = fst (db_read [u; c; g] s) ->
  IDToken.payload ic cx d s' (session_key [u; c; g]) alg code at_ x = IDToken.payload ic cx d s (session_key [u; c; g]) alg code at_ x.
Proof.
  intros Hu Hc Hg E. unfold IDToken.payload, get_session_info, bind, lift. rewrite unpack3_good by assumption. cbn [ret].
  destruct (db_read [u; c; g] s') as [r' t']. destruct (db_read [u; c; g] s) as [r t]. cbn [fst] in E. subst r'.
  destruct r as [[i|gr]|e]; reflexivity.
Qed.
Lemma make_view ic cx d u c g s s' : good u -> good c -> good g -> fst (db_read [u; c; g] s') = fst (db_read [u; c; g] s) ->
  IDToken.make_for_token ic cx s' (session_key [u; c; g]) d = IDToken.make_for_token ic cx s (session_key [u; c; g]) d.
Proof.
  intros Hu Hc Hg E. unfold IDToken.make_for_token, IDToken.make. rewrite unpack3_good by assumption. cbn [rbind].
  destruct (_ || _); [reflexivity|]. unfold IDToken.sign_encrypt.
  destruct (of_option EKey (dget c d)) as [ci|]; [|reflexivity]. cbn [rbind].
  destruct (IDToken.get_algorithms cx (IDToken.ic_jwx ic) ci "id_token" true false) as [al|]; [|reflexivity]. cbn [rbind].
  destruct (match IDToken.al_sign al with Some (VStr a) => Ok a | Some _ => Raise EType | None => Raise EKey end) as [alg|]; [|reflexivity]. cbn [rbind].
  now rewrite (payload_view ic cx d u c g s s').
Qed.
Lemma read_stored u c g s s' : good u -> good c -> good g -> (forall q, good_path q -> hd "" q = u -> stored s' q = stored s q) ->
  fst (db_read [u; c; g] s') = fst (db_read [u; c; g] s).
Proof.
  intros Hu Hc Hg E. assert (E1 := E [u] ltac:(auto with gp) eq_refl). assert (E2 := E [u; c] ltac:(auto with gp) eq_refl).
  assert (E3 := E [u; c; g] ltac:(auto with gp) eq_refl). unfold stored in *. change (session_key [u]) with u in E1.
  unfold db_read, eval_path, lift, bind, db_sub, dsub, of_option, catch. rewrite E1.
  destruct (dget u s) as [e|]; [|reflexivity]. destruct (subordinate e) as [l|]; [|reflexivity]. destruct (negb (smem c l)); [reflexivity|].
  rewrite E2. destruct (dget (session_key [u; c]) s) as [e2|]; [|reflexivity]. destruct (subordinate e2) as [l2|]; [|reflexivity].
  destruct (negb (smem g l2)); [reflexivity|]. rewrite E3. destruct (dget (session_key [u; c; g]) s) as [e3|]; reflexivity.
Qed.
Lemma undisturbed_real ic cx d u : good u -> no_client_claims cx -> undisturbed cx (IDToken.make_for_token ic cx) d u.
Proof.
  intros Hu N. split; [intros; now apply claims_calm|]. intros s s' c g Hc Hg E. split; [|reflexivity].
  apply make_view; auto. now apply read_stored.
Qed.
Lemma read_view s s' u c g gr : view s [u; c; g] = Some (EGrant gr) -> view s' [u; c; g] = Some (EGrant gr) ->
  fst (db_read [u; c; g] s') = fst (db_read [u; c; g] s).
Proof. unfold view. destruct (fst (db_read [u; c; g] s)), (fst (db_read [u; c; g] s')); congruence. Qed.
Lemma of_session_real ic cx d u c g : good u -> good c -> good g -> of_session (IDToken.make_for_token ic cx) d u c g.
Proof. intros Hu Hc Hg. split; [|reflexivity]. intros s s' gr _ _ V V'. apply make_view; auto. now apply (read_view s s' u c g gr). Qed.

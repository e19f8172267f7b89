(** WorldProofs.v: what every call does to the grants in the store. *)
From Verif Require Import Base BaseProofs Monad MonadProofs Types SessionKey Token Grant GrantSpec GrantProofs
  Database DatabaseSpec DatabaseProofs Manager ManagerSpec ManagerProofs Ctx Claims UserInfo UserInfoSpec UserInfoProofs
  World Minting TokenEndpoint WorldSpec.
Local Open Scope Z_scope.

(** ** Growing grants *)
Lemma sound_core t t' : same_core t t' -> sound_token t -> sound_token t'.
Proof.
  intros (C & _ & V & _ & R & _ & _ & _ & _ & _ & _ & _ & U & _) (H1 & H2 & H3).
  split; [|split; [congruence|lia]]. intros X. rewrite R. apply H1. congruence.
Qed.
Lemma Forall_core l l' : Forall2 same_core l l' -> Forall sound_token l -> Forall sound_token l'.
Proof.
  intros H; induction H; intros F; constructor; inversion F; subst; eauto using sound_core.
Qed.
Lemma Forall2_core_trans l1 l2 l3 : Forall2 same_core l1 l2 -> Forall2 same_core l2 l3 -> Forall2 same_core l1 l3.
Proof.
  intros H; revert l3; induction H; intros l3 H3; inversion H3; subst; constructor; eauto using same_core_trans.
Qed.

Lemma grows_refl g : grows g g.
Proof. split; [auto|]. split; [auto|]. exists (g_issued g), []. rewrite app_nil_r. auto using Forall2_core_refl. Qed.
Lemma grows_revoked g : grows g (g_set_revoked true g).
Proof. split; [auto|]. split; [auto|]. exists (g_issued g), []. rewrite app_nil_r. cbn. auto using Forall2_core_refl. Qed.
Lemma grows_core g l : Forall2 same_core (g_issued g) l -> grows g (g_set_issued l g).
Proof. intros E. split; [auto|]. split; [auto|]. exists l, []. rewrite app_nil_r. auto. Qed.
Lemma grows_trans a b c : grows a b -> grows b c -> grows a c.
Proof.
  intros (A1 & V1 & o1 & n1 & E1 & F1 & S1) (A2 & V2 & o2 & n2 & E2 & F2 & S2). rewrite E1 in F2.
  split; [congruence|]. split; [auto|].
  apply Forall2_app_inv_l in F2. destruct F2 as (p1 & p2 & G1 & G2 & ->).
  exists p1, (p2 ++ n2). rewrite E2, app_assoc. split; [reflexivity|].
  split; [eauto using Forall2_core_trans|]. apply Forall_app. split; [eauto using Forall_core|assumption].
Qed.
Lemma grows_sound g g' : grows g g' -> Forall sound_token (g_issued g) -> Forall sound_token (g_issued g').
Proof. intros (_ & _ & o & n & -> & F & S) H. apply Forall_app. eauto using Forall_core. Qed.

Lemma find_core v l l' : Forall2 same_core l l' -> forall t, find (fun t => String.eqb (t_value t) v) l = Some t ->
  exists t', find (fun t => String.eqb (t_value t) v) l' = Some t' /\ same_core t t'.
Proof.
  intros H; induction H as [|a b l l' H1 H2 IH]; cbn; intros t E; [discriminate|].
  assert (X := H1). destruct X as (_ & _ & -> & _). destruct (String.eqb (t_value a) v); [|auto].
  injection E as <-. eauto.
Qed.
Lemma find_app_l {A} (p : A -> bool) l1 l2 x : find p l1 = Some x -> find p (l1 ++ l2) = Some x.
Proof. induction l1 as [|a l1 IH]; cbn; [discriminate|]. destruct (p a); auto. Qed.
Lemma grows_token g g' v t : grows g g' -> get_token v g = Some t ->
  exists t', get_token v g' = Some t' /\ same_core t t'.
Proof.
  unfold get_token. intros (_ & _ & o & n & -> & F & _) H. destruct (find_core _ _ _ F _ H) as (t' & A & B).
  exists t'. split; [now apply find_app_l|exact B].
Qed.

(** ** Changes of the store *)
(** no grant comes up or changes *)
Definition quiet (s s' : store) : Prop := forall k g, dget k s' = Some (EGrant g) -> dget k s = Some (EGrant g).
(** no grant comes up or changes, except that [g] may be put at [k] *)
Definition regrants (k : string) (g : grant) (s s' : store) : Prop :=
  forall k' g', dget k' s' = Some (EGrant g') -> (k' = k /\ g' = g) \/ (k' <> k /\ dget k' s = Some (EGrant g')).
(** grants grow, and sound ones are made at the keys in [made] *)
Definition advances (made : string -> Prop) (s s' : store) : Prop :=
  forall k g', dget k s' = Some (EGrant g') ->
    (exists g, dget k s = Some (EGrant g) /\ grows g g') \/ (made k /\ Forall sound_token (g_issued g')).

Lemma quiet_refl s : quiet s s.
Proof. intros k g H; exact H. Qed.
Lemma quiet_trans a b c : quiet a b -> quiet b c -> quiet a c.
Proof. intros H1 H2 k g H. auto. Qed.
Lemma advances_refl made s : advances made s s.
Proof. intros k g H. left. eauto using grows_refl. Qed.
Lemma advances_trans made a b c : advances made a b -> advances made b c -> advances made a c.
Proof.
  intros H1 H2 k g H. destruct (H2 k g H) as [(g1 & A & B)|[A B]]; [|auto].
  destruct (H1 k g1 A) as [(g2 & C & D)|[C D]]; [left; eauto using grows_trans|right; eauto using grows_sound].
Qed.
Lemma advances_weaken (m1 m2 : string -> Prop) s s' : (forall k, m1 k -> m2 k) -> advances m1 s s' -> advances m2 s s'.
Proof. intros H A k g E. destruct (A k g E) as [?|[? ?]]; auto. Qed.
Lemma quiet_advances made s s' : quiet s s' -> advances made s s'.
Proof. intros H k g E. left. eauto using grows_refl. Qed.
Lemma regrants_quiet_r k g a b c : regrants k g a b -> quiet b c -> regrants k g a c.
Proof. intros H Q k' g' E. auto. Qed.
Lemma regrants_trans k g1 g2 a b c : regrants k g1 a b -> regrants k g2 b c -> regrants k g2 a c.
Proof.
  intros H1 H2 k' g' E. destruct (H2 k' g' E) as [?|[A B]]; [auto|]. destruct (H1 k' g' B) as [[? ?]|?]; [contradiction|auto].
Qed.
Lemma regrants_same k g s : dget k s = Some (EGrant g) -> regrants k g s s.
Proof. intros E k' g' H. destruct (string_dec k' k) as [->|N]; [left; split; congruence|right; auto]. Qed.
Lemma regrants_advances made k g g' s s' : dget k s = Some (EGrant g) -> grows g g' -> regrants k g' s s' -> advances made s s'.
Proof.
  intros E G R k' g1 H. destruct (R k' g1 H) as [[-> ->]|[_ A]]; left; eauto using grows_refl.
Qed.
Lemma regrants_made (made : string -> Prop) k g s s' : made k -> Forall sound_token (g_issued g) -> regrants k g s s' -> advances made s s'.
Proof.
  intros E G R k' g1 H. destruct (R k' g1 H) as [[-> ->]|[_ A]]; [right; auto|left; eauto using grows_refl].
Qed.

Lemma quiet_dset k i s : quiet s (dset k (EInfo i) s).
Proof.
  intros k' g. destruct (string_dec k' k) as [->|N]; [rewrite dget_dset_eq; discriminate|now rewrite dget_dset_neq].
Qed.
Lemma quiet_ddel k s : quiet s (ddel k s).
Proof.
  intros k' g. destruct (string_dec k' k) as [->|N]; [rewrite dget_ddel_eq; discriminate|now rewrite dget_ddel_neq].
Qed.
Lemma regrants_dset k g s : regrants k g s (dset k (EGrant g) s).
Proof.
  intros k' g'. destruct (string_dec k' k) as [->|N]; [rewrite dget_dset_eq; intros X; left; split; congruence|].
  rewrite dget_dset_neq by assumption. auto.
Qed.

Notation mv := (moves quiet).
Ltac mv_bind := apply (moves_bind quiet quiet_trans).
Lemma mv_set k i : mv (db_set k (EInfo i)).
Proof. intros s. apply quiet_dset. Qed.
Lemma mv_del k : mv (db_del k).
Proof. intros s. unfold db_del. destruct (dmem k s); [apply quiet_ddel|apply quiet_refl]. Qed.
Lemma mv_get k : mv (db_get k).
Proof. intros s. apply quiet_refl. Qed.
Lemma mv_read q : mv (db_read q).
Proof. intros s. rewrite db_read_state. apply quiet_refl. Qed.
Lemma mv_ret {A} (a : A) : mv (ret a). Proof. apply moves_ret, quiet_refl. Qed.
Lemma mv_raise {A} e : mv (@raise store A e). Proof. apply moves_raise, quiet_refl. Qed.
Lemma mv_lift {A} (r : result A) : mv (lift r). Proof. apply moves_lift, quiet_refl. Qed.
Lemma mv_poke sh k i : mv (poke sh k (EInfo i)).
Proof. intros s. unfold poke, modify. cbn. destruct (sh && dmem k s); [apply quiet_dset|apply quiet_refl]. Qed.
Lemma mv_raised {A B} e (k : A -> DB B) : mv (bind (lift (Raise e)) k).
Proof. intros s. apply quiet_refl. Qed.
#[export] Hint Resolve mv_set mv_del mv_get mv_read mv_ret mv_raise mv_lift mv_poke mv_raised : mv.

(** the two listings of [db_store] *)
Lemma mv_user_part uid client_id (v : entry) : (client_id = None -> exists i, v = EInfo i) ->
  mv (o <-- db_get uid ;;
      let userinfo := match o with Some e => e | None => EInfo (UserSessionInfo None) end in
      (match client_id with None => db_set uid v | Some _ => ret tt end) ;;;
      (if tr client_id then
         sub <-- lift (subordinate userinfo) ;;
         if negb (smem (str_or_empty client_id) sub)
         then db_set uid (set_subordinate (sub ++ [str_or_empty client_id]) userinfo) else ret tt
       else ret tt)).
Proof.
  intros Hv. mv_bind; [auto with mv|]. intros o. cbv zeta. mv_bind.
  - destruct client_id; [auto with mv|]. destruct Hv as [i ->]; auto with mv.
  - intros _. destruct (tr client_id); [|auto with mv].
    destruct o as [[i|g]|]; cbn [subordinate set_subordinate]; [| |].
    + mv_bind; [auto with mv|]. intros sub. destruct (negb _); auto with mv.
    + auto with mv.
    + mv_bind; [auto with mv|]. intros sub. destruct (negb _); auto with mv.
Qed.
Lemma mv_client_part uid client_id grant_id (v : entry) : (tr grant_id = false -> tr client_id = true -> exists i, v = EInfo i) ->
  mv (if tr client_id then
        let cid_key := session_key [uid; str_or_empty client_id] in
        o <-- db_get cid_key ;;
        let cid_info := match o with Some e => e | None => EInfo (ClientSessionInfo None) end in
        if negb (tr grant_id) then db_set cid_key v
        else
          sub <-- lift (subordinate cid_info) ;;
          if negb (smem (str_or_empty grant_id) sub)
          then db_set cid_key (set_subordinate (sub ++ [str_or_empty grant_id]) cid_info)
          else ret tt
      else ret tt).
Proof.
  intros Hv. destruct (tr client_id) eqn:Ec; [|auto with mv]. cbv zeta. mv_bind; [auto with mv|]. intros o.
  destruct (tr grant_id); cbn [negb].
  - destruct o as [[i|g]|]; cbn [subordinate set_subordinate].
    + mv_bind; [auto with mv|]. intros sub. destruct (negb _); auto with mv.
    + auto with mv.
    + mv_bind; [auto with mv|]. intros sub. destruct (negb _); auto with mv.
  - destruct Hv as [i ->]; auto with mv.
Qed.

Lemma mv_store path i : mv (db_store path (EInfo i)).
Proof.
  unfold db_store. mv_bind; [auto with mv|]. intros [[uid client_id] grant_id]. cbv zeta. mv_bind.
  - destruct (tr grant_id); auto with mv.
  - intros _. mv_bind; [apply mv_client_part; eauto|]. intros _. apply mv_user_part. eauto.
Qed.
#[export] Hint Resolve mv_store : mv.

Lemma store_regrants u c gid g s : nonempty gid = true ->
  regrants (session_key [u; c; gid]) g s (snd (db_store [u; c; gid] (EGrant g) s)).
Proof.
  intros Hg. unfold db_store, lift, eval_path. unfold bind at 1. cbn [tr str_or_empty]. rewrite Hg.
  unfold bind at 1, db_set, modify. 
  eapply regrants_quiet_r; [apply regrants_dset|].
  match goal with |- quiet ?s1 _ => generalize s1 end.
  match goal with |- forall s1, quiet s1 (snd (?m s1)) => change (mv m) end.
  mv_bind.
  - assert (X := mv_client_part u (Some c) (Some gid) (EGrant g)). cbn [tr str_or_empty] in X. rewrite Hg in X.
    apply X. discriminate.
  - intros _. apply (mv_user_part u (Some c) (EGrant g)). discriminate.
Qed.

Lemma mv_delete sh path : mv (db_delete sh path).
Proof.
  unfold db_delete. mv_bind; [auto with mv|]. intros [[uid client_id] grant_id]. cbv zeta.
  mv_bind; [auto with mv|]. intros [user_info|]; [|auto with mv].
  destruct (tr client_id); [|auto with mv].
  destruct user_info as [ui|]; cbn [subordinate]; [|auto with mv].
  mv_bind; [auto with mv|]. intros usub. destruct (smem _ usub); [|auto with mv].
  mv_bind; [auto with mv|]. intros o. mv_bind.
  - destruct o as [[ci|]|]; cbn [subordinate]; [|auto with mv|auto with mv].
    mv_bind; [auto with mv|]. intros csub. mv_bind.
    + destruct (tr grant_id).
      * destruct (smem _ csub); [|auto with mv]. mv_bind; [apply (moves_catch quiet quiet_trans); auto with mv|].
        intros _. mv_bind; [cbn [set_subordinate]; auto with mv|]. auto with mv.
      * mv_bind; [apply (moves_iterM quiet quiet_refl quiet_trans); auto with mv|]. intros _.
        mv_bind; [cbn [set_subordinate]; auto with mv|]. auto with mv.
    + intros csub'. destruct (is_nil csub').
      * mv_bind; [auto with mv|]. intros _. cbn [set_subordinate]. mv_bind; auto with mv.
      * mv_bind; [cbn [set_subordinate]; auto with mv|]. auto with mv.
  - intros [i|]; cbn [subordinate]; [|auto with mv]. mv_bind; [auto with mv|]. intros l. destruct (is_nil l); auto with mv.
Qed.
#[export] Hint Resolve mv_delete : mv.

Lemma poke_regrants sh k g s : (exists g0, dget k s = Some (EGrant g0)) -> sh = true ->
  regrants k g s (snd (poke sh k (EGrant g) s)).
Proof.
  intros (g0 & E) ->. unfold poke, modify. cbn. unfold dmem. rewrite E. apply regrants_dset.
Qed.

(** ** Reading *)
Lemma mget_good u c g s : good u -> good c -> good g -> mget (session_key [u; c; g]) s = db_read [u; c; g] s.
Proof. intros. unfold mget. now rewrite unpack_good by auto with gp. Qed.
Lemma view_key s u c g e : view s [u; c; g] = Some e -> dget (session_key [u; c; g]) s = Some e.
Proof. exact (view3_grant s u c g e). Qed.

(** ** The session manager *)
Definition made_by (op : mop) (k : string) : Prop :=
  exists u c g, good u /\ good c /\ good g /\ makes op g /\ k = session_key [u; c; g].

Lemma advances_moves_bind made {A B} (m : DB A) (k : A -> DB B) :
  moves (advances made) m -> (forall a, moves (advances made) (k a)) -> moves (advances made) (bind m k).
Proof. apply (moves_bind _ (advances_trans made)). Qed.
Lemma mv_adv made {A} (m : DB A) : mv m -> moves (advances made) m.
Proof. intros H s. apply quiet_advances, H. Qed.

Lemma create_grant_advances (made : string -> Prop) clock newid authn ar u c sub rules scopes :
  good newid -> made (session_key [u; c; newid]) ->
  moves (advances made) (create_grant clock newid authn ar u c sub rules scopes).
Proof.
  intros Hn Hm. unfold create_grant. apply advances_moves_bind; [apply mv_adv; auto with mv|]. intros sb. cbv zeta.
  apply advances_moves_bind; [|intros; apply mv_adv; auto with mv].
  intros s. eapply regrants_made; [exact Hm| |apply store_regrants, good_tr, Hn]. constructor.
Qed.


Lemma moves_ret_bind {S A B} (R : S -> S -> Prop) (a : A) (k : A -> ST S B) : moves R (k a) -> moves R (bind (ret a) k).
Proof. intros H s. apply H. Qed.

Lemma poke_advances made sh k g g' s : dget k s = Some (EGrant g) -> grows g g' ->
  advances made s (snd (poke sh k (EGrant g') s)).
Proof.
  intros E G. destruct sh.
  - eapply regrants_advances; [exact E|exact G|]. apply poke_regrants; eauto.
  - apply advances_refl.
Qed.
Lemma store_advances made u c gid g g' s : good gid -> dget (session_key [u; c; gid]) s = Some (EGrant g) -> grows g g' ->
  advances made s (snd (db_store [u; c; gid] (EGrant g') s)).
Proof. intros Hg E G. eapply regrants_advances; [exact E|exact G|]. apply store_regrants. now apply good_tr. Qed.

Lemma upd_token_grows v f g : (forall t, same_core t (f t)) -> grows g (upd_token v f g).
Proof. intros H. apply grows_core. now apply upd_first_core. Qed.

Lemma dep_core depth w l : Forall2 same_core l (fst (revoke_dependent depth w l)).
Proof.
  revert w l. induction depth as [|d IH]; intros w l; cbn [revoke_dependent]; [apply Forall2_core_refl|].
  assert (H : forall rest i l0, Forall2 same_core l0 (fst (dloop (revoke_dependent d) w i rest l0))).
  { induction rest as [|t rest IHr]; intros i l0; cbn [dloop]; [apply Forall2_core_refl|].
    destruct (opt_eqb (t_based_on t) w); [|apply IHr].
    assert (N : Forall2 same_core l0 (revoke_nth i l0)) by (apply flagged_core_list, revoke_nth_flagged).
    specialize (IH (t_value t) (revoke_nth i l0)).
    destruct (revoke_dependent d (t_value t) (revoke_nth i l0)) as [l2 [u|e]]; cbn [fst] in *.
    - eapply Forall2_core_trans; [exact N|]. eapply Forall2_core_trans; [exact IH|]. apply IHr.
    - eapply Forall2_core_trans; eassumption. }
  apply H.
Qed.

Lemma mstep_advances sh gid op s : mop_ok gid op -> advances (made_by op) s (snd (mstep sh op s)).
Proof.
  intros (Hu & Hc & Hg & Hm & Hx). destruct op; cbn [op_user op_client op_grant mstep] in *.
  - match goal with |- advances ?m s (snd (?p s)) => change (advances m s (snd (p s))); revert s; change (moves (advances m) p) end.
    apply advances_moves_bind; [|intros; apply mv_adv; auto with mv]. unfold create_session.
    apply advances_moves_bind.
    { apply mv_adv. apply (moves_catch quiet quiet_trans); [|auto with mv]. mv_bind; auto with mv. }
    intros _. rewrite (good_tr c) by assumption. apply moves_ret_bind.
    apply advances_moves_bind; [apply mv_adv; auto with mv|]. intros _.
    apply create_grant_advances; [assumption|]. exists u, c, newid. cbn. auto 6.
  - match goal with |- advances ?m s (snd (?p s)) => change (advances m s (snd (p s))); revert s; change (moves (advances m) p) end.
    apply advances_moves_bind; [|intros; apply mv_adv; auto with mv].
    apply create_grant_advances; [assumption|]. exists u, c, newid. cbn. auto 6.
  - match goal with |- advances ?m s (snd (?p s)) => change (advances m s (snd (p s))); revert s; change (moves (advances m) p) end.
    unfold add_grant. apply advances_moves_bind.
    { intros s. eapply regrants_made; [|exact Hx|apply store_regrants, good_tr, Hg].
      exists u, c, (g_id gr). cbn. auto 6. }
    intros _. apply mv_adv. mv_bind; [auto with mv|]. intros [i|g]; cbn [subordinate]; [|auto with mv].
    mv_bind; [auto with mv|]. intros l. cbn [set_subordinate]. auto with mv.
  - unfold revoke_client_session. rewrite unpack_good by auto with gp.
    unfold bind at 1, ret. unfold bind. destruct (read_cases [u; c] s) as [(e & -> & V)|(x & -> & V)]; [|apply advances_refl].
    destruct e as [i|gr]; cbn [revoke_entry]; [apply quiet_advances, mv_store|].
    apply view_stored in V; [|auto with gp]. unfold stored in V.
    assert (X : regrants (session_key [u; c]) (g_set_revoked true gr) s (snd (db_store [u; c] (EGrant (g_set_revoked true gr)) s))).
    { unfold db_store, lift, eval_path. unfold bind at 1. cbn [tr str_or_empty]. unfold ret at 1, bind at 1.
      rewrite (good_tr c) by assumption. cbn [negb]. unfold bind at 2, db_get at 1, gets at 1. unfold bind at 1, db_set at 1, modify at 1.
      eapply regrants_quiet_r; [apply regrants_dset|].
      match goal with |- quiet ?s1 _ => generalize s1 end.
      match goal with |- forall s1, quiet s1 (snd (?m s1)) => change (mv m) end.
      assert (Y := mv_user_part u (Some c) (EGrant (g_set_revoked true gr))). cbn [tr str_or_empty] in Y.
      rewrite (good_tr c) in Y by assumption. apply Y. discriminate. }
    eapply regrants_advances; [exact V| |exact X]. apply grows_revoked.
  - unfold revoke_grant. rewrite unpack_good by auto with gp. cbv zeta.
    unfold bind. destruct (read_cases [u; c; g] s) as [(e & -> & V)|(x & -> & V)]; [|apply advances_refl].
    destruct e as [i|gr]; cbn [revoke_entry]; [apply quiet_advances, mv_store|].
    eapply store_advances; [assumption|apply view_key, V|]. apply grows_revoked.
  - unfold mgr_revoke_token. rewrite unpack3_good by auto. unfold bind at 1, lift at 1. unfold bind at 1.
    destruct (read_cases [u; c; g] s) as [(e & -> & V)|(x & -> & V)]; [|apply advances_refl].
    destruct e as [i|gr]; [apply advances_refl|]. cbn [as_grant]. unfold bind at 1, ret at 1.
    destruct (get_token value gr); [|apply advances_refl].
    apply view_key in V. unfold bind at 1.
    set (gr1 := upd_token value (t_set_revoked true) gr).
    assert (A := poke_advances (made_by (ORevokeToken depth u c g value recursive)) sh _ gr gr1 s V
                   (upd_token_grows _ _ _ (fun t => flagged_core _ _ (or_intror eq_refl)))).
    destruct (poke sh (session_key [u; c; g]) (EGrant gr1) s) as [r s1] eqn:Ep. cbn [snd] in A.
    destruct r; [|exact A]. destruct recursive; [|exact A].
    unfold bind at 1. rewrite mget_good by assumption.
    destruct (read_cases [u; c; g] s1) as [(e & -> & V1)|(x & -> & V1)]; [|exact A].
    destruct e as [i|gr2]; [exact A|]. cbn [as_grant]. unfold bind at 1, ret at 1.
    assert (D := dep_core depth value (g_issued gr2)).
    destruct (revoke_dependent depth value (g_issued gr2)) as [l r]. cbn [fst] in D. apply view_key in V1.
    eapply advances_trans; [exact A|]. unfold bind at 1.
    assert (B := poke_advances (made_by (ORevokeToken depth u c g value true)) sh _ gr2 (g_set_issued l gr2) s1 V1 (grows_core gr2 l D)).
    destruct (poke sh (session_key [u; c; g]) (EGrant (g_set_issued l gr2)) s1) as [[] s2]; exact B.
  - unfold remove_session. rewrite unpack3_good by auto. apply quiet_advances. apply (mv_delete sh [u; c; g] s).
  - unfold get_grant. unfold bind at 1. rewrite unpack3_good by auto. unfold bind at 1, lift at 1. unfold bind at 1.
    destruct (read_cases [u; c; g] s) as [(e & -> & V)|(x & -> & V)]; [|apply advances_refl].
    destruct e as [i|gr]; [apply advances_refl|]. unfold ret, mset. rewrite unpack_good by auto with gp.
    eapply store_advances; [assumption|apply view_key, V|]. apply Hx.
Qed.

(** ** Minting *)
Lemma upd_last_app f l t : upd_last f (l ++ [t]) = l ++ [f t].
Proof.
  induction l as [|a l IH]; [reflexivity|]. cbn [app upd_last]. rewrite IH.
  destruct l; reflexivity.
Qed.

Lemma in_cdb_db {A} (m : ST cdb A) w r w' : in_cdb m w = (r, w') -> w_db w' = w_db w.
Proof. unfold in_cdb. destruct (m (w_cdb w)). intros E. injection E as <- <-. reflexivity. Qed.
Lemma payload_db cx u c g ttype scope w r w' : payload_arguments cx u c g ttype scope w = (r, w') -> w_db w' = w_db w.
Proof.
  unfold payload_arguments, bind, lift, gets, ret.
  destruct (in_cdb _ w) as [[x|e] w1] eqn:E; [|intros H; injection H as <- <-; eauto using in_cdb_db].
  apply in_cdb_db in E. destruct (get_user_claims _ _ _); intros H; injection H as <- <-; exact E.
Qed.

(** A new token as the endpoints make it *)
Definition minted (mt : minting) (ttype : string) (based_on : option token) (t : token) : Prop :=
  t_type t = ttype /\ TOKEN_MAP ttype = Some (t_class t) /\ t_based_on t = option_map t_value based_on /\
  t_revoked t = false /\ t_used t = 0 /\ (t_class t = CCode -> ur_max_usage (t_rules t) = Some 1) /\
  exists sid payload, mt_value mt sid payload = Ok (t_value t).

Lemma minted_sound mt ttype base t : mint_ok mt -> minted mt ttype base t -> sound_token t.
Proof.
  intros M (_ & _ & _ & _ & U & H & sid & payload & E). split; [exact H|]. split; [eauto|lia].
Qed.

Lemma mint_in_cases cx mt sid g ttype base rules w r w' :
  mint_in cx mt sid g ttype base rules w = (r, w') ->
  w_db w' = w_db w /\
  match r with
  | Raise _ => True
  | Ok (None, g1) => g1 = g /\ ~ grant_usable (mt_clock mt) g
  | Ok (Some t, g1) => grant_usable (mt_clock mt) g /\
      (forall b, base = Some b -> may_mint b ttype /\ token_usable (mt_clock mt) b) /\
      minted mt ttype base t /\ g1 = g_set_used (g_used g + 1) (g_set_issued (g_issued g ++ [t]) g)
  end.
Proof.
  unfold mint_in, lift, ret, bind. intros H.
  assert (C := mint_token_cases (mt_clock mt) (mt_id mt) g ttype base rules None no_kw (Ok "")).
  destruct (mint_token _ _ _ _ _ _ _ _ (Ok "")) as [[[t0|] g0]|e]; [| |injection H as <- <-; auto].
  2: { injection H as <- <-. tauto. }
  destruct (unpack3 sid) as [[[u c] gid]|e]; [|injection H as <- <-; auto].
  destruct (payload_arguments cx u c g ttype None w) as [[p|e] w1] eqn:E; [|injection H as <- <-; apply payload_db in E; auto].
  apply payload_db in E. injection H as <- <-. split; [exact E|]. clear C t0 g0.
  assert (C := mint_token_cases (mt_clock mt) (mt_id mt) g ttype base rules None no_kw (mt_value mt sid p)).
  destruct (mint_token _ _ _ _ _ _ _ _ (mt_value mt sid p)) as [[[t|] g1]|e]; [|exact C|exact I].
  destruct C as (C1 & C2 & C3 & C4 & C5 & C6 & C7 & C8 & _ & _ & _ & _ & C9 & _ & C10).
  split; [exact C1|]. split; [exact C2|]. split; [|exact C10].
  unfold minted. split; [exact C4|]. split; [exact C5|]. split; [exact C6|]. split; [exact C7|]. split; [exact C8|]. split; [|eauto].
  intros X. rewrite X in C5. rewrite C9. unfold TOKEN_MAP in C5.
  destruct (String.eqb ttype "authorization_code"); [reflexivity|].
  destruct (String.eqb ttype "access_token"); [discriminate|]. destruct (String.eqb ttype "refresh_token"); discriminate.
Qed.

(** One token minted for the session at a path: the store does not change, or the grant is put back,
    unchanged or with one token more. *)
Lemma endpoint_mint_cases cx mt u c gid g ttype base w r w' :
  good u -> good c -> good gid ->
  endpoint_mint cx mt (session_key [u; c; gid]) g ttype base w = (r, w') ->
  (w_db w' = w_db w /\ exists e, r = Raise e) \/
  exists g2, regrants (session_key [u; c; gid]) g2 (w_db w) (w_db w') /\
    ((g2 = g /\ ~ grant_usable (mt_clock mt) g /\ (r = Ok (None, g2) \/ exists e, r = Raise e)) \/
     exists t, g_issued g2 = g_issued g ++ [t] /\ minted mt ttype base t /\
       g_scope g2 = g_scope g /\ (g_authreq g2 = g_authreq g /\ g_revoked g2 = g_revoked g) /\
       grant_usable (mt_clock mt) g /\
       (forall b, base = Some b -> may_mint b ttype /\ token_usable (mt_clock mt) b) /\
       (r = Ok (Some t, g2) \/ exists e, r = Raise e)).
Proof.
  intros Hu Hc Hg H. unfold endpoint_mint in H. unfold bind at 1 in H.
  destruct (mint_in _ _ _ _ _ _ _ w) as [r1 w1] eqn:E. apply mint_in_cases in E. destruct E as [Ew E].
  rewrite unpack_good in H by auto with gp.
  destruct r1 as [[[t|] g1]|e]; [| |injection H as <- <-; eauto].
  - destruct E as (E1 & E2 & E3 & E4). set (exp := lifetime _) in *.
    set (late := if exp =? 0 then fun t0 : token => t0 else t_set_expires_at (mt_clock mt + exp)) in *. cbv zeta in H.
    set (g2 := upd_newest late g1) in *. right. exists g2. unfold bind, in_db, ret in H.
    assert (R := store_regrants u c gid g2 (w_db w1) (good_tr _ Hg)). rewrite Ew in R at 1. rewrite Ew in H.
    rewrite Ew in R. destruct (db_store [u; c; gid] (EGrant g2) (w_db w)) as [[[]|e] s1]; cbn [snd] in R; injection H as <- <-; cbn [w_db];
      (split; [exact R|right; exists (late t)]).
    + split. { subst g2 g1. cbn. apply upd_last_app. }
      split. { subst late. unfold minted in *. destruct (exp =? 0); [exact E3|]. cbn. exact E3. }
      split; [subst g2 g1; reflexivity|]. split; [subst g2 g1; split; reflexivity|]. auto.
    + split. { subst g2 g1. cbn. apply upd_last_app. }
      split. { subst late. unfold minted in *. destruct (exp =? 0); [exact E3|]. cbn. exact E3. }
      split; [subst g2 g1; reflexivity|]. split; [subst g2 g1; split; reflexivity|]. eauto.
  - destruct E as [-> E]. destruct (negb _); [left; injection H as <- <-; eauto|].
    right. exists g. unfold bind, in_db, ret in H.
    assert (R := store_regrants u c gid g (w_db w1) (good_tr _ Hg)). rewrite Ew in R, H.
    destruct (db_store [u; c; gid] (EGrant g) (w_db w)) as [[[]|e] s1]; cbn [snd] in R; injection H as <- <-; cbn [w_db];
      (split; [exact R|left]); eauto.
Qed.

Lemma append_grows g g2 t : g_issued g2 = g_issued g ++ [t] -> g_authreq g2 = g_authreq g /\ g_revoked g2 = g_revoked g ->
  sound_token t -> grows g g2.
Proof. intros E [A V] S. split; [exact A|]. split; [congruence|]. exists (g_issued g), [t]. auto using Forall2_core_refl. Qed.

(** ** The token endpoint *)
Ltac head_bind H E :=
  match type of H with
  | bind ?m ?k ?w = ?rhs =>
      let r := fresh "r" in let w1 := fresh "w" in
      change (match m w with (Ok a, s') => k a s' | (Raise e, s') => (Raise e, s') end = rhs) in H;
      destruct (m w) as [r w1] eqn:E
  end.

Section Token.
  Variable sid_of : string -> result string.
  Variable b64hash : string -> string -> string.
  Variable cx : ctx.
  Variable make_id_token : store -> string -> ST cdb string.
  Hypothesis Hsid : sids_ok sid_of.

  (** [v] leads to the grant [g] at this path *)
  Definition leads (s : store) (v u c gid : string) (g : grant) : Prop :=
    good u /\ good c /\ good gid /\ sid_of v = Ok (session_key [u; c; gid]) /\ view s [u; c; gid] = Some (EGrant g).

  Lemma session_by_cases v s r s' : session_by sid_of v s = (r, s') ->
    s' = s /\
    match r with
    | Raise _ => True
    | Ok (i, g) => exists u c gid, leads s v u c gid g /\
        i = mkSI (session_key [u; c; gid]) u c gid None None (Some (EGrant g)) None None
    end.
  Proof.
    unfold session_by, get_session_info_by_token, grant_of, as_grant, bind, lift, ret, raise. intros H.
    destruct (sid_of v) as [sid|e] eqn:Es; [|injection H as <- <-; auto].
    destruct (Hsid v sid Es) as (u & c & gid & Hu & Hc & Hg & ->).
    unfold get_session_info, bind, lift, ret in H. rewrite unpack3_good in H by assumption.
    destruct (read_cases [u; c; gid] s) as [(e & Hr & Hv)|(x & Hr & Hv)]; rewrite Hr in H; [|injection H as <- <-; auto].
    cbn [in_grant] in H. destruct e as [|g]; injection H as <- <-; [auto|]. split; [reflexivity|].
    exists u, c, gid. split; [|reflexivity]. unfold leads. auto 6.
  Qed.
  Lemma by_token_cases v s r s' : get_session_info_by_token sid_of v false false true false false s = (r, s') ->
    s' = s /\
    match r with
    | Raise _ => True
    | Ok i => exists u c gid e, good u /\ good c /\ good gid /\ sid_of v = Ok (session_key [u; c; gid]) /\
        view s [u; c; gid] = Some e /\
        i = mkSI (session_key [u; c; gid]) u c gid None None (Some e) None None
    end.
  Proof.
    unfold get_session_info_by_token, bind, lift, ret, raise. intros H.
    destruct (sid_of v) as [sid|e] eqn:Es; [|injection H as <- <-; auto].
    destruct (Hsid v sid Es) as (u & c & gid & Hu & Hc & Hg & ->).
    unfold get_session_info, bind, lift, ret in H. rewrite unpack3_good in H by assumption.
    destruct (read_cases [u; c; gid] s) as [(e & Hr & Hv)|(x & Hr & Hv)]; rewrite Hr in H; [|injection H as <- <-; auto].
    injection H as <- <-. split; [reflexivity|]. exists u, c, gid, e. auto 7.
  Qed.

  Lemma in_session_by v w r w' : in_db (session_by sid_of v) w = (r, w') ->
    w' = w /\
    match r with
    | Raise _ => True
    | Ok (i, g) => exists u c gid, leads (w_db w) v u c gid g /\
        i = mkSI (session_key [u; c; gid]) u c gid None None (Some (EGrant g)) None None
    end.
  Proof.
    unfold in_db. destruct (session_by sid_of v (w_db w)) as [r1 s1] eqn:E. apply session_by_cases in E. destruct E as [-> E].
    intros H. injection H as <- <-. split; [now destruct w|exact E].
  Qed.

  Lemma add_id_token_db sid resp w r w' : add_id_token make_id_token sid resp w = (r, w') -> w_db w' = w_db w.
  Proof.
    unfold add_id_token, id_token_for, catch, gets, bind, ret, id. intros H.
    destruct (in_cdb _ w) as [[t|e] w1] eqn:E; apply in_cdb_db in E.
    - injection H as <- <-. exact E.
    - destruct e; injection H as <- <-; exact E.
  Qed.

  Lemma msub_str_ok k (m : msg) v : msub_str k m = Ok v -> dget k m = Some (VStr v).
  Proof. unfold msub_str. destruct (dget k m) as [[]|]; congruence. Qed.

  Definition success (r : result answer) : Prop := exists args c, r = Ok (AOk args c).
  Lemma not_success_raise e : ~ success (Raise e). Proof. intros (a & c & X); discriminate. Qed.
  Lemma not_success_error e d : ~ success (Ok (AError e d)). Proof. intros (a & c & X); discriminate. Qed.
  Hint Resolve not_success_raise not_success_error : core.

  Lemma add_id_token_ok sid resp w r w' : add_id_token make_id_token sid resp w = (r, w') -> success r ->
    exists t, r = Ok (AOk (dset "id_token" (VStr t) resp) None).
  Proof.
    unfold add_id_token, catch, bind, ret, id. intros H S.
    destruct (id_token_for make_id_token sid w) as [[t|e] w1].
    - injection H as <- <-. eauto.
    - destruct S as (a & c & ->). destruct e; discriminate.
  Qed.

  (** what a code exchange does *)
  Lemma code_process_cases m1 m2 ir req w r w' : mint_ok m1 -> mint_ok m2 ->
    code_process sid_of cx make_id_token m1 m2 ir req w = (r, w') ->
    (w_db w' = w_db w /\ ~ success r) \/
    exists raw u c gid g g',
      dget "grant_type" req = Some (VStr "authorization_code") /\ dget "code" req = Some (VStr raw) /\
      leads (w_db w) (blank_to_plus raw) u c gid g /\
      grows g g' /\ regrants (session_key [u; c; gid]) g' (w_db w) (w_db w') /\
      (success r -> exists ar t t',
        g_authreq g = Some ar /\
        (forall x, dget "redirect_uri" ar = Some x -> exists y, dget "redirect_uri" req = Some y /\ val_eqb y x = true) /\
        get_token (blank_to_plus raw) g = Some t /\ token_usable (mt_clock m1) t /\ grant_usable (mt_clock m1) g /\
        may_mint t "access_token" /\
        get_token (blank_to_plus raw) g' = Some t' /\ same_core (register_usage t) t').
  Proof.
    intros M1 M2 H. unfold code_process in H. head_bind H E0.
    assert (r0 = msub_str "grant_type" req /\ w0 = w) as [-> ->] by (injection E0 as <- <-; auto). clear E0.
    destruct (msub_str "grant_type" req) as [gt|e] eqn:Eg; [|injection H as <- <-; auto].
    destruct (String.eqb_spec gt "authorization_code") as [->|N]; cbn [negb] in H; [|injection H as <- <-; auto].
    destruct (dmem "code" req); cbn [negb] in H; [|injection H as <- <-; auto].
    head_bind H E0. assert (r0 = msub_str "code" req /\ w0 = w) as [-> ->] by (injection E0 as <- <-; auto). clear E0.
    destruct (msub_str "code" req) as [raw|e] eqn:Er; [|injection H as <- <-; auto]. cbv zeta in H.
    head_bind H Es. apply in_session_by in Es. destruct Es as [-> Es].
    destruct r0 as [[i g]|e]; [|injection H as <- <-; auto]. destruct Es as (u & c & gid & L & ->).
    cbn [in_sid] in H. assert (L' := L). destruct L' as (Hu & Hc & Hg & _ & V). apply view_key in V.
    head_bind H E0. unfold the_request, lift in E0. injection E0 as E0 <-.
    destruct (g_authreq g) as [ar|] eqn:Ear; cbn in E0; subst r0; [|injection H as <- <-; auto].
    head_bind H E0. rename r0 into rm.
    assert (w0 = w /\ (rm = Ok false -> forall x, dget "redirect_uri" ar = Some x -> exists y, dget "redirect_uri" req = Some y /\ val_eqb y x = true)) as [-> Hredir].
    { destruct (dget "redirect_uri" ar) as [x|].
      - unfold bind, lift, ret, dsub in E0. destruct (dget "redirect_uri" req) as [y|].
        + injection E0 as <- <-. split; [reflexivity|]. intros X z Z. injection Z as <-. exists y. split; [reflexivity|].
          destruct (val_eqb y x); [reflexivity|discriminate].
        + injection E0 as <- <-. split; [reflexivity|]. discriminate.
      - unfold ret in E0. injection E0 as <- <-. split; [reflexivity|]. discriminate. }
    clear E0. destruct rm as [[|]|e]; [injection H as <- <-; auto| |injection H as <- <-; auto].
    specialize (Hredir eq_refl).
    head_bind H E1. destruct (endpoint_mint_cases _ _ _ _ _ _ _ _ _ _ _ Hu Hc Hg E1) as [[A [e ->]]|(g1 & R1 & C1)].
    { injection H as <- <-. auto. }
    assert (G1 : grows g g1).
    { destruct C1 as [(-> & _)|(t & I & Mi & _ & Iv & _)]; [apply grows_refl|]. eapply append_grows; eauto using minted_sound. }
    apply msub_str_ok in Eg, Er.
    assert (Fail : forall g' w2, grows g g' -> regrants (session_key [u; c; gid]) g' (w_db w) (w_db w2) -> forall r2, ~ success r2 ->
       (w_db w2 = w_db w /\ ~ success r2) \/
    exists raw u c gid g g',
      dget "grant_type" req = Some (VStr "authorization_code") /\ dget "code" req = Some (VStr raw) /\
      leads (w_db w) (blank_to_plus raw) u c gid g /\
      grows g g' /\ regrants (session_key [u; c; gid]) g' (w_db w) (w_db w2) /\
      (success r2 -> exists ar t t',
        g_authreq g = Some ar /\
        (forall x, dget "redirect_uri" ar = Some x -> exists y, dget "redirect_uri" req = Some y /\ val_eqb y x = true) /\
        get_token (blank_to_plus raw) g = Some t /\ token_usable (mt_clock m1) t /\ grant_usable (mt_clock m1) g /\
        may_mint t "access_token" /\
        get_token (blank_to_plus raw) g' = Some t' /\ same_core (register_usage t) t')).
    { intros g' w2 G' R' r2 S2. right. exists raw, u, c, gid, g, g'. split; [exact Eg|]. split; [exact Er|]. split; [exact L|].
      split; [exact G'|]. split; [exact R'|]. intros S. contradiction. }
    destruct C1 as [(-> & Nu & [->|[e ->]])|(at_ & I1 & Mi1 & Sc1 & Ar1 & Gu & Bu & [->|[e ->]])];
      try (injection H as <- <-; eapply Fail; eauto; fail).
    cbn [the_token lift of_option] in H. head_bind H E0. unfold the_token, lift in E0. cbn in E0. injection E0 as <- <-. cbv zeta in H.
    (* the refresh token *)
    head_bind H E2. rename r0 into r2.
    assert (Mid : (exists g2 resp2, r2 = Ok (g2, resp2) /\ grows g1 g2 /\ regrants (session_key [u; c; gid]) g2 (w_db w) (w_db w1)) \/
                  (exists e g2, r2 = Raise e /\ grows g1 g2 /\ regrants (session_key [u; c; gid]) g2 (w_db w) (w_db w1))).
    { destruct (match ir with Some b => b | None => smem "offline_access" (g_scope g) end).
      - head_bind E2 E3. destruct (endpoint_mint_cases _ _ _ _ _ _ _ _ _ _ _ Hu Hc Hg E3) as [[A [e ->]]|(g2 & R2 & C2)].
        + injection E2 as <- <-. right. exists e, g1. rewrite A. auto using grows_refl.
        + assert (G2 : grows g1 g2).
          { destruct C2 as [(-> & _)|(t & I & Mi & _ & Iv & _)]; [apply grows_refl|]. eapply append_grows; eauto using minted_sound. }
          assert (R2' := regrants_trans _ _ _ _ _ _ R1 R2).
          destruct C2 as [(-> & Nu & [->|[e ->]])|(rt & I2 & Mi2 & _ & [Av2 Rv2] & _ & _ & [->|[e ->]])].
          * unfold bind, the_token, lift, ret in E2. cbn in E2. injection E2 as <- <-. right. eauto 6.
          * injection E2 as <- <-. right. eauto 6.
          * unfold bind, the_token, lift, ret in E2. cbn in E2. injection E2 as <- <-. left. eauto 6.
          * injection E2 as <- <-. right. eauto 6.
      - unfold ret in E2. injection E2 as <- <-. left. do 2 eexists. split; [reflexivity|]. auto using grows_refl. }
    destruct Mid as [(g2 & resp2 & -> & G2 & R2)|(e & g2 & -> & G2 & R2)].
    2: { injection H as <- <-. eapply Fail; [exact (grows_trans _ _ _ G1 G2)|exact R2|auto]. }
    head_bind H E3. destruct (get_token (blank_to_plus raw) g) as [t|] eqn:Et.
    2: { injection E3 as <- <-. injection H as <- <-. eapply Fail; [exact (grows_trans _ _ _ G1 G2)|exact R2|auto]. }
    injection E3 as <- <-.
    assert (G := grows_trans _ _ _ G1 G2).
    destruct (grows_token _ _ _ _ G Et) as (t2 & Et2 & Sc2).
    set (g' := upd_token (blank_to_plus raw) register_usage g2) in *.
    assert (G' : grows g g') by (eapply grows_trans; [exact G|]; apply upd_token_grows, register_usage_core).
    assert (Et' : get_token (blank_to_plus raw) g' = Some (register_usage t2)).
    { subst g'. unfold get_token in *. cbn. clear - Et2. induction (g_issued g2) as [|a l IH]; cbn in *; [discriminate|].
      destruct (String.eqb (t_value a) (blank_to_plus raw)) eqn:E; cbn.
      - rewrite E. congruence.
      - rewrite E. auto. }
    head_bind H E4. unfold in_db, mset in E4. rewrite unpack_good in E4 by auto with gp.
    assert (R4 := store_regrants u c gid g' (w_db w1) (good_tr _ Hg)).
    destruct (db_store [u; c; gid] (EGrant g') (w_db w1)) as [r4 s4]. cbn [snd] in R4. injection E4 as <- <-.
    assert (R' := regrants_trans _ _ _ _ _ _ R2 R4). set (w4 := mkW s4 (w_cdb w1)) in *. change s4 with (w_db w4) in R'.
    destruct r4 as [[]|e].
    2: { injection H as <- <-. eapply Fail; eauto. }
    assert (Ew : w_db w' = w_db w4).
    { head_bind H E5. unfold lift in E5. injection E5 as E5 <-. destruct r0 as [scope|e]; [|injection H as <- <-; reflexivity].
      head_bind H E6. unfold lift in E6. injection E6 as E6 <-. destruct r0 as [openid|e]; [|injection H as <- <-; reflexivity].
      destruct openid; [|injection H as <- <-; reflexivity]. now apply add_id_token_db in H. }
    right. exists raw, u, c, gid, g, g'. rewrite Ew. split; [exact Eg|]. split; [exact Er|]. split; [exact L|].
    split; [exact G'|]. split; [exact R'|]. intros _. exists ar, t, (register_usage t2).
    destruct (Bu t eq_refl) as [B1 B2]. split; [exact Ear|]. split; [exact Hredir|]. split; [exact Et|]. split; [exact B2|]. split; [exact Gu|]. split; [exact B1|].
    split; [exact Et'|]. unfold same_core in *. cbn. intuition lia.
  Qed.

  (** what a refresh does *)
  Lemma refresh_process_cases sh m1 m2 req w r w' : mint_ok m1 -> mint_ok m2 ->
    refresh_process sid_of cx make_id_token sh m1 m2 req w = (r, w') ->
    (w_db w' = w_db w /\ ~ success r) \/
    exists value u c gid g g',
      dget "grant_type" req = Some (VStr "refresh_token") /\ dget "refresh_token" req = Some (VStr value) /\
      leads (w_db w) value u c gid g /\
      grows g g' /\ regrants (session_key [u; c; gid]) g' (w_db w) (w_db w') /\
      (success r -> exists t, get_token value g = Some t /\ token_usable (mt_clock m1) t /\ grant_usable (mt_clock m1) g /\
        may_mint t "access_token").
  Proof.
    intros M1 M2 H. unfold refresh_process in H. head_bind H E0.
    assert (r0 = msub_str "grant_type" req /\ w0 = w) as [-> ->] by (injection E0 as <- <-; auto). clear E0.
    destruct (msub_str "grant_type" req) as [gt|e] eqn:Eg; [|injection H as <- <-; auto].
    destruct (String.eqb_spec gt "refresh_token") as [->|N]; cbn [negb] in H; [|injection H as <- <-; auto].
    head_bind H E0. assert (r0 = msub_str "refresh_token" req /\ w0 = w) as [-> ->] by (injection E0 as <- <-; auto). clear E0.
    destruct (msub_str "refresh_token" req) as [value|e] eqn:Er; [|injection H as <- <-; auto].
    head_bind H Es. apply in_session_by in Es. destruct Es as [-> Es].
    destruct r0 as [[i g]|e]; [|injection H as <- <-; auto]. destruct Es as (u & c & gid & L & ->).
    cbn [in_sid] in H. assert (L' := L). destruct L' as (Hu & Hc & Hg & _ & V). apply view_key in V. cbv zeta in H.
    head_bind H E1. destruct (endpoint_mint_cases _ _ _ _ _ _ _ _ _ _ _ Hu Hc Hg E1) as [[A [e ->]]|(g1 & R1 & C1)].
    { injection H as <- <-. auto. }
    assert (G1 : grows g g1).
    { destruct C1 as [(-> & _)|(t & I & Mi & _ & Iv & _)]; [apply grows_refl|]. eapply append_grows; eauto using minted_sound. }
    apply msub_str_ok in Eg, Er. right.
    cut (exists g', grows g g' /\ regrants (session_key [u; c; gid]) g' (w_db w) (w_db w') /\
      (success r -> exists t, get_token value g = Some t /\ token_usable (mt_clock m1) t /\ grant_usable (mt_clock m1) g /\
        may_mint t "access_token")).
    { intros (g' & X). exists value, u, c, gid, g, g'. auto. }
    destruct C1 as [(-> & Nu & [->|[e ->]])|(at_ & I1 & Mi1 & Sc1 & Ar1 & Gu & Bu & [->|[e ->]])].
    { injection H as <- <-. exists g. split; [assumption|]. split; [assumption|]. intros S; exfalso; eapply not_success_raise, S. }
    { injection H as <- <-. exists g. split; [assumption|]. split; [assumption|]. intros S; exfalso; eapply not_success_raise, S. }
    2: { injection H as <- <-. exists g1. split; [assumption|]. split; [assumption|]. intros S; exfalso; eapply not_success_raise, S. }
    head_bind H E0. unfold the_token, lift in E0. cbn in E0. injection E0 as <- <-.
    head_bind H E0. unfold the_token, lift in E0. injection E0 as <- <-.
    destruct (get_token value g) as [t|] eqn:Et; cbn [of_option] in H.
    2: { injection H as <- <-. exists g1. split; [assumption|]. split; [assumption|]. intros S; exfalso; eapply not_success_raise, S. }
    head_bind H E0. unfold lift in E0. injection E0 as <- <-.
    destruct (ur_mints (t_rules t)) as [mints|]; cbn [of_option] in H.
    2: { injection H as <- <-. exists g1. split; [assumption|]. split; [assumption|]. intros S; exfalso; eapply not_success_raise, S. }
    destruct (Bu t eq_refl) as [B1 B2].
    head_bind H E2. rename r0 into r2.
    assert (Mid : exists g2, grows g1 g2 /\ regrants (session_key [u; c; gid]) g2 (w_db w) (w_db w1)).
    { destruct (smem "refresh_token" mints).
      - head_bind E2 E3. destruct (endpoint_mint_cases _ _ _ _ _ _ _ _ _ _ _ Hu Hc Hg E3) as [[A [e ->]]|(g2 & R2 & C2)].
        + injection E2 as <- <-. exists g1. rewrite A. auto using grows_refl.
        + assert (R2' := regrants_trans _ _ _ _ _ _ R1 R2).
          assert (G2 : grows g1 g2).
          { destruct C2 as [(-> & _)|(t2 & I & Mi & _ & Iv & _)]; [apply grows_refl|]. eapply append_grows; eauto using minted_sound. }
          destruct C2 as [(-> & Nu & [->|[e ->]])|(rt & I2 & Mi2 & _ & [Av2 Rv2] & _ & _ & [->|[e ->]])].
          * unfold bind, the_token, lift, ret in E2. cbn in E2. injection E2 as <- <-. eauto 6.
          * injection E2 as <- <-. eauto 6.
          * unfold bind at 1 in E2. unfold the_token, lift in E2. cbn [of_option] in E2.
            head_bind E2 E4. unfold in_db in E4. rewrite unpack_good in E4 by auto with gp.
            unfold poke, modify in E4. injection E4 as <- <-. injection E2 as <- <-. cbn [w_db].
            match goal with H : endpoint_mint _ _ _ _ "refresh_token" _ _ = (_, ?w3) |- _ => set (w3' := w3) in * end.
            destruct (sh && dmem (session_key [u; c; gid]) (w_db w3')) eqn:Ep; [|eauto].
            exists (upd_newest (t_set_rules (t_rules t)) g2). split.
            -- split; [exact Av2|]. split; [cbn; congruence|].
               exists (g_issued g1), [t_set_rules (t_rules t) rt]. cbn. rewrite I2, upd_last_app.
               split; [reflexivity|]. split; [apply Forall2_core_refl|]. constructor; [|constructor].
               assert (S := minted_sound _ _ _ _ M2 Mi2). destruct S as [_ S]. split; [|exact S].
               destruct Mi2 as (_ & Mi2 & _). cbn in Mi2. cbn. intros X. congruence.
            -- eapply regrants_trans; [exact R2'|]. apply regrants_dset.
          * injection E2 as <- <-. eauto 6.
      - unfold ret in E2. injection E2 as <- <-. eauto using grows_refl. }
    destruct Mid as (g2 & G2 & R2). exists g2. split; [eauto using grows_trans|].
    assert (Ew : w_db w' = w_db w1).
    { destruct r2 as [resp|e]; [|injection H as <- <-; reflexivity]. destruct (smem "id_token" mints).
      - now apply add_id_token_db in H.
      - injection H as <- <-. reflexivity. }
    rewrite Ew. split; [exact R2|]. intros _. exists t. auto.
  Qed.

  Lemma session_by_db v w r w' : in_db (session_by sid_of v) w = (r, w') -> w' = w.
  Proof. intros H. apply in_session_by in H. apply H. Qed.

  (** The request may be for a code or for a refresh token *)
  Lemma process_cases sh helpers m1 m2 ir rq w r w' : mint_ok m1 -> mint_ok m2 ->
    token_process sid_of cx make_id_token sh helpers m1 m2 ir (PReq rq) w = (r, w') ->
    (w_db w' = w_db w /\ ~ success r) \/
    (dget "grant_type" rq = Some (VStr "authorization_code") /\ dget "authorization_code" helpers = Some HCode /\
     exists r1 w1, code_process sid_of cx make_id_token m1 m2 ir rq w = (r1, w1) /\ w_db w' = w_db w1 /\ (success r -> success r1) /\
       exists raw, dget "code" rq = Some (VStr raw)) \/
    (dget "grant_type" rq = Some (VStr "refresh_token") /\ dget "refresh_token" helpers = Some HRefresh /\
     exists r1 w1, refresh_process sid_of cx make_id_token sh m1 m2 rq w = (r1, w1) /\ w_db w' = w_db w1 /\ (success r -> success r1) /\
       exists v, dget "refresh_token" rq = Some (VStr v)).
  Proof.
    intros M1 M2 H. unfold token_process in H. head_bind H E0.
    assert (r0 = msub_str "grant_type" rq /\ w0 = w) as [-> ->] by (injection E0 as <- <-; auto). clear E0.
    destruct (msub_str "grant_type" rq) as [gt|e] eqn:Eg; [|injection H as <- <-; auto]. apply msub_str_ok in Eg.
    assert (Tail : forall a w1, (match a with
            | AError e d => ret (AError e d)
            | AOk args _ => v <-- lift (msub_str "access_token" args) ;; in_db (session_by sid_of v) ;;; ret (AOk args None)
            end) w1 = (r, w') -> w' = w1 /\ (success r -> success (Ok a))).
    { intros a w1 Ha. destruct a as [e d|args oc].
      - injection Ha as <- <-. split; [reflexivity|]. intros X. now apply not_success_error in X.
      - split; [|intros _; do 2 eexists; reflexivity]. head_bind Ha E0. unfold lift in E0. injection E0 as E0 <-.
        destruct r0; [|injection Ha as <- <-; reflexivity]. head_bind Ha E1. apply session_by_db in E1. subst.
        destruct r0 as [[? ?]|]; injection Ha as <- <-; reflexivity. }
    destruct (dget gt helpers) as [h|] eqn:Eh; [|injection H as <- <-; auto].
    destruct h.
    - head_bind H E1. destruct (code_process_cases _ _ _ _ _ _ _ M1 M2 E1) as [[A B]|(raw & u & c & gid & g & g' & C1 & C2 & _)].
      + left. destruct r0 as [a|e]; [|injection H as <- <-; auto]. apply Tail in H. destruct H as [-> S]. auto.
      + right. left. assert (gt = "authorization_code") by congruence. subst gt. split; [exact Eg|]. split; [exact Eh|].
        exists r0, w0. split; [reflexivity|]. destruct r0 as [a|e].
        * apply Tail in H. destruct H as [-> S]. eauto.
        * injection H as <- <-. eauto.
    - head_bind H E1. destruct (refresh_process_cases _ _ _ _ _ _ _ M1 M2 E1) as [[A B]|(raw & u & c & gid & g & g' & C1 & C2 & _)].
      + left. destruct r0 as [a|e]; [|injection H as <- <-; auto]. apply Tail in H. destruct H as [-> S]. auto.
      + right. right. assert (gt = "refresh_token") by congruence. subst gt. split; [exact Eg|]. split; [exact Eh|].
        exists r0, w0. split; [reflexivity|]. destruct r0 as [a|e].
        * apply Tail in H. destruct H as [-> S]. eauto.
        * injection H as <- <-. eauto.
    - injection H as <- <-. auto.
  Qed.

  Lemma process_advances sh helpers m1 m2 ir rq w r w' : mint_ok m1 -> mint_ok m2 ->
    token_process sid_of cx make_id_token sh helpers m1 m2 ir (PReq rq) w = (r, w') ->
    advances (fun _ => False) (w_db w) (w_db w').
  Proof.
    intros M1 M2 H. destruct (process_cases _ _ _ _ _ _ _ _ _ M1 M2 H) as [[-> _]|[(_ & _ & r1 & w1 & E & -> & _)|(_ & _ & r1 & w1 & E & -> & _)]].
    - apply advances_refl.
    - destruct (code_process_cases _ _ _ _ _ _ _ M1 M2 E) as [[-> _]|(raw & u & c & gid & g & g' & _ & _ & L & G & R & _)]; [apply advances_refl|].
      destruct L as (_ & _ & _ & _ & V). eapply regrants_advances; [apply view_key, V|exact G|exact R].
    - destruct (refresh_process_cases _ _ _ _ _ _ _ M1 M2 E) as [[-> _]|(raw & u & c & gid & g & g' & _ & _ & L & G & R & _)]; [apply advances_refl|].
      destruct L as (_ & _ & _ & _ & V). eapply regrants_advances; [apply view_key, V|exact G|exact R].
  Qed.

  (** *** Parsing *)
  Lemma look_cases name request catches s r s' : look sid_of name request catches s = (r, s') ->
    s' = s /\ match r with
    | Ok (Some (v, i)) => dget name request = Some (VStr v) /\
        exists u c gid e, good u /\ good c /\ good gid /\ sid_of v = Ok (session_key [u; c; gid]) /\ view s [u; c; gid] = Some e /\
          i = mkSI (session_key [u; c; gid]) u c gid None None (Some e) None None
    | _ => True
    end.
  Proof.
    unfold look, catch, bind, lift, ret. intros H. destruct (msub_str name request) as [v|e] eqn:E.
    2: { destruct (catches e); injection H as <- <-; auto. }
    destruct (get_session_info_by_token sid_of v false false true false false s) as [[i|e] s1] eqn:Ei; apply by_token_cases in Ei.
    - destruct Ei as [-> X]. injection H as <- <-. split; [reflexivity|]. apply msub_str_ok in E. auto.
    - destruct Ei as [-> X]. destruct (catches e); injection H as <- <-; auto.
  Qed.

  Lemma tclass_eqb_true a b : tclass_eqb a b = true -> a = b.
  Proof. destruct a, b; (reflexivity || discriminate). Qed.

  Lemma code_parse_cases clock request s r s' : code_parse sid_of clock request s = (r, s') ->
    s' = s /\ match r with
    | Ok (PReq rq) => exists v u c gid g t, dget "code" request = Some (VStr v) /\ leads s v u c gid g /\
        get_token v g = Some t /\ t_class t = CCode /\ token_usable clock t /\
        (rq = request \/ exists x, dmem "client_id" request = false /\ rq = dset "client_id" x request)
    | _ => True
    end.
  Proof.
    unfold code_parse. intros H. head_bind H E. apply look_cases in E. destruct E as [-> E].
    destruct r0 as [[[v i]|]|e]; [| |injection H as <- <-; auto].
    2: { injection H as <- <-; auto. }
    destruct E as (Ev & u & c & gid & e & Hu & Hc & Hg & Es & V & ->).
    unfold grant_of, as_grant, bind, ret, raise, lift in H. cbn [in_grant] in H. destruct e as [|g]; [injection H as <- <-; auto|].
    destruct (get_token v g) as [t|] eqn:Et; [|injection H as <- <-; auto].
    destruct (tclass_eqb (t_class t) CCode) eqn:Ec; cbn [negb] in H; [|injection H as <- <-; auto]. apply tclass_eqb_true in Ec.
    destruct (t_active clock t) eqn:Ea; cbn [negb] in H; [|injection H as <- <-; auto]. apply t_active_iff in Ea.
    assert (L : leads s v u c gid g) by (unfold leads; auto 6).
    destruct (dmem "client_id" request) eqn:Em.
    - injection H as <- <-. split; [reflexivity|]. exists v, u, c, gid, g, t. auto 8.
    - destruct (g_authreq g) as [ar|]; [|injection H as <- <-; auto].
      destruct (dsub "client_id" ar) as [x|]; injection H as <- <-; [|auto]. split; [reflexivity|].
      exists v, u, c, gid, g, t. eauto 10.
  Qed.

  Lemma refresh_parse_cases clock request s r s' : refresh_parse sid_of clock request s = (r, s') ->
    s' = s /\ match r with
    | Ok (PReq rq) => exists v u c gid g t, dget "refresh_token" request = Some (VStr v) /\ leads s v u c gid g /\
        get_token v g = Some t /\ t_class t = CRefresh /\ token_usable clock t /\ rq = request
    | _ => True
    end.
  Proof.
    unfold refresh_parse. intros H. destruct (negb _); [injection H as <- <-; auto|]. head_bind H E. apply look_cases in E. destruct E as [-> E].
    destruct r0 as [[[v i]|]|e]; [| |injection H as <- <-; auto].
    2: { injection H as <- <-; auto. }
    destruct E as (Ev & u & c & gid & e & Hu & Hc & Hg & Es & V & ->).
    unfold grant_of, as_grant, bind, ret, raise, lift in H. cbn [in_grant] in H. destruct e as [|g]; [injection H as <- <-; auto|].
    destruct (get_token v g) as [t|] eqn:Et; [|injection H as <- <-; auto].
    destruct (tclass_eqb (t_class t) CRefresh) eqn:Ec; cbn [negb] in H; [|injection H as <- <-; auto]. apply tclass_eqb_true in Ec.
    destruct (t_active clock t) eqn:Ea; cbn [negb] in H; [|injection H as <- <-; auto]. apply t_active_iff in Ea.
    assert (L : leads s v u c gid g) by (unfold leads; auto 6).
    injection H as <- <-. split; [reflexivity|]. exists v, u, c, gid, g, t. auto 8.
  Qed.

  (** PKCE lets a request through unchanged, and only with the right verifier *)
  Lemma post_token_cases request s r s' : post_token_parse sid_of b64hash request s = (r, s') ->
    s' = s /\ match r with
    | Ok (PReq rq) => rq = request /\ exists code u c gid g ar,
        dget "code" request = Some (VStr code) /\ leads s code u c gid g /\ g_authreq g = Some ar /\
        (dmem "code_challenge" ar = true -> exists verifier challenge m,
           dget "code_verifier" request = Some (VStr verifier) /\
           dget "code_challenge" ar = Some (VStr challenge) /\ dget "code_challenge_method" ar = Some (VStr m) /\
           cc_method b64hash m verifier = Ok challenge)
    | _ => True
    end.
  Proof.
    unfold post_token_parse. intros H. head_bind H E. apply look_cases in E. destruct E as [-> E].
    destruct r0 as [[[v i]|]|e]; [| |injection H as <- <-; auto].
    2: { injection H as <- <-; auto. }
    destruct E as (Ev & u & c & gid & e & Hu & Hc & Hg & Es & V & ->).
    unfold grant_of, as_grant, bind, ret, raise, lift in H. cbn [in_grant] in H. destruct e as [|g]; [injection H as <- <-; auto|].
    assert (L : leads s v u c gid g) by (unfold leads; auto 6).
    destruct (g_authreq g) as [ar|] eqn:Ear; [|injection H as <- <-; auto].
    destruct (dmem "code_challenge" ar) eqn:Ech.
    2: { injection H as <- <-. split; [reflexivity|]. split; [reflexivity|]. exists v, u, c, gid, g, ar.
         split; [exact Ev|]. split; [exact L|]. split; [exact Ear|]. intros X. congruence. }
    destruct (negb _); [injection H as <- <-; auto|].
    destruct (msub_str "code_challenge_method" ar) as [m|e] eqn:E1; [|injection H as <- <-; auto].
    destruct (msub_str "code_verifier" request) as [ve|e] eqn:E2; [|injection H as <- <-; auto].
    destruct (msub_str "code_challenge" ar) as [ch|e] eqn:E3; [|injection H as <- <-; auto].
    destruct (verify_code_challenge b64hash ve ch m) as [ok|e] eqn:E4; injection H as <- <-; [|auto].
    split; [reflexivity|]. destruct ok; [|exact I]. split; [reflexivity|]. exists v, u, c, gid, g, ar.
    split; [exact Ev|]. split; [exact L|]. split; [exact Ear|]. intros _. exists ve, ch, m.
    apply msub_str_ok in E1, E2, E3. repeat (split; [assumption|]).
    unfold verify_code_challenge in E4. destruct (cc_method b64hash m ve) as [x|]; cbn in E4; [|discriminate].
    injection E4 as E4. apply String.eqb_eq in E4. congruence.
  Qed.

  Lemma token_parse_cases helpers pk clock request s r s' : token_parse sid_of b64hash helpers pk clock request s = (r, s') ->
    s' = s /\ match r with
    | Ok (PReq rq) => exists gt, dget "grant_type" request = Some (VStr gt) /\ (pk = true -> fst (post_token_parse sid_of b64hash rq s) = Ok (PReq rq)) /\
        ((dget gt helpers = Some HCode /\ fst (code_parse sid_of clock request s) = Ok (PReq rq)) \/
         (dget gt helpers = Some HRefresh /\ fst (refresh_parse sid_of clock request s) = Ok (PReq rq)))
    | _ => True
    end.
  Proof.
    unfold token_parse, token_post_parse. intros H. head_bind H E. head_bind E E1. unfold lift in E1. injection E1 as <- <-.
    destruct (msub_str "grant_type" request) as [gt|e] eqn:Eg; [|injection E as <- <-; injection H as <- <-; auto].
    apply msub_str_ok in Eg.
    assert (Tail : forall rq, ((if pk then post_token_parse sid_of b64hash rq else ret (PReq rq)) s) = (r, s') ->
      s' = s /\ match r with Ok (PReq rq') => rq' = rq /\ (pk = true -> fst (post_token_parse sid_of b64hash rq s) = Ok (PReq rq)) | _ => True end).
    { intros rq Ht. destruct pk; [|injection Ht as <- <-; split; [reflexivity|]; split; [reflexivity|discriminate]].
      assert (X := Ht). apply post_token_cases in X. destruct X as [-> X]. split; [reflexivity|].
      destruct r as [[rq'|]|]; [|exact I|exact I]. destruct X as [-> _]. split; [reflexivity|]. intros _. rewrite Ht. reflexivity. }
    destruct (dget gt helpers) as [[]|] eqn:Eh; [| | |].
    - assert (X := E). apply code_parse_cases in X. destruct X as [-> X].
      destruct r0 as [[rq|e d]|e]; [|injection H as <- <-; auto|injection H as <- <-; auto].
      apply Tail in H. destruct H as [-> H]. split; [reflexivity|]. destruct r as [[rq'|]|]; [|exact I|exact I]. destruct H as [-> H].
      exists gt. split; [exact Eg|]. split; [exact H|]. left. split; [exact Eh|]. rewrite E. reflexivity.
    - assert (X := E). apply refresh_parse_cases in X. destruct X as [-> X].
      destruct r0 as [[rq|e d]|e]; [|injection H as <- <-; auto|injection H as <- <-; auto].
      apply Tail in H. destruct H as [-> H]. split; [reflexivity|]. destruct r as [[rq'|]|]; [|exact I|exact I]. destruct H as [-> H].
      exists gt. split; [exact Eg|]. split; [exact H|]. right. split; [exact Eh|]. rewrite E. reflexivity.
    - injection E as <- <-. injection H as <- <-. auto.
    - injection E as <- <-. injection H as <- <-. auto.
  Qed.

  (** *** Histories *)
  Variable sharing : bool.
  Variable helpers : dict helper.
  Variable with_pkce : bool.
  Notation step := (hstep sid_of b64hash cx make_id_token sharing helpers with_pkce).
  Notation run := (hrun sid_of b64hash cx make_id_token sharing helpers with_pkce).

  Definition wmade (gid : string) (op : wop) (k : string) : Prop :=
    match op with
    | WManager op => made_by op k
    | WOutside _ => exists u c g, good u /\ good c /\ good g /\ g <> gid /\ k = session_key [u; c; g]
    | _ => False
    end.

  Lemma authz_mint_advances mt u c g ttype base w : mint_ok mt -> good u -> good c -> good g ->
    advances (fun _ => False) (w_db w) (w_db (snd (authz_mint cx mt u c g ttype base w))).
  Proof.
    intros M Hu Hc Hg. unfold authz_mint, get_grant. unfold bind at 1, in_db.
    unfold bind at 1. rewrite unpack3_good by assumption. unfold lift at 1, bind at 1.
    destruct (read_cases [u; c; g] (w_db w)) as [(e & -> & V)|(x & -> & V)]; [|apply advances_refl].
    destruct e as [i|gr]; [apply advances_refl|]. unfold ret at 1.
    replace (mkW (w_db w) (w_cdb w)) with w by (destruct w; reflexivity).
    unfold bind. destruct (endpoint_mint _ _ _ _ _ _ w) as [r w1] eqn:E.
    assert (X : advances (fun _ => False) (w_db w) (w_db w1)).
    { destruct (endpoint_mint_cases _ _ _ _ _ _ _ _ _ _ _ Hu Hc Hg E) as [[-> _]|(g2 & R & C)]; [apply advances_refl|].
      eapply regrants_advances; [apply view_key, V| |exact R].
      destruct C as [(-> & _)|(t & I & Mi & _ & Iv & _)]; [apply grows_refl|]. eapply append_grows; eauto using minted_sound. }
    destruct r; exact X.
  Qed.

  Lemma step_advances gid op h : wop_ok gid op ->
    advances (wmade gid op) (w_db (h_world h)) (w_db (h_world (fst (step op h)))).
  Proof.
    intros Hop. destruct op as [op|clock request|m1 m2 ir n|mt u c g ttype base|f]; cbn [hstep wop_ok wmade] in *.
    - cbn [fst h_world]. unfold in_db. assert (X := mstep_advances sharing gid op (w_db (h_world h)) Hop).
      destruct (mstep sharing op (w_db (h_world h))); exact X.
    - unfold in_db. destruct (token_parse _ _ _ _ _ _ _) as [r s] eqn:E. apply token_parse_cases in E. destruct E as [-> _].
      destruct r as [[rq|]|]; apply advances_refl.
    - destruct (nth_error (h_accepted h) n) as [rq|]; [|apply advances_refl].
      destruct (token_process _ _ _ _ _ _ _ _ _ _) as [r w] eqn:E. cbn [fst h_world].
      destruct Hop as [P1 P2]. exact (process_advances _ _ _ _ _ _ _ _ _ P1 P2 E).
    - destruct Hop as (M & Hu & Hc & Hg). cbn [fst h_world]. now apply authz_mint_advances.
    - exact (Hop (h_world h)).
  Qed.

  Lemma not_made gid u c op : good u -> good c -> good gid -> wop_ok gid op -> ~ wmade gid op (session_key [u; c; gid]).
  Proof.
    intros Hu Hc Hg Hop H. destruct op as [op| | | |f]; cbn [wmade wop_ok] in *; try contradiction.
    - destruct H as (u' & c' & g' & Hu' & Hc' & Hg' & M & E). apply key_eq in E; [|auto with gp|auto with gp]. injection E as <- <- <-.
      destruct Hop as (_ & _ & _ & N & _). contradiction.
    - destruct H as (u' & c' & g' & Hu' & Hc' & Hg' & N & E). apply key_eq in E; [|auto with gp|auto with gp]. injection E as <- <- <-. contradiction.
  Qed.

  (** *** A code is redeemed once *)
  Lemma step_sound gid op h : wop_ok gid op -> sound_store (w_db (h_world h)) ->
    sound_store (w_db (h_world (fst (step op h)))).
  Proof.
    intros Hop S k g E. destruct (step_advances gid op h Hop k g E) as [(g0 & A & B)|[_ A]]; [|exact A].
    eapply grows_sound; eauto.
  Qed.

  (** accepted code requests are about codes *)
  Definition accepted_ok (code k : string) (h : hist) : Prop :=
    forall rq raw, In rq (h_accepted h) -> dget "grant_type" rq = Some (VStr "authorization_code") ->
      dget "code" rq = Some (VStr raw) -> blank_to_plus raw = code -> dget "authorization_code" helpers = Some HCode ->
      forall g, dget k (w_db (h_world h)) = Some (EGrant g) -> exists t, get_token code g = Some t /\ t_class t = CCode.
  (** the code is used up *)
  Definition spent (code k : string) (s : store) : Prop :=
    forall g, dget k s = Some (EGrant g) -> forall t, get_token code g = Some t -> t_class t = CCode -> 1 <= t_used t.

  Lemma get_token_value v g t : get_token v g = Some t -> t_value t = v /\ In t (g_issued g).
  Proof. unfold get_token. intros H. apply find_some in H. destruct H as [H E]. apply String.eqb_eq in E. auto. Qed.

  Lemma dget_set_other (k k' : string) (x : val) (m : msg) : k <> k' -> dget k (dset k' x m) = dget k m.
  Proof. apply dget_dset_neq. Qed.

  Section Code.
    Variables (code u c gid : string).
    Hypothesis Hu : good u.
    Hypothesis Hc : good c.
    Hypothesis Hg : good gid.
    Hypothesis Hcode : sid_of code = Ok (session_key [u; c; gid]).
    Let k := session_key [u; c; gid].

    Lemma step_grant op h g' : wop_ok gid op -> dget k (w_db (h_world (fst (step op h)))) = Some (EGrant g') ->
      exists g, dget k (w_db (h_world h)) = Some (EGrant g) /\ grows g g'.
    Proof.
      intros Hop E. destruct (step_advances gid op h Hop k g' E) as [X|[X _]]; [exact X|].
      exfalso. exact (not_made gid u c op Hu Hc Hg Hop X).
    Qed.

    Lemma step_accepted op h : wop_ok gid op -> sound_store (w_db (h_world h)) -> accepted_ok code k h ->
      accepted_ok code k (fst (step op h)).
    Proof.
      intros Hop Hs Ha rq raw Hin Egt Ecode Eraw Eh g' E'.
      destruct (step_grant op h g' Hop E') as (g & E & G).
      cut (exists t, get_token code g = Some t /\ t_class t = CCode).
      { intros (t & Et & Ec). destruct (grows_token _ _ _ _ G Et) as (t' & Et' & S). exists t'. split; [exact Et'|].
        destruct S as (S & _). congruence. }
      destruct op as [op|clock request|m1 m2 ir n|mt u' c' g0 ttype base|f]; cbn [hstep fst h_accepted] in Hin;
        try (eapply Ha; eassumption).
      - unfold in_db in Hin. destruct (token_parse _ _ _ _ _ _ _) as [r s] eqn:Ep. assert (X := Ep). apply token_parse_cases in X.
        destruct X as [-> X]. destruct r as [[rq'|]|]; cbn [fst h_accepted] in Hin; try (eapply Ha; eassumption).
        apply in_app_or in Hin. destruct Hin as [Hin|[<-|[]]]; [eapply Ha; eassumption|].
        destruct X as (gt & Eg & _ & X).
        assert (Y : exists v u1 c1 gid1 g1 t, dget "code" request = Some (VStr v) /\ leads (w_db (h_world h)) v u1 c1 gid1 g1 /\
          get_token v g1 = Some t /\ t_class t = CCode /\ token_usable clock t /\
          (rq' = request \/ exists x, dmem "client_id" request = false /\ rq' = dset "client_id" x request)).
        { destruct X as [[_ X]|[X1 X]].
          - destruct (code_parse sid_of clock request (w_db (h_world h))) as [r1 s1] eqn:E1. cbn in X. subst r1.
            apply code_parse_cases in E1. apply E1.
          - exfalso. destruct (refresh_parse sid_of clock request (w_db (h_world h))) as [r1 s1] eqn:E1. cbn in X. subst r1.
            apply refresh_parse_cases in E1. destruct E1 as [_ (v & u1 & c1 & gid1 & g1 & t & _ & _ & _ & _ & _ & ->)].
            assert (gt = "authorization_code") by congruence. subst. congruence. }
        destruct Y as (v & u1 & c1 & gid1 & g1 & t & Y1 & Y2 & Y3 & Y4 & _ & Y5).
        assert (raw = v). { destruct Y5 as [->|(x & _ & ->)]; [congruence|]. rewrite dget_set_other in Ecode by discriminate. congruence. }
        subst v. destruct (get_token_value _ _ _ Y3) as [V Vi].
        assert (St : sound_token t).
        { destruct Y2 as (_ & _ & _ & _ & Y2). apply view_key in Y2. apply Hs in Y2. rewrite Forall_forall in Y2. now apply Y2. }
        destruct St as (_ & St & _). rewrite V in St. assert (Q : raw = code) by congruence. clear V St. rewrite Q in Y2, Y3. 
        destruct Y2 as (G1 & G2 & G3 & Y2 & Y6). rewrite Hcode in Y2. injection Y2 as Y2.
        apply key_eq in Y2; [|auto with gp|auto with gp]. injection Y2 as <- <- <-. apply view_key in Y6. fold k in Y6.
        assert (g1 = g) by congruence. subst. eauto.
      - destruct (nth_error (h_accepted h) n); [|eapply Ha; eassumption].
        destruct (token_process _ _ _ _ _ _ _ _ _ _). cbn [fst h_accepted] in Hin. eapply Ha; eassumption.
    Qed.

    Lemma step_spent op h : wop_ok gid op -> accepted_ok code k h -> spent code k (w_db (h_world h)) ->
      (exists rq raw, In rq (h_accepted h) /\ dget "grant_type" rq = Some (VStr "authorization_code") /\
        dget "code" rq = Some (VStr raw) /\ blank_to_plus raw = code /\ dget "authorization_code" helpers = Some HCode) ->
      spent code k (w_db (h_world (fst (step op h)))).
    Proof.
      intros Hop Ha Hs (rq & raw & Hin & E1 & E2 & E3 & E4) g' E' t' Et' Ec'.
      destruct (step_grant op h g' Hop E') as (g & E & G).
      destruct (Ha rq raw Hin E1 E2 E3 E4 g E) as (t & Et & Ec).
      destruct (grows_token _ _ _ _ G Et) as (t2 & Et2 & S). assert (t2 = t') by congruence. subst t2.
      specialize (Hs g E t Et Ec). unfold same_core in S. lia.
    Qed.

    (** a successful answer needs the code to be unused, and leaves it used *)
    Lemma step_redeems op h e : wop_ok gid op -> sound_store (w_db (h_world h)) -> accepted_ok code k h ->
      In e (snd (step op h)) -> redeems code e = true ->
      snd (step op h) = [e] /\ ~ spent code k (w_db (h_world h)) /\ spent code k (w_db (h_world (fst (step op h)))) /\
      (exists rq raw, In rq (h_accepted h) /\ dget "grant_type" rq = Some (VStr "authorization_code") /\
        dget "code" rq = Some (VStr raw) /\ blank_to_plus raw = code /\ dget "authorization_code" helpers = Some HCode).
    Proof.
      intros Hop Hsd Ha Hin Hr. destruct op as [op|clock request|m1 m2 ir n|mt u' c' g0 ttype base|f]; cbn [hstep] in *.
      - destruct Hin.
      - exfalso. destruct (in_db _ _) as [[[]|] ?]; destruct Hin.
      - destruct (nth_error (h_accepted h) n) as [rq|] eqn:En; [|destruct Hin].
        destruct (token_process _ _ _ _ _ _ _ _ _ _) as [r w] eqn:Ep. cbn [snd fst h_world] in *. destruct Hin as [<-|[]].
        split; [reflexivity|]. apply nth_error_In in En.
        unfold redeems in Hr. cbn [ev_request ev_answer] in Hr.
        destruct (dget "grant_type" rq) as [[| | |gt| |]|] eqn:Eg; try discriminate.
        destruct (dget "code" rq) as [[| | |raw| |]|] eqn:Ec; try discriminate.
        destruct r as [[|args oc]|]; try discriminate. apply andb_prop in Hr. destruct Hr as [Hr1 Hr2].
        apply String.eqb_eq in Hr1, Hr2. subst gt.
        assert (Sx : success (Ok (AOk args oc))) by (do 2 eexists; reflexivity).
        destruct Hop as [M1 M2].
        destruct (process_cases _ _ _ _ _ _ _ _ _ M1 M2 Ep) as [[_ X]|[(_ & Hh & r1 & w1 & E & Ew & Sr & _)|(X & _)]]; [contradiction| |congruence].
        apply Sr in Sx. destruct (code_process_cases _ _ _ _ _ _ _ M1 M2 E) as [[_ X]|(raw' & u1 & c1 & gid1 & g & g' & _ & C2 & L & G & R & S)]; [contradiction|].
        assert (raw' = raw) by congruence. subst raw'. rewrite Hr2 in *.
        destruct (S Sx) as (ar & t & t' & _ & _ & S1 & S2 & _ & _ & S3 & S4).
        destruct L as (L1 & L2 & L3 & L4 & L5). rewrite Hcode in L4. injection L4 as L4.
        apply key_eq in L4; [|auto with gp|auto with gp]. injection L4 as <- <- <-. apply view_key in L5. fold k in L5, R.
        destruct (Ha rq raw En Eg Ec Hr2 Hh g L5) as (t0 & T1 & T2). assert (t0 = t) by congruence. subst t0.
        assert (St : sound_token t).
        { assert (X := Hsd k g L5). rewrite Forall_forall in X. apply X. now apply get_token_value in S1. }
        split.
        { intros Sp. specialize (Sp g L5 t S1 T2). destruct S2 as (_ & S2 & _). destruct St as (St & _). specialize (S2 1 (St T2)). lia. }
        split; [|exists rq, raw; auto].
        intros g2 E2 t2 T3 T4. rewrite Ew in E2. destruct (R k g2 E2) as [[_ ->]|[X _]]; [|congruence].
        assert (t2 = t') by congruence. subst. unfold same_core in S4. cbn in S4.
        destruct S4 as (_ & _ & _ & _ & _ & _ & _ & _ & _ & _ & _ & _ & S4 & _). destruct St as (_ & _ & St). lia.
      - destruct Hin.
      - destruct Hin.
    Qed.

    Lemma step_events op h : (length (snd (step op h)) <= 1)%nat.
    Proof.
      destruct op as [op|clock request|m1 m2 ir n|mt u' c' g0 ttype base|f]; cbn [hstep]; try (cbn; lia).
      - destruct (in_db _ _) as [[[]|] ?]; cbn; lia.
      - destruct (nth_error _ _); [|cbn; lia]. destruct (token_process _ _ _ _ _ _ _ _ _ _). cbn. lia.
    Qed.

    Definition known (h : hist) : Prop :=
      exists rq raw, In rq (h_accepted h) /\ dget "grant_type" rq = Some (VStr "authorization_code") /\
        dget "code" rq = Some (VStr raw) /\ blank_to_plus raw = code /\ dget "authorization_code" helpers = Some HCode.
    Lemma step_known op h : known h -> known (fst (step op h)).
    Proof.
      intros (rq & raw & Hin & X). exists rq, raw. split; [|exact X].
      destruct op as [op|clock request|m1 m2 ir n|mt u' c' g0 ttype base|f]; cbn [hstep]; try exact Hin.
      - destruct (in_db _ _) as [[[]|] ?]; cbn; auto. apply in_or_app. auto.
      - destruct (nth_error _ _); [|exact Hin]. destruct (token_process _ _ _ _ _ _ _ _ _ _). exact Hin.
    Qed.

    Lemma run_spent ops : forall h, Forall (wop_ok gid) ops -> sound_store (w_db (h_world h)) -> accepted_ok code k h ->
      known h -> spent code k (w_db (h_world h)) -> filter (redeems code) (snd (run ops h)) = [].
    Proof.
      induction ops as [|op ops IH]; intros h Hops Hs Ha Hk Hsp; [reflexivity|]. inversion Hops; subst.
      cbn [hrun]. assert (A := step_sound gid op h H1 Hs). assert (B := step_accepted op h H1 Hs Ha).
      assert (C := step_known op h Hk). assert (D := step_spent op h H1 Ha Hsp Hk).
      assert (E : forall e, In e (snd (step op h)) -> redeems code e = false).
      { intros e He. destruct (redeems code e) eqn:X; [|reflexivity].
        destruct (step_redeems op h e H1 Hs Ha He X) as (_ & Y & _). contradiction. }
      specialize (IH (fst (step op h)) H2 A B C D).
      destruct (step op h) as [h1 e1]. cbn [fst snd] in *. destruct (run ops h1) as [h2 e2]. cbn [snd] in *.
      rewrite filter_app, IH, app_nil_r. clear - E. induction e1 as [|e l IHl]; [reflexivity|]. cbn.
      rewrite (E e) by now left. apply IHl. intros x Hx. apply E. now right.
    Qed.

    Lemma run_once ops : forall h, Forall (wop_ok gid) ops -> sound_store (w_db (h_world h)) -> accepted_ok code k h ->
      (length (filter (redeems code) (snd (run ops h))) <= 1)%nat.
    Proof.
      induction ops as [|op ops IH]; intros h Hops Hs Ha; [cbn; lia|]. inversion Hops; subst.
      cbn [hrun]. assert (A := step_sound gid op h H1 Hs). assert (B := step_accepted op h H1 Hs Ha).
      assert (Ev := step_events op h).
      destruct (filter (redeems code) (snd (step op h))) as [|e l] eqn:F.
      - specialize (IH (fst (step op h)) H2 A B).
        destruct (step op h) as [h1 e1]. cbn [fst snd] in *. destruct (run ops h1) as [h2 e2]. cbn [snd] in *.
        rewrite filter_app, F. exact IH.
      - assert (He : In e (filter (redeems code) (snd (step op h)))) by (rewrite F; now left).
        apply filter_In in He. destruct He as [He X].
        destruct (step_redeems op h e H1 Hs Ha He X) as (Y1 & _ & Y2 & Y3).
        assert (Z := run_spent ops (fst (step op h)) H2 A B (step_known op h Y3) Y2).
        destruct (step op h) as [h1 e1]. cbn [fst snd] in *. destruct (run ops h1) as [h2 e2]. cbn [snd] in *.
        rewrite filter_app, Z, app_nil_r, F. assert (Q : (length (e :: l) <= length e1)%nat).
        { rewrite <- F. clear. induction e1 as [|x e1 IH]; cbn; [lia|]. destruct (redeems code x); cbn; lia. }
        lia.
    Qed.

    (** *** Dead tokens *)
    Lemma dead_unusable clock0 clock t : dead clock0 t -> clock0 <= clock -> ~ token_usable clock t.
    Proof.
      intros D L (U1 & U2 & U3 & U4). destruct D as [D|[[D1 D2]|(n & D1 & D2)]].
      - congruence.
      - specialize (U4 D1). lia.
      - specialize (U2 n D1). lia.
    Qed.
    Lemma dead_core clock t t' : same_core t t' -> dead clock t -> dead clock t'.
    Proof.
      unfold same_core. intros S D. decompose [and] S. destruct D as [D|[[D1 D2]|(n & D1 & D2)]].
      - left. auto.
      - right. left. split; congruence.
      - right. right. exists n. split; [congruence|lia].
    Qed.

    (** the token with this value is dead, wherever the grant is still there *)
    Definition dead_in (clock : Z) (s : store) : Prop :=
      forall g, dget k s = Some (EGrant g) -> exists t, get_token code g = Some t /\ dead clock t.

    Lemma step_dead op h clock : wop_ok gid op -> dead_in clock (w_db (h_world h)) ->
      dead_in clock (w_db (h_world (fst (step op h)))).
    Proof.
      intros Hop D g' E'. destruct (step_grant op h g' Hop E') as (g & E & G). destruct (D g E) as (t & Et & Dt).
      destruct (grows_token _ _ _ _ G Et) as (t' & Et' & S). exists t'. eauto using dead_core.
    Qed.
    Lemma run_dead ops clock : forall h, Forall (wop_ok gid) ops -> dead_in clock (w_db (h_world h)) ->
      dead_in clock (w_db (h_world (fst (run ops h)))).
    Proof.
      induction ops as [|op ops IH]; intros h Hops D; [exact D|]. inversion Hops; subst. cbn [hrun].
      assert (D1 := step_dead op h clock H1 D). specialize (IH (fst (step op h)) H2 D1).
      destruct (step op h) as [h1 e1]. cbn [fst] in *. destruct (run ops h1) as [h2 e2]. exact IH.
    Qed.

    Lemma dead_leads clock0 s u1 c1 gid1 g : dead_in clock0 s -> leads s code u1 c1 gid1 g ->
      exists t, get_token code g = Some t /\ dead clock0 t.
    Proof.
      intros D (L1 & L2 & L3 & L4 & L5). rewrite Hcode in L4. injection L4 as L4.
      apply key_eq in L4; [|auto with gp|auto with gp]. injection L4 as <- <- <-. apply view_key in L5. apply D. exact L5.
    Qed.

    Lemma step_dead_events op h clock e : wop_ok gid op -> wop_after clock op -> dead_in clock (w_db (h_world h)) ->
      In e (snd (step op h)) -> redeems code e = false /\ refreshes code e = false.
    Proof.
      intros Hop Haft D Hin. destruct op as [op|cl request|m1 m2 ir n|mt u' c' g0 ttype base|f]; cbn [hstep] in Hin; try destruct Hin.
      - destruct (in_db _ _) as [[[]|] ?]; destruct Hin.
      - destruct (nth_error (h_accepted h) n) as [rq|] eqn:En; [|destruct Hin].
        destruct (token_process _ _ _ _ _ _ _ _ _ _) as [r w] eqn:Ep. cbn [snd] in *. destruct Hin as [<-|[]].
        destruct Hop as [M1 M2]. destruct Haft as [Haft _]. unfold redeems, refreshes. cbn [ev_request ev_answer].
        assert (P := process_cases _ _ _ _ _ _ _ _ _ M1 M2 Ep).
        destruct (dget "grant_type" rq) as [[| | |gt| |]|] eqn:Eg; auto.
        destruct r as [[|args oc]|].
        1, 3: now split; [destruct (dget "code" rq) as [[]|]|destruct (dget "refresh_token" rq) as [[]|]].
        assert (Sx : success (Ok (AOk args oc))) by (do 2 eexists; reflexivity).
        split.
        + destruct (dget "code" rq) as [[| | |raw| |]|] eqn:Ec; auto.
          destruct (String.eqb_spec gt "authorization_code") as [->|N]; [|reflexivity]. cbn [andb].
          destruct (String.eqb_spec (blank_to_plus raw) code) as [Hr2|N]; [|reflexivity]. exfalso.
          destruct P as [[_ X]|[(_ & Hh & r1 & w1 & E & Ew & Sr & _)|(X & _)]]; [contradiction| |congruence].
          apply Sr in Sx. destruct (code_process_cases _ _ _ _ _ _ _ M1 M2 E) as [[_ X]|(raw' & u1 & c1 & gid1 & g & g' & _ & C2 & L & G & R & S)]; [contradiction|].
          assert (raw' = raw) by congruence. subst raw'. rewrite Hr2 in *.
          destruct (S Sx) as (ar & t & t' & _ & _ & S1 & S2 & _).
          destruct (dead_leads _ _ _ _ _ _ D L) as (t0 & T1 & T2). assert (t0 = t) by congruence. subst t0.
          eapply dead_unusable; eauto.
        + destruct (dget "refresh_token" rq) as [[| | |raw| |]|] eqn:Ec; auto.
          destruct (String.eqb_spec gt "refresh_token") as [->|N]; [|reflexivity]. cbn [andb].
          destruct (String.eqb_spec raw code) as [->|N]; [|reflexivity]. exfalso.
          destruct P as [[_ X]|[(X & _)|(_ & Hh & r1 & w1 & E & Ew & Sr & _)]]; [contradiction|congruence|].
          apply Sr in Sx. destruct (refresh_process_cases _ _ _ _ _ _ _ M1 M2 E) as [[_ X]|(raw' & u1 & c1 & gid1 & g & g' & _ & C2 & L & G & R & S)]; [contradiction|].
          assert (raw' = code) by congruence. subst raw'.
          destruct (S Sx) as (t & S1 & S2 & _).
          destruct (dead_leads _ _ _ _ _ _ D L) as (t0 & T1 & T2). assert (t0 = t) by congruence. subst t0.
          eapply dead_unusable; eauto.
    Qed.
    Lemma run_dead_events ops clock : forall h, Forall (wop_ok gid) ops -> Forall (wop_after clock) ops ->
      dead_in clock (w_db (h_world h)) -> forall e, In e (snd (run ops h)) -> redeems code e = false /\ refreshes code e = false.
    Proof.
      induction ops as [|op ops IH]; intros h Hops Haft D e He; [destruct He|]. inversion Hops; inversion Haft; subst. cbn [hrun] in He.
      assert (D1 := step_dead op h clock H1 D). specialize (IH (fst (step op h)) H2 H6 D1 e).
      assert (X := step_dead_events op h clock e H1 H5 D).
      destruct (step op h) as [h1 e1]. cbn [fst snd] in *. destruct (run ops h1) as [h2 e2]. cbn [snd] in *.
      apply in_app_or in He. destruct He; auto.
    Qed.

    (** a dead token is not accepted by the parser *)
    Lemma parse_dead clock0 clock s request rq : dead_in clock0 s -> clock0 <= clock ->
      fst (token_parse sid_of b64hash helpers with_pkce clock request s) = Ok (PReq rq) ->
      (dget "grant_type" request = Some (VStr "authorization_code") -> dget "authorization_code" helpers = Some HCode -> dget "code" request <> Some (VStr code)) /\
      (dget "grant_type" request = Some (VStr "refresh_token") -> dget "refresh_token" helpers = Some HRefresh -> dget "refresh_token" request <> Some (VStr code)).
    Proof.
      intros D Hl H. destruct (token_parse _ _ _ _ _ _ _) as [r s'] eqn:Ep. cbn in H. subst r. apply token_parse_cases in Ep.
      destruct Ep as [-> (gt & Eg & _ & P)]. split; intros X Hh Y; rewrite X in Eg; injection Eg as <-.
      - destruct P as [[P1 P]|[P1 P]]; [|congruence]. destruct (code_parse sid_of clock request s) as [r1 s1] eqn:E1. cbn in P. subst r1.
        apply code_parse_cases in E1. destruct E1 as [_ (v & u1 & c1 & gid1 & g & t & E1 & L & E2 & _ & E3 & _)].
        assert (v = code) by congruence. subst v.
        destruct (dead_leads _ _ _ _ _ _ D L) as (t0 & T1 & T2). assert (t0 = t) by congruence. subst t0. eapply dead_unusable; eauto.
      - destruct P as [[P1 P]|[P1 P]]; [congruence|]. destruct (refresh_parse sid_of clock request s) as [r1 s1] eqn:E1. cbn in P. subst r1.
        apply refresh_parse_cases in E1. destruct E1 as [_ (v & u1 & c1 & gid1 & g & t & E1 & L & E2 & _ & E3 & _)].
        assert (v = code) by congruence. subst v.
        destruct (dead_leads _ _ _ _ _ _ D L) as (t0 & T1 & T2). assert (t0 = t) by congruence. subst t0. eapply dead_unusable; eauto.
    Qed.

    (** *** What was checked when a request was accepted still holds when it is processed *)
    Lemma step_kept (P : msg -> grant -> Prop) op h : wop_ok gid op ->
      (forall rq g g', grows g g' -> P rq g -> P rq g') ->
      (forall clock request rq, fst (token_parse sid_of b64hash helpers with_pkce clock request (w_db (h_world h))) = Ok (PReq rq) ->
         forall g, dget k (w_db (h_world h)) = Some (EGrant g) -> P rq g) ->
      (forall rq, In rq (h_accepted h) -> forall g, dget k (w_db (h_world h)) = Some (EGrant g) -> P rq g) ->
      forall rq, In rq (h_accepted (fst (step op h))) -> forall g, dget k (w_db (h_world (fst (step op h)))) = Some (EGrant g) -> P rq g.
    Proof.
      intros Hop Hgr Hp Ha rq Hin g' E'. destruct (step_grant op h g' Hop E') as (g & E & G). eapply Hgr; [exact G|].
      destruct op as [op|clock request|m1 m2 ir n|mt u' c' g0 ttype base|f]; cbn [hstep fst h_accepted] in Hin;
        try (eapply Ha; eassumption).
      - unfold in_db in Hin. destruct (token_parse _ _ _ _ _ _ _) as [r s] eqn:Ep.
        destruct r as [[rq'|]|]; cbn [fst h_accepted] in Hin; try (eapply Ha; eassumption).
        apply in_app_or in Hin. destruct Hin as [Hin|[<-|[]]]; [eapply Ha; eassumption|].
        eapply (Hp clock request); [|exact E]. rewrite Ep. reflexivity.
      - destruct (nth_error (h_accepted h) n); [|eapply Ha; eassumption].
        destruct (token_process _ _ _ _ _ _ _ _ _ _). cbn [fst h_accepted] in Hin. eapply Ha; eassumption.
    Qed.

    Lemma leads_here s v u1 c1 gid1 g1 g : v = code -> leads s v u1 c1 gid1 g1 -> dget k s = Some (EGrant g) -> g1 = g.
    Proof.
      intros -> (G1 & G2 & G3 & Y2 & Y6) E. rewrite Hcode in Y2. injection Y2 as Y2.
      apply key_eq in Y2; [|auto with gp|auto with gp]. injection Y2 as <- <- <-. apply view_key in Y6. fold k in Y6. congruence.
    Qed.

    Definition checked_refresh (rq : msg) (g : grant) : Prop :=
      dget "grant_type" rq = Some (VStr "refresh_token") -> dget "refresh_token" rq = Some (VStr code) ->
      dget "refresh_token" helpers = Some HRefresh -> exists t, get_token code g = Some t /\ t_class t = CRefresh.
    Definition checked_pkce (rq : msg) (g : grant) : Prop :=
      with_pkce = true -> forall raw, dget "code" rq = Some (VStr raw) -> blank_to_plus raw = code ->
      dget "grant_type" rq = Some (VStr "authorization_code") -> dget "authorization_code" helpers = Some HCode ->
      forall ar, g_authreq g = Some ar -> dmem "code_challenge" ar = true ->
      exists verifier challenge m, dget "code_verifier" rq = Some (VStr verifier) /\
        dget "code_challenge" ar = Some (VStr challenge) /\ dget "code_challenge_method" ar = Some (VStr m) /\
        cc_method b64hash m verifier = Ok challenge.

    Lemma parse_refresh s clock request rq : fst (token_parse sid_of b64hash helpers with_pkce clock request s) = Ok (PReq rq) ->
      forall g, dget k s = Some (EGrant g) -> checked_refresh rq g.
    Proof.
      intros H g E Eg Er Eh. destruct (token_parse _ _ _ _ _ _ _) as [r s'] eqn:Ep. cbn in H. subst r. apply token_parse_cases in Ep.
      destruct Ep as [-> (gt & Eg' & _ & [[P1 P]|[P1 P]])].
      - exfalso. destruct (code_parse sid_of clock request s) as [r1 s1] eqn:E1. cbn in P. subst r1.
        apply code_parse_cases in E1. destruct E1 as [_ (v & u1 & c1 & gid1 & g1 & t & _ & _ & _ & _ & _ & X)].
        assert (gt = "refresh_token").
        { destruct X as [->|(x & _ & ->)]; [congruence|]. rewrite dget_set_other in Eg by discriminate. congruence. }
        congruence.
      - destruct (refresh_parse sid_of clock request s) as [r1 s1] eqn:E1. cbn in P. subst r1.
        apply refresh_parse_cases in E1. destruct E1 as [_ (v & u1 & c1 & gid1 & g1 & t & E1 & L & E2 & E3 & E4 & ->)].
        assert (v = code) by congruence. assert (g1 = g) by (eapply leads_here; eauto). subst. eauto.
    Qed.
    Lemma parse_pkce s clock request rq : sound_store s ->
      fst (token_parse sid_of b64hash helpers with_pkce clock request s) = Ok (PReq rq) ->
      forall g, dget k s = Some (EGrant g) -> checked_pkce rq g.
    Proof.
      intros Hs H g E Hpk raw Ec Er Eg Eh ar Ear Ech. destruct (token_parse _ _ _ _ _ _ _) as [r s'] eqn:Ep. cbn in H. subst r. apply token_parse_cases in Ep.
      destruct Ep as [-> (gt & Eg' & Pk & P)]. specialize (Pk Hpk).
      assert (Y : exists v u1 c1 gid1 g1 t, dget "code" request = Some (VStr v) /\ leads s v u1 c1 gid1 g1 /\
          get_token v g1 = Some t /\ t_class t = CCode /\ token_usable clock t /\
          (rq = request \/ exists x, dmem "client_id" request = false /\ rq = dset "client_id" x request)).
      { destruct P as [[P1 P]|[P1 P]].
        - destruct (code_parse sid_of clock request s) as [r1 s1] eqn:E1. cbn in P. subst r1. apply code_parse_cases in E1. apply E1.
        - exfalso. destruct (refresh_parse sid_of clock request s) as [r1 s1] eqn:E1. cbn in P. subst r1.
          apply refresh_parse_cases in E1. destruct E1 as [_ (v & u1 & c1 & gid1 & g1 & t & _ & _ & _ & _ & _ & ->)].
          assert (gt = "authorization_code") by congruence. subst. congruence. }
      destruct Y as (v & u1 & c1 & gid1 & g1 & t & Y1 & Y2 & Y3 & Y4 & _ & Y5).
      assert (raw = v). { destruct Y5 as [->|(x & _ & ->)]; [congruence|]. rewrite dget_set_other in Ec by discriminate. congruence. }
      subst v. destruct (get_token_value _ _ _ Y3) as [V Vi].
      assert (St : sound_token t).
      { destruct Y2 as (_ & _ & _ & _ & Y2). apply view_key in Y2. apply Hs in Y2. rewrite Forall_forall in Y2. now apply Y2. }
      destruct St as (_ & St & _). rewrite V in St. assert (Q : raw = code) by congruence.
      assert (g1 = g) by (eapply leads_here; eauto). subst g1.
      destruct (post_token_parse sid_of b64hash rq s) as [r1 s1] eqn:E1. cbn in Pk. subst r1. apply post_token_cases in E1.
      destruct E1 as [_ (_ & code' & u2 & c2 & gid2 & g2 & ar2 & Z1 & Z2 & Z3 & Z4)].
      assert (code' = code) by congruence. assert (g2 = g) by (eapply leads_here; eauto). subst g2.
      assert (ar2 = ar) by congruence. subst ar2. exact (Z4 Ech).
    Qed.

    Lemma run_checked ops : forall h, Forall (wop_ok gid) ops -> sound_store (w_db (h_world h)) ->
      accepted_ok code k h ->
      (forall rq, In rq (h_accepted h) -> forall g, dget k (w_db (h_world h)) = Some (EGrant g) -> checked_refresh rq g /\ checked_pkce rq g) ->
      let h' := fst (run ops h) in
      sound_store (w_db (h_world h')) /\ accepted_ok code k h' /\
      (forall rq, In rq (h_accepted h') -> forall g, dget k (w_db (h_world h')) = Some (EGrant g) -> checked_refresh rq g /\ checked_pkce rq g).
    Proof.
      induction ops as [|op ops IH]; intros h Hops Hs Ha Hc'; [cbn; auto|]. inversion Hops; subst.
      cbn [hrun]. assert (A := step_sound gid op h H1 Hs). assert (B := step_accepted op h H1 Hs Ha).
      assert (C : forall rq, In rq (h_accepted (fst (step op h))) -> forall g, dget k (w_db (h_world (fst (step op h)))) = Some (EGrant g) ->
                    checked_refresh rq g /\ checked_pkce rq g).
      { apply (step_kept (fun rq g => checked_refresh rq g /\ checked_pkce rq g)); auto.
        - intros rq g g' G [P1 P2]. split.
          + intros X1 X2 X3. destruct (P1 X1 X2 X3) as (t & Et & Ec). destruct (grows_token _ _ _ _ G Et) as (t' & Et' & S).
            exists t'. split; [exact Et'|]. destruct S as (S & _). congruence.
          + intros X0 raw X1 X2 X3 X4 ar X5 X6. destruct G as (G & _). eapply P2; eauto. congruence.
        - intros clock request rq Hp g E. split; [exact (parse_refresh _ _ _ _ Hp g E)|exact (parse_pkce _ _ _ _ Hs Hp g E)]. }
      specialize (IH (fst (step op h)) H2 A B C).
      destruct (step op h) as [h1 e1]. cbn [fst snd] in *. destruct (run ops h1) as [h2 e2]. exact IH.
    Qed.

    (** a revoked grant stays revoked *)
    Definition revoked_in (s : store) : Prop := forall g, dget k s = Some (EGrant g) -> g_revoked g = true.
    Lemma run_revoked ops : forall h, Forall (wop_ok gid) ops -> revoked_in (w_db (h_world h)) ->
      revoked_in (w_db (h_world (fst (run ops h)))).
    Proof.
      induction ops as [|op ops IH]; intros h Hops D; [exact D|]. inversion Hops; subst. cbn [hrun].
      assert (D1 : revoked_in (w_db (h_world (fst (step op h))))).
      { intros g' E'. destruct (step_grant op h g' H1 E') as (g & E & (_ & G & _)). auto. }
      specialize (IH (fst (step op h)) H2 D1).
      destruct (step op h) as [h1 e1]. cbn [fst] in *. destruct (run ops h1) as [h2 e2]. exact IH.
    Qed.
    Lemma step_revoked_events op h e : wop_ok gid op -> revoked_in (w_db (h_world h)) ->
      In e (snd (step op h)) -> redeems code e = false /\ refreshes code e = false.
    Proof.
      intros Hop D Hin. destruct op as [op|cl request|m1 m2 ir n|mt u' c' g0 ttype base|f]; cbn [hstep] in Hin; try destruct Hin.
      - destruct (in_db _ _) as [[[]|] ?]; destruct Hin.
      - destruct (nth_error (h_accepted h) n) as [rq|] eqn:En; [|destruct Hin].
        destruct (token_process _ _ _ _ _ _ _ _ _ _) as [r w] eqn:Ep. cbn [snd] in *. destruct Hin as [<-|[]].
        destruct Hop as [M1 M2]. unfold redeems, refreshes. cbn [ev_request ev_answer].
        assert (P := process_cases _ _ _ _ _ _ _ _ _ M1 M2 Ep).
        destruct (dget "grant_type" rq) as [[| | |gt| |]|] eqn:Eg; auto.
        destruct r as [[|args oc]|].
        1, 3: now split; [destruct (dget "code" rq) as [[]|]|destruct (dget "refresh_token" rq) as [[]|]].
        assert (Sx : success (Ok (AOk args oc))) by (do 2 eexists; reflexivity).
        assert (Q : forall v u1 c1 gid1 g clock, v = code -> leads (w_db (h_world h)) v u1 c1 gid1 g -> grant_usable clock g -> False).
        { intros v u1 c1 gid1 g clock -> L U.
          assert (L' := L). destruct L' as (G1 & G2 & G3 & Y2 & Y6). rewrite Hcode in Y2. injection Y2 as Y2.
          apply key_eq in Y2; [|auto with gp|auto with gp]. injection Y2 as <- <- <-. apply view_key in Y6. apply D in Y6.
          destruct U as (U & _). congruence. }
        split.
        + destruct (dget "code" rq) as [[| | |raw| |]|] eqn:Ec; auto.
          destruct (String.eqb_spec gt "authorization_code") as [->|N]; [|reflexivity]. cbn [andb].
          destruct (String.eqb_spec (blank_to_plus raw) code) as [Hr2|N]; [|reflexivity]. exfalso.
          destruct P as [[_ X]|[(_ & Hh & r1 & w1 & E & Ew & Sr & _)|(X & _)]]; [contradiction| |congruence].
          apply Sr in Sx. destruct (code_process_cases _ _ _ _ _ _ _ M1 M2 E) as [[_ X]|(raw' & u1 & c1 & gid1 & g & g' & _ & C2 & L & G & R & S)]; [contradiction|].
          assert (raw' = raw) by congruence. subst raw'.
          destruct (S Sx) as (ar & t & t' & _ & _ & S1 & S2 & S3 & _). eapply Q; eauto.
        + destruct (dget "refresh_token" rq) as [[| | |raw| |]|] eqn:Ec; auto.
          destruct (String.eqb_spec gt "refresh_token") as [->|N]; [|reflexivity]. cbn [andb].
          destruct (String.eqb_spec raw code) as [->|N]; [|reflexivity]. exfalso.
          destruct P as [[_ X]|[(X & _)|(_ & Hh & r1 & w1 & E & Ew & Sr & _)]]; [contradiction|congruence|].
          apply Sr in Sx. destruct (refresh_process_cases _ _ _ _ _ _ _ M1 M2 E) as [[_ X]|(raw' & u1 & c1 & gid1 & g & g' & _ & C2 & L & G & R & S)]; [contradiction|].
          assert (raw' = code) by congruence. subst raw'.
          destruct (S Sx) as (t & S1 & S2 & S3 & _). eapply Q; eauto.
    Qed.
    Lemma run_revoked_events ops : forall h, Forall (wop_ok gid) ops -> revoked_in (w_db (h_world h)) ->
      forall e, In e (snd (run ops h)) -> redeems code e = false /\ refreshes code e = false.
    Proof.
      induction ops as [|op ops IH]; intros h Hops D e He; [destruct He|]. inversion Hops; subst. cbn [hrun] in He.
      assert (D1 : revoked_in (w_db (h_world (fst (step op h))))).
      { intros g' E'. destruct (step_grant op h g' H1 E') as (g & E & (_ & G & _)). auto. }
      specialize (IH (fst (step op h)) H2 D1 e).
      assert (X := step_revoked_events op h e H1 D).
      destruct (step op h) as [h1 e1]. cbn [fst snd] in *. destruct (run ops h1) as [h2 e2]. cbn [snd] in *.
      apply in_app_or in He. destruct He; auto.
    Qed.
  End Code.
End Token.

(** AuthzProofs.v *)
From Verif Require Import Base BaseProofs Types Monad MonadProofs Token Grant Ctx Claims ClaimsProofs Authz AuthzSpec.

Lemma dget_map_snd {A B} (f : string -> A -> B) d k :
  dget k (map (fun kr => (fst kr, f (fst kr) (snd kr))) d) = option_map (f k) (dget k d).
Proof.
  induction d as [|[k' v] d IH]; cbn; [reflexivity|]. destruct (String.eqb_spec k k') as [->|]; [reflexivity|exact IH].
Qed.
Lemma dget_map_keys {B} (f : string -> B) l k :
  dget k (map (fun x => (x, f x)) l) = if smem k l then Some (f k) else None.
Proof.
  induction l as [|x l IH]; cbn; [reflexivity|]. destruct (String.eqb_spec k x) as [->|]; [reflexivity|exact IH].
Qed.
Lemma dmem_keys {A} k (d : dict A) : dmem k d = smem k (dkeys d).
Proof.
  apply Bool.eq_true_iff_eq. rewrite smem_In, dmem_true. split.
  - intros (v & H). eapply dget_key; eauto.
  - intros H. destruct (dget k d) as [v|] eqn:E; [eauto|]. apply dget_None_key in E. contradiction.
Qed.
Lemma ur_update_empty d p : ur_truthy p = false -> ur_update d p = d.
Proof. destruct p as [[|] [|] [|]]; try discriminate. destruct d; reflexivity. Qed.

Lemma usage_rules_applied env c ttype : applied env (usage_rules env c) ttype = effective env c ttype.
Proof.
  unfold applied, usage_rules, effective, provider_default, client_rules.
  assert (PD : match re_config env with Some d => dget ttype d | None => None end = dget ttype (config_rules env)).
  { unfold config_rules. destruct (re_config env); reflexivity. }
  rewrite PD. clear PD.
  destruct (dget c (re_clients env)) as [pc|] eqn:Ec.
  - destruct (is_nil (config_rules env)) eqn:Eb.
    + destruct (config_rules env); [|discriminate]. cbn. rewrite Ec. unfold dmem.
      destruct (dget ttype pc) as [p|] eqn:Ep; [|reflexivity]. cbn. unfold dget_or. rewrite Ec, Ep. reflexivity.
    + cbn [rules_at]. rewrite dget_app.
      rewrite (dget_map_snd (fun k r => RNew match dget k pc with Some p => if ur_truthy p then ur_update r p else r | None => r end)).
      destruct (dget ttype (config_rules env)) as [d|] eqn:Ed; cbn [option_map].
      * cbn. destruct (dget ttype pc) as [p|]; [|reflexivity]. destruct (ur_truthy p) eqn:Et; [reflexivity|].
        now rewrite ur_update_empty.
      * rewrite dget_map_keys. destruct (dget ttype pc) as [p|] eqn:Ep.
        -- assert (M : smem ttype (filter (fun k => negb (dmem k (config_rules env))) (dkeys pc)) = true).
           { apply smem_In, filter_In. split; [eapply dget_key; eauto|]. unfold dmem. now rewrite Ed. }
           rewrite M. cbn. unfold dget_or. rewrite Ec, Ep. reflexivity.
        -- assert (M : smem ttype (filter (fun k => negb (dmem k (config_rules env))) (dkeys pc)) = false).
           { apply smem_false. intros X. apply filter_In in X. destruct X as [X _]. apply dget_None_key in Ep. contradiction. }
           rewrite M. reflexivity.
  - cbn [rules_at]. rewrite (dget_map_snd (fun _ r => RNew r)). destruct (dget ttype (config_rules env)); reflexivity.
Qed.

Lemma usage_rules_for_effective env c ttype :
  usage_rules_for env c ttype = match effective env c ttype with Some r => r | None => no_rules end.
Proof.
  unfold usage_rules_for. assert (H := usage_rules_applied env c ttype). unfold applied in H.
  destruct (rules_at env (usage_rules env c) ttype); cbn in H; rewrite <- H; reflexivity.
Qed.

(** ** The dicts change only by the defaults of the token class *)
Definition touched (ttype : string) (r r' : urules) : Prop :=
  r' = r \/ exists cls, TOKEN_MAP ttype = Some cls /\ r' = set_defaults cls r.
Definition otouched (ttype : string) (o o' : option urules) : Prop :=
  match o, o' with None, None => True | Some r, Some r' => touched ttype r r' | _, _ => False end.

Lemma set_defaults_idem cls r : set_defaults cls (set_defaults cls r) = set_defaults cls r.
Proof. destruct cls, r as [a [m|] e]; reflexivity. Qed.
Lemma touched_trans ttype a b c : touched ttype a b -> touched ttype b c -> touched ttype a c.
Proof.
  intros [->|(cls & E & ->)] [->|(cls' & E' & ->)]; unfold touched; eauto.
  right. exists cls. split; [exact E|]. assert (cls' = cls) by congruence. subst. apply set_defaults_idem.
Qed.
Lemma otouched_refl ttype o : otouched ttype o o.
Proof. destruct o; cbn; [now left|exact I]. Qed.
Lemma otouched_trans ttype a b c : otouched ttype a b -> otouched ttype b c -> otouched ttype a c.
Proof. destruct a, b, c; cbn; try contradiction; auto. apply touched_trans. Qed.

Definition same_shape (env env' : rules_env) : Prop :=
  (re_config env = None <-> re_config env' = None) /\
  (forall ttype, otouched ttype (provider_default env ttype) (provider_default env' ttype)) /\
  (forall c, dget c (re_clients env) = None <-> dget c (re_clients env') = None) /\
  (forall c ttype, otouched ttype (client_rules env c ttype) (client_rules env' c ttype) /\
     (provider_default env ttype <> None -> client_rules env' c ttype = client_rules env c ttype)).

Lemma shape_refl env : same_shape env env.
Proof. repeat split; auto using otouched_refl. Qed.
Lemma shape_trans a b c : same_shape a b -> same_shape b c -> same_shape a c.
Proof.
  intros (A1 & A2 & A3 & A4) (B1 & B2 & B3 & B4). split; [tauto|]. split.
  { intros t. eapply otouched_trans; eauto. }
  split. { intros x. rewrite A3. apply B3. }
  intros x t. destruct (A4 x t) as [P Q], (B4 x t) as [P' Q']. split; [eapply otouched_trans; eauto|].
  intros H. rewrite Q', Q; auto. specialize (A2 t). destruct (provider_default a t), (provider_default b t); cbn in A2; congruence.
Qed.

Lemma write_config env ttype r cls : provider_default env ttype = Some r -> TOKEN_MAP ttype = Some cls ->
  same_shape env (rules_write (RConfig ttype) (set_defaults cls r) env).
Proof.
  intros H Hc. unfold provider_default in H. destruct (re_config env) as [d|] eqn:E; [|discriminate].
  split; [|split; [|split]].
  - cbn. rewrite E. cbn. split; discriminate.
  - intros t. unfold provider_default. cbn. rewrite E. cbn. rewrite dget_dset. destruct (String.eqb_spec t ttype) as [->|N].
    + rewrite H. cbn. right. eauto.
    + apply otouched_refl.
  - intros c. cbn. tauto.
  - intros c t. cbn. split; [apply otouched_refl|reflexivity].
Qed.

Lemma write_client env c0 ttype r cls : client_rules env c0 ttype = Some r -> provider_default env ttype = None ->
  TOKEN_MAP ttype = Some cls -> same_shape env (rules_write (RClient c0 ttype) (set_defaults cls r) env).
Proof.
  intros H Hp Hc. unfold client_rules in H. destruct (dget c0 (re_clients env)) as [pc|] eqn:E; [|discriminate].
  unfold rules_write. rewrite E. split; [|split; [|split]].
  - cbn. tauto.
  - intros t. unfold provider_default. cbn. apply otouched_refl.
  - intros c. cbn. rewrite dget_dset. destruct (String.eqb_spec c c0) as [->|N]; [|tauto]. rewrite E. split; discriminate.
  - intros c t. unfold client_rules. cbn. rewrite dget_dset. destruct (String.eqb_spec c c0) as [->|N].
    + rewrite E, dget_dset. destruct (String.eqb_spec t ttype) as [->|N'].
      * rewrite H. split; [cbn; right; eauto|]. intros X. contradiction.
      * split; [apply otouched_refl|reflexivity].
    + split; [apply otouched_refl|reflexivity].
Qed.

Lemma config_default env ttype : dget ttype (config_rules env) = provider_default env ttype.
Proof. unfold config_rules, provider_default. destruct (re_config env); reflexivity. Qed.

Lemma make_usage_shape env c ttype : same_shape env (snd (make_rules env (usage_rules env c) ttype)).
Proof.
  unfold make_rules. destruct (TOKEN_MAP ttype) as [cls|] eqn:Et; [|apply shape_refl].
  destruct (rules_at env (usage_rules env c) ttype) as [rd|] eqn:Er; [|apply shape_refl]. cbn [snd].
  destruct (ur_truthy (rules_now env rd)); [|apply shape_refl].
  unfold usage_rules in Er. destruct (dget c (re_clients env)) as [pc|] eqn:Ec.
  - destruct (is_nil (config_rules env)) eqn:Eb.
    + cbn in Er. rewrite Ec in Er. destruct (dmem ttype pc) eqn:Em; [|discriminate]. injection Er as <-.
      apply dmem_true in Em. destruct Em as (p & Ep). cbn [rules_now]. unfold dget_or. rewrite Ec, Ep.
      apply write_client; [|rewrite <- config_default; destruct (config_rules env); [reflexivity|discriminate]|exact Et].
      unfold client_rules. now rewrite Ec.
    + cbn [rules_at] in Er. rewrite dget_app in Er.
      rewrite (dget_map_snd (fun k r => RNew match dget k pc with Some p => if ur_truthy p then ur_update r p else r | None => r end)) in Er.
      destruct (dget ttype (config_rules env)) as [d|] eqn:Ed; cbn [option_map] in Er.
      * injection Er as <-. apply shape_refl.
      * rewrite dget_map_keys in Er. destruct (smem ttype _) eqn:Em; [|discriminate]. injection Er as <-.
        apply smem_In, filter_In in Em. destruct Em as [Em _]. cbn [rules_now]. unfold dget_or. rewrite Ec.
        destruct (dget ttype pc) as [p|] eqn:Ep; [|apply dget_None_key in Ep; contradiction].
        apply write_client; [unfold client_rules; now rewrite Ec|now rewrite <- config_default|exact Et].
  - cbn [rules_at] in Er. rewrite (dget_map_snd (fun _ r => RNew r)) in Er.
    destruct (dget ttype (config_rules env)); [|discriminate]. cbn in Er. injection Er as <-. apply shape_refl.
Qed.

Lemma rstep_shape o env : same_shape env (rstep o env).
Proof.
  unfold rstep. destruct (ro_authorized o); [|apply make_usage_shape]. unfold authz_rules.
  destruct (re_config env) as [d|] eqn:E; [|apply make_usage_shape].
  unfold make_rules. destruct (TOKEN_MAP (ro_type o)) as [cls|] eqn:Et; [|apply shape_refl]. cbn [rules_at].
  destruct (dmem (ro_type o) (config_rules env)) eqn:Em; [|apply shape_refl].
  apply dmem_true in Em. destruct Em as (r & Er). cbn [rules_now snd]. unfold dget_or. rewrite Er.
  destruct (ur_truthy r); [|apply shape_refl]. apply write_config; [now rewrite <- config_default|exact Et].
Qed.

Lemma rrun_shape ops env : same_shape env (rrun ops env).
Proof. apply (run_moves same_shape); [apply shape_refl|apply shape_trans|]. intros o s _. apply rstep_shape. Qed.

Lemma update_touched cls d p : set_defaults cls (ur_update (set_defaults cls d) p) = set_defaults cls (ur_update d p).
Proof. destruct cls, d as [a [m|] e], p as [a' [m'|] e']; reflexivity. Qed.

Lemma token_rules_stable ops env c ttype : token_rules (rrun ops env) c ttype = token_rules env c ttype.
Proof.
  destruct (rrun_shape ops env) as (_ & H2 & _ & H4). specialize (H2 ttype). destruct (H4 c ttype) as [P Q]. clear H4.
  unfold token_rules. destruct (TOKEN_MAP ttype) as [cls|] eqn:Et; [|reflexivity]. f_equal. unfold effective.
  assert (T : forall r r', touched ttype r r' -> r' = r \/ r' = set_defaults cls r).
  { intros r r' [->|(cls' & E & ->)]; [now left|]. right. congruence. }
  destruct (provider_default env ttype) as [d|], (provider_default (rrun ops env) ttype) as [d'|]; cbn in H2; try contradiction.
  - rewrite Q by discriminate. destruct (client_rules env c ttype) as [p|].
    + destruct (T _ _ H2) as [->| ->]; [reflexivity|]. apply update_touched.
    + destruct (T _ _ H2) as [->| ->]; [reflexivity|]. apply set_defaults_idem.
  - destruct (client_rules env c ttype) as [p|], (client_rules (rrun ops env) c ttype) as [p'|]; cbn in P; try contradiction; [|reflexivity].
    destruct (T _ _ P) as [->| ->]; [reflexivity|]. apply set_defaults_idem.
Qed.

(** ** The authorization call *)
Lemma authz_frame cx clock c request res cs g :
  forall c', c' <> c -> dget c' (fst (snd (authz_call cx clock c request res (cs, g)))) = dget c' cs.
Proof.
  intros c' H. set (R := fun s s' : cdb * grant => dget c' (fst s') = dget c' (fst s)).
  assert (M : moves R (authz_call cx clock c request res)).
  { assert (Rr : forall s, R s s) by reflexivity.
    assert (Rt : forall a b d, R a b -> R b d -> R a d) by (unfold R; congruence).
    assert (Og : forall f, moves R (on_grant f)) by (intros f s; reflexivity).
    unfold authz_call.
    apply (moves_bind R Rt). { destruct (gc_rules _); [apply Og|apply (moves_ret R Rr)]. } intros _.
    apply (moves_bind R Rt). { destruct (gc_expires_in _); [apply Og|apply (moves_ret R Rr)]. } intros _.
    apply (moves_bind R Rt). { destruct (mget_list "scope" request) as [[|]|]; first [apply Og | apply (moves_ret R Rr)]. } intros _.
    apply (moves_bind R Rt). { apply Og. } intros _.
    apply (moves_iterM R Rr Rt). intros i _. apply (moves_bind R Rt). { apply (moves_lift R Rr). } intros scopes.
    apply (moves_bind R Rt). { apply (moves_gets R Rr). } intros gr.
    apply (moves_bind R Rt); [|intros r; apply Og]. intros s. unfold R, on_cdb.
    destruct (get_claims_main cx c (g_authreq gr) scopes i (fst s)) as ((F & _) & _).
    specialize (F c' H). destruct (get_claims cx c (g_authreq gr) scopes i (fst s)). exact F. }
  exact (M (cs, g)).
Qed.

From Verif Require Import ScopesSpec ClaimsSpec.

(** everything about a grant that authorizing it does not touch *)
Definition untouched (g g' : grant) : Prop :=
  g_id g' = g_id g /\ g_sub g' = g_sub g /\ g_authreq g' = g_authreq g /\ g_authn g' = g_authn g /\
  g_issued g' = g_issued g /\ g_issued_at g' = g_issued_at g /\ g_not_before g' = g_not_before g /\
  g_revoked g' = g_revoked g /\ g_used g' = g_used g.

Lemma untouched_refl g : untouched g g.
Proof. repeat split. Qed.
Lemma untouched_trans a b c : untouched a b -> untouched b c -> untouched a c.
Proof. unfold untouched. intuition congruence. Qed.

Definition claim_step (cx : ctx) (c : string) (request : msg) (interface : string) : AZ unit :=
  scopes <-- lift (of_option EKey (mget_list "scope" request)) ;;
  g <-- gets snd ;;
  r <-- on_cdb (get_claims cx c (g_authreq g) scopes interface) ;;
  on_grant (fun g => g_set_claims (dset interface r (g_claims g)) g).

Lemma claim_step_ok cx c request i cs g cs' g' :
  claim_step cx c request i (cs, g) = (Ok tt, (cs', g')) ->
  exists scopes r, mget_list "scope" request = Some scopes /\
    get_claims cx c (g_authreq g) scopes i cs = (Ok r, cs') /\ g' = g_set_claims (dset i r (g_claims g)) g.
Proof.
  unfold claim_step, bind, lift, gets, on_cdb, on_grant, modify. cbn [fst snd].
  destruct (mget_list "scope" request) as [scopes|]; cbn [of_option]; [|discriminate].
  destruct (get_claims cx c (g_authreq g) scopes i cs) as [[r|e] cs1] eqn:Eg; [|discriminate].
  intros H. exists scopes, r. split; [reflexivity|]. injection H as <- <-. auto.
Qed.

Definition good_claims cx cs c ar scopes usage (g : grant) : Prop :=
  exists d, dget usage (g_claims g) = Some (CVal d) /\ forall k, wanted cx cs c ar scopes usage k (dget k d).

Lemma claim_steps cx c request scopes cs ar l : forall g done cs' g',
  typed_config cx cs c -> typed_request ar -> unshared cx cs -> g_authreq g = ar ->
  mget_list "scope" request = Some scopes -> incl l usages -> 
  (forall u, In u done -> good_claims cx cs c ar scopes u g) ->
  iterM (claim_step cx c request) l (cs, g) = (Ok tt, (cs', g')) ->
  cs' = cs /\ untouched g g' /\ g_scope g' = g_scope g /\ g_rules g' = g_rules g /\
  g_resources g' = g_resources g /\ g_expires_at g' = g_expires_at g /\
  forall u, In u done \/ In u l -> good_claims cx cs c ar scopes u g'.
Proof.
  induction l as [|i l IH]; intros g done cs' g' T1 T2 T3 Har Hs Hin Hdone H.
  - cbn in H. injection H as <- <-. repeat split; auto. intros u [A|[]]. auto.
  - cbn [iterM] in H. apply bind_ok in H. destruct H as ([] & [cs1 g1] & H1 & H2).
    apply claim_step_ok in H1. destruct H1 as (scopes' & r & Hs' & Hg & ->).
    assert (scopes' = scopes) by congruence. subst scopes'. rewrite Har in Hg.
    destruct (get_claims_wanted cx cs c ar scopes i r cs1 (Hin i (or_introl eq_refl)) T1 T2 T3 Hg) as (-> & d & -> & Hd).
    destruct (IH (g_set_claims (dset i (CVal d) (g_claims g)) g) (i :: done) cs' g' T1 T2 T3 Har Hs) as (A & B & C1 & C2 & C3 & C4 & C5); auto.
    { intros x Hx. apply Hin. now right. }
    { intros u Hu. unfold good_claims. cbn [g_claims g_set_claims]. destruct (String.eqb_spec u i) as [->|N].
      - exists d. rewrite dget_dset_eq. split; [reflexivity|exact Hd].
      - destruct Hu as [->|Hu]; [contradiction|]. destruct (Hdone u Hu) as (d' & E & W). exists d'. split; [|exact W].
        now rewrite dget_dset_neq. }
    split; [exact A|]. split; [exact B|]. cbn in C1, C2, C3, C4. repeat (split; [assumption|]).
    intros u Hu. apply C5. cbn in Hu |- *. tauto.
Qed.

Lemma authz_call_effect cx clock c request res cs g cs' g' :
  typed_config cx cs c -> typed_request (g_authreq g) -> unshared cx cs ->
  authz_call cx clock c request res (cs, g) = (Ok tt, (cs', g')) ->
  exists scopes, mget_list "scope" request = Some scopes /\
  cs' = cs /\ untouched g g' /\
  g_scope g' = (if is_nil scopes then g_scope g else scopes) /\
  g_rules g' = (match gc_rules (cx_grant_config cx) with Some r => r | None => g_rules g end) /\
  g_expires_at g' = (match gc_expires_in (cx_grant_config cx) with Some n => (clock + n)%Z | None => g_expires_at g end) /\
  g_resources g' = (match res with Some l => l | None => [c] end) /\
  forall u, In u usages -> good_claims cx cs c (g_authreq g) scopes u g'.
Proof.
  intros T1 T2 T3 H. unfold authz_call in H.
  set (K := iterM _ _) in H. 
  assert (EK : exists g0, K (cs, g0) = (Ok tt, (cs', g')) /\ untouched g g0 /\
     g_scope g0 = (match mget_list "scope" request with Some (x :: l) => x :: l | _ => g_scope g end) /\
     g_rules g0 = (match gc_rules (cx_grant_config cx) with Some r => r | None => g_rules g end) /\
     g_expires_at g0 = (match gc_expires_in (cx_grant_config cx) with Some n => (clock + n)%Z | None => g_expires_at g end) /\
     g_resources g0 = (match res with Some l => l | None => [c] end)).
  { clearbody K. unfold bind, on_grant, modify, ret in H.
    destruct (gc_rules (cx_grant_config cx)), (gc_expires_in (cx_grant_config cx)), (mget_list "scope" request) as [[|x l]|];
      cbn [fst snd] in H; eexists; (split; [exact H|]); repeat split. }
  destruct EK as (g0 & EK & U & E1 & E2 & E3 & E4).
  assert (Hs : exists scopes, mget_list "scope" request = Some scopes).
  { unfold K in EK. cbn [iterM] in EK. apply bind_ok in EK. destruct EK as ([] & [cs1 g1] & H1 & _).
    apply claim_step_ok in H1. destruct H1 as (sc & r & Hs & _). eauto. }
  destruct Hs as (scopes & Hs). exists scopes. split; [exact Hs|].
  assert (Har : g_authreq g0 = g_authreq g) by apply U.
  destruct (claim_steps cx c request scopes cs (g_authreq g) ["userinfo"; "introspection"; "id_token"; "access_token"] g0 [] cs' g'
    T1 T2 T3 Har Hs) as (A & B & C1 & C2 & C3 & C4 & C5).
  { intros x Hx. unfold usages. cbn in Hx |- *. intuition. }
  { intros u []. }
  { exact EK. }
  split; [exact A|]. split; [eapply untouched_trans; eauto|].
  split. { rewrite C1, E1, Hs. destruct scopes; reflexivity. }
  split; [congruence|]. split; [congruence|]. split; [congruence|].
  intros u Hu. apply C5. right. unfold usages in Hu. cbn in Hu |- *. intuition.
Qed.

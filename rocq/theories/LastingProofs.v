From Verif Require Import Base BaseProofs SessionKey SessionKeyProofs Monad MonadProofs Types Token Grant GrantSpec GrantProofs Database DatabaseSpec DatabaseProofs
  Manager ManagerSpec ManagerProofs Ctx Authz AuthzProofs UserInfo UserInfoSpec UserInfoProofs World Minting TokenEndpoint WorldSpec WorldProofs AuthzEndpoint
  System SystemSpec Preserve LastingSpec.
From Verif Require Import SetupAuth.
Local Open Scope Z_scope.

(** ** What one call does to the grants *)
Section Along.
  Variables (gid : string) (s0 : store).
  Definition along (k : string) (g : grant) : Prop :=
    (exists g0, dget k s0 = Some (EGrant g0) /\ grows g0 g) \/
    ((exists u c g1, good u /\ good c /\ good g1 /\ g1 <> gid /\ k = session_key [u; c; g1]) /\ Forall sound_token (g_issued g)).

  Lemma along_step k g g' : along k g -> grows g g' -> along k g'.
  Proof.
    intros [(g0 & D & G)|[M F]] H; [left; exists g0; split; [exact D|]; eapply grows_trans; eauto|]. right. split; [exact M|].
    eapply grows_sound; eauto.
  Qed.
  Lemma along_core k g l : along k g -> Forall2 same_core (g_issued g) l -> along k (g_set_issued l g).
  Proof. intros O F. eapply along_step; [exact O|]. now apply grows_core. Qed.
  Lemma along_revoked k g : along k g -> along k (g_set_revoked true g).
  Proof. intros O. eapply along_step; [exact O|]. apply grows_revoked. Qed.
  Lemma along_takes mt sid ttype : mint_ok mt -> takes along mt sid ttype.
  Proof.
    intros M g t O (_ & (payload & V) & _ & Us & _ & _ & Mx). eapply along_step; [exact O|].
    eapply append_grows; [reflexivity|split; reflexivity|]. split; [exact Mx|]. split; [eapply M, V|lia].
  Qed.
  Lemma along_settles az sid request : settles along az sid request.
  Proof.
    unfold settles. destruct (az_handler az); [|exact I]. intros g g' O (_ & _ & A & _ & Is & _ & _ & R & _) _. eapply along_step; [exact O|].
    split; [exact A|]. split; [congruence|]. exists (g_issued g'), []. split; [now rewrite app_nil_r|]. split; [rewrite Is; apply Forall2_core_refl|constructor].
  Qed.
  Lemma along_allows o : call_ok o -> plain_values o -> ~ In gid (new_id o) -> allows along o.
  Proof.
    destruct o as [e az oidc [m|request]|clock request|m1 m2 ir n|clock request|clock un request|e sid alla|op|f]; cbn; auto.
    - intros (Gn & Gc & Gi) [M1 M2] N. split.
      + intros id u c Rec Eu Ec clock authn rules. right. split; [|constructor]. exists u, c, (au_newid e). destruct (Gi id Rec) as [Gu _].
        repeat (split; [auto|]). reflexivity.
      + intros id sid Rec Go. split; [now apply along_takes|]. split; [now apply along_takes|apply along_settles].
    - intros _ [M1 M2] _ sid. split; now apply along_takes.
  Qed.
End Along.

Lemma call_along y gid o s : sids_ok (sy_sid_of y) -> call_ok o -> plain_values o -> ~ In gid (new_id o) ->
  comes_along gid (w_db (ss_world s)) (w_db (ss_world (fst (sstep y o s)))).
Proof.
  intros Hs Ho Hp Hn. apply (inv_call (along gid (w_db (ss_world s))) (along_core _ _) (along_revoked _ _)); [exact Hs|exact Ho|now apply along_allows|].
  intros k g D. left. exists g. split; [exact D|apply grows_refl].
Qed.

(** ** Such a history as one of the token endpoint and the rest *)
Definition wop_of (y : setup_of) (o : call) : wop :=
  match o with
  | SParse clock request => WParse clock request
  | SProcess m1 m2 ir n => WProcess m1 m2 ir n
  | _ => WOutside (fun w => ss_world (fst (sstep y o (mkSys w []))))
  end.
Definition event_of (h : call * outcome) : list event :=
  match h with (SProcess m1 _ _ _, OProcess rq r) => [mkEv (mt_clock m1) rq r] | _ => [] end.
Definition hist_of (s : sys) : hist := mkH (ss_world s) (ss_accepted s).
Notation ystep y := (hstep (sy_sid_of y) (sy_b64hash y) (sy_cx y) (sy_idtoken y) (sy_sharing y) (sy_helpers y) (sy_pkce y)).
Notation yrun y := (hrun (sy_sid_of y) (sy_b64hash y) (sy_cx y) (sy_idtoken y) (sy_sharing y) (sy_helpers y) (sy_pkce y)).

Lemma step_as y o s : ystep y (wop_of y o) (hist_of s) = (hist_of (fst (sstep y o s)), event_of (o, snd (sstep y o s))).
Proof.
  destruct o as [e az oidc request|clock request|m1 m2 ir n|clock request|clock un request|e sid alla|op|f]; cbn [wop_of hstep sstep hist_of h_world h_accepted ss_world ss_accepted].
  - destruct (process_request e az oidc request (ss_world s)); reflexivity.
  - destruct (in_db _ (ss_world s)) as [[[rq|er d]|x] w']; reflexivity.
  - destruct (nth_error (ss_accepted s) n); [|reflexivity]. destruct (token_process _ _ _ _ _ _ _ _ _ _); reflexivity.
  - destruct (in_db _ (ss_world s)); reflexivity.
  - destruct (in_db _ (ss_world s)); reflexivity.
  - reflexivity.
  - reflexivity.
  - reflexivity.
Qed.
Lemma wop_of_ok y gid o : sids_ok (sy_sid_of y) -> call_ok o -> plain_values o -> ~ In gid (new_id o) -> wop_ok gid (wop_of y o).
Proof.
  intros Hs Ho Hp Hn.
  assert (X : forall w, comes_along gid (w_db w) (w_db (ss_world (fst (sstep y o (mkSys w [])))))) by (intros w; exact (call_along y gid o (mkSys w []) Hs Ho Hp Hn)).
  destruct o as [e az oidc request|clock request|m1 m2 ir n|clock request|clock un request|e sid alla|op|f]; try exact X; [exact I|exact Hp].
Qed.
Lemma ops_ok y gid l : sids_ok (sy_sid_of y) -> Forall call_ok l -> Forall plain_values l -> ~ In gid (flat_map new_id l) -> Forall (wop_ok gid) (map (wop_of y) l).
Proof.
  intros Hs. induction l as [|o l IH]; intros F P N; [constructor|]. inversion F; subst. inversion P; subst. cbn [map flat_map] in *. rewrite in_app_iff in N.
  constructor; [apply wop_of_ok; tauto|apply IH; tauto].
Qed.
Lemma run_as y l : forall s p, exists q, snd (srun y l s p) = q ++ p /\
  yrun y (map (wop_of y) l) (hist_of s) = (hist_of (fst (srun y l s p)), flat_map event_of (rev q)).
Proof.
  induction l as [|o l IH]; intros s p; [exists []; auto|]. cbn [srun map hrun]. rewrite step_as. destruct (sstep y o s) as [s' r]. cbn [fst snd].
  destruct (IH s' ((o, r) :: p)) as (q & E1 & E2). exists (q ++ [(o, r)]). split; [rewrite E1, <- app_assoc; reflexivity|].
  rewrite E2. rewrite rev_app_distr. cbn [rev app flat_map]. reflexivity.
Qed.
Lemma srun_app y l1 l2 : forall s p, srun y (l1 ++ l2) s p = srun y l2 (fst (srun y l1 s p)) (snd (srun y l1 s p)).
Proof. induction l1 as [|o l1 IH]; intros s p; [reflexivity|]. cbn [app srun]. destruct (sstep y o s) as [s' r]. apply IH. Qed.

Lemma redeemed_events code q : length (filter (redeemed code) q) = length (filter (redeems code) (flat_map event_of (rev q))).
Proof.
  assert (E : forall h, length (filter (redeems code) (event_of h)) = if redeemed code h then 1%nat else 0%nat).
  { intros [[] []]; cbn [event_of redeemed filter length]; try reflexivity. destruct (redeems code _); reflexivity. }
  induction q as [|h q IH]; [reflexivity|]. cbn [rev filter]. rewrite flat_map_app, filter_app, app_length. cbn [flat_map]. rewrite app_nil_r, E.
  destruct (redeemed code h); cbn [length]; lia.
Qed.

(** ** Runs *)
Lemma srun_all y (ok : call -> Prop) (J : sys -> Prop) (P : call * outcome -> Prop) :
  (forall o s, ok o -> J s -> J (fst (sstep y o s)) /\ P (o, snd (sstep y o s))) ->
  forall l s p, Forall ok l -> J s -> J (fst (srun y l s p)) /\ exists q, snd (srun y l s p) = q ++ p /\ Forall P q.
Proof.
  intros St. induction l as [|o l IH]; intros s p F I; [split; [exact I|]; exists []; auto|]. inversion F; subst. cbn [srun].
  destruct (St o s ltac:(assumption) I) as [I' Po]. destruct (sstep y o s) as [s' r]. cbn [fst snd] in *.
  destruct (IH s' ((o, r) :: p) ltac:(assumption) I') as [A (q & E & Fq)]. split; [exact A|]. exists (q ++ [(o, r)]).
  split; [rewrite E, <- app_assoc; reflexivity|]. apply Forall_app. auto.
Qed.
(** What a call needs for the session [gid] to be only carried on *)
Definition leaves (gid : string) (o : call) : Prop := call_ok o /\ plain_values o /\ ~ In gid (new_id o).
Lemma all_leave gid l : Forall call_ok l -> Forall plain_values l -> ~ In gid (flat_map new_id l) -> Forall (leaves gid) l.
Proof.
  induction l as [|o l IH]; intros F P N; [constructor|]. inversion F; subst. inversion P; subst. cbn [flat_map] in N. rewrite in_app_iff in N.
  constructor; [split; [|split]; tauto|]. apply IH; tauto.
Qed.

(** ** A successful token response is about a usable token of a usable grant. *)
Lemma process_used sid_of cx idt sh helpers m1 m2 ir rq w args oc w' kd v : sids_ok sid_of -> mint_ok m1 -> mint_ok m2 ->
  token_process sid_of cx idt sh helpers m1 m2 ir (PReq rq) w = (Ok (AOk args oc), w') -> presents rq kd v ->
  exists u c gid g t, leads sid_of (w_db w) v u c gid g /\ get_token v g = Some t /\ token_usable (mt_clock m1) t /\ grant_usable (mt_clock m1) g /\
    (kd = CCode -> dget "authorization_code" helpers = Some HCode) /\ (kd = CRefresh -> dget "refresh_token" helpers = Some HRefresh).
Proof.
  intros Hs M1 M2 H Pr. assert (Sx : success (Ok (AOk args oc))) by (do 2 eexists; reflexivity).
  destruct (process_cases sid_of (fun _ _ => "") cx idt Hs _ _ _ _ _ _ _ _ _ M1 M2 H) as [[_ P]|[(P1 & P2 & r1 & w1 & P & _ & P3 & _)|(P1 & P2 & r1 & w1 & P & _ & P3 & _)]]; [contradiction| |].
  - destruct Pr as [(-> & _ & raw & E & ->)|(_ & E & _)]; [|congruence].
    destruct (code_process_cases sid_of (fun _ _ => "") cx idt Hs _ _ _ _ _ _ _ M1 M2 P) as [[_ X]|(raw' & u1 & c1 & gid1 & g1 & g' & _ & C2 & L & _ & _ & S)]; [tauto|].
    assert (raw' = raw) by congruence. subst raw'. destruct (S (P3 Sx)) as (ar & t & t' & _ & _ & S1 & S2 & S3 & _).
    exists u1, c1, gid1, g1, t. repeat (split; [assumption|]). split; [auto|discriminate].
  - destruct Pr as [(_ & E & _)|(-> & _ & E)]; [congruence|].
    destruct (refresh_process_cases sid_of cx idt Hs _ _ _ _ _ _ _ M1 M2 P) as [[_ X]|(raw' & u1 & c1 & gid1 & g1 & g' & _ & C2 & L & _ & _ & S)]; [tauto|].
    assert (raw' = v) by congruence. subst raw'. destruct (S (P3 Sx)) as (t & S1 & S2 & S3 & _).
    exists u1, c1, gid1, g1, t. repeat (split; [assumption|]). split; [discriminate|auto].
Qed.
Lemma step_process y m1 m2 ir n s rq r : snd (sstep y (SProcess m1 m2 ir n) s) = OProcess rq r -> In rq (ss_accepted s) /\
  exists w', token_process (sy_sid_of y) (sy_cx y) (sy_idtoken y) (sy_sharing y) (sy_helpers y) m1 m2 ir (PReq rq) (ss_world s) = (r, w').
Proof.
  cbn [sstep]. destruct (nth_error (ss_accepted s) n) as [rq'|] eqn:E; [|discriminate]. destruct (token_process _ _ _ _ _ _ _ _ _ _) as [r' w'] eqn:Ep.
  cbn [snd]. intros X. injection X as -> ->. split; [eapply nth_error_In, E|]. exists w'. exact Ep.
Qed.
Lemma redeemed_true code h : redeemed code h = true -> exists m1 m2 ir n rq args oc, h = (SProcess m1 m2 ir n, OProcess rq (Ok (AOk args oc))) /\ presents rq CCode code.
Proof.
  destruct h as [[] []]; cbn [redeemed]; try discriminate. unfold redeems. cbn [ev_request ev_answer]. intros H.
  destruct (dget "grant_type" request) as [[| | |gt| |]|] eqn:Eg; try discriminate.
  destruct (dget "code" request) as [[| | |raw| |]|] eqn:Ec; try discriminate. destruct r as [[|args oc]|]; try discriminate.
  apply andb_true_iff in H. destruct H as [H1 H2]. apply String.eqb_eq in H1, H2. subst gt. do 7 eexists. split; [reflexivity|].
  left. split; [reflexivity|]. split; [exact Eg|]. exists raw. auto.
Qed.

Lemma along_sound gid s s' : comes_along gid s s' -> sound_store s -> sound_store s'.
Proof. intros C S k' g D. destruct (C _ _ D) as [(g0 & D0 & G)|[_ F]]; [|exact F]. eapply grows_sound; eauto. Qed.

Section Value.
  Variable y : setup_of.
  Hypothesis Hsid : sids_ok (sy_sid_of y).
  Variables (code u c gid : string).
  Hypothesis Hu : good u.
  Hypothesis Hc : good c.
  Hypothesis Hg : good gid.
  Hypothesis Hcode : sy_sid_of y code = Ok (session_key [u; c; gid]).
  Let k := session_key [u; c; gid].

  (** *** Before the session is there *)
  Definition absent (s : store) : Prop := forall g, dget k s <> Some (EGrant g).
  (** the request is about the value *)
  Definition concerns (rq : msg) : Prop :=
    (exists raw, dget "grant_type" rq = Some (VStr "authorization_code") /\ dget "code" rq = Some (VStr raw) /\ blank_to_plus raw = code /\
       dget "authorization_code" (sy_helpers y) = Some HCode) \/
    (dget "grant_type" rq = Some (VStr "refresh_token") /\ dget "refresh_token" rq = Some (VStr code) /\ dget "refresh_token" (sy_helpers y) = Some HRefresh).

  Lemma parse_absent clock request rq s : sound_store s -> absent s ->
    fst (token_parse (sy_sid_of y) (sy_b64hash y) (sy_helpers y) (sy_pkce y) clock request s) = Ok (PReq rq) -> ~ concerns rq.
  Proof.
    intros Hs A H. destruct (token_parse _ _ _ _ _ _ _) as [r s'] eqn:Ep. cbn [fst] in H. subst r. apply (token_parse_cases _ _ Hsid) in Ep.
    destruct Ep as [-> (gt & Eg & _ & P)].
    assert (Ab : forall v u1 c1 gid1 g1, v = code -> leads (sy_sid_of y) s v u1 c1 gid1 g1 -> False).
    { intros v u1 c1 gid1 g1 -> (G1 & G2 & G3 & Y2 & Y6). rewrite Hcode in Y2. injection Y2 as Y2.
      apply key_eq in Y2; [|auto with gp|auto with gp]. injection Y2 as <- <- <-. apply view_key in Y6. exact (A _ Y6). }
    intros [(raw & E1 & E2 & E3 & E4)|(E1 & E2 & E4)].
    - destruct P as [[P1 P]|[P1 P]].
      + destruct (code_parse (sy_sid_of y) clock request s) as [r1 s1] eqn:Ec. cbn [fst] in P. subst r1. apply (code_parse_cases _ Hsid) in Ec.
        destruct Ec as [_ (v & u1 & c1 & gid1 & g1 & t & Y1 & Y2 & Y3 & Y4 & _ & Y5)].
        assert (raw = v). { destruct Y5 as [->|(x & _ & ->)]; [congruence|]. rewrite dget_dset_neq in E2 by discriminate. congruence. }
        subst v. destruct (get_token_value _ _ _ Y3) as [V Vi].
        assert (St : sound_token t).
        { destruct Y2 as (_ & _ & _ & _ & Y2). apply view_key in Y2. apply Hs in Y2. rewrite Forall_forall in Y2. now apply Y2. }
        destruct St as (_ & St & _). rewrite V in St. eapply Ab; [|exact Y2]. congruence.
      + destruct (refresh_parse (sy_sid_of y) clock request s) as [r1 s1] eqn:Ec. cbn [fst] in P. subst r1. apply (refresh_parse_cases _ Hsid) in Ec.
        destruct Ec as [_ (v & u1 & c1 & gid1 & g1 & t & _ & _ & _ & _ & _ & ->)].
        assert (gt = "authorization_code") by congruence. subst. congruence.
    - destruct P as [[P1 P]|[P1 P]].
      + destruct (code_parse (sy_sid_of y) clock request s) as [r1 s1] eqn:Ec. cbn [fst] in P. subst r1. apply (code_parse_cases _ Hsid) in Ec.
        destruct Ec as [_ (v & u1 & c1 & gid1 & g1 & t & _ & _ & _ & _ & _ & X)].
        assert (gt = "refresh_token").
        { destruct X as [->|(x & _ & ->)]; [congruence|]. rewrite dget_dset_neq in E1 by discriminate. congruence. }
        congruence.
      + destruct (refresh_parse (sy_sid_of y) clock request s) as [r1 s1] eqn:Ec. cbn [fst] in P. subst r1. apply (refresh_parse_cases _ Hsid) in Ec.
        destruct Ec as [_ (v & u1 & c1 & gid1 & g1 & t & Y1 & Y2 & _ & _ & _ & ->)]. eapply Ab; [|exact Y2]. congruence.
  Qed.

  Definition before (s : sys) : Prop :=
    sound_store (w_db (ss_world s)) /\ absent (w_db (ss_world s)) /\ forall rq, In rq (ss_accepted s) -> ~ concerns rq.
  Lemma along_absent s s' : comes_along gid s s' -> absent s -> absent s'.
  Proof.
    intros C A g D. destruct (C _ _ D) as [(g0 & D0 & _)|[(u' & c' & g' & Hu' & Hc' & Hg' & N & E) _]]; [exact (A _ D0)|].
    apply key_eq in E; [|auto with gp|auto with gp]. injection E as <- <- <-. contradiction.
  Qed.
  Lemma step_accepts o s rq : In rq (ss_accepted (fst (sstep y o s))) -> In rq (ss_accepted s) \/
    exists clock request, fst (token_parse (sy_sid_of y) (sy_b64hash y) (sy_helpers y) (sy_pkce y) clock request (w_db (ss_world s))) = Ok (PReq rq).
  Proof.
    destruct o as [e az oidc request|clock request|m1 m2 ir n|clock request|clock un request|e sid alla|op|f]; cbn [sstep].
    - destruct (process_request e az oidc request (ss_world s)); auto.
    - unfold in_db. destruct (token_parse _ _ _ _ _ _ _) as [r w'] eqn:E. cbn [fst ss_accepted]. destruct r as [[rq0|er d]|x]; auto.
      intros I. apply in_app_or in I. destruct I as [I|[<-|[]]]; [now left|]. right. exists clock, request. now rewrite E.
    - destruct (nth_error (ss_accepted s) n); [|auto]. destruct (token_process _ _ _ _ _ _ _ _ _ _); auto.
    - destruct (in_db _ (ss_world s)); auto.
    - destruct (in_db _ (ss_world s)); auto.
    - auto.
    - auto.
    - auto.
  Qed.
  Lemma before_step o s : call_ok o -> plain_values o -> ~ In gid (new_id o) -> before s -> before (fst (sstep y o s)).
  Proof.
    intros Ho Hp Hn (B1 & B2 & B3). pose proof (call_along y gid o s Hsid Ho Hp Hn) as C. split; [eapply along_sound; eauto|]. split; [eapply along_absent; eauto|].
    intros rq I. destruct (step_accepts _ _ _ I) as [I'|(clock & request & E)]; [auto|]. eapply parse_absent; eauto.
  Qed.
  Lemma before_run l : forall s p, Forall call_ok l -> Forall plain_values l -> ~ In gid (flat_map new_id l) -> before s -> before (fst (srun y l s p)).
  Proof.
    induction l as [|o l IH]; intros s p F P N B; [exact B|]. inversion F; subst. inversion P; subst. cbn [flat_map] in N. rewrite in_app_iff in N. cbn [srun].
    pose proof (before_step o s ltac:(assumption) ltac:(assumption) ltac:(tauto) B) as X. destruct (sstep y o s) as [s' r]. apply IH; tauto.
  Qed.

  (** the state in which the session may have been made: nothing accepted is about it *)
  Definition ready (s : sys) : Prop := sound_store (w_db (ss_world s)) /\ forall rq, In rq (ss_accepted s) -> ~ concerns rq.
  Lemma ready_accepted s : ready s -> accepted_ok (sy_helpers y) code k (hist_of s).
  Proof. intros [_ R] rq raw I E1 E2 E3 E4. exfalso. apply (R rq I). left. exists raw. auto. Qed.
  Lemma opens_ready o s : call_ok o -> plain_values o -> ready s -> In gid (new_id o) -> ready (fst (sstep y o s)).
  Proof.
    intros Ho Hp [R1 R2] N.
    assert (X : exists gid', ~ In gid' (new_id o)).
    { destruct o as [e az oidc [m|request]| | | | | | |]; cbn in *; try contradiction. exists (au_newid e ++ "x")%string. intros [E|[]].
      assert (L : String.length (au_newid e) = String.length (au_newid e ++ "x")) by now rewrite <- E.
      clear -L. revert L. generalize (au_newid e). induction s as [|a s IH]; cbn; [discriminate|]. intros L. injection L. exact IH. }
    destruct X as (gid' & N'). split; [eapply along_sound; [eapply (call_along y gid'); eauto|exact R1]|].
    intros rq I. destruct o as [e az oidc [m|request]| | | | | | |]; cbn in N; try contradiction. apply R2. cbn [sstep] in I.
    destruct (process_request _ _ _ _ _); exact I.
  Qed.

  (** *** The whole history *)
  Lemma split_at l : NoDup (flat_map new_id l) -> In gid (flat_map new_id l) ->
    exists l1 o l2, l = l1 ++ o :: l2 /\ ~ In gid (flat_map new_id l1) /\ In gid (new_id o) /\ ~ In gid (flat_map new_id l2).
  Proof.
    induction l as [|o l IH]; intros N I; [destruct I|]. cbn [flat_map] in *. apply in_app_or in I.
    assert (Nl : NoDup (flat_map new_id l)).
    { clear -N. induction (new_id o) as [|x xs IHx]; [exact N|]. inversion N; auto. }
    assert (Nx : In gid (new_id o) -> ~ In gid (flat_map new_id l)).
    { clear -N. induction (new_id o) as [|x xs IHx]; [intros []|]. cbn [app] in N. inversion N; subst. intros [->|I]; [|now apply IHx].
      intros I. apply H1. apply in_or_app. now right. }
    destruct (in_dec string_dec gid (new_id o)) as [Io|No].
    - exists [], o, l. repeat split; auto.
    - destruct I as [I|I]; [contradiction|]. destruct (IH Nl I) as (l1 & o' & l2 & -> & A & B & C). exists (o :: l1), o', l2.
      split; [reflexivity|]. split; [|split; assumption]. cbn [flat_map]. rewrite in_app_iff. tauto.
  Qed.
  Lemma before_fresh clients : before (fresh clients).
  Proof. split; [intros k' g D; discriminate|]. split; [intros g D; discriminate|]. intros rq []. Qed.
  Lemma absent_redeems o s : leaves gid o -> before s -> redeemed code (o, snd (sstep y o s)) = false.
  Proof.
    intros (Ho & Hp & Hn) (_ & B & _). destruct (redeemed code _) eqn:E; [|reflexivity]. exfalso.
    destruct (redeemed_true _ _ E) as (m1 & m2 & ir & n & rq & args & oc & X & Pr). injection X as -> X. destruct Hp as [M1 M2].
    apply step_process in X. destruct X as [_ (w' & X)].
    destruct (process_used _ _ _ _ _ _ _ _ _ _ _ _ _ _ _ Hsid M1 M2 X Pr) as (u1 & c1 & gid1 & g1 & t & L & _).
    destruct L as (G1 & G2 & G3 & Y2 & Y6). rewrite Hcode in Y2. injection Y2 as Y2.
    apply key_eq in Y2; [|auto with gp|auto with gp]. injection Y2 as <- <- <-. apply view_key in Y6. exact (B _ Y6).
  Qed.
  Lemma none_before l s p : Forall (leaves gid) l -> before s ->
    before (fst (srun y l s p)) /\ exists q, snd (srun y l s p) = q ++ p /\ filter (redeemed code) q = [].
  Proof.
    intros F B. destruct (srun_all y (leaves gid) before (fun h => redeemed code h = false)) with (l := l) (s := s) (p := p) as [A (q & E & Fq)]; auto.
    - intros o s' L B'. split; [|now apply absent_redeems]. destruct L as (L1 & L2 & L3). now apply before_step.
    - split; [exact A|]. exists q. split; [exact E|]. clear -Fq. induction Fq as [|h q H F IH]; [reflexivity|]. cbn. now rewrite H.
  Qed.
  Lemma leaves_split l : Forall (leaves gid) l -> Forall call_ok l /\ Forall plain_values l /\ ~ In gid (flat_map new_id l).
  Proof.
    induction 1 as [|o l (A & B & C) F (D & E & G)]; [repeat split; auto|]. repeat split; [constructor; auto|constructor; auto|].
    cbn [flat_map]. rewrite in_app_iff. tauto.
  Qed.
  Lemma once_after l s p : Forall (leaves gid) l -> ready s ->
    exists q, snd (srun y l s p) = q ++ p /\ (length (filter (redeemed code) q) <= 1)%nat.
  Proof.
    intros F R. destruct (run_as y l s p) as (q & E & H). exists q. split; [exact E|]. rewrite redeemed_events.
    assert (X : snd (yrun y (map (wop_of y) l) (hist_of s)) = flat_map event_of (rev q)) by now rewrite H. rewrite <- X.
    destruct (leaves_split _ F) as (F1 & F2 & F3).
    apply (run_once (sy_sid_of y) (sy_b64hash y) (sy_cx y) (sy_idtoken y) Hsid (sy_sharing y) (sy_helpers y) (sy_pkce y) code u c gid Hu Hc Hg Hcode);
      [now apply ops_ok|exact (proj1 R)|now apply ready_accepted].
  Qed.
  Lemma before_ready s : before s -> ready s.
  Proof. intros (A & _ & B). split; assumption. Qed.
  (** A history is one without the session, or one up to its beginning and one from there. *)
  Lemma history_split l clients : Forall call_ok l -> Forall plain_values l -> NoDup (flat_map new_id l) ->
    exists l1 l2, l = l1 ++ l2 /\ ready (fst (srun y l1 (fresh clients) [])) /\ Forall (leaves gid) l2 /\
      filter (redeemed code) (snd (srun y l1 (fresh clients) [])) = [].
  Proof.
    intros F P N. destruct (in_dec string_dec gid (flat_map new_id l)) as [I|I].
    - destruct (split_at l N I) as (l1 & o & l2 & -> & N1 & Io & N2). apply Forall_app in F, P. destruct F as [F1 F2]. destruct P as [P1 P2].
      inversion F2; subst. inversion P2; subst.
      destruct (none_before l1 (fresh clients) [] (all_leave gid l1 F1 P1 N1) (before_fresh clients)) as [B (q & E & Eq)]. rewrite app_nil_r in E.
      exists (l1 ++ [o]), l2. split; [now rewrite <- app_assoc|]. rewrite srun_app. cbn [srun]. rewrite E.
      pose proof (opens_ready o _ ltac:(assumption) ltac:(assumption) (before_ready _ B) Io) as R.
      assert (Ro : forall r, redeemed code (o, r) = false).
      { intros r. destruct o; cbn in Io; try contradiction; reflexivity. }
      destruct (sstep y o _) as [s' r]. cbn [fst snd] in *. split; [exact R|]. split; [now apply all_leave|]. cbn [filter]. now rewrite Ro.
    - exists [], l. split; [reflexivity|]. split; [apply before_ready, before_fresh|]. split; [now apply all_leave|reflexivity].
  Qed.
  Lemma code_once l clients : Forall call_ok l -> Forall plain_values l -> NoDup (flat_map new_id l) ->
    (length (filter (redeemed code) (snd (srun y l (fresh clients) []))) <= 1)%nat.
  Proof.
    intros F P N. destruct (history_split l clients F P N) as (l1 & l2 & -> & R & L & E). rewrite srun_app.
    destruct (once_after l2 _ (snd (srun y l1 (fresh clients) [])) L R) as (q & Eq & Le). rewrite Eq, filter_app, E, app_nil_r. exact Le.
  Qed.

  (** what was checked when a request was accepted *)
  Lemma checked_now l clients s : Forall call_ok l -> Forall plain_values l -> NoDup (flat_map new_id l) -> s = fst (srun y l (fresh clients) []) ->
    accepted_ok (sy_helpers y) code k (hist_of s) /\
    (forall rq, In rq (ss_accepted s) -> forall g, dget k (w_db (ss_world s)) = Some (EGrant g) ->
       checked_refresh (sy_helpers y) code rq g /\ checked_pkce (sy_b64hash y) (sy_helpers y) (sy_pkce y) code rq g).
  Proof.
    intros F P N ->. destruct (history_split l clients F P N) as (l1 & l2 & -> & R & L & _). rewrite srun_app.
    set (s1 := fst (srun y l1 (fresh clients) [])) in *. destruct (run_as y l2 s1 (snd (srun y l1 (fresh clients) []))) as (q & _ & H).
    destruct (leaves_split _ L) as (F1 & F2 & F3).
    destruct (run_checked (sy_sid_of y) (sy_b64hash y) (sy_cx y) (sy_idtoken y) Hsid (sy_sharing y) (sy_helpers y) (sy_pkce y) code u c gid Hu Hc Hg Hcode
      (map (wop_of y) l2) (hist_of s1) (ops_ok y gid l2 Hsid F1 F2 F3) (proj1 R) (ready_accepted _ R)) as (_ & A & B).
    - intros rq I g _. split.
      + intros E1 E2 E3. exfalso. apply (proj2 R rq I). right. auto.
      + intros _ raw E1 E2 E3 E4. exfalso. apply (proj2 R rq I). left. exists raw. auto.
    - rewrite H in A, B. exact (conj A B).
  Qed.
End Value.

(** ** From any state on *)
Section Later.
  Variable y : setup_of.
  Hypothesis Hsid : sids_ok (sy_sid_of y).
  Variables (u c gid : string).
  Hypothesis Hu : good u.
  Hypothesis Hc : good c.
  Hypothesis Hg : good gid.
  Let k := session_key [u; c; gid].

  Lemma along_here s s' g' : comes_along gid s s' -> dget k s' = Some (EGrant g') -> exists g, dget k s = Some (EGrant g) /\ grows g g'.
  Proof.
    intros C D. destruct (C _ _ D) as [X|[(u' & c' & g0 & Hu' & Hc' & Hg' & N & E) _]]; [exact X|]. exfalso.
    apply key_eq in E; [|auto with gp|auto with gp]. injection E as <- <- <-. contradiction.
  Qed.
  Lemma step_here o s g' : leaves gid o -> dget k (w_db (ss_world (fst (sstep y o s)))) = Some (EGrant g') ->
    exists g, dget k (w_db (ss_world s)) = Some (EGrant g) /\ grows g g'.
  Proof. intros (L1 & L2 & L3). apply along_here. now apply call_along. Qed.
  Lemma run_here l : forall s p g', Forall (leaves gid) l -> dget k (w_db (ss_world (fst (srun y l s p)))) = Some (EGrant g') ->
    exists g, dget k (w_db (ss_world s)) = Some (EGrant g) /\ grows g g'.
  Proof.
    induction l as [|o l IH]; intros s p g' F D; [exists g'; split; [exact D|apply grows_refl]|]. inversion F; subst. cbn [srun] in D.
    pose proof (fun g => step_here o s g ltac:(assumption)) as X. destruct (sstep y o s) as [s' r]. cbn [fst] in X.
    destruct (IH s' _ g' ltac:(assumption) D) as (g1 & D1 & G1). destruct (X _ D1) as (g & D0 & G0). exists g. split; [exact D0|]. eapply grows_trans; eauto.
  Qed.

  Variable value : string.
  Hypothesis Hvalue : sy_sid_of y value = Ok k.

  Lemma names_here s v u1 c1 g1 t1 : v = value -> names (sy_sid_of y) s v u1 c1 g1 t1 -> dget k s = Some (EGrant g1) /\ get_token value g1 = Some t1 /\ u1 = u /\ c1 = c.
  Proof.
    intros -> (sid & gid' & N1 & N2 & N3 & N4 & l1 & l2 & N5 & N6).
    rewrite Hvalue in N1. injection N1 as <-. unfold k in N2. rewrite unpack3_good in N2 by assumption. injection N2 as <- <- <-.
    apply view_key in N3. split; [exact N3|]. split; [|auto]. unfold get_token. rewrite N5. now apply find_app.
  Qed.
  Lemma leads_k s u1 c1 gid1 g1 : leads (sy_sid_of y) s value u1 c1 gid1 g1 -> dget k s = Some (EGrant g1) /\ u1 = u /\ c1 = c /\ gid1 = gid.
  Proof.
    intros (G1 & G2 & G3 & Y2 & Y6). rewrite Hvalue in Y2. injection Y2 as Y2. unfold k in Y2.
    apply key_eq in Y2; [|auto with gp|auto with gp]. injection Y2 as <- <- <-. apply view_key in Y6. auto.
  Qed.

  Lemma dead_honours clock0 o s : leaves gid o -> call_after clock0 o -> dead_in value u c gid clock0 (w_db (ss_world s)) -> ~ honours y value (o, snd (sstep y o s)).
  Proof.
    intros (_ & Hp & _) Ha D H.
    assert (K : forall clock u1 c1 g1 t1, clock0 <= clock -> names (sy_sid_of y) (w_db (ss_world s)) value u1 c1 g1 t1 -> ~ token_usable clock t1).
    { intros clock u1 c1 g1 t1 Le Nm. destruct (names_here _ _ _ _ _ _ eq_refl Nm) as (N3 & N4 & _). destruct (D g1 N3) as (t2 & T1 & T2).
      assert (t2 = t1) by congruence. subst. eapply dead_unusable; eauto. }
    destruct o as [e az oidc request|clock request|m1 m2 ir n|clock request|clock un request|e sid alla|op|f]; cbn [honours] in H.
    - exact H.
    - cbn [sstep] in H. unfold in_db in H. destruct (token_parse _ _ _ _ _ _ _) as [r w'] eqn:E. cbn [snd] in H.
      destruct r as [[rq|]|]; try exact H. cbn [call_after] in Ha.
      destruct (parse_dead (sy_sid_of y) (sy_b64hash y) Hsid (sy_helpers y) (sy_pkce y) value u c gid Hu Hc Hg Hvalue clock0 clock (w_db (ss_world s)) request rq D Ha) as [A B].
      { now rewrite E. } destruct H as [(H1 & H2 & H3)|(H1 & H2 & H3)]; [now apply A|now apply B].
    - destruct (snd (sstep y (SProcess m1 m2 ir n) s)) as [| |rq r| |] eqn:E; try exact H. destruct r as [[|args oc]|]; try exact H.
      destruct H as (kd & Pr). apply step_process in E. destruct E as [_ (w' & E)]. destruct Hp as [M1 M2].
      destruct (process_used _ _ _ _ _ _ _ _ _ _ _ _ _ _ _ Hsid M1 M2 E Pr) as (u1 & c1 & gid1 & g1 & t & L & T & U & _).
      destruct (leads_k _ _ _ _ _ L) as (N3 & _). destruct (D g1 N3) as (t2 & T1 & T2). assert (t2 = t) by congruence. subst.
      cbn [call_after] in Ha. eapply dead_unusable; [exact T2| |exact U]. tauto.
    - cbn [sstep] in H. unfold in_db in H. destruct (userinfo_process _ _ _ _ _ _) as [r w'] eqn:E. cbn [snd] in H.
      destruct r as [[|args oc]|]; try exact H. destruct (userinfo_cases _ _ _ _ _ _ _ _ E) as (v & sid & u1 & c1 & gid1 & g1 & E1 & _ & _ & _ & Q).
      assert (v = value) by congruence. subst v.
      destruct Q as [[_ X]|(t1 & N & [[_ X]|[(_ & _ & X)|(_ & U & _)]])]; try discriminate. eapply K; [exact Ha|exact N|exact U].
    - cbn [sstep] in H. unfold in_db in H. destruct (introspection_process _ _ _ _ _ _ _) as [r w'] eqn:E. cbn [snd] in H.
      destruct r as [[|args oc]|]; try exact H. destruct H as [H1 H2]. destruct (introspection_cases _ _ _ _ _ _ _ _ _ E) as (v & E1 & Q).
      assert (v = value) by congruence. subst v.
      destruct Q as [[_ X]|[(sid & _ & _ & X)|(u1 & c1 & g1 & t1 & N & [[_ X]|(info & ui & I1 & _)])]]; try (injection X as -> _; discriminate).
      assert (X : introspect (sy_cx y) clock t1 c1 g1 <> None) by congruence. apply introspect_iff in X. eapply K; [exact Ha|exact N|tauto].
    - exact H.
    - exact H.
    - exact H.
  Qed.
  Lemma revoked_exchanges o s : leaves gid o -> revoked_in u c gid (w_db (ss_world s)) -> ~ exchanged value (o, snd (sstep y o s)).
  Proof.
    intros (_ & Hp & _) D (m1 & m2 & ir & n & rq & args & oc & kd & X & Pr). injection X as -> X. destruct Hp as [M1 M2].
    apply step_process in X. destruct X as [_ (w' & X)].
    destruct (process_used _ _ _ _ _ _ _ _ _ _ _ _ _ _ _ Hsid M1 M2 X Pr) as (u1 & c1 & gid1 & g1 & t & L & _ & _ & U & _).
    destruct (leads_k _ _ _ _ _ L) as (N3 & _). apply D in N3. destruct U as [U _]. congruence.
  Qed.
  Lemma dead_later clock0 l s p : Forall (leaves gid) l -> Forall (call_after clock0) l -> dead_in value u c gid clock0 (w_db (ss_world s)) ->
    exists q, snd (srun y l s p) = q ++ p /\ Forall (fun h => ~ honours y value h) q.
  Proof.
    intros F A D. apply (srun_all y (fun o => leaves gid o /\ call_after clock0 o) (fun s => dead_in value u c gid clock0 (w_db (ss_world s)))).
    - intros o s0 [L Ca] D0. split; [|now apply (dead_honours clock0)]. intros g' E'. destruct (step_here o s0 g' L E') as (g & E & G).
      destruct (D0 g E) as (t & Et & Dt). destruct (grows_token _ _ _ _ G Et) as (t' & Et' & S). exists t'. eauto using dead_core.
    - apply Forall_and; assumption.
    - exact D.
  Qed.
  Lemma revoked_later l s p : Forall (leaves gid) l -> revoked_in u c gid (w_db (ss_world s)) ->
    exists q, snd (srun y l s p) = q ++ p /\ Forall (fun h => ~ exchanged value h) q.
  Proof.
    intros F D. apply (srun_all y (leaves gid) (fun s => revoked_in u c gid (w_db (ss_world s)))); [|exact F|exact D].
    intros o s0 L D0. split; [|now apply revoked_exchanges]. intros g' E'. destruct (step_here o s0 g' L E') as (g & E & (_ & G & _)). auto.
  Qed.
End Later.

(** A value that names no session gets nothing. *)
Lemma unknown_none y value e l s p : sids_ok (sy_sid_of y) -> sy_sid_of y value = Raise e -> Forall plain_values l ->
  exists q, snd (srun y l s p) = q ++ p /\ Forall (fun h => ~ exchanged value h) q.
Proof.
  intros Hs Ev F. apply (srun_all y plain_values (fun _ => True)); auto.
  intros o s0 Hp _. split; [exact I|]. intros (m1 & m2 & ir & n & rq & args & oc & kd & X & Pr). injection X as -> X. destruct Hp as [M1 M2].
  apply step_process in X. destruct X as [_ (w' & X)].
  destruct (process_used _ _ _ _ _ _ _ _ _ _ _ _ _ _ _ Hs M1 M2 X Pr) as (u1 & c1 & gid1 & g1 & t & (_ & _ & _ & L & _) & _). congruence.
Qed.

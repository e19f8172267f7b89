(** PropsLookup.v: C100, looking sessions up. *)
From Verif Require Import Base BaseProofs Types Monad SessionKey Token Grant GrantSpec GrantProofs Database DatabaseSpec DatabaseProofs
  Manager ManagerSpec ManagerProofs UserInfo LookupSpec.
Local Open Scope Z_scope.

Lemma read_eq q s : exists r, db_read q s = (r, s) /\ view s q = match r with Ok e => Some e | Raise _ => None end.
Proof. destruct (read_cases q s) as [(e & E & V)|(x & E & V)]; rewrite E, V; eauto. Qed.

Lemma typed_lookup (kb : entry -> bool) (kind : entry -> Prop) q s : (forall e, kb e = true <-> kind e) ->
  looks_up kind (fun e => e) s q ((e <-- db_read q ;; if kb e then ret e else raise EValue) s).
Proof.
  intros K. unfold looks_up, bind. destruct (read_eq q s) as ([e|x] & -> & V); rewrite V; cbn [fst snd].
  - destruct (kb e) eqn:B; cbn [ret raise fst snd].
    + apply K in B. split; [reflexivity|]. split; [|split; [intros e' E N; congruence|discriminate]].
      intros a. split; [intros E; injection E as <-; auto|intros [E _]; congruence].
    + split; [reflexivity|]. split; [|split; [reflexivity|discriminate]].
      intros a. split; [discriminate|]. intros [E Ka]. apply K in Ka. congruence.
  - split; [reflexivity|]. split; [intros a; split; [discriminate|intros [E _]; discriminate]|].
    split; [discriminate|eauto].
Qed.

Lemma user_kind e : is_user_info e = true <-> about_user e.
Proof.
  unfold about_user. split.
  - destruct e as [i|]; cbn; [|discriminate]. destruct (si_kind i) eqn:K; [eauto|discriminate].
  - intros (i & -> & K). cbn. now rewrite K.
Qed.
Lemma client_kind e : is_client_info e = true <-> about_client e.
Proof.
  unfold about_client. split.
  - destruct e as [i|]; cbn; [|discriminate]. destruct (si_kind i) eqn:K; [discriminate|eauto].
  - intros (i & -> & K). cbn. now rewrite K.
Qed.

(** Each of the typed lookups answers with what is stored for the session, only if it is of the kind asked for. *)
Theorem C100_kinds : forall s u c g, good u -> good c -> good g ->
  looks_up about_user (fun e => e) s [u] (get_user_info u s) /\
  looks_up about_user (fun e => e) s [u] (get_user_session_info (session_key [u; c; g]) s) /\
  looks_up about_client (fun e => e) s [u; c] (get_client_session_info (session_key [u; c; g]) s) /\
  looks_up a_grant EGrant s [u; c; g] (get_grant (session_key [u; c; g]) s).
Proof.
  intros s u c g Hu Hc Hg.
  split; [apply typed_lookup, user_kind|].
  split; [unfold get_user_session_info; unfold bind at 1, lift; rewrite unpack3_good by assumption; apply typed_lookup, user_kind|].
  split; [unfold get_client_session_info; unfold bind at 1, lift; rewrite unpack3_good by assumption; apply typed_lookup, client_kind|].
  unfold get_grant, looks_up, bind, lift. rewrite unpack3_good by assumption.
  destruct (read_eq [u; c; g] s) as ([e|x] & -> & V); rewrite V; cbn [fst snd].
  - destruct e as [i|gr]; cbn [raise ret fst snd].
    + split; [reflexivity|]. split; [|split; [reflexivity|discriminate]].
      intros a. split; [discriminate|intros [E _]; discriminate].
    + split; [reflexivity|]. split; [|split; [|discriminate]].
      * intros a. split; [intros E; injection E as <-; split; [reflexivity|unfold a_grant; eauto]|intros [E _]; congruence].
      * intros e E N. exfalso. apply N. exists gr. congruence.
  - split; [reflexivity|]. split; [intros a; split; [discriminate|intros [E _]; discriminate]|].
    split; [discriminate|eauto].
Qed.
Print Assumptions C100_kinds.

(** A token is found exactly if the grant of the session has one with that value. *)
Theorem C100_find_token : forall s u c g value, good u -> good c -> good g ->
  snd (find_token (session_key [u; c; g]) value s) = s /\
  (forall o, fst (find_token (session_key [u; c; g]) value s) = Ok o <->
     exists gr, view s [u; c; g] = Some (EGrant gr) /\
       match o with
       | Some t => exists l1 l2, g_issued gr = l1 ++ t :: l2 /\ t_value t = value /\ (forall t', In t' l1 -> t_value t' <> value)
       | None => forall t, In t (g_issued gr) -> t_value t <> value
       end).
Proof.
  intros s u c g value Hu Hc Hg. unfold find_token, bind, lift, as_grant, ret, raise. rewrite unpack3_good by assumption.
  assert (F : forall l o, find (fun t => String.eqb (t_value t) value) l = o <->
     match o with
     | Some t => exists l1 l2, l = l1 ++ t :: l2 /\ t_value t = value /\ (forall t', In t' l1 -> t_value t' <> value)
     | None => forall t, In t l -> t_value t <> value
     end).
  { induction l as [|t l IH]; intros o.
    - cbn. destruct o as [t|]; [|split; [intros _ t []|reflexivity]]. split; [discriminate|].
      intros (l1 & l2 & E & _). destruct l1; discriminate.
    - cbn. destruct (String.eqb_spec (t_value t) value) as [Et|Nt].
      + destruct o as [t0|].
        * split; [intros E; injection E as <-; exists [], l; split; [reflexivity|]; split; [exact Et|intros ? []]|].
          intros (l1 & l2 & E & Ev & N). destruct l1 as [|t1 l1]; cbn in E; [congruence|].
          exfalso. apply (N t1); [left; reflexivity|congruence].
        * split; [discriminate|]. intros N. exfalso. apply (N t); auto.
      + rewrite IH. destruct o as [t0|].
        * split; intros (l1 & l2 & E & Ev & N).
          -- exists (t :: l1), l2. split; [cbn; congruence|]. split; [exact Ev|]. intros t' [<-|I']; auto.
          -- destruct l1 as [|t1 l1]; cbn in E; [congruence|]. exists l1, l2. split; [congruence|]. split; [exact Ev|].
             intros t' I'. apply N. right. exact I'.
        * split; [intros N t' [<-|I']; auto|intros N t' I'; apply N; right; exact I']. }
  destruct (read_eq [u; c; g] s) as ([e|x] & -> & V); rewrite V; cbn [fst snd].
  - destruct e as [i|gr]; cbn [fst snd].
    + split; [reflexivity|]. intros o. split; [discriminate|]. intros (gr & E & _). discriminate.
    + split; [reflexivity|]. intros o. unfold get_token. split.
      * intros E. assert (E' : find (fun t => String.eqb (t_value t) value) (g_issued gr) = o) by congruence.
        exists gr. split; [reflexivity|]. now apply F.
      * intros (gr' & E & M). assert (gr' = gr) by congruence. subst gr'. apply F in M. now rewrite M.
  - split; [reflexivity|]. intros o. split; [discriminate|]. intros (gr & E & _). discriminate.
Qed.
Print Assumptions C100_find_token.

Lemma mapM_read {B} (f : string -> entry -> B) (pre : list string) s l :
  exists r, mapM (fun gid => db_read (pre ++ [gid])) l s = (r, s) /\
  forall es, r = Ok es <-> Forall2 (fun gid e => view s (pre ++ [gid]) = Some e) l es.
Proof.
  induction l as [|x l (r & E & H)].
  - exists (Ok []). split; [reflexivity|]. intros es. split; [intros X; injection X as <-; constructor|intros X; inversion X; reflexivity].
  - cbn [mapM]. unfold bind at 1. destruct (read_eq (pre ++ [x]) s) as ([e|x'] & -> & V).
    + unfold bind. rewrite E. destruct r as [ys|y]; cbn.
      * eexists. split; [reflexivity|]. intros es. split.
        -- intros X. injection X as <-. constructor; [exact V|]. now apply H.
        -- intros X. inversion X as [|? e' ? ys' V' F']; subst. apply H in F'. congruence.
      * eexists. split; [reflexivity|]. intros es. split; [discriminate|]. intros X. inversion X; subst.
        match goal with F : Forall2 _ l _ |- _ => apply H in F; discriminate end.
    + eexists. split; [reflexivity|]. intros es. split; [discriminate|]. intros X. inversion X; subst. congruence.
Qed.

Lemma grants_of_there u c s : exists r, grants_of u c s = (r, s) /\ forall l, r = Ok l <-> grants_there s u c l.
Proof.
  unfold grants_of, grants_there. unfold bind at 1. destruct (read_eq [u; c] s) as ([e|x] & -> & V); rewrite V.
  - unfold bind at 1, lift. destruct e as [i|gr]; cbn [subordinate].
    + destruct (@mapM_read unit (fun _ _ => tt) [u; c] s (si_sub i)) as (r & E & H). exists r. split; [exact E|]. intros l. rewrite H.
      split; [eauto|]. intros (ci & Eq & F). assert (ci = i) by congruence. now subst ci.
    + eexists. split; [reflexivity|]. intros l. split; [discriminate|]. intros (ci & E & _). discriminate.
  - eexists. split; [reflexivity|]. intros l. split; [discriminate|]. intros (ci & E & _). discriminate.
Qed.

(** The grants of a user at a client: those the client's session lists, in that order; for a session of theirs, or for their two ids.
    One id alone will not do. *)
Theorem C100_grants : forall s u c g, good u -> good c -> good g ->
  (forall u' c', snd (grants (session_key [u; c; g]) u' c' s) = s /\
     forall l, fst (grants (session_key [u; c; g]) u' c' s) = Ok l <-> grants_there s u c l) /\
  (snd (grants "" u c s) = s /\ forall l, fst (grants "" u c s) = Ok l <-> grants_there s u c l) /\
  (grants "" u "" s = (Raise EAttr, s) /\ grants "" "" c s = (Raise EAttr, s)).
Proof.
  intros s u c g Hu Hc Hg. destruct (grants_of_there u c s) as (r & E & H). split; [|split].
  - intros u' c'. unfold grants.
    assert (N : nonempty (session_key [u; c; g]) = true) by (destruct u as [|a u]; [destruct (good_ne _ Hu eq_refl)|reflexivity]).
    rewrite N. unfold bind, lift. rewrite (unpack3_good u c g) by assumption. rewrite E. split; [reflexivity|exact H].
  - unfold grants. change (nonempty "") with false. cbv iota. rewrite (good_tr u), (good_tr c) by assumption. cbn [andb]. rewrite E. split; [reflexivity|exact H].
  - unfold grants. change (nonempty "") with false. cbv iota. rewrite (good_tr u) by assumption. split; reflexivity.
Qed.
Print Assumptions C100_grants.

(** The authentication events of a user at a client are those of their grants, in the same order. *)
Theorem C100_authentication_events : forall s u c g, good u -> good c -> good g ->
  forall u' c', snd (get_authentication_events (session_key [u; c; g]) u' c' s) = s /\
  forall l, fst (get_authentication_events (session_key [u; c; g]) u' c' s) = Ok l <->
    exists gs, grants_there s u c (map EGrant gs) /\ l = map g_authn gs.
Proof.
  intros s u c g Hu Hc Hg u' c'. destruct (C100_grants s u c g Hu Hc Hg) as (H & _ & _). destruct (H u' c') as [S G]. clear H.
  assert (B : get_authentication_events (session_key [u; c; g]) u' c' s =
    match grants (session_key [u; c; g]) u' c' s with
    | (Ok es, s1) => mapM (fun e => x <-- as_grant e ;; ret (g_authn x)) es s1
    | (Raise x, s1) => (Raise x, s1)
    end) by reflexivity.
  rewrite B. clear B.
  destruct (grants (session_key [u; c; g]) u' c' s) as [[es|x] s1]; cbn [fst snd] in *; subst s1.
  - assert (M : forall es : list entry, exists r, mapM (fun e => x <-- as_grant e ;; ret (g_authn x)) es s = (r, s) /\
        forall l, r = Ok l <-> exists gs, es = map EGrant gs /\ l = map g_authn gs).
    { clear. induction es as [|e es (r & E & H)].
      - exists (Ok []). split; [reflexivity|]. intros l. split; [intros X; injection X as <-; exists []; auto|].
        intros (gs & E & ->). destruct gs; [reflexivity|discriminate].
      - destruct e as [i|gr].
        + eexists. split; [reflexivity|]. intros l. split; [discriminate|]. intros (gs & E' & _). destruct gs; discriminate.
        + assert (B : mapM (fun e => x <-- as_grant e ;; ret (g_authn x)) (EGrant gr :: es) s =
            match mapM (fun e => x <-- as_grant e ;; ret (g_authn x)) es s with
            | (Ok ys, s1) => (Ok (g_authn gr :: ys), s1)
            | (Raise x, s1) => (Raise x, s1)
            end) by reflexivity.
          rewrite B, E. clear B. destruct r as [ys|y].
          * eexists. split; [reflexivity|]. intros l. split.
            -- intros X. injection X as <-. destruct (proj1 (H ys) eq_refl) as (gs & -> & ->). exists (gr :: gs). auto.
            -- intros (gs & E' & ->). destruct gs as [|g0 gs]; [discriminate|]. cbn in E'. injection E' as <- ->.
               assert (X : Ok ys = Ok (map g_authn gs)) by (apply H; eauto). cbn. congruence.
          * eexists. split; [reflexivity|]. intros l. split; [discriminate|]. intros (gs & E' & _). destruct gs as [|g0 gs]; [discriminate|].
            cbn in E'. injection E' as <- ->. assert (X : Raise y = Ok (map g_authn gs)) by (apply H; eauto). discriminate. }
    destruct (M es) as (r & E & H). rewrite E. split; [reflexivity|]. intros l. cbn [fst]. rewrite H. split.
    + intros (gs & -> & ->). exists gs. split; [now apply G|reflexivity].
    + intros (gs & Gs & ->). exists gs. split; [|reflexivity]. apply G in Gs. congruence.
  - split; [reflexivity|]. intros l. split; [discriminate|]. intros (gs & Gs & _). apply G in Gs. discriminate.
Qed.
Print Assumptions C100_authentication_events.

(** The information about a session: its ids, and of what was asked for exactly what is readable at its three paths, except that it never
    has both the grant and the authentication event. *)
Theorem C100_info_partial : forall s u c g (want_user want_client want_grant want_event want_request : bool), good u -> good c -> good g ->
  snd (get_session_info (session_key [u; c; g]) want_user want_client want_grant want_event want_request s) = s /\
  (forall i, fst (get_session_info (session_key [u; c; g]) want_user want_client want_grant want_event want_request s) = Ok i <->
     (want_grant = true -> want_event = false) /\
     in_sid i = session_key [u; c; g] /\ in_uid i = u /\ in_cid i = c /\ in_gid i = g /\
     (if want_user then in_usi i = view s [u] /\ view s [u] <> None else in_usi i = None) /\
     (if want_client then in_csi i = view s [u; c] /\ view s [u; c] <> None else in_csi i = None) /\
     (if want_grant then in_grant i = view s [u; c; g] /\ view s [u; c; g] <> None else in_grant i = None) /\
     (if want_event then exists gr, view s [u; c; g] = Some (EGrant gr) /\ in_ae i = Some (g_authn gr) else in_ae i = None) /\
     (if want_request then exists gr, view s [u; c; g] = Some (EGrant gr) /\ in_ar i = Some (g_authreq gr) else in_ar i = None)).
Proof.
  intros s u c g wu wc wg we wr Hu Hc Hg. unfold get_session_info, bind, lift, as_grant, ret, raise.
  rewrite unpack3_good by assumption.
  destruct (read_eq [u] s) as (r1 & E1 & V1), (read_eq [u; c] s) as (r2 & E2 & V2), (read_eq [u; c; g] s) as (r3 & E3 & V3).
  rewrite V1, V2, V3.
  destruct wu; [rewrite E1; destruct r1 as [e1|x1]|];
    try (cbn [fst snd]; split; [reflexivity|]; intros i; split; [discriminate|]; intros (_ & _ & _ & _ & _ & (_ & X) & _); congruence);
  (destruct wc; [rewrite E2; destruct r2 as [e2|x2]|];
    try (cbn [fst snd]; split; [reflexivity|]; intros i; split; [discriminate|]; intros (_ & _ & _ & _ & _ & _ & (_ & X) & _); congruence));
  (destruct wg; [destruct r3 as [[i3|g3]|x3]|destruct r3 as [[i3|g3]|x3]]; rewrite ?E3;
    try (cbn [fst snd]; split; [reflexivity|]; intros i; split; [discriminate|]; intros (_ & _ & _ & _ & _ & _ & _ & (_ & X) & _); congruence));
  (destruct we; destruct wr; rewrite ?E3; cbn [fst snd]; (split; [reflexivity|]); intros [sid' u' c' g' a b d ae ar]; cbn [in_sid in_uid in_cid in_gid in_usi in_csi in_grant in_ae in_ar]);
  (split;
    [intros X; first [discriminate X | injection X as <- <- <- <- <- <- <- <- <-;
       (do 5 (split; [try discriminate; auto|])); (do 3 (split; [try (split; [reflexivity|discriminate]); reflexivity|]));
       split; eauto]
    |intros (Y0 & -> & -> & -> & -> & Y1 & Y2 & Y3 & Y4 & Y5);
       try (specialize (Y0 eq_refl); discriminate Y0);
       try (destruct Y4 as (gr4 & Y4 & Y4'); first [discriminate Y4|assert (g3 = gr4) by congruence; subst gr4]);
       try (destruct Y5 as (gr5 & Y5 & Y5'); first [discriminate Y5|assert (g3 = gr5) by congruence; subst gr5]);
       repeat match goal with H : _ /\ _ |- _ => destruct H end; subst; reflexivity]).
Qed.
Print Assumptions C100_info_partial.

(** Asking for the authentication event and the grant of a session never works: the grant is taken for a dict. *)
Theorem C100_info_refuted : forall s u c g gr wr, good u -> good c -> good g -> view s [u; c; g] = Some (EGrant gr) ->
  get_session_info (session_key [u; c; g]) false false true true wr s = (Raise EType, s).
Proof.
  intros s u c g gr wr Hu Hc Hg V. unfold get_session_info. unfold bind at 1, lift at 1. rewrite unpack3_good by assumption.
  destruct (read_eq [u; c; g] s) as (r & E & V'). rewrite V in V'. destruct r as [e|]; [|discriminate]. assert (e = EGrant gr) by congruence. subst e.
  unfold bind, ret, raise. rewrite E. reflexivity.
Qed.
Print Assumptions C100_info_refuted.

(** The two shorthands, and looking up by a token: the session is that of the token. *)
Theorem C100_short : forall s u c g, good u -> good c -> good g ->
  (forall ar, get_authorization_request (session_key [u; c; g]) s = (Ok ar, s) <-> exists gr, view s [u; c; g] = Some (EGrant gr) /\ ar = g_authreq gr) /\
  (forall ae, get_authentication_event (session_key [u; c; g]) s = (Ok ae, s) <-> exists gr, view s [u; c; g] = Some (EGrant gr) /\ ae = g_authn gr).
Proof.
  intros s u c g Hu Hc Hg. unfold get_authorization_request, get_authentication_event, get_session_info.
  unfold bind, lift, ret, raise, as_grant. rewrite unpack3_good by assumption.
  destruct (read_eq [u; c; g] s) as (r & E & V). rewrite E, V.
  split; intros a; (split; [intros X|intros (gr' & X & ->)]); destruct r as [[i|gr]|x]; try discriminate X.
  - exists gr. split; [reflexivity|]. cbn in X. congruence.
  - assert (gr = gr') by congruence. subst gr'. reflexivity.
  - exists gr. split; [reflexivity|]. cbn in X. congruence.
  - assert (gr = gr') by congruence. subst gr'. reflexivity.
Qed.
Print Assumptions C100_short.

Theorem C100_by_token : forall sid_of s value want_user want_client want_grant want_event want_request,
  (forall sid, sid_of value = Ok sid ->
     get_session_info_by_token sid_of value want_user want_client want_grant want_event want_request s =
     get_session_info sid want_user want_client want_grant want_event want_request s) /\
  (forall x, sid_of value = Raise x ->
     get_session_info_by_token sid_of value want_user want_client want_grant want_event want_request s = (Raise x, s)).
Proof. intros sid_of s value a b c d e. unfold get_session_info_by_token, bind, lift. split; intros y ->; reflexivity. Qed.
Print Assumptions C100_by_token.

(** What a token stands for: nothing if the grant is dead; else its own scope and resources, those of the grant where it has none. *)
Theorem C100_spec_partial : forall clock g t,
  (~ grant_usable clock g -> get_spec clock g t = None) /\
  (grant_usable clock g -> exists sp, get_spec clock g t = Some sp /\
     (t_scope t <> [] -> sp_scope sp = t_scope t) /\ (t_scope t = [] -> sp_scope sp = g_scope g) /\
     (t_resources t <> [] -> sp_resources sp = t_resources t) /\ (t_resources t = [] -> sp_resources sp = g_resources g) /\
     (sp_claims_from_token sp = true <-> t_claims t <> [])).
Proof.
  intros clock g t. rewrite <- g_active_iff. unfold get_spec. destruct (g_active clock g); cbn [negb].
  - split; [intros N; exfalso; auto|]. intros _. eexists. split; [reflexivity|]. cbn [sp_scope sp_resources sp_claims_from_token].
    do 4 (split; [first [destruct (t_scope t) | idtac]; first [destruct (t_resources t)|idtac]; cbn; intros; congruence|]).
    destruct (t_claims t); cbn; split; intros; congruence.
  - split; [reflexivity|discriminate].
Qed.
Print Assumptions C100_spec_partial.

(** The token itself may be dead: revoked, used up or expired, it stands for the same. *)
Theorem C100_spec_refuted : forall clock g t, grant_usable clock g ->
  exists t', ~ token_usable clock t' /\ t_value t' = t_value t /\ get_spec clock g t' = get_spec clock g t /\ get_spec clock g t' <> None.
Proof.
  intros clock g t U.
  exists (mkToken (t_class t) (t_type t) (t_value t) (t_based_on t) (t_rules t) (t_issued_at t) (t_expires_at t) (t_not_before t)
            true (t_used t) (t_id t) (t_scope t) (t_claims t) (t_resources t)).
  apply g_active_iff in U. split; [|split; [reflexivity|]].
  - intros (X & _). discriminate X.
  - unfold get_spec. rewrite U. cbn. split; [reflexivity|discriminate].
Qed.
Print Assumptions C100_spec_refuted.

(** A grant that is added to a client session is listed, and answered with, twice: storing it has listed it already. *)
Lemma add_grant_effect s u c gr ci l : kinds_ok s -> linked s -> good u -> good c -> good (g_id gr) -> Forall good (si_sub ci) ->
  view s [u; c] = Some (EInfo ci) -> ~ In (g_id gr) (si_sub ci) -> grants_there s u c l ->
  exists s', add_grant u c gr s = (Ok tt, s') /\ kinds_ok s' /\ linked s' /\
    view s' [u; c] = Some (EInfo (with_sub (si_sub ci ++ [g_id gr; g_id gr]) ci)) /\ view s' [u; c; g_id gr] = Some (EGrant gr) /\
    Forall2 (fun gid e => view s' [u; c; gid] = Some e) (si_sub ci) l.
Proof.
  intros Hk Hl Hu Hc Hg Fg V N (ci' & V' & F). assert (ci' = ci) by congruence. subst ci'.
  unfold add_grant. unfold bind at 1.
  destruct (store3_view s u c (g_id gr) gr Hk Hl Hu Hc Hg) as (W3 & W2 & W1 & Wo).
  assert (K1 := kinds_store3 s u c (g_id gr) gr Hk Hu Hc Hg). assert (L1 := linked_store3 s u c (g_id gr) gr Hk Hl Hu Hc Hg).
  rewrite db_store3 in * by assumption. cbn [snd] in *. match type of W3 with view ?y _ = _ => set (s1 := y) in * end.
  rewrite V in W2. cbn [info_or] in W2. unfold listing in W2. assert (M : smem (g_id gr) (si_sub ci) = false) by now apply smem_false.
  rewrite M in W2. unfold bind at 1. destruct (read_eq [u; c] s1) as ([e|x] & -> & E); rewrite W2 in E; [|discriminate].
  assert (e = EInfo (with_sub (si_sub ci ++ [g_id gr]) ci)) by congruence. subst e.
  unfold bind at 1, lift. cbn [subordinate set_subordinate with_sub si_sub si_kind si_id si_revoked si_extra].
  rewrite <- app_assoc. cbn [app].
  set (v := mkSInfo (si_kind ci) (si_id ci) (si_sub ci ++ [g_id gr; g_id gr]) (si_revoked ci) (si_extra ci)).
  destruct (store2_view s1 u c v K1 L1 Hu Hc) as (X2 & X1 & X3 & Xo).
  assert (K2 := kinds_store2 s1 u c v K1 Hu Hc). assert (L2 := linked_store2 s1 u c v K1 L1 Hu Hc).
  exists (snd (db_store [u; c] (EInfo v) s1)).
  split; [rewrite db_store2 by assumption; reflexivity|].
  split; [exact K2|]. split; [exact L2|]. split; [exact X2|].
  assert (Rd : forall gid, good gid -> In gid (si_sub ci ++ [g_id gr; g_id gr]) -> view (snd (db_store [u; c] (EInfo v) s1)) [u; c; gid] = stored s1 [u; c; gid]).
  { intros gid Hgid I. rewrite X3 by assumption. assert (M' : smem gid (si_sub v) = true) by now apply smem_In. now rewrite M'. }
  split.
  - rewrite Rd; [|assumption|apply in_or_app; right; left; reflexivity]. apply view_stored; [exact W3|auto with gp].
  - rewrite Forall_forall in Fg.
    assert (Q : forall gid e, In gid (si_sub ci) -> view s [u; c; gid] = Some e ->
                view (snd (db_store [u; c] (EInfo v) s1)) [u; c; gid] = Some e).
    { intros gid e I E'. rewrite Rd; [|auto|apply in_or_app; auto]. apply view_stored; [|auto with gp].
      rewrite Wo; [exact E'|auto with gp|congruence|discriminate|discriminate]. }
    generalize dependent (snd (db_store [u; c] (EInfo v) s1)). intros s2 _ _ _ _ _ _ _ Q. clear - Q F. induction F as [|gid e l1 l2 E F IH]; constructor; [apply Q; [left; reflexivity|exact E]|].
    apply IH. intros gid' e' I. apply Q. right. exact I.
Qed.

Lemma Forall2_len {A B} (R : A -> B -> Prop) l l' : Forall2 R l l' -> length l = length l'.
Proof. induction 1; cbn; congruence. Qed.

Lemma grants_answer s u c l : good u -> good c -> fst (grants "" u c s) = Ok l <-> grants_there s u c l.
Proof.
  intros Hu Hc. destruct (grants_of_there u c s) as (r & E & H). unfold grants. change (nonempty "") with false. cbv iota.
  rewrite (good_tr u), (good_tr c) by assumption. cbn [andb]. rewrite E. apply H.
Qed.

Theorem C100_added_refuted : forall s u c gr ci l, kinds_ok s -> linked s -> good u -> good c -> good (g_id gr) -> Forall good (si_sub ci) ->
  view s [u; c] = Some (EInfo ci) -> ~ In (g_id gr) (si_sub ci) -> fst (grants "" u c s) = Ok l ->
  exists s', add_grant u c gr s = (Ok tt, s') /\ fst (grants "" u c s') = Ok (l ++ [EGrant gr; EGrant gr]).
Proof.
  intros s u c gr ci l Hk Hl Hu Hc Hg Fg V N G. apply grants_answer in G; [|assumption|assumption].
  destruct (add_grant_effect s u c gr ci l Hk Hl Hu Hc Hg Fg V N G) as (s' & E & _ & _ & V2 & V3 & F).
  exists s'. split; [exact E|]. apply grants_answer; [assumption|assumption|]. eexists. split; [exact V2|]. cbn [with_sub si_sub].
  apply Forall2_app; [exact F|]. repeat constructor; exact V3.
Qed.
Print Assumptions C100_added_refuted.

(** The grants of a user at a client after one of their sessions was removed, another being left: those that are left, provided that
    the store shares what it hands out (as the in-memory one does) and the session was listed once ... *)
Theorem C100_removed_partial : forall s u c g ci l1 l2 e1 e2 e, kinds_ok s -> linked s -> good u -> good c -> good g -> Forall good (si_sub ci) ->
  view s [u; c] = Some (EInfo ci) -> si_sub ci = l1 ++ g :: l2 -> ~ In g l1 -> ~ In g l2 -> (l1 ++ l2)%list <> [] -> length e1 = length l1 ->
  fst (grants "" u c s) = Ok (e1 ++ e :: e2) ->
  exists s', remove_session true (session_key [u; c; g]) s = (Ok tt, s') /\ fst (grants "" u c s') = Ok (e1 ++ e2).
Proof.
  intros s u c g ci l1 l2 e1 e2 e Hk Hl Hu Hc Hg Fg V Es N1 N2 Ne Len G.
  apply grants_answer in G; [|assumption|assumption]. destruct G as (ci' & V' & F). assert (ci' = ci) by congruence. subst ci'.
  unfold remove_session, bind, lift. rewrite unpack3_good by assumption.
  destruct (delete3_view true s u c g Hk Hl Hu Hc Hg) as (s' & E & K & V3 & V2 & V1 & Vo & L).
  exists s'. split; [exact E|]. apply grants_answer; [assumption|assumption|].
  assert (R : sremove g (si_sub ci) = (l1 ++ l2)%list).
  { rewrite Es. clear - N1. induction l1 as [|x l IH]; cbn; [now rewrite String.eqb_refl|].
    destruct (String.eqb_spec g x) as [->|_]; [exfalso; apply N1; left; reflexivity|]. rewrite IH; [reflexivity|]. intros I. apply N1. right. exact I. }
  rewrite V in V2. unfold del3_client in V2. rewrite R in V2. destruct (is_nil (l1 ++ l2)) eqn:Z0; [destruct (l1 ++ l2)%list; [congruence|discriminate]|].
  eexists. split; [exact V2|]. cbn [with_sub si_sub].
  rewrite Es in F, Fg. apply Forall2_app_inv_l in F. destruct F as (a1 & a2 & F1 & F2 & Ea).
  assert (La : length a1 = length e1) by (apply Forall2_len in F1; congruence).
  inversion F2 as [|? e' ? a2' E' F2' Eq1 Eq2]; subst.
  assert (a1 = e1 /\ e' :: a2' = e :: e2) as (-> & Eq).
  { clear - Ea La. revert e1 La Ea. induction a1 as [|x a1 IH]; intros [|y e1] La Ea; try discriminate; cbn in *; [auto|].
    injection Ea as -> Ea. destruct (IH e1 ltac:(lia) Ea) as (-> & ->). auto. }
  assert (a2' = e2) by congruence. subst a2'. rewrite Forall_app in Fg. destruct Fg as (Fg1 & Fg2). inversion Fg2 as [|? ? _ Fg2']; subst.
  assert (Q : forall l a, Forall good l -> ~ In g l -> Forall2 (fun gid e => view s [u; c; gid] = Some e) l a ->
              Forall2 (fun gid e => view s' [u; c; gid] = Some e) l a).
  { clear - Vo Hu Hc. intros l a Fl Nl Fa. induction Fa as [|x y l a E Fa IH]; constructor.
    - inversion Fl; subst. rewrite Vo; [exact E|auto with gp| |discriminate|discriminate|cbn; destruct (string_dec u c); auto].
      intros X. injection X as ->. apply Nl. left. reflexivity.
    - inversion Fl; subst. apply IH; [assumption|]. intros I. apply Nl. right. exact I. }
  apply Forall2_app; apply Q; assumption.
Qed.
Print Assumptions C100_removed_partial.

(** ... otherwise the list keeps an id behind which there is nothing, and asking for the grants raises from then on. *)
Theorem C100_removed_refuted : forall (sharing : bool) s u c g ci, kinds_ok s -> linked s -> good u -> good c -> good g ->
  view s [u; c] = Some (EInfo ci) -> sremove g (si_sub ci) <> [] ->
  In g (if sharing then sremove g (si_sub ci) else si_sub ci) ->
  exists s', remove_session sharing (session_key [u; c; g]) s = (Ok tt, s') /\
    forall l, fst (grants "" u c s') <> Ok l.
Proof.
  intros sh s u c g ci Hk Hl Hu Hc Hg V Ne I. unfold remove_session, bind, lift. rewrite unpack3_good by assumption.
  destruct (delete3_view sh s u c g Hk Hl Hu Hc Hg) as (s' & E & K & V3 & V2 & V1 & Vo & L).
  exists s'. split; [exact E|]. intros l G. apply grants_answer in G; [|assumption|assumption]. destruct G as (ci' & V' & F).
  rewrite V in V2. unfold del3_client in V2. destruct (sremove g (si_sub ci)) as [|x r] eqn:R; [congruence|]. cbn [is_nil] in V2. rewrite V2 in V'.
  assert (I' : In g (si_sub ci')). { destruct sh; injection V' as <-; exact I. }
  clear - F I' V3. induction F as [|y e l1 l2 E F IH]; [destruct I'|]. destruct I' as [->|I']; [congruence|auto].
Qed.
Print Assumptions C100_removed_refuted.

(** So a grant that was added and whose session is then removed spoils the list, in either kind of store. *)
Theorem C100_added_removed_refuted : forall (sharing : bool) s u c gr ci l, kinds_ok s -> linked s -> good u -> good c -> good (g_id gr) ->
  Forall good (si_sub ci) -> view s [u; c] = Some (EInfo ci) -> ~ In (g_id gr) (si_sub ci) -> fst (grants "" u c s) = Ok l ->
  exists s' s'', add_grant u c gr s = (Ok tt, s') /\ remove_session sharing (session_key [u; c; g_id gr]) s' = (Ok tt, s'') /\
    forall l', fst (grants "" u c s'') <> Ok l'.
Proof.
  intros sh s u c gr ci l Hk Hl Hu Hc Hg Fg V N G. apply grants_answer in G; [|assumption|assumption].
  destruct (add_grant_effect s u c gr ci l Hk Hl Hu Hc Hg Fg V N G) as (s' & E & K & L & V2 & V3 & F).
  assert (R : sremove (g_id gr) (si_sub ci ++ [g_id gr; g_id gr]) = (si_sub ci ++ [g_id gr])%list).
  { clear - N. induction (si_sub ci) as [|x l0 IH]; cbn; [now rewrite String.eqb_refl|].
    destruct (String.eqb_spec (g_id gr) x) as [X|_]; [exfalso; apply N; left; auto|]. rewrite IH; [reflexivity|]. intros I. apply N. right. exact I. }
  destruct (C100_removed_refuted sh s' u c (g_id gr) _ K L Hu Hc Hg V2) as (s'' & E' & B).
  - cbn [with_sub si_sub]. rewrite R. destruct (si_sub ci); discriminate.
  - cbn [with_sub si_sub]. rewrite R. destruct sh; apply in_or_app; right; left; reflexivity.
  - exists s', s''. auto.
Qed.
Print Assumptions C100_added_removed_refuted.

(** *** Examples: a store after two logins of one user at two clients and a second grant at the first *)
Definition h100 : list mop :=
  [OCreate 1000 "g1" (Some (mkAE "diana" None 1000 4600 None)) (Some [("client_id", VStr "c1")]) "diana" "c1" (Ok "sub") None (Some ["openid"]);
   OCreate 1100 "g2" (Some (mkAE "diana" None 1100 4700 None)) (Some [("client_id", VStr "c2")]) "diana" "c2" (Ok "sub") None None;
   OCreateGrant 1200 "g3" (Some (mkAE "diana" None 1200 4800 None)) (Some [("client_id", VStr "c1"); ("state", VStr "s3")]) "diana" "c1" (Ok "sub") None None;
   OWrite "diana" "c1" "g3" (fun g => g_set_issued [mkToken CAccess "access_token" "at1" None no_rules 1200 5000 0 false 0 "i" [] [] []] g)].
Definition s100 : store := mrun true h100 [].
Definition ids_of (r : result (list entry)) : option (list string) :=
  match r with Ok l => Some (map (fun e => match e with EGrant g => g_id g | EInfo _ => "" end) l) | Raise _ => None end.
Example C100_ex_grants :
  ids_of (fst (grants "diana;;c1;;g3" "" "" s100)) = Some ["g1"; "g3"] /\
  ids_of (fst (grants "" "diana" "c2" s100)) = Some ["g2"] /\
  option_map (@length token) (match fst (get_grant "diana;;c1;;g3" s100) with Ok g => Some (g_issued g) | Raise _ => None end) = Some 1%nat /\
  fst (get_grant "diana;;c1;;g2" s100) = Raise EValue /\
  match fst (get_authentication_events "diana;;c1;;g1" "" "" s100) with
  | Ok [Some a; Some b] => (ae_valid_until a, ae_valid_until b) = (4600, 4800)
  | _ => False
  end.
Proof. vm_compute. auto 10. Qed.
(** one removed, in the two kinds of store; one added and removed *)
Definition add4 : mop := OAddGrant "diana" "c1" (new_grant 1300 "g4" "sub" None None None None).
Example C100_ex_removed :
  ids_of (fst (grants "" "diana" "c1" (mrun true [ORemove "diana" "c1" "g1"] s100))) = Some ["g3"] /\
  ids_of (fst (grants "" "diana" "c1" (mrun false [ORemove "diana" "c1" "g1"] s100))) = None /\
  ids_of (fst (grants "" "diana" "c1" (mrun true [add4] s100))) = Some ["g1"; "g3"; "g4"; "g4"] /\
  ids_of (fst (grants "" "diana" "c1" (mrun true [add4; ORemove "diana" "c1" "g4"] s100))) = None.
Proof. vm_compute. auto. Qed.
Example C100_ex_token :
  match fst (find_token "diana;;c1;;g3" "at1" s100) with Ok (Some t) => t_value t = "at1"%string | _ => False end /\
  fst (find_token "diana;;c1;;g3" "at2" s100) = Ok None /\ fst (find_token "diana;;c1;;g1" "at1" s100) = Ok None.
Proof. vm_compute. auto. Qed.
Example C100_ex_info :
  match fst (get_session_info "diana;;c1;;g3" true true false true true s100) with
  | Ok i => in_uid i = "diana"%string /\ in_cid i = "c1"%string /\ in_gid i = "g3"%string /\ in_grant i = None /\
            in_ar i = Some (Some [("client_id", VStr "c1"); ("state", VStr "s3")])
  | Raise _ => False
  end /\
  fst (get_session_info "diana;;c1;;g3" true true true true true s100) = Raise EType.
Proof. vm_compute. auto 10. Qed.
Example C100_ex_kind : (* a client's information under a user's id is not taken for a user's *)
  fst (get_user_info "diana" [("diana", EInfo (mkSInfo SClient (Some "diana") [] false []))]) = Raise EValue.
Proof. reflexivity. Qed.
Example C100_ex_spec : exists g t, grant_usable 1300 g /\ token_usable 1300 t /\
  get_spec 1300 g t = Some (mkSpec ["openid"] false ["https://rs"]).
Proof.
  exists (mkGrant "g" "sub" ["openid"; "email"] [] ["c1"] None None [] no_grules 1000 0 0 false 0),
    (mkToken CAccess "access_token" "at1" None no_rules 1200 5000 0 false 0 "i" ["openid"] [] ["https://rs"]).
  rewrite <- g_active_iff, <- t_active_iff. auto.
Qed.

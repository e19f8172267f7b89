(** PropsServices.v: C91 The configured helpers are the ones used. *)
From Verif Require Import Base BaseProofs Types Ctx Services ServicesSpec ServicesProofs.
Local Open Scope string_scope.

Section C91.
  (** Everything Python: objects, importing, calling, setting an attribute, bool; the supplied classes and functions. The
      context counts as true. *)
  Context {obj : Type} (import : string -> string -> result obj) (call : obj -> bool -> msg -> result obj)
          (invoke : obj -> msg -> result obj) (set_user_info : obj -> obj -> result obj) (is_true : obj -> bool)
          (Implicit IDToken Scopes public_id pairwise_id ephemeral_id : obj).
  Notation make hc cwd dealer :=
    (make_helpers obj import call invoke set_user_info is_true true Implicit IDToken Scopes public_id pairwise_id ephemeral_id
                  hc cwd dealer).
  Notation stands_for := (stands_for obj import).
  Notation reads_users := (reads_users obj import call).
  Notation unset := (unset obj).

  Ltac step H E := match type of H with
    | rbind ?m _ = Ok _ => destruct m eqn:E; [cbn [rbind] in H|discriminate H]
    end.

  Lemma make_inv hc cwd dealer h hc' : make hc cwd dealer = Ok (h, hc') ->
    exists subs u1 c1 u2 c2,
      do_sub_func obj import call true (hc_sub_func obj hc) [] = Ok subs /\
      he_sub_func obj h = with_defaults obj public_id pairwise_id ephemeral_id subs /\
      do_userinfo obj import call (hc_userinfo obj hc) cwd None = Ok (u1, c1) /\
      do_userinfo obj import call c1 cwd u1 = Ok (u2, c2) /\ he_userinfo obj h = u2 /\
      do_cookie_dealer obj import call is_true true (hc_cookie_dealer obj hc) dealer = Ok (he_cookie_dealer obj h) /\
      do_authz obj import call true Implicit (hc_authz obj hc) = Ok (he_authz obj h) /\
      do_id_token obj import call true IDToken (hc_id_token obj hc) = Ok (he_id_token obj h) /\
      do_login_hint_lookup obj import call set_user_info is_true true (hc_hint_lookup obj hc) u2 = Ok (he_hint_lookup obj h) /\
      do_login_hint2acrs obj import call true (hc_hint2acrs obj hc) = Ok (he_hint2acrs obj h) /\
      do_add_on obj import (hc_add_on obj hc) = Ok (he_add_on obj h) /\
      set_scopes_handler obj import call invoke Scopes (hc_scopes obj hc) = Ok (he_scopes obj h) /\
      hc' = mkHC obj (hc_sub_func obj hc) c2 (hc_cookie_dealer obj hc) (hc_authz obj hc) (hc_id_token obj hc)
                 (hc_hint_lookup obj hc) (hc_hint2acrs obj hc) (hc_add_on obj hc) (hc_scopes obj hc).
  Proof.
    unfold make_helpers. intros H. step H E1. step H E2. destruct a0 as [u1 c1]. step H E3. step H E4. step H E5. step H E6.
    destruct a3 as [u2 c2]. step H E7. step H E8. step H E9. step H E10. injection H as <- <-.
    exists a, u1, c1, u2, c2. cbn. tauto.
  Qed.
  Lemma make_run hc cwd dealer subs u1 c1 u2 c2 dl az idt lk a2 ao sc :
    do_sub_func obj import call true (hc_sub_func obj hc) [] = Ok subs ->
    do_userinfo obj import call (hc_userinfo obj hc) cwd None = Ok (u1, c1) ->
    do_userinfo obj import call c1 cwd u1 = Ok (u2, c2) ->
    do_cookie_dealer obj import call is_true true (hc_cookie_dealer obj hc) dealer = Ok dl ->
    do_authz obj import call true Implicit (hc_authz obj hc) = Ok az ->
    do_id_token obj import call true IDToken (hc_id_token obj hc) = Ok idt ->
    do_login_hint_lookup obj import call set_user_info is_true true (hc_hint_lookup obj hc) u2 = Ok lk ->
    do_login_hint2acrs obj import call true (hc_hint2acrs obj hc) = Ok a2 ->
    do_add_on obj import (hc_add_on obj hc) = Ok ao ->
    set_scopes_handler obj import call invoke Scopes (hc_scopes obj hc) = Ok sc ->
    make hc cwd dealer =
      Ok (mkHelpers obj (with_defaults obj public_id pairwise_id ephemeral_id subs) u2 dl az idt lk a2 ao sc,
          mkHC obj (hc_sub_func obj hc) c2 (hc_cookie_dealer obj hc) (hc_authz obj hc) (hc_id_token obj hc)
               (hc_hint_lookup obj hc) (hc_hint2acrs obj hc) (hc_add_on obj hc) (hc_scopes obj hc)).
  Proof.
    intros E1 E2 E3 E4 E5 E6 E7 E8 E9 E10. unfold make_helpers. rewrite E1. cbn [rbind]. rewrite E2. cbn [rbind].
    rewrite E4. cbn [rbind]. rewrite E5. cbn [rbind]. rewrite E6. cbn [rbind]. rewrite E3. cbn [rbind]. rewrite E7. cbn [rbind].
    rewrite E8. cbn [rbind]. rewrite E9. cbn [rbind]. now rewrite E10.
  Qed.

  (** ** The configured helpers are the ones used, or the defaults: the helper for authorization and the maker of ID Tokens
      get the context, the others do not. A cookie dealer that was passed to the provider is kept. Subject identifiers are
      made by what is configured for their type (an entry that names neither a class nor a function does not count). All
      add-ons are called, in their order. Nothing else about the configuration changes. *)
Theorem C91_helpers hc cwd dealer h hc' : NoDup (map fst (hc_sub_func obj hc)) -> make hc cwd dealer = Ok (h, hc') ->
    helper_is import call (hc_authz obj hc) Implicit (he_authz obj h) /\
    helper_is import call (hc_id_token obj hc) IDToken (he_id_token obj h) /\
    helper_may_be import call (hc_hint2acrs obj hc) (he_hint2acrs obj h) /\
    (forall d, dealer = Some d -> is_true d = true -> he_cookie_dealer obj h = Some d) /\
    (dealer = None -> helper_may_be import call (hc_cookie_dealer obj hc) (he_cookie_dealer obj h)) /\
    Forall (fun tf => exists f, dget (fst tf) (he_sub_func obj h) = Some f /\
                                sub_func_is import call (hc_sub_func obj hc) (fst tf) (snd tf) f)
           [("public", public_id); ("pairwise", pairwise_id); ("ephemeral", ephemeral_id)] /\
    Forall2 (fun e fa => add_on_of obj import (snd e) fa) (hc_add_on obj hc) (he_add_on obj h) /\
    (exists l, helper_may_be import call (hc_hint_lookup obj hc) l /\
       match l, he_userinfo obj h with
       | Some o, Some u => if is_true u then exists o', set_user_info o u = Ok o' /\ he_hint_lookup obj h = Some o'
                           else he_hint_lookup obj h = Some o
       | _, _ => he_hint_lookup obj h = l
       end) /\
    (unset (hc_scopes obj hc) -> call Scopes false [] = Ok (he_scopes obj h)) /\
    (exists c, hc' = mkHC obj (hc_sub_func obj hc) c (hc_cookie_dealer obj hc) (hc_authz obj hc) (hc_id_token obj hc)
                 (hc_hint_lookup obj hc) (hc_hint2acrs obj hc) (hc_add_on obj hc) (hc_scopes obj hc)).
  Proof.
    intros N H. apply make_inv in H.
    destruct H as (subs & u1 & c1 & u2 & c2 & Hs & Hd & H1 & H2 & Hu & Hc & Ha & Hi & Hl & H2a & Ho & Hsc & Hh).
    assert (HI : forall c df o, (match configured obj c with
                                 | Some s => init_service obj import call true s true
                                 | None => call df true []
                                 end) = Ok o -> helper_is import call c df o).
    { intros c df o. destruct (configured obj c) as [s|] eqn:Cf; intros E.
      - right. destruct (configured_some obj c s Cf) as [-> U]. exists s. split; [reflexivity|]. split; [exact U|].
        now apply init_service_iff.
      - left. apply configured_iff in Cf. auto. }
    assert (HM : forall c l, (match configured obj c with
                              | Some s => rmap Some (init_service obj import call true s false)
                              | None => Ok None
                              end) = Ok l -> helper_may_be import call c l).
    { intros c l. destruct (configured obj c) as [s|] eqn:Cf; intros E.
      - right. destruct (configured_some obj c s Cf) as [-> U].
        destruct (init_service obj import call true s false) as [o|] eqn:I; [|discriminate].
        exists s, o. split; [reflexivity|]. split; [exact U|]. split; [now injection E as <-|]. now apply init_service_iff.
      - left. apply configured_iff in Cf. split; [exact Cf|]. now injection E as <-. }
    split; [now apply HI|]. split; [now apply HI|]. split; [now apply HM|]. split; [|split].
    - intros d -> T. unfold do_cookie_dealer in Hc. destruct (configured obj _); [|now injection Hc as <-].
      rewrite T in Hc. now injection Hc as <-.
    - intros ->. now apply HM.
    - split; [|split; [now apply do_add_on_iff|]].
      + assert (K : forall t df, In (t, df) [("public", public_id); ("pairwise", pairwise_id); ("ephemeral", ephemeral_id)] ->
                    dget t (he_sub_func obj h) = match dget t subs with Some f => Some f | None => Some df end).
        { intros t df I. rewrite Hd. unfold with_defaults. rewrite !default_to_get.
          cbn in I. destruct I as [E|[E|[E|[]]]]; injection E as <- <-; now destruct (dget _ subs). }
        apply Forall_forall. intros [t df] I. cbn [fst snd]. rewrite (K t df I).
        pose proof (do_sub_func_get obj import call (hc_sub_func obj hc) [] subs t N Hs) as G. unfold sub_func_is.
        destruct (dget t (hc_sub_func obj hc)) as [args|].
        * destruct G as ([f|] & S1 & G).
          -- rewrite G. exists f. split; [reflexivity|]. left. now apply sub_entry_iff.
          -- rewrite G. exists df. split; [reflexivity|]. right. unfold sub_entry, dmem in S1.
             destruct (dget "class" args) as [i|]; [destruct (init_service obj import call true args false); discriminate|].
             destruct (dget "function" args) as [i|]; [destruct (callee obj import i); discriminate|]. auto.
        * rewrite G. exists df. auto.
      + split; [|split].
        * unfold do_login_hint_lookup in Hl. destruct (configured obj (hc_hint_lookup obj hc)) as [s|] eqn:Cf.
          -- destruct (configured_some obj _ s Cf) as [E U].
             destruct (init_service obj import call true s false) as [o|] eqn:I; [|discriminate]. cbn in Hl.
             exists (Some o). split.
             ++ right. exists s, o. apply init_service_iff in I. auto.
             ++ rewrite Hu. destruct u2 as [u|]; [|now injection Hl as <-]. destruct (is_true u); [|now injection Hl as <-].
                destruct (set_user_info o u) as [o'|]; [|discriminate]. exists o'. split; [reflexivity|]. now injection Hl as <-.
          -- exists None. split; [left; apply configured_iff in Cf; auto|]. now injection Hl as <-.
        * intros U. apply configured_iff in U. unfold set_scopes_handler in Hsc. now rewrite U in Hsc.
        * now exists c2.
  Qed.

  (** ** Users *)
  Lemma init_user_info_inv s cwd o s' : init_user_info obj import call s cwd = Ok (o, s') ->
    reads_users s (path_join cwd) o /\
    ((exists f kwargs, dget "kwargs" s = Some (IArgs obj kwargs) /\ dget "db_file" kwargs = Some (VStr f) /\
                       s' = dset "kwargs" (IArgs obj (dset "db_file" (VStr (path_join cwd f)) kwargs)) s) \/
     ((forall kwargs, given_args obj s kwargs -> dget "db_file" kwargs = None) /\ s' = s)).
  Proof.
    unfold init_user_info, dsub. intros H.
    destruct (arguments obj s) as [k|] eqn:A; [|discriminate]. cbn in H. pose proof A as A'. apply arguments_iff in A.
    destruct (dget "db_file" k) as [v|] eqn:D.
    - destruct v; try discriminate. cbn in H. destruct (dget "class" s) as [i|] eqn:C; [|discriminate]. cbn in H.
      destruct (callee obj import i) as [g|] eqn:G; [|discriminate]. apply callee_iff in G. cbn in H.
      destruct (call g false _) as [o'|] eqn:K; [|discriminate]. cbn in H. injection H as <- <-. split.
      + exists i, g, k. rewrite D. auto.
      + left. exists s0, k. destruct A as [[_ ->]|A]; [discriminate|]. rewrite A. auto.
    - cbn in H. destruct (dget "class" s) as [i|] eqn:C; [|discriminate]. cbn in H.
      destruct (callee obj import i) as [g|] eqn:G; [|discriminate]. apply callee_iff in G. cbn in H.
      destruct (call g false k) as [o'|] eqn:K; [|discriminate]. cbn in H. injection H as <- <-. split.
      + exists i, g, k. rewrite D. auto.
      + right. split.
        * intros k' A2. apply arguments_iff in A2. congruence.
        * destruct A as [[A _]|A]; rewrite A; [reflexivity|]. now apply dset_id.
  Qed.
  Lemma init_user_info_run s cwd o k : reads_users s (path_join cwd) o -> given_args obj s k ->
    (dget "db_file" k = None \/ exists f, dget "db_file" k = Some (VStr f)) ->
    exists s', init_user_info obj import call s cwd = Ok (o, s').
  Proof.
    intros (i & g & k' & C & G & A & K) A2 F. apply arguments_iff in A, A2. assert (k' = k) by congruence. subst k'.
    apply callee_iff in G. unfold init_user_info. rewrite A. cbn. unfold dsub.
    destruct F as [F|[f F]]; rewrite F in *; cbn; rewrite C; cbn; rewrite G; cbn; rewrite K; cbn; eauto.
  Qed.

  (** the second time, with what the first time left *)
  Lemma users_twice s cwd o s' : init_user_info obj import call s cwd = Ok (o, s') ->
    forall o2, reads_users s' (path_join cwd) o2 <-> reads_users s (fun f => path_join cwd (path_join cwd f)) o2.
  Proof.
    intros H o2. apply init_user_info_inv in H. destruct H as [_ B]. destruct B as [(f & kw & E & F & ->)|[N ->]].
    - split; intros (i & g & k & C & G & A & K).
      + rewrite dget_dset_neq in C by discriminate. exists i, g, kw. split; [exact C|]. split; [exact G|]. split; [now right|].
        rewrite F. destruct A as [[A _]|A]; rewrite dget_dset_eq in A; [discriminate|]. injection A as <-.
        rewrite dget_dset_eq, dset_over in K. exact K.
      + assert (k = kw) by (destruct A as [[A _]|A]; congruence). subst k. rewrite F in K.
        exists i, g, (dset "db_file" (VStr (path_join cwd f)) kw). rewrite dget_dset_neq by discriminate.
        split; [exact C|]. split; [exact G|]. split; [right; apply dget_dset_eq|].
        rewrite dget_dset_eq, dset_over. exact K.
    - split; intros (i & g & k & C & G & A & K); exists i, g, k; rewrite (N k A) in *; auto.
  Qed.

  (** where the users are read from in the end *)
  Lemma users_read hc cwd dealer h hc' s : hc_userinfo obj hc = Some s -> s <> [] -> make hc cwd dealer = Ok (h, hc') ->
    exists o, he_userinfo obj h = Some o /\ reads_users s (fun f => path_join cwd (path_join cwd f)) o.
  Proof.
    intros E N H. apply make_inv in H. destruct H as (subs & u1 & c1 & u2 & c2 & _ & _ & H1 & H2 & Hu & _).
    unfold do_userinfo in H1, H2. rewrite E in H1. destruct s as [|e s0] eqn:Es; [congruence|]. rewrite <- Es in *.
    assert (Cf : configured obj (Some s) = Some s) by now rewrite Es.
    rewrite Cf in H1. destruct (init_user_info obj import call s cwd) as [[o s']|] eqn:I; [|discriminate]. cbn in H1.
    injection H1 as <- <-.
    assert (Cf' : configured obj (Some s') = Some s').
    { apply init_user_info_inv in I. destruct I as [_ [(f & kw & _ & _ & ->)|[_ ->]]]; [|exact Cf].
      apply configured_dset. }
    rewrite Cf' in H2. destruct (init_user_info obj import call s' cwd) as [[o2 s2]|] eqn:I2; [|discriminate]. cbn in H2.
    injection H2 as <- <-. exists o2. split; [exact Hu|].
    apply (users_twice s cwd o s' I o2). now apply init_user_info_inv in I2.
  Qed.

  (** ** The users are those of the configured source, and a file is looked for in the directory of the provider - if that
      directory or the file is given absolutely, or no directory is given. *)
Theorem C91_users_partial hc cwd dealer h hc' s : hc_userinfo obj hc = Some s -> s <> [] ->
    absolute cwd \/ cwd = "" \/ (forall k f, given_args obj s k -> dget "db_file" k = Some (VStr f) -> absolute f) ->
    make hc cwd dealer = Ok (h, hc') ->
    exists o path, he_userinfo obj h = Some o /\ relative_to cwd path /\ reads_users s path o.
  Proof.
    intros E N A H. destruct (users_read hc cwd dealer h hc' s E N H) as (o & Ho & R).
    exists o, (path_join cwd). split; [exact Ho|]. split; [apply path_join_relative|].
    destruct R as (i & g & k & C & G & Ak & K). exists i, g, k. split; [exact C|]. split; [exact G|]. split; [exact Ak|].
    destruct (dget "db_file" k) as [[]|] eqn:F; try exact K.
    rewrite join_twice in K; [exact K|]. destruct A as [A|[A|A]]; [now left|now right; right|right; left; now apply (A k)].
  Qed.

  (** ** Otherwise the directory is put in front twice: the source is made with a path that is not the configured file in the
      directory, for every relative directory and file. *)
Theorem C91_users_refuted hc cwd dealer h hc' s k f : hc_userinfo obj hc = Some s -> s <> [] ->
    cwd <> "" -> (forall r, cwd <> r ++ "/") -> ~ absolute cwd -> ~ absolute f ->
    given_args obj s k -> dget "db_file" k = Some (VStr f) ->
    make hc cwd dealer = Ok (h, hc') ->
    exists o i g, he_userinfo obj h = Some o /\ dget "class" s = Some i /\ stands_for i g /\
                  call g false (dset "db_file" (VStr (below cwd (below cwd f))) k) = Ok o /\
                  below cwd (below cwd f) <> below cwd f.
  Proof.
    intros E N W S1 A1 A2 Hk F H. destruct (users_read hc cwd dealer h hc' s E N H) as (o & Ho & i & g & k' & C & G & Ak & K).
    apply arguments_iff in Hk, Ak. assert (k' = k) by congruence. subst k'. rewrite F in K.
    pose proof (path_join_relative cwd) as (_ & _ & _ & R).
    assert (B1 : path_join cwd f = below cwd f) by now apply R.
    assert (A3 : ~ absolute (below cwd f)).
    { intros [r X]. apply A1. unfold below in X. destruct cwd as [|c cwd']; [congruence|]. injection X as -> _. now exists cwd'. }
    assert (B2 : path_join cwd (below cwd f) = below cwd (below cwd f)) by now apply R.
    exists o, i, g. split; [exact Ho|]. split; [exact C|]. split; [exact G|].
    rewrite B1, B2 in K. split; [exact K|]. rewrite <- B2, <- B1. now apply join_grows.
  Qed.

  (** ** A configuration can be used again, with the same result, under the conditions of C91_users_partial. *)
Theorem C91_again_partial hc cwd dealer h hc' :
    (forall s, hc_userinfo obj hc = Some s ->
       absolute cwd \/ cwd = "" \/ (forall k f, given_args obj s k -> dget "db_file" k = Some (VStr f) -> absolute f)) ->
    make hc cwd dealer = Ok (h, hc') -> make hc' cwd dealer = Ok (h, hc').
  Proof.
    intros St H. pose proof H as H0. apply make_inv in H.
    destruct H as (subs & u1 & c1 & u2 & c2 & Hs & Hd & H1 & H2 & Hu & Hc & Ha & Hi & Hl & H2a & Ho & Hsc & Hh). subst hc'.
    assert (X : forall s o s', (absolute cwd \/ cwd = "" \/ (forall k f, given_args obj s k -> dget "db_file" k = Some (VStr f) -> absolute f)) ->
                  init_user_info obj import call s cwd = Ok (o, s') -> init_user_info obj import call s' cwd = Ok (o, s')).
    { intros s o s' P I. pose proof I as I0. apply init_user_info_inv in I. destruct I as [R [(f & kw & E & F & ->)|[_ ->]]]; [|exact I0].
      assert (T : path_join cwd (path_join cwd f) = path_join cwd f).
      { apply join_twice. destruct P as [P|[P|P]]; auto. right. left. apply (P kw); [now right|exact F]. }
      destruct R as (i & g & k & C & G & A & K). assert (k = kw) by (destruct A as [[A _]|A]; congruence). subst k.
      rewrite F in K. apply callee_iff in G. unfold init_user_info, arguments. rewrite dget_dset_eq. cbn. rewrite dget_dset_eq.
      cbn. unfold dsub. rewrite dget_dset_neq by discriminate. rewrite C. cbn. rewrite G. cbn. rewrite T, dset_over, K. cbn.
      now rewrite dset_over. }
    assert (D : do_userinfo obj import call c2 cwd None = Ok (u2, c2) /\ do_userinfo obj import call c2 cwd u2 = Ok (u2, c2)).
    { unfold do_userinfo in *. destruct (configured obj (hc_userinfo obj hc)) as [s|] eqn:Cf.
      - destruct (configured_some obj _ s Cf) as [E U]. specialize (St s E).
        destruct (init_user_info obj import call s cwd) as [[o s']|] eqn:I; [|discriminate]. cbn in H1. injection H1 as <- <-.
        pose proof (X s o s' St I) as I2.
        assert (Cf' : configured obj (Some s') = Some s').
        { apply init_user_info_inv in I. destruct I as [_ [(f & kw & _ & _ & ->)|[_ ->]]]; [|now rewrite E in Cf].
          apply configured_dset. }
        rewrite Cf', I2 in H2. cbn in H2. injection H2 as <- <-. rewrite Cf', I2. auto.
      - injection H1 as <- <-. rewrite Cf in H2. injection H2 as <- <-. rewrite Cf. auto. }
    destruct D as [D1 D2]. destruct h. cbn in *. subst.
    now apply (make_run (mkHC obj (hc_sub_func obj hc) c2 (hc_cookie_dealer obj hc) (hc_authz obj hc) (hc_id_token obj hc)
                 (hc_hint_lookup obj hc) (hc_hint2acrs obj hc) (hc_add_on obj hc) (hc_scopes obj hc)) cwd dealer subs u2 c2 u2 c2).
  Qed.

  (** ** The set-up works if every helper can be made. (Scopes: see below.) *)
Theorem C91_works hc cwd dealer :
    (forall typ args, In (typ, args) (hc_sub_func obj hc) ->
       (exists f, sub_stands_for obj import call args f) \/ (dget "class" args = None /\ dget "function" args = None)) ->
    (unset (hc_userinfo obj hc) \/
     exists s k o1 o2, hc_userinfo obj hc = Some s /\ given_args obj s k /\
       (dget "db_file" k = None \/ exists f, dget "db_file" k = Some (VStr f)) /\
       reads_users s (path_join cwd) o1 /\ reads_users s (fun f => path_join cwd (path_join cwd f)) o2) ->
    (exists az, helper_is import call (hc_authz obj hc) Implicit az) ->
    (exists idt, helper_is import call (hc_id_token obj hc) IDToken idt) ->
    (dealer <> None /\ unset (hc_cookie_dealer obj hc) \/ (exists d, helper_may_be import call (hc_cookie_dealer obj hc) d)) ->
    (exists a, helper_may_be import call (hc_hint2acrs obj hc) a) ->
    (exists l, helper_may_be import call (hc_hint_lookup obj hc) l) -> (forall o u, exists o', set_user_info o u = Ok o') ->
    (exists l, Forall2 (fun e fa => add_on_of obj import (snd e) fa) (hc_add_on obj hc) l) ->
    unset (hc_scopes obj hc) -> (exists sc, call Scopes false [] = Ok sc) ->
    exists h hc', make hc cwd dealer = Ok (h, hc').
  Proof.
    intros Hs Hu [az Ha] [idt Hi] Hd [a2 H2] [lk Hl] Hset [ao Ho] Hsc [sc Hc].
    assert (HI : forall c df o, helper_is import call c df o ->
                 (match configured obj c with
                  | Some s => init_service obj import call true s true
                  | None => call df true []
                  end) = Ok o).
    { intros c df o [[U E]|(s & -> & U & E)].
      - apply configured_iff in U. now rewrite U.
      - destruct s as [|e s]; [exfalso; apply U; now right|]. cbn [configured]. now apply init_service_iff. }
    assert (HM : forall c l, helper_may_be import call c l ->
                 match configured obj c with
                 | Some s => exists o, l = Some o /\ init_service obj import call true s false = Ok o
                 | None => l = None
                 end).
    { intros c l [[U E]|(s & o & -> & U & E & I)].
      - apply configured_iff in U. now rewrite U.
      - destruct s as [|e s]; [exfalso; apply U; now right|]. cbn [configured]. exists o. split; [exact E|]. now apply init_service_iff. }
    assert (S1 : exists subs, do_sub_func obj import call true (hc_sub_func obj hc) [] = Ok subs).
    { generalize (@nil (string * obj)). induction (hc_sub_func obj hc) as [|[t args] l IH]; intros acc; [cbn; eauto|]. cbn.
      assert (Q : exists r, sub_entry obj import call true args = Ok r).
      { destruct (Hs t args (or_introl eq_refl)) as [[f Q]|[Q1 Q2]].
        - exists (Some f). now apply sub_entry_iff.
        - exists None. unfold sub_entry, dmem. now rewrite Q1, Q2. }
      destruct Q as [r ->]. cbn. apply IH. intros t' a' I. apply (Hs t' a'). now right. }
    destruct S1 as [subs S1].
    assert (U1 : exists u1 c1 u2 c2, do_userinfo obj import call (hc_userinfo obj hc) cwd None = Ok (u1, c1) /\
                                     do_userinfo obj import call c1 cwd u1 = Ok (u2, c2)).
    { destruct Hu as [U|(s & k & o1 & o2 & E & A & F & R1 & R2)].
      - apply configured_iff in U. unfold do_userinfo. rewrite U. exists None, (hc_userinfo obj hc), None, (hc_userinfo obj hc).
        now rewrite U.
      - destruct s as [|e s0] eqn:Es; [destruct R1 as (i & g & k' & C & _); discriminate C|]. rewrite <- Es in *.
        destruct (init_user_info_run s cwd o1 k R1 A F) as [s' I1]. pose proof (users_twice s cwd o1 s' I1 o2) as T.
        apply T in R2. assert (Z : exists k', given_args obj s' k' /\ (dget "db_file" k' = None \/ exists f, dget "db_file" k' = Some (VStr f))).
        { pose proof I1 as I1'. apply init_user_info_inv in I1'. destruct I1' as [_ [(f & kw & _ & _ & ->)|[_ ->]]]; [|now exists k].
          eexists. split; [right; apply dget_dset_eq|]. right. eexists. apply dget_dset_eq. }
        destruct Z as (k' & A' & F'). destruct (init_user_info_run s' cwd o2 k' R2 A' F') as [s2 I2].
        assert (Cf' : configured obj (Some s') = Some s').
        { destruct s' as [|? ?]; [|reflexivity]. destruct R2 as (? & ? & ? & C & _). discriminate C. }
        exists (Some o1), (Some s'), (Some o2), (Some s2). unfold do_userinfo. rewrite E, Cf', I2. rewrite Es at 1.
        cbn [configured]. rewrite <- Es, I1. auto. }
    destruct U1 as (u1 & c1 & u2 & c2 & U1 & U2).
    assert (D1 : exists dl, do_cookie_dealer obj import call is_true true (hc_cookie_dealer obj hc) dealer = Ok dl).
    { unfold do_cookie_dealer. destruct Hd as [[_ U]|[d M]].
      - apply configured_iff in U. rewrite U. eauto.
      - apply HM in M. destruct (configured obj (hc_cookie_dealer obj hc)) as [s|]; [|eauto].
        destruct M as (o & _ & I). rewrite I. destruct dealer as [d0|]; [destruct (is_true d0)|]; cbn; eauto. }
    destruct D1 as [dl D1].
    assert (L1 : exists l, do_login_hint_lookup obj import call set_user_info is_true true (hc_hint_lookup obj hc) u2 = Ok l).
    { unfold do_login_hint_lookup. apply HM in Hl. destruct (configured obj (hc_hint_lookup obj hc)) as [s|]; [|eauto].
      destruct Hl as (o & _ & I). rewrite I. cbn. destruct u2 as [u|]; [|eauto]. destruct (is_true u); [|eauto].
      destruct (Hset o u) as [o' Q]. rewrite Q. cbn. eauto. }
    destruct L1 as [l L1].
    assert (A1 : do_login_hint2acrs obj import call true (hc_hint2acrs obj hc) = Ok a2).
    { unfold do_login_hint2acrs. apply HM in H2. destruct (configured obj (hc_hint2acrs obj hc)) as [s|]; [|now subst].
      destruct H2 as (o & -> & I). now rewrite I. }
    assert (C1 : set_scopes_handler obj import call invoke Scopes (hc_scopes obj hc) = Ok sc).
    { unfold set_scopes_handler. apply configured_iff in Hsc. now rewrite Hsc. }
    apply do_add_on_iff in Ho. do 2 eexists.
    apply (make_run hc cwd dealer subs u1 c1 u2 c2 dl az idt l a2 ao sc); auto.
    - now apply HI.
    - now apply HI.
  Qed.

  (** ** A configured scopes handler never works unless instances of its class can be called: the instance is called
      once more with the arguments. (Those of the supplied class cannot.) *)
Theorem C91_scopes_refuted hc cwd dealer s : hc_scopes obj hc = Some s -> s <> [] ->
    (forall o k, instance_of obj import call s false o -> invoke o k = Raise EType) ->
    forall r, make hc cwd dealer <> Ok r.
  Proof.
    intros E N V [h hc'] H. apply make_inv in H.
    destruct H as (subs & u1 & c1 & u2 & c2 & Hs & Hd & H1 & H2 & Hu & Hc & Ha & Hi & Hl & H2a & Ho & Hsc & Hh).
    unfold set_scopes_handler in Hsc. rewrite E in Hsc. destruct s as [|e s0] eqn:Es; [congruence|]. rewrite <- Es in *.
    replace (configured obj (Some s)) with (Some s) in Hsc by now rewrite Es. unfold dsub in Hsc.
    destruct (arguments obj s) as [k|] eqn:A; [|discriminate]. cbn in Hsc.
    destruct (dget "class" s) as [i|] eqn:C; [|discriminate]. cbn in Hsc.
    destruct i as [n| |]; try discriminate. cbn in Hsc. destruct (importer obj import n) as [f|] eqn:G; [|discriminate]. cbn in Hsc.
    destruct (call f false k) as [o|] eqn:K; [|discriminate]. cbn in Hsc. rewrite V in Hsc; [discriminate|].
    exists (IStr obj n), f, k. split; [exact C|]. split; [|split; [now apply arguments_iff|exact K]].
    apply callee_iff. exact G.
  Qed.

  (** ** An add-on that is configured without arguments makes the set-up fail. *)
Theorem C91_add_on_refuted hc cwd dealer name spec : In (name, spec) (hc_add_on obj hc) -> dget "kwargs" spec = None ->
    forall r, make hc cwd dealer <> Ok r.
  Proof.
    intros I K [h hc'] H. apply make_inv in H.
    destruct H as (subs & u1 & c1 & u2 & c2 & Hs & Hd & H1 & H2 & Hu & Hc & Ha & Hi & Hl & H2a & Ho & _).
    apply do_add_on_iff in Ho. revert I. induction Ho as [|e fa l l' (i & F & S1 & K') _ IH]; [easy|].
    intros [->|I]; [cbn in K'; congruence|now apply IH].
  Qed.
End C91.
Print Assumptions C91_helpers.
Print Assumptions C91_users_partial.
Print Assumptions C91_users_refuted.
Print Assumptions C91_again_partial.
Print Assumptions C91_works.
Print Assumptions C91_scopes_refuted.
Print Assumptions C91_add_on_refuted.

(** A small Python: classes by name, instances that remember how they were made *)
Inductive py := Cls (name : string) | Inst (name : string) (ctx : bool) (kwargs : msg) (users : option py).
Definition py_import (m k : string) : result py :=
  if smem m ["op.helpers"; "oidcendpoint.user_info"; "oidcendpoint.login_hint"; "oidcendpoint.scopes"] then Ok (Cls (m ++ "." ++ k))
  else Raise EOther.
Definition py_call (o : py) (ctx : bool) (kwargs : msg) : result py :=
  match o with Cls n => Ok (Inst n ctx kwargs None) | _ => Raise EType end.
Definition py_invoke (o : py) (arg : msg) : result py := match o with Cls n => Ok (Inst n false [] None) | _ => Raise EType end.
Definition py_set (o u : py) : result py :=
  match o with Inst n c k _ => Ok (Inst n c k (Some u)) | Cls _ => Raise EAttr end.
Definition py_make (hc : hconf py) (cwd : string) (dealer : option py) :=
  make_helpers py py_import py_call py_invoke py_set (fun _ => true) true (Cls "Implicit") (Cls "IDToken") (Cls "Scopes")
               (Cls "public_id") (Cls "pairwise_id") (Cls "ephemeral_id") hc cwd dealer.

Definition users91 : sconf py :=
  [("class", IStr py "oidcendpoint.user_info:UserInfo"); ("kwargs", IArgs py [("db_file", VStr "users.json")])].
Definition hc91 : hconf py := mkHC py
  [("public", [("class", IStr py "op.helpers.Public"); ("kwargs", IArgs py [("salt", VStr "x")])]);
   ("pairwise", [("function", IObj py (Cls "mine"))]); ("ephemeral", [("note", IStr py "?")])]
  (Some users91) None (Some [("class", IStr py "op.helpers:Authz"); ("kwargs", IArgs py [("grant_config", VDict [])])]) (Some [])
  (Some [("class", IStr py "oidcendpoint.login_hint.LoginHintLookup")]) None
  [("pkce", [("function", IStr py "op.helpers.add_pkce"); ("kwargs", IArgs py [("essential", VBool true)])])] None.

Definition source91 (path : string) : py := Inst "oidcendpoint.user_info.UserInfo" false [("db_file", VStr path)] None.
Definition helpers91 (path : string) : helpers py :=
  mkHelpers py [("public", Inst "op.helpers.Public" false [("salt", VStr "x")] None); ("pairwise", Cls "mine"); ("ephemeral", Cls "ephemeral_id")]
    (Some (source91 path)) (Some (Cls "dealer")) (Inst "op.helpers.Authz" true [("grant_config", VDict [])] None)
    (Inst "IDToken" true [] None) (Some (Inst "oidcendpoint.login_hint.LoginHintLookup" false [] (Some (source91 path)))) None
    [(Cls "op.helpers.add_pkce", [("essential", VBool true)])] (Inst "Scopes" false [] None).
Example C91_ex : NoDup (map fst (hc_sub_func py hc91)) /\
  exists hc', py_make hc91 "/srv/op" (Some (Cls "dealer")) = Ok (helpers91 "/srv/op/users.json", hc') /\
              py_make hc' "/srv/op" (Some (Cls "dealer")) = Ok (helpers91 "/srv/op/users.json", hc').
Proof.
  split; [repeat constructor; cbn; intuition discriminate|]. eexists. split; vm_compute; reflexivity.
Qed.
(** with a relative directory: op/op/users.json, and next time one further down *)
Example C91_ex_users : exists hc' hc2, py_make hc91 "op" None = Ok (mkHelpers py (he_sub_func py (helpers91 "")) (Some (source91 "op/op/users.json"))
    None (he_authz py (helpers91 "")) (he_id_token py (helpers91 ""))
    (Some (Inst "oidcendpoint.login_hint.LoginHintLookup" false [] (Some (source91 "op/op/users.json")))) None
    (he_add_on py (helpers91 "")) (he_scopes py (helpers91 "")), hc') /\
  exists h2, py_make hc' "op" None = Ok (h2, hc2) /\ he_userinfo py h2 = Some (source91 "op/op/op/op/users.json").
Proof. do 2 eexists. split; [vm_compute; reflexivity|]. eexists. split; vm_compute; reflexivity. Qed.
(** the supplied class for scopes, and an add-on without arguments *)
Example C91_ex_scopes : py_make (mkHC py [] None None None None None None []
    (Some [("class", IStr py "oidcendpoint.scopes.Scopes")])) "" None = Raise EType /\
  py_make (mkHC py [] None None None None None None [("pkce", [("function", IStr py "op.helpers.add_pkce")])] None) "" None = Raise EKey.
Proof. split; vm_compute; reflexivity. Qed.

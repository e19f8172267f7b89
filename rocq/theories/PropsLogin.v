(** PropsLogin.v: C88 (the configured login methods and the login form). *)
From Verif Require Import Base BaseProofs Types Ctx Registration AuthnBroker AuthnBrokerSpec AuthnBrokerProofs Monad SessionKey
  Token Grant Database Manager Scopes Claims Authz World Minting Response AuthzEndpoint SetupAuth SetupAuthProofs Login LoginSpec
  LoginProofs.

Section C88.
  Variable make_db : val -> val -> result (dict val).
  Variable make_other : string -> msg -> result (option string).
  Variable is_userpass : string -> bool.
  Notation setup := (do_authentication make_db make_other is_userpass).
  Notation fits := (stands_for make_db make_other is_userpass).
  Notation complete := (complete make_db make_other is_userpass).

  (** After the set-up every entry of the configuration, and nothing else, is a registered method: under its name it is the
      method the entry asks for, with its acr; the methods of an acr are found in the order of the configuration; the first
      entry is the default. *)
Theorem C88_set_up : forall conf a,
    conf <> [] -> names_once conf -> (forall x, In x conf -> no_handler (snd x)) ->
    setup (Some conf) = Ok a ->
    exists b, an_broker a = Some b /\
      (forall id s, In (id, s) conf ->
         (exists acr, sp_acr s = Some acr /\ br_get id b = Ok (mkMI (Some acr) (Some id))) /\
         exists m, dget id (an_methods a) = Some m /\ fits s m) /\
      (forall id, ~ In id (map fst conf) -> br_get id b = Raise EKey /\ dget id (an_methods a) = None) /\
      (forall acr, pick_by_class_ref acr b = Ok (map (fun id => mkMI (Some acr) (Some id)) (of_class acr conf))) /\
      option_map mi_method (br_default b) = option_map (fun x => Some (fst x)) (hd_error conf).
Proof.
    intros conf a Ne ND NH E. destruct (setup_inv _ _ _ _ _ Ne ND NH E) as (b & Ea & St & W1 & W2).
    exists b. split; [rewrite Ea; reflexivity|].
    assert (NHa : forall id s, In (id, s) conf -> exists acr, sp_acr s = Some acr) by (intros id s H; exact (proj1 (W2 _ _ H))).
    split; [|split; [|split]].
    - intros id s H. destruct (W2 _ _ H) as ((acr & Eacr) & m & G & F). split; [|eauto]. exists acr. split; [exact Eacr|].
      assert (I : In (mkRM id acr id) (regs conf)).
      { unfold regs. apply in_map_iff. exists (id, s). cbn [fst snd]. rewrite Eacr. auto. }
      exact (stands_get b _ (mkRM id acr id) St I).
    - intros id N. split; [|now apply W1]. apply (stands_get_none b (regs conf) id St). now rewrite reg_ids_regs.
    - intros acr. rewrite (stands_pick b (regs conf) acr St). f_equal. clear - NHa. unfold of_class.
      induction conf as [|[id s] conf IH]; [reflexivity|]. destruct (NHa id s (or_introl eq_refl)) as [x Ex].
      cbn [regs map filter with_acr fst snd]. rewrite Ex. cbn [rm_acr]. specialize (IH (fun i t H => NHa i t (or_intror H))).
      unfold regs, with_acr in IH. destruct (String.eqb_spec x acr) as [->|Nx]; cbn [map fst]; rewrite IH; reflexivity.
    - rewrite (stands_default b (regs conf) St). destruct conf as [|[id s] conf]; [contradiction|]. reflexivity.
Qed.

  (** The set-up succeeds if and only if every entry is complete. *)
Theorem C88_complete : forall conf,
    (forall x, In x conf -> no_handler (snd x)) ->
    ((exists a, setup (Some conf) = Ok a) <-> forall x, In x conf -> complete (snd x)).
Proof.
    intros conf NH. unfold do_authentication. destruct conf as [|x0 conf0].
    - split; [intros _ x []|eauto].
    - split.
      + intros (a & E). destruct (populate make_db make_other is_userpass (x0 :: conf0) empty_broker []) as [r|] eqn:P; [|discriminate].
        exact (pop_complete _ _ _ _ _ _ _ NH P).
      + intros C. destruct (pop_can make_db make_other is_userpass (x0 :: conf0) empty_broker [] NH C) as (b & ms & ->).
        cbn [rbind]. eauto.
Qed.

  (** The template is said to have a default; but a password method without one is never set up, whatever else is
      configured: it is a TypeError. *)
Theorem C88_default_template_refuted : forall before id s after c,
    (forall x, In x before -> no_handler (snd x) /\ complete (snd x)) -> no_handler s ->
    sp_class s = Some c -> is_userpass c = true -> dget "template" (kwargs_in s) = None ->
    setup (Some (before ++ (id, s) :: after)) = Raise EType.
Proof.
    intros before id s after c B NH Ec P T. unfold do_authentication.
    assert (X : populate make_db make_other is_userpass (before ++ (id, s) :: after) empty_broker [] = Raise EType).
    { rewrite pop_app.
      destruct (pop_can make_db make_other is_userpass before empty_broker [] (fun x H => proj1 (B x H)) (fun x H => proj2 (B x H)))
        as (b & ms & ->). cbn [rbind fst snd populate]. unfold init_method. fold (kwargs_in s). rewrite called, Ec.
      cbn [of_option rbind]. rewrite P. unfold user_pass_init. rewrite dmem_dget.
      assert (H0 : dget "template_handler" (called_with (kwargs_in s)) = None).
      { unfold called_with. rewrite T. rewrite dget_dset_neq by discriminate. exact NH. }
      rewrite H0. reflexivity. }
    destruct (before ++ (id, s) :: after) as [|y l] eqn:L; [destruct before; discriminate|]. now rewrite X.
Qed.

  (** If no other method has its form sent to the same place, a form sent there logs in exactly those whose password is
      right in the user database of the method; a wrong one is a failed authentication. *)
Theorem C88_password : forall conf a id u form,
    conf <> [] -> names_once conf -> (forall x, In x conf -> no_handler (snd x)) ->
    setup (Some conf) = Ok a -> dget id (an_methods a) = Some (MUserPass u) -> only_action (an_methods a) id (up_action u) ->
    (forall n, posted a (up_action u) form = Ok n <-> right_password (up_users u) form n) /\
    (forall n p, dget "username" form = Some (VStr n) -> dget "password" form = Some p -> ~ right_password (up_users u) form n ->
       posted a (up_action u) form = Raise EFailedAuthentication).
Proof.
    intros conf a id u form Ne ND NH E G O.
    assert (I : In id (map fst conf)).
    { destruct (setup_inv _ _ _ _ _ Ne ND NH E) as (b & _ & _ & W1 & _).
      destruct (in_dec string_dec id (map fst conf)) as [I|N]; [exact I|]. apply W1 in N. congruence. }
    destruct (in_split _ _ I) as (l1 & l2 & Sp).
    assert (A : dget (up_action u) (an_actions a) = Some id).
    { refine (setup_action make_db make_other is_userpass conf a l1 id l2 _ Ne ND NH E Sp _ _).
      - unfold aof. now rewrite G.
      - intros k Hk. assert (k <> id). { intros ->. red in ND. rewrite Sp in ND. apply NoDup_remove_2 in ND. apply ND, in_or_app. now right. }
        unfold aof. destruct (dget k (an_methods a)) as [m|] eqn:Gk; [|discriminate]. specialize (O k m Gk H).
        destruct m; cbn; [intros X; injection X; exact O|exact O]. }
    assert (P : posted a (up_action u) form = verify u form).
    { unfold posted, dsub. rewrite A. cbn [of_option rbind]. now rewrite G. }
    rewrite P. split; [intros n; apply verify_iff|intros n p; apply verify_wrong].
Qed.

  (** Refuted when two password methods send their forms to the same place (which they do unless one is configured
      otherwise): the form the earlier one showed is checked against the users of the later one, always. *)
Theorem C88_shared_action_refuted : forall conf a l1 id1 u1 id2 u2 l2 form n,
    names_once conf -> (forall x, In x conf -> no_handler (snd x)) ->
    setup (Some conf) = Ok a -> map fst conf = l1 ++ id2 :: l2 -> In id1 l1 ->
    dget id1 (an_methods a) = Some (MUserPass u1) -> dget id2 (an_methods a) = Some (MUserPass u2) ->
    up_action u1 = up_action u2 ->
    (forall k m, In k l2 -> dget k (an_methods a) = Some m ->
       match m with MUserPass x => up_action x <> up_action u2 | MOther o => o <> Some (up_action u2) end) ->
    posted a (up_action u1) form = Ok n <-> right_password (up_users u2) form n.
Proof.
    intros conf a l1 id1 u1 id2 u2 l2 form n ND NH E Sp I1 G1 G2 Ac L.
    assert (Ne : conf <> []) by (intros ->; destruct l1; discriminate).
    assert (A : dget (up_action u2) (an_actions a) = Some id2).
    { refine (setup_action make_db make_other is_userpass conf a l1 id2 l2 _ Ne ND NH E Sp _ _).
      - unfold aof. now rewrite G2.
      - intros k Hk. unfold aof. destruct (dget k (an_methods a)) as [m|] eqn:Gk; [|discriminate]. specialize (L k m Hk Gk).
        destruct m; cbn; [intros X; injection X; exact L|exact L]. }
    rewrite Ac. unfold posted, dsub. rewrite A. cbn [of_option rbind]. rewrite G2. cbn [of_option rbind]. apply verify_iff.
Qed.

  (** What the user gets to see when the authorization endpoint sends them to log in: the page of one of the configured
      methods, with the class the user will be said to have used; the hidden token gives back the request; the links are those of
      the client. *)
Theorem C88_page : forall (sign : val -> msg -> string) unpack other conf a b e az oidc (rq : msg) w name args uri w',
    gives_back sign unpack ->
    conf <> [] -> names_once conf -> (forall x, In x conf -> no_handler (snd x)) ->
    setup (Some conf) = Ok a -> an_broker a = Some b -> au_broker e = b ->
    process_request e az oidc (inr rq) w = (Ok (AInteraction name args uri), w') ->
    exists s acr cid cinfo, In (name, s) conf /\ sp_acr s = Some acr /\
      dget "client_id" rq = Some (VStr cid) /\ dget cid (w_cdb w) = Some cinfo /\
      forall u, dget name (an_methods a) = Some (MUserPass u) ->
        dget "action" (kwargs_in s) = None -> dget "token" (kwargs_in s) = None ->
        exists p payload, shown sign other a name args = Some p /\ page_for u cinfo p /\
          unpack_token unpack (pg_token p) = Ok payload /\
          dget "query" payload = Some (VStr (au_query e (changed e rq))) /\
          dget "authn_class_ref" payload = Some (VStr acr) /\
          dget "return_uri" payload = dget "redirect_uri" rq.
Proof.
    intros sign unpack other conf a b e az oidc rq w name args uri w' GB Ne ND NH E Eb Ebr H.
    destruct (interaction_inv _ _ _ _ _ _ _ _ _ H) as (cid & cinfo & acr & ru & C & Ci & P & A).
    destruct (setup_inv _ _ _ _ _ Ne ND NH E) as (b' & Ea & St & W1 & W2).
    assert (b' = b) by (rewrite Ea in Eb; cbn in Eb; congruence). subst b'.
    rewrite Ebr in P. destruct (picked_in _ _ _ _ _ _ _ P) as (k & Gk).
    assert (R : exists s, In (name, s) conf /\ sp_acr s = Some acr).
    { destruct St as (_ & D & _). rewrite D in Gk. apply dget_In in Gk. apply in_map_iff in Gk.
      destruct Gk as (x & Ex & Hx). unfold regs in Hx. apply in_map_iff in Hx. destruct Hx as ([id s] & Eid & Hs).
      subst x. cbn [rm_id rm_acr rm_method as_info fst snd] in Ex. injection Ex as _ E2 E3. subst id.
      exists s. split; [exact Hs|]. destruct (proj1 (W2 _ _ Hs)) as [x Ex]. rewrite Ex in E2 |- *. congruence. }
    destruct R as (s & Hs & Es). exists s, acr, cid, cinfo. do 4 (split; [assumption|]). intros u G NA NT.
    destruct (W2 _ _ Hs) as (_ & m & Gm & F). assert (m = MUserPass u) by congruence. subst m.
    assert (As : asked_for make_db (kwargs_in s) u).
    { destruct F as (c & _ & F). destruct (is_userpass c); [destruct F as (u' & X & F); congruence|].
      destruct F as (y & X & _). discriminate. }
    assert (Q : dget "query" args = Some (VStr (au_query e (changed e rq))) /\ dget "authn_class_ref" args = Some (VStr acr) /\
                dget "return_uri" args = dget "redirect_uri" (changed e rq) /\
                dget "issuer" args = None /\ dget "keyjar" args = None /\ dget "sign_alg" args = None /\
                forall n, In n ["policy_uri"; "logo_uri"; "tos_uri"]%string -> dget n args = truthy_get n cinfo).
    { assert (X : forall n, exists uri', dget "redirect_uri" (changed e rq) = Some uri' /\ _) by (intros n; exact (args_get _ _ _ _ _ _ n A)).
      split; [|split; [|split; [|split; [|split; [|split]]]]].
      - destruct (X "query"%string) as (uri' & U & Y). rewrite Y. destruct ru; reflexivity.
      - destruct (X "authn_class_ref"%string) as (uri' & U & Y). rewrite Y. destruct ru; reflexivity.
      - destruct (X "return_uri"%string) as (uri' & U & Y). rewrite Y, U. destruct ru; reflexivity.
      - destruct (X "issuer"%string) as (uri' & U & Y). rewrite Y. destruct ru; reflexivity.
      - destruct (X "keyjar"%string) as (uri' & U & Y). rewrite Y. destruct ru; reflexivity.
      - destruct (X "sign_alg"%string) as (uri' & U & Y). rewrite Y. destruct ru; reflexivity.
      - intros n Hn. destruct (X n) as (uri' & U & Y). rewrite Y.
      destruct Hn as [<-|[<-|[<-|[]]]];
        match goal with |- context [truthy_get ?n cinfo] => destruct (truthy_get n cinfo); [reflexivity|destruct ru; reflexivity] end. }
    destruct Q as (Q1 & Q2 & Q3 & Q4 & Q5 & Q6 & Q7).
    destruct (uris_get args (up_kwargs u)) as [Ua Un].
    set (kw := fold_left (with_uri args) ["policy"; "tos"; "logo"]%string (up_kwargs u)) in *.
    assert (NAT : forall n, n = "action"%string \/ n = "token"%string -> dget n kw = None).
    { intros n Hn. rewrite Un.
      - destruct As as (_ & _ & _ & Fp & _). rewrite Fp.
        + destruct Hn as [-> | ->]; [rewrite NA|rewrite NT]; reflexivity.
        + intros I. destruct Hn as [-> | ->]; repeat (destruct I as [I|I]; [discriminate|]); destruct I.
      - intros x l t Hx. destruct Hx as [Hx|[Hx|[Hx|[]]]]; injection Hx as <- <- <-; destruct Hn as [-> | ->]; split; discriminate. }
    set (jws := sign (VStr "RS256") (ddel "sign_alg" args)).
    destruct (GB (VStr "RS256") (ddel "sign_alg" args)) as (payload & Up & Pl).
    exists (mkPage (up_template u) (up_action u) jws kw), payload.
    split; [|split; [|split; [exact Up|]]].
    - unfold shown. rewrite G. unfold show, create_signed_jwt. rewrite !dmem_dget, Q4, Q5. cbn [orb rbind].
      fold kw. rewrite (NAT "action"%string (or_introl eq_refl)), (NAT "token"%string (or_intror eq_refl)). cbn [orb].
      unfold dget_or. rewrite Q6. reflexivity.
    - split; [reflexivity|]. split; [reflexivity|]. cbn [pg_args]. split; [|exact Un].
      intros x l t Hx. destruct (Ua _ _ _ Hx) as [U1 U2].
      assert (T : dget x args = truthy_get x cinfo).
      { apply Q7. destruct Hx as [Hx|[Hx|[Hx|[]]]]; injection Hx as <- <- <-; cbn; tauto. }
      rewrite U1, U2, T. unfold truthy_get. split.
      + intros v Ev Tv. now rewrite Ev, Tv.
      + intros N. destruct (dget x cinfo) as [v|] eqn:Ev; [rewrite (N v eq_refl)|]; auto.
    - assert (D : forall n, n <> "sign_alg"%string -> forall v, dget n args = Some v -> dget n payload = Some v).
      { intros n Hn v Hv. apply Pl. now rewrite dget_ddel_neq. }
      split; [apply D; [discriminate|exact Q1]|]. split; [apply D; [discriminate|exact Q2]|].
      destruct (args_get _ _ _ _ _ _ "return_uri"%string A) as (uri' & U & _). rewrite U in Q3.
      rewrite (D "return_uri"%string) with (v := uri'); [|discriminate|exact Q3].
      rewrite changed_get in U by discriminate. now rewrite U.
Qed.
End C88.
Print Assumptions C88_set_up.
Print Assumptions C88_complete.
Print Assumptions C88_default_template_refuted.
Print Assumptions C88_password.
Print Assumptions C88_shared_action_refuted.
Print Assumptions C88_page.

(** Without methods in the configuration the provider is set up, but no request can be answered with a login: picking a
    method always fails. *)
Theorem C88_no_methods_refuted : forall make_db make_other is_userpass,
  (forall conf, conf = None \/ conf = Some [] -> exists a, do_authentication make_db make_other is_userpass conf = Ok a /\
     an_broker a = None /\ an_methods a = [] /\ an_actions a = []) /\
  forall hint rq mid acr, exists x, pick_authn_method_none hint rq mid acr = Raise x.
Proof.
  intros make_db make_other is_userpass. split; [intros conf [-> | ->]; (eexists; split; [reflexivity|auto])|].
  intros hint rq mid acr. unfold pick_authn_method_none.
  assert (P : exists x, (let* r := pick_auth_none hint rq in match r with None => Raise EKey | Some _ => Raise EAttr end)
                        = (Raise x : result (string * string))).
  { destruct (pick_auth_none hint rq) as [[i|]|x]; cbn [rbind]; eauto. }
  destruct mid as [[|? ?]|]; [|eauto|]; destruct acr as [[|? ?]|]; eauto.
Qed.
Print Assumptions C88_no_methods_refuted.

(** A password method configured with a page argument of the name action or token is set up, but its page can never be
    shown. *)
Theorem C88_clash_refuted : forall make_db kw u n v,
  asked_for make_db kw u -> n = "action"%string \/ n = "token"%string -> dget n kw = Some v ->
  forall sign args, exists x, show sign u args = Raise x.
Proof.
  intros make_db kw u n v (_ & _ & _ & Fp & _) Hn Hv sign args. unfold show.
  destruct (create_signed_jwt sign args) as [jws|x]; [|cbn [rbind]; eauto]. cbn [rbind].
  destruct (uris_get args (up_kwargs u)) as [_ Un].
  set (kw' := fold_left (with_uri args) ["policy"; "tos"; "logo"]%string (up_kwargs u)) in *.
  assert (D : dmem n kw' = true).
  { apply dmem_true. exists v. rewrite Un.
    - rewrite Fp; [now rewrite Hv|]. intros I. destruct Hn as [-> | ->]; repeat (destruct I as [I|I]; [discriminate|]); destruct I.
    - intros x l t Hx. destruct Hx as [Hx|[Hx|[Hx|[]]]]; injection Hx as <- <- <-; destruct Hn as [-> | ->]; split; discriminate. }
  destruct Hn as [-> | ->]; rewrite D; cbn [orb]; rewrite ?Bool.orb_true_r; eauto.
Qed.
Print Assumptions C88_clash_refuted.

(** ** Cases *)
From Verif Require Import Toy PropsClaims PropsAuthzEndpoint PropsSetupAuth.

(** the user database is given in the configuration, as JSONDictDB or a dict would give it *)
Definition db88 (c k : val) : result (dict val) := match k with VDict d => Ok d | _ => Raise EType end.
Definition other88 (c : string) (kw : msg) : result (option string) :=
  if String.eqb c "NoAuthn" then Ok None else Raise EValue.
Definition up88 (c : string) : bool := String.eqb c "UserPassJinja2".
Definition users88 (l : list (string * string)) : val :=
  VDict [("class", VStr "dict"); ("kwargs", VDict (map (fun x => (fst x, VStr (snd x))) l))]%string.
Definition pw88 : spec :=
  mkSpec (Some "UserPassJinja2"%string)
    (Some [("template", VStr "user_pass.jinja2"); ("db", users88 [("diana", "krall"); ("bob", "one")]); ("page_header", VStr "Hello");
           ("tos_uri", VStr "https://op/tos")]%string)
    (Some "pw"%string).
Definition strong88 (more : msg) : spec :=
  mkSpec (Some "UserPassJinja2"%string)
    (Some ([("template", VStr "strong.jinja2"); ("db", users88 [("diana", "long-and-secret")])]%string ++ more))
    (Some "strong"%string).
Definition no88 : spec := mkSpec (Some "NoAuthn"%string) (Some [("user", VStr "diana")]%string) (Some "pw"%string).
Definition conf88 : dict spec :=
  [("user", pw88); ("strong", strong88 [("verify_endpoint", VStr "/verify/strong")]); ("anon", no88)]%string.
Definition same88 : dict spec := [("strong", strong88 []); ("user", pw88)]%string.
Definition set88 := do_authentication db88 other88 up88.
Definition form88 (u p : string) : msg := [("username", VStr u); ("password", VStr p)]%string.
Definition sign88 (alg : val) (m : msg) : string := toy_sign "key" m.
Definition unpack88 : string -> result msg := toy_verify "key".
Definition an88 : authentication := match set88 (Some conf88) with Ok a => a | Raise _ => mkAuthn None [] [] end.
Definition e88 : auth_env :=
  mkAU 2000 (match an_broker an88 with Some b => b | None => empty_broker end) None None None
    [("user", mkMethod nocookie9 600)]%string decode9 (fun _ _ => true) (fun _ => "query"%string) (fun _ _ => None) None
    (fun s => s) "salt" "uuid" "g9".
Definition info88 : msg := match clients7 with (_, i) :: _ => dset "policy_uri" (VStr "https://rp/policy") i | [] => [] end.
Definition w88 : world := mkW (w_db w7) [("c1"%string, info88)].

Example C88_ex_back : gives_back sign88 unpack88.
Proof. intros alg m. exists m. split; [apply toy_verify_sign|auto]. Qed.

Example C88_ex_set_up : conf88 <> [] /\ names_once conf88 /\ (forall x, In x conf88 -> no_handler (snd x)) /\
  set88 (Some conf88) = Ok an88 /\
  (exists b, an_broker an88 = Some b /\ pick_by_class_ref "pw" b = Ok [mkMI (Some "pw") (Some "user"); mkMI (Some "pw") (Some "anon")]%string) /\
  an_actions an88 = [("/verify/user_pass_jinja", "user"); ("/verify/strong", "strong")]%string.
Proof.
  split; [discriminate|]. split; [repeat (apply NoDup_cons; [cbn; intuition discriminate|]); apply NoDup_nil|].
  split; [intros x [<-|[<-|[<-|[]]]]; reflexivity|]. split; [vm_compute; reflexivity|]. split; [|vm_compute; reflexivity].
  eexists. split; vm_compute; reflexivity.
Qed.

(** each form is checked by its own method *)
Example C88_ex_password : (forall id u, dget id (an_methods an88) = Some (MUserPass u) -> only_action (an_methods an88) id (up_action u)) /\
  posted an88 "/verify/user_pass_jinja" (form88 "diana" "krall") = Ok "diana"%string /\
  posted an88 "/verify/strong" (form88 "diana" "krall") = Raise EFailedAuthentication /\
  posted an88 "/verify/strong" (form88 "diana" "long-and-secret") = Ok "diana"%string /\
  posted an88 "/verify/strong" (form88 "bob" "one") = Raise EFailedAuthentication.
Proof.
  split; [|vm_compute; repeat split; reflexivity].
  intros id u H k m Hk Ne. apply dget_In in H, Hk. vm_compute in H, Hk.
  repeat (destruct H as [H|H]; [injection H as <- <- || discriminate H|]); try destruct H;
  repeat (destruct Hk as [Hk|Hk]; [injection Hk as <- <-; cbn; try discriminate; try congruence|]); try destruct Hk.
Qed.

(** two methods with the same action: the form of the strong one is checked against the other's users *)
Example C88_ex_shared : exists a u1 u2, set88 (Some same88) = Ok a /\
  dget "strong" (an_methods a) = Some (MUserPass u1) /\ dget "user" (an_methods a) = Some (MUserPass u2) /\
  up_action u1 = up_action u2 /\
  posted a (up_action u1) (form88 "diana" "krall") = Ok "diana"%string /\
  posted a (up_action u1) (form88 "diana" "long-and-secret") = Raise EFailedAuthentication.
Proof.
  destruct (set88 (Some same88)) as [a|] eqn:E; [|vm_compute in E; discriminate].
  exists a. vm_compute in E. injection E as <-. do 2 eexists. split; [reflexivity|]. split; [reflexivity|].
  split; [reflexivity|]. vm_compute. auto.
Qed.

(** without a template *)
Example C88_ex_template : set88 (Some [("user", pw88); ("x", mkSpec (Some "UserPassJinja2") (Some [("db", users88 [])]) (Some "pw"))]%string) = Raise EType /\
  (forall x, In x [("user", pw88)]%string -> no_handler (snd x) /\ complete db88 other88 up88 (snd x)).
Proof.
  split; [vm_compute; reflexivity|]. intros x [<-|[]]. split; [reflexivity|]. split; [eexists; reflexivity|].
  exists "UserPassJinja2"%string. split; [reflexivity|]. cbn [up88]. change (up88 "UserPassJinja2") with true. cbn iota.
  split; [eexists; reflexivity|]. eexists. do 3 eexists. split; [reflexivity|]. split; [reflexivity|]. split; reflexivity.
Qed.

(** the page a client's user gets *)
Definition page88 : option page :=
  match fst (process_request e88 (az7 false) true (inr (rq9 [])) w88) with
  | Ok (AInteraction name args uri) => shown sign88 (fun _ _ => None) an88 name args
  | _ => None
  end.
Example C88_ex_page :
  (exists args uri w', process_request e88 (az7 false) true (inr (rq9 [])) w88 = (Ok (AInteraction "user" args uri), w')) /\
  match page88 with
  | Some p => pg_action p = "/verify/user_pass_jinja"%string /\ dget "policy_uri" (pg_args p) = Some (VStr "https://rp/policy") /\
              dget "policy_label" (pg_args p) = Some (VStr "Service policy") /\
              dget "tos_uri" (pg_args p) = Some (VStr "https://op/tos") /\ dget "tos_label" (pg_args p) = Some (VStr "") /\
              dget "page_header" (pg_args p) = Some (VStr "Hello") /\ dget "submit_btn" (pg_args p) = Some (VStr "Log in") /\
              match unpack88 (pg_token p) with Ok m => dget "query" m = Some (VStr "query") | Raise _ => False end
  | None => False
  end.
Proof.
  split.
  - destruct (process_request e88 (az7 false) true (inr (rq9 [])) w88) as [r w'] eqn:E.
    assert (R : match r with Ok (AInteraction n _ _) => n = "user"%string | _ => False end).
    { change r with (fst (r, w')). rewrite <- E. vm_compute. reflexivity. }
    destruct r as [[i|n args uri|i]|x]; try contradiction. subst n. eauto.
  - vm_compute. repeat split; reflexivity.
Qed.

Example C88_ex_clash : exists kw u, asked_for db88 kw u /\ dget "token" kw = Some (VStr "x").
Proof.
  pose (kw := [("template", VStr "t"); ("db", users88 []); ("token", VStr "x")]%string).
  destruct (user_pass_init db88 (called_with kw)) as [u|] eqn:E; [|vm_compute in E; discriminate].
  exists kw, u. split; [|reflexivity]. apply (init_ok db88 kw u); [reflexivity|exact E].
Qed.

(** LoginProofs.v: proofs about Login.v. *)
From Verif Require Import Base BaseProofs Types Ctx Registration AuthnBroker AuthnBrokerSpec AuthnBrokerProofs SetupAuth
  Login LoginSpec.

Lemma dmem_dget {A} k (d : dict A) : dmem k d = match dget k d with Some _ => true | None => false end.
Proof.
  destruct (dmem k d) eqn:E.
  - apply dmem_true in E. destruct E as [v ->]. reflexivity.
  - destruct (dget k d) as [v|] eqn:G; [|reflexivity].
    assert (dmem k d = true) by (apply dmem_true; eauto). congruence.
Qed.

Lemma dget_setdefault n k v d : dget n (setdefault k v d) =
  match dget n d with Some x => Some x | None => if String.eqb n k then Some v else None end.
Proof.
  unfold setdefault. rewrite dmem_dget. destruct (String.eqb_spec n k) as [->|Ne].
  - destruct (dget k d) eqn:E; [now rewrite E|]. apply dget_dset_eq.
  - destruct (dget k d) eqn:E; [now destruct (dget n d)|]. rewrite dget_dset_neq by exact Ne. now destruct (dget n d).
Qed.

Lemma dget_defaults n l : forall d,
  dget n (fold_left (fun m kv => setdefault (fst kv) (VStr (snd kv)) m) l d) =
  match dget n d with Some x => Some x | None => option_map VStr (dget n l) end.
Proof.
  induction l as [|[k v] l IH]; intros d; cbn [fold_left].
  - now destruct (dget n d).
  - rewrite IH, dget_setdefault. cbn [fst snd dget]. destruct (dget n d); [reflexivity|].
    destruct (String.eqb n k); reflexivity.
Qed.

Lemma dget_filter_key {A} (p : string -> bool) n (d : dict A) :
  dget n (filter (fun kv => p (fst kv)) d) = if p n then dget n d else None.
Proof.
  induction d as [|[k v] d IH]; cbn [filter dget fst]; [now destruct (p n)|].
  destruct (p k) eqn:P; cbn [dget]; destruct (String.eqb_spec n k) as [->|Ne]; rewrite ?P; auto.
  rewrite IH, P. reflexivity.
Qed.

Lemma usual n : dget n page_defaults = usual_text n.
Proof.
  unfold page_defaults, usual_text. cbn [dget existsb].
  repeat (match goal with |- context [String.eqb n ?k] => destruct (String.eqb_spec n k) as [->|?] end;
          [reflexivity|]). reflexivity.
Qed.

Lemma for_page_smem n : smem n init_names = false <-> for_page n.
Proof.
  unfold for_page. destruct (smem n init_names) eqn:E.
  - split; [discriminate|]. intros H. exfalso. apply H. now apply smem_In in E.
  - split; [|reflexivity]. intros _ H. apply smem_In in H. unfold init_names in E. congruence.
Qed.

Section P.
  Variable make_db : val -> val -> result (dict val).
  Variable make_other : string -> msg -> result (option string).
  Variable is_userpass : string -> bool.
  Notation init := (init_method make_db make_other is_userpass).
  Notation pop := (populate make_db make_other is_userpass).
  Notation fits := (stands_for make_db make_other is_userpass).
  Notation complete := (complete make_db make_other is_userpass).
  Notation setup := (do_authentication make_db make_other is_userpass).

  Lemma called kw : dset "endpoint_context" (VBool true)
    (if dmem "template" kw then dset "template_handler" (VBool true) kw else kw) = called_with kw.
  Proof. unfold called_with. rewrite dmem_dget. now destruct (dget "template" kw). Qed.

  (** an argument that is not one of the provider's *)
  Lemma called_get kw n : n <> "endpoint_context"%string -> n <> "template_handler"%string ->
    dget n (called_with kw) = dget n kw.
  Proof.
    intros A B. unfold called_with. rewrite dget_dset_neq by exact A.
    destruct (dget "template" kw); [now rewrite dget_dset_neq by exact B|reflexivity].
  Qed.

  Lemma init_ok kw u : dget "template_handler" kw = None ->
    user_pass_init make_db (called_with kw) = Ok u -> asked_for make_db kw u.
  Proof.
    intros NH. unfold user_pass_init. rewrite dmem_dget.
    destruct (dget "template_handler" (called_with kw)) as [h|] eqn:Eh; [|discriminate]. cbn [negb].
    assert (T : exists t, dget "template" kw = Some t).
    { destruct (dget "template" kw) as [t|] eqn:Et; [eauto|]. exfalso. unfold called_with in Eh. rewrite Et in Eh.
      rewrite dget_dset_neq in Eh by discriminate. congruence. }
    destruct T as [t Et].
    rewrite (called_get kw "db") by discriminate. destruct (dget "db" kw) as [db|] eqn:Ed; [|discriminate].
    destruct db as [| | | | |d]; try discriminate. cbn [vsub]. unfold dsub.
    destruct (dget "class" d) as [c|] eqn:Ec; [|discriminate]. cbn [of_option rbind].
    destruct (dget "kwargs" d) as [k|] eqn:Ek; [|discriminate]. cbn [of_option rbind].
    destruct (make_db c k) as [us|] eqn:Em; [|discriminate]. cbn [rbind].
    match goal with |- Ok ?x = Ok u -> _ => intros H; assert (Hu : u = x) by congruence; rewrite Hu; clear H Hu end.
    unfold asked_for. cbn [up_template up_action up_users up_kwargs].
    split; [|split; [|split; [|split]]].
    - unfold dget_or. rewrite called_get by discriminate. now rewrite Et.
    - exists d, c, k. auto.
    - rewrite called_get by discriminate. destruct (dget "verify_endpoint" kw) as [[| | |s| |]|]; try reflexivity.
      destruct s; reflexivity.
    - intros n F. rewrite dget_defaults, (dget_filter_key (fun x => negb (smem x init_names))), usual.
      pose proof F as F'. apply for_page_smem in F'. rewrite F'. cbn [negb].
      rewrite called_get; [reflexivity| |]; intros ->; apply F; cbn; tauto.
    - intros n F. rewrite dget_defaults, (dget_filter_key (fun x => negb (smem x init_names))), usual.
      destruct (smem n init_names) eqn:E; [|apply for_page_smem in E; contradiction]. cbn [negb].
      apply smem_In in E. cbn in E. destruct E as [<-|[<-|[<-|[<-|[<-|[]]]]]]; reflexivity.
  Qed.

  Lemma init_can kw : dget "template_handler" kw = None ->
    ((exists u, user_pass_init make_db (called_with kw) = Ok u) <->
     (exists t, dget "template" kw = Some t) /\ exists us, users_of make_db kw us).
  Proof.
    intros NH. split.
    - intros (u & E). apply init_ok in E; [|exact NH]. destruct E as (T & U & _). eauto.
    - intros ((t & Et) & us & d & c & k & Ed & Ec & Ek & Em). unfold user_pass_init. rewrite dmem_dget.
      assert (Eh : dget "template_handler" (called_with kw) = Some (VBool true)).
      { unfold called_with. rewrite Et, dget_dset_neq by discriminate. apply dget_dset_eq. }
      rewrite Eh. cbn [negb]. rewrite called_get by discriminate. rewrite Ed. cbn [vsub]. unfold dsub.
      rewrite Ec. cbn [of_option rbind]. rewrite Ek. cbn [of_option rbind]. rewrite Em. cbn [rbind]. eauto.
  Qed.

  Lemma method_ok id s m i : no_handler s -> init id s = Ok (m, i) -> fits s m /\ i = mkMI (sp_acr s) (Some id).
  Proof.
    intros NH. unfold init_method. fold (kwargs_in s). rewrite called.
    destruct (sp_class s) as [c|] eqn:Ec; [|discriminate]. cbn [of_option rbind]. unfold stands_for.
    destruct (is_userpass c) eqn:P.
    - destruct (user_pass_init make_db (called_with (kwargs_in s))) as [u|] eqn:E; [|discriminate]. cbn [rbind].
      intros H. injection H as <- <-. split; [|reflexivity]. exists c. rewrite P. split; [auto|].
      exists u. split; [reflexivity|]. now apply init_ok.
    - destruct (make_other c (called_with (kwargs_in s))) as [a|] eqn:E; [|discriminate]. cbn [rbind].
      intros H. injection H as <- <-. split; [|reflexivity]. exists c. rewrite P. eauto.
  Qed.

  Lemma method_can id s : no_handler s ->
    ((exists m a, init id s = Ok (m, mkMI (Some a) (Some id))) <-> complete s).
  Proof.
    intros NH. split.
    - intros (m & a & E). pose proof (method_ok _ _ _ _ NH E) as [_ Ea]. injection Ea as Ea.
      unfold init_method in E. fold (kwargs_in s) in E. rewrite called in E.
      destruct (sp_class s) as [c|] eqn:Ec; [|discriminate]. cbn [of_option rbind] in E. split; [eauto|].
      exists c. split; [exact Ec|]. destruct (is_userpass c) eqn:P.
      + apply (proj1 (init_can _ NH)). destruct (user_pass_init make_db (called_with (kwargs_in s))); [eauto|discriminate].
      + destruct (make_other c (called_with (kwargs_in s))); [eauto|discriminate].
    - intros ((a & Ea) & c & Ec & H). unfold init_method. fold (kwargs_in s). rewrite called, Ec, Ea.
      cbn [of_option rbind]. destruct (is_userpass c).
      + apply (proj2 (init_can _ NH)) in H. destruct H as (u & ->). cbn [rbind]. eauto.
      + destruct H as (x & ->). cbn [rbind]. eauto.
  Qed.

  (** the entries as registrations *)
  Definition regs (conf : dict spec) : registry :=
    map (fun x => mkRM (fst x) (match sp_acr (snd x) with Some a => a | None => "" end)%string (fst x)) conf.

  Lemma reg_ids_regs conf : reg_ids (regs conf) = map fst conf.
  Proof. unfold reg_ids, regs. rewrite map_map. reflexivity. Qed.

  Definition well (conf : dict spec) (ms : dict meth) : Prop :=
    (forall id, dget id ms = None <-> ~ In id (map fst conf)) /\
    (forall id s, In (id, s) conf -> (exists a, sp_acr s = Some a) /\ exists m, dget id ms = Some m /\ fits s m).

  Lemma pop_ok l : forall done b ms b' ms',
    (forall x, In x l -> no_handler (snd x)) -> NoDup (map fst (done ++ l)) -> stands b (regs done) -> well done ms ->
    pop l b ms = Ok (b', ms') -> stands b' (regs (done ++ l)) /\ well (done ++ l) ms'.
  Proof.
    induction l as [|[id s] l IH]; intros done b ms b' ms' NH ND St W E.
    - cbn in E. injection E as <- <-. rewrite app_nil_r. auto.
    - cbn [populate] in E. destruct (init id s) as [[m i]|] eqn:Ei; [|discriminate]. cbn [rbind fst snd] in E.
      apply method_ok in Ei; [|exact (NH (id, s) (or_introl eq_refl))]. destruct Ei as [F ->].
      destruct (br_set id (mkMI (sp_acr s) (Some id)) b) as [b1|] eqn:Eb; [|discriminate]. cbn [rbind] in E.
      assert (Ea : exists a, sp_acr s = Some a) by (destruct (sp_acr s); [eauto|discriminate]). destruct Ea as [a Ea].
      assert (Nid : ~ In id (map fst done)).
      { rewrite map_app in ND. cbn in ND. apply NoDup_remove_2 in ND. intros H. apply ND, in_or_app. auto. }
      assert (E' : done ++ (id, s) :: l = (done ++ [(id, s)]) ++ l) by (rewrite <- app_assoc; reflexivity).
      rewrite E' in *. refine (IH _ _ _ _ _ _ ND _ _ E).
      + intros x H. apply NH. now right.
      + pose proof (stands_reg b (regs done) id (mkMI (sp_acr s) (Some id)) St) as SR.
        rewrite reg_ids_regs in SR. specialize (SR Nid). rewrite Ea in SR. cbn [br_step reg_step] in SR.
        rewrite Ea in Eb. rewrite Eb in SR. unfold regs. rewrite map_app. cbn [map fst snd]. rewrite Ea. exact SR.
      + destruct W as [W1 W2]. split.
        * intros k. rewrite map_app. cbn. rewrite dget_dset. destruct (String.eqb_spec k id) as [->|Ne].
          -- split; [discriminate|]. intros H. exfalso. apply H, in_or_app. right. now left.
          -- rewrite W1, in_app_iff. cbn. intuition congruence.
        * intros k s' H. apply in_app_or in H. destruct H as [H|[H|[]]].
          -- destruct (W2 _ _ H) as (A & m' & G & F'). split; [exact A|]. exists m'. split; [|exact F'].
             rewrite dget_dset_neq; [exact G|]. intros ->. apply Nid. now apply (in_map fst) in H.
          -- injection H as <- <-. split; [eauto|]. exists m. split; [apply dget_dset_eq|exact F].
  Qed.

  Lemma pop_can l : forall b ms,
    (forall x, In x l -> no_handler (snd x)) -> (forall x, In x l -> complete (snd x)) ->
    exists b' ms', pop l b ms = Ok (b', ms').
  Proof.
    induction l as [|[id s] l IH]; intros b ms NH C; [cbn; eauto|]. cbn [populate].
    destruct (proj2 (method_can id s (NH _ (or_introl eq_refl))) (C _ (or_introl eq_refl))) as (m & a & E).
    rewrite E. cbn [rbind fst snd]. cbn [br_set mi_acr mi_method rbind]. apply IH; intros x H; [apply NH|apply C]; now right.
  Qed.

  Lemma pop_complete l : forall b ms r,
    (forall x, In x l -> no_handler (snd x)) -> pop l b ms = Ok r -> forall x, In x l -> complete (snd x).
  Proof.
    induction l as [|[id s] l IH]; intros b ms r NH E x H; [destruct H|].
    cbn [populate] in E. destruct (init id s) as [[m i]|] eqn:Ei; [|discriminate]. cbn [rbind fst snd] in E.
    destruct (br_set id i b) as [b1|] eqn:Eb; [|discriminate]. cbn [rbind] in E.
    destruct H as [<-|H].
    - apply (proj1 (method_can id s (NH _ (or_introl eq_refl)))).
      pose proof (method_ok id s m i (NH (id, s) (or_introl eq_refl)) Ei) as [_ Hi]. rewrite Hi in Eb, Ei.
      destruct (sp_acr s) as [a|]; [|discriminate Eb]. exists m, a. exact Ei.
    - exact (IH _ _ _ (fun y Hy => NH y (or_intror Hy)) E x H).
  Qed.

  Lemma pop_app l1 : forall b ms l2, pop (l1 ++ l2) b ms = (let* r := pop l1 b ms in pop l2 (fst r) (snd r)).
  Proof.
    induction l1 as [|[id s] l1 IH]; intros b ms l2; [reflexivity|]. cbn [app populate].
    destruct (init id s) as [x|]; [|reflexivity]. cbn [rbind]. destruct (br_set id (snd x) b); [|reflexivity].
    cbn [rbind]. apply IH.
  Qed.

  (** ** The table of actions *)
  Definition aof (ms : dict meth) (id : string) : option string :=
    match dget id ms with Some m => action_of m | None => None end.

  Lemma actions_get ms a l : forall d,
    dget a (fold_left (fun d (kv : string * minfo) =>
                 match dget (fst kv) ms with
                 | Some m => match action_of m with Some a => dset a (fst kv) d | None => d end
                 | None => d
                 end) l d) =
    match find (fun id => match aof ms id with Some x => String.eqb x a | None => false end) (rev (map fst l)) with
    | Some id => Some id
    | None => dget a d
    end.
  Proof.
    induction l as [|[id i] l IH] using rev_ind; intros d; [reflexivity|].
    rewrite fold_left_app, map_app, rev_app_distr. cbn [map rev app fold_left fst find]. unfold aof at 1.
    destruct (dget id ms) as [m|]; [|apply IH]. destruct (action_of m) as [x|]; [|apply IH].
    destruct (String.eqb_spec x a) as [->|Ne]; [apply dget_dset_eq|]. rewrite dget_dset_neq by congruence. apply IH.
  Qed.

  Lemma find_last {A} (p : A -> bool) l x l' : p x = true -> (forall y, In y l' -> p y = false) ->
    find p (rev (l ++ x :: l')) = Some x.
  Proof.
    intros Px N. rewrite rev_app_distr. cbn [rev]. rewrite <- app_assoc. cbn [app].
    assert (F : forall q r, (forall y, In y q -> p y = false) -> find p (q ++ r) = find p r).
    { induction q as [|y q IHq]; intros r Hq; [reflexivity|]. cbn. rewrite Hq by now left. apply IHq. intros z Hz. apply Hq. now right. }
    rewrite F by (intros y Hy; apply N; now apply in_rev in Hy). cbn. now rewrite Px.
  Qed.

  Lemma setup_inv conf a : conf <> [] -> names_once conf -> (forall x, In x conf -> no_handler (snd x)) ->
    setup (Some conf) = Ok a ->
    exists b, a = mkAuthn (Some b) (an_methods a) (actions b (an_methods a)) /\
      stands b (regs conf) /\ well conf (an_methods a).
  Proof.
    intros Ne ND NH E. unfold do_authentication in E. destruct conf as [|x0 conf0]; [contradiction|].
    destruct (pop (x0 :: conf0) empty_broker []) as [[b ms]|] eqn:Ep; [|discriminate]. cbn [rbind fst snd] in E.
    injection E as <-. exists b. split; [reflexivity|]. cbn [an_methods].
    refine (pop_ok (x0 :: conf0) [] empty_broker [] b ms NH ND stands_empty _ Ep).
    split; [intros id; cbn; intuition|intros id s []].
  Qed.

  Lemma stands_keys b conf : stands b (regs conf) -> map fst (br_db b) = map fst conf.
  Proof.
    intros (_ & D & _). rewrite D, map_map. cbn [fst]. rewrite <- (reg_ids_regs conf). reflexivity.
  Qed.

  Lemma setup_action conf a l1 id l2 x : conf <> [] -> names_once conf -> (forall x, In x conf -> no_handler (snd x)) ->
    setup (Some conf) = Ok a -> map fst conf = l1 ++ id :: l2 ->
    aof (an_methods a) id = Some x -> (forall k, In k l2 -> aof (an_methods a) k <> Some x) ->
    dget x (an_actions a) = Some id.
  Proof.
    intros Ne ND NH E Sp A L. destruct (setup_inv _ _ Ne ND NH E) as (b & Ea & St & W).
    rewrite Ea. cbn [an_actions]. unfold actions. rewrite actions_get, (stands_keys _ _ St), Sp.
    rewrite find_last; [reflexivity| |].
    - rewrite A. apply String.eqb_refl.
    - intros y Hy. specialize (L y Hy). destruct (aof (an_methods a) y) as [z|]; [|reflexivity].
      destruct (String.eqb_spec z x) as [->|]; [contradiction|reflexivity].
  Qed.

  Lemma setup_action_none conf a x : conf <> [] -> names_once conf -> (forall x, In x conf -> no_handler (snd x)) ->
    setup (Some conf) = Ok a -> (forall k, aof (an_methods a) k <> Some x) -> dget x (an_actions a) = None.
  Proof.
    intros Ne ND NH E L. destruct (setup_inv _ _ Ne ND NH E) as (b & Ea & St & W).
    rewrite Ea. cbn [an_actions]. unfold actions. rewrite actions_get.
    destruct (find _ _) as [k|] eqn:F; [|reflexivity]. exfalso. apply find_some in F. destruct F as [_ F].
    specialize (L k). destruct (aof (an_methods a) k) as [z|]; [|discriminate].
    apply String.eqb_eq in F. subst. now apply L.
  Qed.
End P.

Lemma verify_iff u form n : verify u form = Ok n <-> right_password (up_users u) form n.
Proof.
  unfold verify, right_password, dsub. split.
  - destruct (dget "username" form) as [v|] eqn:Eu; [|discriminate]. cbn [of_option rbind].
    destruct v as [| | |s| |]; try discriminate. destruct (dget s (up_users u)) as [q|] eqn:Eq; [|discriminate].
    destruct (dget "password" form) as [p|] eqn:Ep; [|discriminate]. cbn [of_option rbind]. unfold verify_password.
    rewrite Eq. destruct (val_eqb q p) eqn:Ev; [|discriminate]. intros H. injection H as <-. exists p, q. auto.
  - intros (p & q & Eu & Ep & Eq & Ev). rewrite Eu. cbn [of_option rbind]. rewrite Eq, Ep. cbn [of_option rbind].
    unfold verify_password. now rewrite Eq, Ev.
Qed.

Lemma verify_wrong u form n p : dget "username" form = Some (VStr n) -> dget "password" form = Some p ->
  ~ right_password (up_users u) form n -> verify u form = Raise EFailedAuthentication.
Proof.
  intros Eu Ep N. unfold verify, dsub. rewrite Eu. cbn [of_option rbind].
  destruct (dget n (up_users u)) as [q|] eqn:Eq; [|reflexivity]. rewrite Ep. cbn [of_option rbind].
  unfold verify_password. rewrite Eq. destruct (val_eqb q p) eqn:Ev; [|reflexivity]. exfalso. apply N. exists p, q. auto.
Qed.

(** ** What is picked is registered *)
Lemma rmap_in {A B} (f : A -> result B) l : forall r y, rmap f l = Ok r -> In y r -> exists x, In x l /\ f x = Ok y.
Proof.
  induction l as [|x l IH]; intros r y E H; cbn in E.
  - injection E as <-. destruct H.
  - destruct (f x) as [b|] eqn:Ex; [|discriminate]. cbn in E. destruct (rmap f l) as [q|]; [|discriminate]. cbn in E.
    injection E as <-. destruct H as [<-|H]; [exists x; split; [now left|exact Ex]|].
    destruct (IH q y eq_refl H) as (z & Hz & Ez). exists z. split; [now right|exact Ez].
Qed.

Lemma by_class_in a b l i : pick_by_class_ref a b = Ok l -> In i l -> exists k, dget k (br_db b) = Some i.
Proof.
  unfold pick_by_class_ref. destruct (dget a (br_acr b)) as [ids|]; intros E H.
  - destruct (rmap_in _ _ _ _ E H) as (k & _ & Ek). exists k. unfold dsub in Ek.
    destruct (dget k (br_db b)); [injection Ek as ->; reflexivity|discriminate].
  - injection E as <-. destruct H.
Qed.

Lemma first_pick_in b l : forall i, first_pick b l = Ok (Some i) -> exists k, dget k (br_db b) = Some i.
Proof.
  induction l as [|v l IH]; intros i E; [discriminate|]. destruct v as [|bb|z|s|q|d]; cbn [first_pick] in E; try discriminate; try (now apply IH).
  - destruct (is_nil (br_db b)); [now apply IH|discriminate].
  - destruct (pick_by_class_ref s b) as [[|j q]|] eqn:P; cbn [rbind] in E; [now apply IH| |discriminate].
    assert (j = i) by congruence. subst j. exact (by_class_in _ _ _ _ P (or_introl eq_refl)).
Qed.

Lemma default_in b i : br_default b = Some i -> exists k, dget k (br_db b) = Some i.
Proof.
  unfold br_default. destruct (br_db b) as [|[k j] q]; [discriminate|]. intros H. injection H as ->. exists k. cbn.
  now rewrite String.eqb_refl.
Qed.

Lemma pick_auth_in b h rq i : pick_auth b h rq = Ok (Some i) -> exists k, dget k (br_db b) = Some i.
Proof.
  unfold pick_auth. intros H.
  assert (X : (match br_db b with
        | [_] => Ok (br_default b)
        | _ =>
            let* w := wanted_acrs h rq in
            match w with
            | None => Ok (br_default b)
            | Some acrs => let* l := iter_val acrs in first_pick b l
            end
        end) = Ok (Some i)).
  { destruct (match br_db b with [_] => _ | _ => _ end) as [o|x]; cbn [rtry] in H; [exact H|].
    destruct (is_key_error x); discriminate. }
  clear H. destruct (br_db b) as [|p [|p' q]] eqn:D.
  - rewrite <- D in *. destruct (wanted_acrs h rq) as [[acrs|]|]; cbn [rbind] in X; [|apply default_in; congruence|discriminate].
    destruct (iter_val acrs) as [l|]; [|discriminate]. cbn [rbind] in X. now apply first_pick_in in X.
  - rewrite <- D. apply default_in. congruence.
  - rewrite <- D in *. destruct (wanted_acrs h rq) as [[acrs|]|]; cbn [rbind] in X; [|apply default_in; congruence|discriminate].
    destruct (iter_val acrs) as [l|]; [|discriminate]. cbn [rbind] in X. now apply first_pick_in in X.
Qed.

Lemma picked_in b h rq mid ac name acr : pick_authn_method b h rq mid ac = Ok (name, acr) ->
  exists k, dget k (br_db b) = Some (mkMI (Some acr) (Some name)).
Proof.
  unfold pick_authn_method. intros H.
  match type of H with (let* i := ?m in _) = _ => destruct m as [i|] eqn:E; [|discriminate]; cbn [rbind] in H end.
  destruct i as [[a|] [m|]]; cbn in H; try discriminate. injection H as -> ->.
  assert (P : (let* r := pick_auth b h rq in of_option EKey r) = Ok (mkMI (Some acr) (Some name)) ->
              exists k, dget k (br_db b) = Some (mkMI (Some acr) (Some name))).
  { destruct (pick_auth b h rq) as [[i|]|] eqn:Q; cbn; try discriminate. intros X. apply (pick_auth_in b h rq). congruence. }
  assert (P2 : forall a, (let* l := pick_by_class_ref a b in match l with [] => Raise EKey | _ => Raise EType end)
                         = Ok (mkMI (Some acr) (Some name)) -> False).
  { intros a. destruct (pick_by_class_ref a b) as [[|]|]; cbn; discriminate. }
  destruct mid as [[|c s]|]; cycle 1.
  { unfold br_get, dsub in E. exists (String c s). destruct (dget (String c s) (br_db b)); [cbn in E; congruence|discriminate]. }
  all: destruct ac as [[|c2 s2]|]; [now apply P|now apply P2 in E|now apply P].
Qed.

(** ** What the user is sent to *)
From Verif Require Import Monad SessionKey Token Grant Database Manager Scopes Claims Authz World Minting Response AuthzEndpoint
  MonadProofs SetupAuthSpec SetupAuthProofs.
Lemma interaction_inv e az oidc request w name args uri w' :
  process_request e az oidc (inr request) w = (Ok (AInteraction name args uri), w') ->
  exists cid cinfo acr ru, dget "client_id" request = Some (VStr cid) /\ dget cid (w_cdb w) = Some cinfo /\
    pick_authn_method (au_broker e) (au_hint2acrs e) request (au_method_id e) (au_acr e) = Ok (name, acr) /\
    authn_args e (changed e request) acr cinfo ru = Ok args.
Proof.
  intros H. unfold process_request in H. destruct (bind_ok _ _ _ _ _ H) as (cid & w1 & E1 & H1). clear H. destruct (lift_ok _ _ _ _ E1) as [C ->].
  destruct (bind_ok _ _ _ _ _ H1) as (cl & w2 & E2 & H2). clear H1. assert (w2 = w) by (unfold gets in E2; congruence). subst w2.
  assert (cl = w_cdb w) by (unfold gets in E2; congruence). subst cl.
  destruct (bind_ok _ _ _ _ _ H2) as (cinfo & w3 & E3 & H3). clear H2. destruct (lift_ok _ _ _ _ E3) as [Ci ->].
  destruct (bind_ok _ _ _ _ _ H3) as (t & w4 & E4 & H4). clear H3.
  assert (w4 = w). { destruct (is_nil cinfo); [unfold ret in E4; congruence|]. destruct (bind_ok _ _ _ _ _ E4) as (sc & w5 & E5 & H5).
    destruct (lift_ok _ _ _ _ E5) as [_ ->]. destruct (lift_ok _ _ _ _ H5) as [_ ->]. reflexivity. } subst w4. clear E4.
  destruct (bind_ok _ _ _ _ _ H4) as (ru & w5 & E5 & H5). clear H4. destruct (lift_ok _ _ _ _ E5) as [R ->]. clear E5.
  destruct (bind_ok _ _ _ _ _ H5) as (u & w6 & E6 & H6). clear H5. destruct (lift_ok _ _ _ _ E6) as [U ->]. clear E6.
  destruct (bind_ok _ _ _ _ _ H6) as (s & w7 & E7 & H7). clear H6.
  destruct (SetupAuthProofs.setup_inv _ _ _ _ _ _ _ _ E7) as (name' & acr & m & idn & ts & args' & (P & _) & _ & A & G).
  exists cid, cinfo, acr, ru.
  assert (S : s = SLogin name args /\ u = uri).
  { destruct s as [i|n a|sid i us].
    - unfold ret in H7. discriminate.
    - unfold ret in H7. split; congruence.
    - destruct (bind_ok _ _ _ _ _ H7) as (r & w8 & E8 & H8). unfold ret in H8. discriminate. }
  destruct S as [-> ->].
  assert (N : name' = name /\ args' = args).
  { clear - G. unfold go_on in G. destruct idn as [id|].
    - destruct (bind_ok _ _ _ _ _ G) as (us & w1 & _ & G1). clear G.
      destruct (match ru with Some r => negb (val_eqb us r) | None => false end).
      + destruct (bind_ok _ _ _ _ _ G1) as (none & w2 & _ & G2). unfold ret in G2. destruct none; split; congruence.
      + destruct (bind_ok _ _ _ _ _ G1) as (o & w2 & _ & G2). destruct o as [sid|]; [|unfold ret in G2; split; congruence].
        destruct (nonempty sid).
        * destruct (bind_ok _ _ _ _ _ G2) as (v & w3 & _ & G3). unfold ret in G3. destruct v; split; congruence.
        * destruct (bind_ok _ _ _ _ _ G2) as (v & w3 & _ & G3). unfold ret in G3. discriminate.
    - destruct (bind_ok _ _ _ _ _ G) as (none & w1 & _ & G1). destruct none.
      + destruct (bind_ok _ _ _ _ _ G1) as (rt & w2 & _ & G2). unfold ret in G2. discriminate.
      + unfold ret in G1. split; congruence. }
  destruct N as [-> ->].
  split; [unfold msub_str in C; destruct (dget "client_id" request) as [[| | |z| |]|]; try discriminate; congruence|].
  split; [|split; [exact P|exact A]].
  unfold dsub in Ci. destruct (dget cid (w_cdb w)); [cbn in Ci; congruence|discriminate].
Qed.

Lemma pick_get n from l : forall m,
  dget n (fold_left (fun (m : msg) k => match truthy_get k from with Some v => dset k v m | None => m end) l m) =
  match (if smem n l then truthy_get n from else None) with Some v => Some v | None => dget n m end.
Proof.
  induction l as [|k l IH]; intros m; [reflexivity|]. cbn [fold_left]. rewrite IH. cbn [smem existsb].
  fold (smem n l). destruct (String.eqb_spec n k) as [->|Ne]; cbn [orb].
  - destruct (smem k l); destruct (truthy_get k from) as [v|]; try reflexivity. apply dget_dset_eq.
  - destruct (if smem n l then truthy_get n from else None); [reflexivity|].
    destruct (truthy_get k from); [now rewrite dget_dset_neq by exact Ne|reflexivity].
Qed.

Lemma args_get e rq acr cinfo ru args n : authn_args e rq acr cinfo ru = Ok args ->
  exists uri, dget "redirect_uri" rq = Some uri /\
  dget n args =
    match (if smem n ["ui_locales"; "acr_values"; "login_hint"]%string then truthy_get n rq else None) with
    | Some v => Some v
    | None =>
        match (if smem n ["policy_uri"; "logo_uri"; "tos_uri"]%string then truthy_get n cinfo else None) with
        | Some v => Some v
        | None => dget n (match ru with
                          | Some u => dset "as_user" (VList [u])
                                        [("authn_class_ref", VStr acr); ("return_uri", uri); ("query", VStr (au_query e rq))]
                          | None => [("authn_class_ref", VStr acr); ("return_uri", uri); ("query", VStr (au_query e rq))]
                          end)%string
        end
    end.
Proof.
  unfold authn_args, dsub. destruct (dget "redirect_uri" rq) as [uri|]; [|discriminate]. cbn [of_option rbind].
  intros H. exists uri. split; [reflexivity|].
  match type of H with Ok ?x = _ => assert (E : args = x) by congruence; rewrite E; clear H E end.
  now rewrite !pick_get.
Qed.

Lemma uris_get args kw : let kw' := fold_left (with_uri args) ["policy"; "tos"; "logo"]%string kw in
  (forall u l t, In (u, l, t) client_links ->
     dget u kw' = match dget u args with Some v => Some v | None => dget u kw end /\
     dget l kw' = match dget u args with Some _ => Some (VStr t) | None => dget l kw end) /\
  (forall n, (forall u l t, In (u, l, t) client_links -> n <> u /\ n <> l) -> dget n kw' = dget n kw).
Proof.
  cbn [fold_left]. unfold with_uri. cbn [append].
  change (dget_or "policy_uri" ""%string labels) with "Service policy"%string.
  change (dget_or "tos_uri" ""%string labels) with "Terms of Service"%string.
  change (dget_or "logo_uri" ""%string labels) with ""%string.
  split.
  - intros u l t [E|[E|[E|[]]]]; injection E as <- <- <-;
      destruct (dget "policy_uri" args), (dget "tos_uri" args), (dget "logo_uri" args);
      split; repeat (first [rewrite dget_dset_eq | rewrite dget_dset_neq by discriminate]); reflexivity.
  - intros n N.
    destruct (N _ _ _ (or_introl eq_refl)) as [N1 N2]. destruct (N _ _ _ (or_intror (or_introl eq_refl))) as [N3 N4].
    destruct (N _ _ _ (or_intror (or_intror (or_introl eq_refl)))) as [N5 N6].
    destruct (dget "policy_uri" args), (dget "tos_uri" args), (dget "logo_uri" args);
      repeat rewrite dget_dset_neq by assumption; reflexivity.
Qed.

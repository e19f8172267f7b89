(** PropsHints.v: C92 Hints lead to the user and the login they stand for. *)
From Verif Require Import Base BaseProofs Types Ctx Registration AuthnBroker AuthnBrokerSpec AuthnBrokerProofs Services ServicesSpec ServicesProofs PropsServices.
Local Open Scope string_scope.

Lemma is_list_dec (v : val) : {l | v = VList l} + {forall l, v <> VList l}.
Proof. destruct v; try (right; intros l; discriminate). left. eauto. Qed.
Lemma matches_spec v f : (forall l, v = VList l -> Forall (fun x => hashable x = true) l) ->
  (forall l, f = VList l -> Forall (fun x => hashable x = true) l) ->
  exists b, matches v f = Ok b /\ (b = true <-> recorded v f).
Proof.
  intros Hv Hf. unfold matches. destruct (is_list_dec f) as [[fs ->]|Nf].
  - destruct (is_list_dec v) as [[vs ->]|Nv].
    + assert (A : forallb hashable vs && forallb hashable fs = true).
      { apply andb_true_iff. split; apply forallb_forall; apply Forall_forall; [now apply Hv|now apply Hf]. }
      rewrite A. eexists. split; [reflexivity|]. rewrite forallb_forall. split.
      * intros H. apply rec_all. intros x I. specialize (H x I). apply existsb_exists in H. exact H.
      * intros H x I. inversion H as [? ? N|? ? ? N|? ? R]; subst.
        -- now specialize (N vs).
        -- now specialize (N vs).
        -- apply existsb_exists. now apply R.
    + exists (existsb (val_eqb v) fs). split; [destruct v; try reflexivity; now specialize (Nv l)|]. rewrite existsb_exists. split.
      * intros (f & I & E). now apply (rec_among v f fs).
      * intros H. inversion H as [? ? N1 N2|? f ? N I E|]; subst; [now specialize (N2 fs)|eauto|now specialize (Nv vs)].
  - destruct (is_list_dec v) as [[vs ->]|Nv].
    + exists false. split; [destruct f; try reflexivity; now specialize (Nf l)|]. split; [discriminate|].
      intros H. inversion H as [? ? N1| |]; subst; [now specialize (N1 vs)|now specialize (Nf l)|now specialize (Nf l)].
    + exists (val_eqb v f). split.
      * destruct f; destruct v; try reflexivity; try (now specialize (Nf l)); try (now specialize (Nv l)); try (now specialize (Nf l0)).
      * split; [intros E; now apply rec_same|]. intros H.
        inversion H; subst; [assumption|now specialize (Nf l)|now specialize (Nf l)].
Qed.
Lemma plain_hash m a l : plain_values m -> In (a, VList l) m -> Forall (fun x => hashable x = true) l.
Proof.
  intros P I. apply Forall_forall. intros x Ix. destruct (P a l x I Ix) as [A B].
  destruct x; try reflexivity; [now specialize (A l0)|now specialize (B d)].
Qed.
Lemma dict_subset_spec wanted r : plain_values wanted -> plain_values r ->
  exists b, dict_subset wanted r = Ok b /\ (b = true <-> fits wanted r).
Proof.
  intros Pw Pr. induction wanted as [|[a v] w IH].
  - exists true. split; [reflexivity|]. split; [intros _ a v []|reflexivity].
  - cbn [dict_subset]. assert (Pw' : plain_values w) by (intros a' l x I; apply (Pw a' l x); now right).
    destruct (IH Pw') as (b & Eb & Hb). destruct (dget a r) as [f|] eqn:G.
    + destruct (matches_spec v f) as (b1 & E1 & H1).
      { intros l ->. apply (plain_hash ((a, VList l) :: w) a l Pw). now left. }
      { intros l ->. apply (plain_hash r a l Pr). now apply dget_In. }
      rewrite E1. cbn [rbind]. destruct b1.
      * exists b. split; [exact Eb|]. rewrite Hb. split.
        -- intros F a' v' [[= <- <-]|I]; [|now apply F]. exists f. split; [exact G|now apply H1].
        -- intros F a' v' I. apply F. now right.
      * exists false. split; [reflexivity|]. split; [discriminate|]. intros F.
        destruct (F a v (or_introl eq_refl)) as (f' & G' & R). assert (f' = f) by congruence. subst. now apply H1.
    + exists false. split; [reflexivity|]. split; [discriminate|]. intros F.
      destruct (F a v (or_introl eq_refl)) as (f' & G' & _). congruence.
Qed.

(** ** A search finds the first user whose record has what is asked for, and says so if there is none. *)
Theorem C92_search : forall wanted db, plain_values wanted -> (forall u r, In (u, r) db -> plain_values r) ->
  (forall uid, search wanted db = Ok uid <-> first_fit wanted db uid) /\
  (search wanted db = Raise EKey <-> forall u r, In (u, r) db -> ~ fits wanted r) /\
  (forall e, search wanted db = Raise e -> e = EKey).
Proof.
  intros wanted db Pw. induction db as [|[u r] db IH]; intros Pd.
  - split; [|split].
    + intros uid. split; [discriminate|]. intros ([|? ?] & rc & af & E & _); discriminate.
    + split; [intros _ ? ? []|reflexivity].
    + intros e [= <-]. reflexivity.
  - cbn [search]. destruct (dict_subset_spec wanted r Pw (Pd u r (or_introl eq_refl))) as (b & Eb & Hb). rewrite Eb. cbn [rbind].
    assert (Pd' : forall u0 r0, In (u0, r0) db -> plain_values r0) by (intros u0 r0 I; apply (Pd u0 r0); now right).
    destruct (IH Pd') as (I1 & I2 & I3). destruct b.
    + split; [|split].
      * intros uid. split.
        -- intros [= <-]. exists [], r, db. split; [reflexivity|]. split; [now apply Hb|easy].
        -- intros ([|[u0 r0] bf] & rc & af & E & F & N).
           ++ injection E as -> -> _. reflexivity.
           ++ injection E as <- <- _. exfalso. apply (N u r (or_introl eq_refl)). now apply Hb.
      * split; [discriminate|]. intros N. exfalso. apply (N u r (or_introl eq_refl)). now apply Hb.
      * discriminate.
    + assert (Nf : ~ fits wanted r) by (intros F; apply Hb in F; discriminate).
      split; [|split; [|exact I3]].
      * intros uid. rewrite I1. split.
        -- intros (bf & rc & af & -> & F & N). exists ((u, r) :: bf), rc, af. split; [reflexivity|]. split; [exact F|].
           intros u0 r0 [[= <- <-]|I]; [exact Nf|now apply (N u0)].
        -- intros ([|[u0 r0] bf] & rc & af & E & F & N).
           ++ injection E as -> -> ->. contradiction.
           ++ injection E as -> -> ->. exists bf, rc, af. split; [reflexivity|]. split; [exact F|].
              intros u1 r1 I. apply (N u1 r1). now right.
      * rewrite I2. split.
        -- intros N u0 r0 [[= <- <-]|I]; [exact Nf|now apply (N u0)].
        -- intros N u0 r0 I. apply (N u0). now right.
Qed.
Print Assumptions C92_search.

Lemma phone_tel country c n : phone_number country ("tel:" ++ String c n) =
  Ok (Some (if Ascii.eqb c "+" then String c n else "+" ++ country ++ n)).
Proof. reflexivity. Qed.

(** ** A hint with an international number stands for the first user with that number; a national number (the first digit is
    dropped) for the first one with the number in the country of the lookup; other hints stand for no one. *)
Theorem C92_lookup : forall l db, lk_userinfo l = Some db -> (forall u r, In (u, r) db -> plain_values r) ->
  (forall n uid, lookup_call l ("tel:+" ++ n) = Ok (VStr uid) <-> first_fit [("phone_number", VStr ("+" ++ n))] db uid) /\
  (forall c n uid, c <> "+"%char ->
     lookup_call l ("tel:" ++ String c n) = Ok (VStr uid) <-> first_fit [("phone_number", VStr ("+" ++ lk_country l ++ n))] db uid) /\
  (forall hint, (forall n, hint <> "tel:" ++ n) -> lookup_call l hint = Ok VNone).
Proof.
  intros l db E P.
  assert (G : forall number uid, (let* u := search [("phone_number", VStr number)] db in Ok (VStr u)) = Ok (VStr uid) <->
                                 first_fit [("phone_number", VStr number)] db uid).
  { intros number uid. assert (Pw : plain_values [("phone_number", VStr number)]) by (intros a ll v [X|[]]; discriminate X).
    destruct (C92_search _ db Pw P) as [H _]. rewrite <- H. destruct (search _ db) as [u|e]; cbn; split; intros X; congruence. }
  split; [|split].
  - intros n uid. change ("tel:+" ++ n) with ("tel:" ++ String "+" n). unfold lookup_call. rewrite phone_tel, Ascii.eqb_refl.
    cbn [rbind]. rewrite E. apply G.
  - intros c n uid N. unfold lookup_call. rewrite phone_tel. apply Ascii.eqb_neq in N. rewrite N. cbn [rbind]. rewrite E. apply G.
  - intros hint N. unfold lookup_call, phone_number. destruct (String.prefix "tel:" hint) eqn:X; [|reflexivity].
    apply prefix_spec in X. destruct X as [n X]. now apply N in X.
Qed.
Print Assumptions C92_lookup.

(** ** The first digit of a national number does not count, and without a number there is an IndexError. *)
Theorem C92_number_refuted : forall l n c c', c <> "+"%char -> c' <> "+"%char ->
  lookup_call l ("tel:" ++ String c n) = lookup_call l ("tel:" ++ String c' n) /\ lookup_call l "tel:" = Raise EIndex.
Proof.
  intros l n c c' A B. apply Ascii.eqb_neq in A, B. split; [|reflexivity]. unfold lookup_call. now rewrite !phone_tel, A, B.
Qed.
Print Assumptions C92_number_refuted.

(** ** The supplied lookup, configured without arguments, is given the users under a name it does not read: every hint with
    a number raises an AttributeError, whatever users there are. [is_lookup]: an object of that class and its attributes. *)
Theorem C92_configured_refuted : forall obj import call invoke set_user_info is_true Implicit IDToken Scopes public_id pairwise_id ephemeral_id
    (is_lookup : obj -> lookup -> Prop) Lookup hc cwd dealer h hc' s i,
  (forall o, call Lookup false [] = Ok o -> is_lookup o (new_lookup None)) ->
  (forall o l u o', is_lookup o l -> set_user_info o u = Ok o' -> exists db, is_lookup o' (lookup_set l db)) ->
  NoDup (map fst (hc_sub_func obj hc)) ->
  hc_hint_lookup obj hc = Some s -> dget "class" s = Some i -> (forall f, stands_for obj import i f -> f = Lookup) -> dget "kwargs" s = None ->
  make_helpers obj import call invoke set_user_info is_true true Implicit IDToken Scopes public_id pairwise_id ephemeral_id hc cwd dealer = Ok (h, hc') ->
  exists o l, he_hint_lookup obj h = Some o /\ is_lookup o l /\
    forall c n, lookup_call l ("tel:" ++ String c n) = Raise EAttr.
Proof.
  intros obj import call invoke set_user_info is_true Implicit IDToken Scopes public_id pairwise_id ephemeral_id
    is_lookup Lookup hc cwd dealer h hc' s i New Set1 Nd E C I K H.
  destruct (C91_helpers import call invoke set_user_info is_true Implicit IDToken Scopes public_id pairwise_id ephemeral_id hc cwd dealer h hc' Nd H)
    as (_ & _ & _ & _ & _ & _ & _ & (l & Hl & M) & _).
  destruct Hl as [[[U|U] _]|(s' & o & E' & _ & -> & (i' & f & k & C' & F & A & Cl))].
  - congruence.
  - assert (s = []) by congruence. subst. discriminate.
  - assert (s' = s) by congruence. subst s'. assert (i' = i) by congruence. subst i'. apply I in F. subst f.
    assert (k = []) by (destruct A as [[_ A]|A]; congruence). subst k. cbn in Cl. apply New in Cl.
    assert (Z : forall l0, lk_userinfo l0 = None -> forall c n, lookup_call l0 ("tel:" ++ String c n) = Raise EAttr).
    { intros l0 Z c n. unfold lookup_call. rewrite phone_tel. cbn [rbind]. now rewrite Z. }
    destruct (he_userinfo obj h) as [u|].
    + destruct (is_true u).
      * destruct M as (o' & S1 & M). destruct (Set1 _ _ _ _ Cl S1) as [db L]. exists o', (lookup_set (new_lookup None) db).
        split; [exact M|]. split; [exact L|]. now apply Z.
      * exists o, (new_lookup None). split; [exact M|]. split; [exact Cl|]. now apply Z.
    + exists o, (new_lookup None). split; [exact M|]. split; [exact Cl|]. now apply Z.
Qed.
Print Assumptions C92_configured_refuted.

(** ** Classes: a login hint stands for the classes configured for its scheme; the login method then used is the oldest one of
    the first such class that has one. A hint with another scheme, or for which nothing is configured, leads to the
    default. [scheme]: the scheme of a URL. *)
Theorem C92_classes : forall scheme scheme_map l rq hint sch,
  new_ids [] l -> length (reg_run l) <> 1%nat ->
  dget "acr_values" rq = None -> dget "claims" rq = None -> dget (verified "id_token_hint") rq = None ->
  dget "login_hint" rq = Some (VStr hint) -> scheme hint = Ok sch ->
  let f := fun v => match v with VStr s => hint2acrs_call scheme scheme_map s | _ => Raise EType end in
  (forall c want, dget sch scheme_map = Some (vstrs (c :: want)) ->
     (forall i, pick_auth (br_run l) (Some f) rq = Ok (Some i) ->
        exists x w1 w2, i = as_info x /\ oldest_of (reg_run l) x /\ c :: want = (w1 ++ rm_acr x :: w2)%list /\
          forall y, In y (reg_run l) -> ~ In (rm_acr y) w1) /\
     (pick_auth (br_run l) (Some f) rq = Ok None <-> forall y, In y (reg_run l) -> ~ In (rm_acr y) (c :: want))) /\
  (dget sch scheme_map = None \/ dget sch scheme_map = Some (VList []) ->
     pick_auth (br_run l) (Some f) rq = Ok (option_map as_info (hd_error (reg_run l)))).
Proof.
  intros scheme scheme_map l rq hint sch H Len Ha Hc Hi Hl Hs f. apply run_stands in H.
  pose proof (stands_length _ _ H) as L2.
  assert (W : forall r, dget_or sch (VList []) scheme_map = r -> wanted_acrs (Some f) rq = Ok (if truthy r then Some r else None)).
  { intros r R. unfold wanted_acrs. rewrite Ha. unfold dsub. rewrite Hc. cbn [of_option rbind is_key_error]. rewrite Hi, Hl. unfold f.
    unfold hint2acrs_call. rewrite Hs. cbn [rbind]. now rewrite R. }
  split.
  - intros c want M.
    assert (E : pick_auth (br_run l) (Some f) rq = Ok (option_map as_info (first_of (reg_run l) (c :: want)))).
    { unfold pick_auth. rewrite (W (vstrs (c :: want))) by (unfold dget_or; now rewrite M).
      change (truthy (vstrs (c :: want))) with true. unfold vstrs. cbn [iter_val rbind]. rewrite (stands_first _ _ _ H).
      destruct (br_db (br_run l)) as [|? [|? ?]]; cbn [length] in L2; try reflexivity. destruct Len. now rewrite <- L2. }
    rewrite E. split.
    + intros i Hi'. destruct (first_of (reg_run l) (c :: want)) as [x|] eqn:F; [|discriminate]. cbn in Hi'.
      assert (i = as_info x) by congruence. subst i. destruct (first_of_spec _ _ _ F) as (w1 & w2 & Ew & O & N).
      exists x, w1, w2. tauto.
    + rewrite <- first_of_none. destruct (first_of (reg_run l) (c :: want)); cbn; split; congruence.
  - intros M. rewrite <- (stands_default _ _ H). unfold pick_auth.
    rewrite (W (VList [])) by (unfold dget_or; destruct M as [M|M]; now rewrite M).
    cbn [truthy rbind]. now destruct (br_db (br_run l)) as [|? [|? ?]].
Qed.
Print Assumptions C92_classes.

Definition users92 : dict msg :=
  [("ann", [("name", VStr "Ann"); ("phone_number", VStr "+46701112222")]);
   ("bob", [("name", VStr "Bob"); ("phone_number", VList [VStr "+4790011122"; VStr "+46703334444"]); ("groups", vstrs ["a"; "b"])])].
Example C92_ex : (forall u r, In (u, r) users92 -> plain_values r) /\
  lookup_call (new_lookup (Some users92)) "tel:+46701112222" = Ok (VStr "ann") /\
  lookup_call (new_lookup (Some users92)) "tel:0703334444" = Ok (VStr "bob") /\
  lookup_call (new_lookup (Some users92)) "tel:9703334444" = Ok (VStr "bob") /\
  lookup_call (new_lookup (Some users92)) "tel:+1" = Raise EKey /\
  search [("groups", vstrs ["b"]); ("name", VStr "Bob")] users92 = Ok "bob".
Proof.
  split; [|vm_compute; auto 10]. intros u r [[= <- <-]|[[= <- <-]|[]]] a l v I J; cbn in I;
  repeat (destruct I as [I|I]; [try discriminate; injection I as <- <-; cbn in J; repeat (destruct J as [<-|J]; [split; discriminate|]); destruct J|]); destruct I.
Qed.
(** the provider of C91_ex: its lookup has the users where they are not read *)
Definition py_lookup (o : py) (l : lookup) : Prop :=
  match o with
  | Inst "oidcendpoint.login_hint.LoginHintLookup" false [] u =>
      l = match u with None => new_lookup None | Some _ => lookup_set (new_lookup None) users92 end
  | _ => False
  end.
Example C92_ex_configured : exists h hc' o, py_make hc91 "/srv/op" None = Ok (h, hc') /\ he_hint_lookup py h = Some o /\
  py_lookup o (lookup_set (new_lookup None) users92) /\
  lookup_call (lookup_set (new_lookup None) users92) "tel:+46701112222" = Raise EAttr.
Proof. do 3 eexists. split; [vm_compute; reflexivity|]. split; [reflexivity|]. split; reflexivity. Qed.
Definition ops92 : list bop := [Reg "a" (mkMI (Some "pw") (Some "m1")); Reg "b" (mkMI (Some "sms") (Some "m2")); Reg "c" (mkMI (Some "card") (Some "m3"))].
Definition scheme92 (s : string) : result string := match split ":" s with x :: _ :: _ => Ok x | _ => Ok "" end.
Definition hint92 (v : val) : result val :=
  match v with VStr s => hint2acrs_call scheme92 [("tel", vstrs ["otp"; "sms"]); ("email", vstrs ["pw"])] s | _ => Raise EType end.
Example C92_ex_classes : new_ids [] ops92 /\
  pick_auth (br_run ops92) (Some hint92) [("login_hint", VStr "tel:+46701112222")] = Ok (Some (mkMI (Some "sms") (Some "m2"))) /\
  pick_auth (br_run ops92) (Some hint92) [("login_hint", VStr "sip:x")] = Ok (Some (mkMI (Some "pw") (Some "m1"))).
Proof. split; [cbn; intuition discriminate|]. split; vm_compute; reflexivity. Qed.

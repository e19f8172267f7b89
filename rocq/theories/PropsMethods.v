(** PropsMethods.v: more of C32 and C45 (which authentication method is picked), C88 (who passes a login form) and C63 (a cookie that cannot be read). *)
From Verif Require Import Base BaseProofs Types Ctx Registration AuthnBroker AuthnBrokerSpec AuthnBrokerProofs PropsBroker Monad SessionKey
  Token Grant Database Manager Scopes Claims Authz World Minting Response AuthzEndpoint SetupAuth SetupAuthSpec SetupAuthProofs Login LoginSpec LoginProofs.

(** acr_values that is one str, not a list: the class is the whole str. *)
Theorem C32_one_value : forall l hint rq want,
  new_ids [] l -> length (reg_run l) <> 1%nat -> dget "acr_values" rq = Some (VStr want) ->
  (forall i, pick_auth (br_run l) hint rq = Ok (Some i) -> exists x, i = as_info x /\ oldest_of (reg_run l) x /\ rm_acr x = want) /\
  (pick_auth (br_run l) hint rq = Ok None <-> forall y, In y (reg_run l) -> rm_acr y <> want) /\
  (forall e, pick_auth (br_run l) hint rq <> Raise e).
Proof.
  intros l hint rq want H Len Hw.
  assert (E : pick_auth (br_run l) hint rq = pick_auth (br_run l) hint (dset "acr_values" (vstrs [want]) rq)).
  { unfold pick_auth, wanted_acrs. rewrite Hw, dget_dset_eq. reflexivity. }
  rewrite E. destruct (C32_acr_values l hint (dset "acr_values" (vstrs [want]) rq) [want] H Len (dget_dset_eq _ _ _)) as (A & B & C). split; [|split; [|exact C]].
  - intros i Ei. destruct (A i Ei) as (x & w1 & w2 & -> & O & W & _). exists x. split; [reflexivity|]. split; [exact O|].
    destruct w1 as [|y w1]; cbn in W; [congruence|]. destruct w1; discriminate.
  - rewrite B. split; intros N y I X; apply (N y I); [now left|destruct X as [X|[]]; congruence].
Qed.
Print Assumptions C32_one_value.

(** A method that is asked for by its name is the one that is used. *)
Theorem C32_by_name : forall l hint rq acr x,
  new_ids [] l -> In x (reg_run l) -> rm_id x <> ""%string -> pick_authn_method (br_run l) hint rq (Some (rm_id x)) acr = Ok (rm_method x, rm_acr x).
Proof.
  intros l hint rq acr x H I N. apply run_stands in H. unfold pick_authn_method. destruct (rm_id x) as [|ch k] eqn:E; [congruence|].
  rewrite <- E, (stands_get _ _ _ H I). reflexivity.
Qed.
Print Assumptions C32_by_name.

(** The classes that are said to be supported are those of the registered methods, in the order of registration. *)
Theorem C45_supported : forall l, new_ids [] l -> get_acr_values (br_run l) = Ok (map rm_acr (reg_run l)).
Proof.
  intros l H. apply run_stands in H. destruct H as (_ & D & _). unfold get_acr_values. rewrite D. clear D.
  induction (reg_run l) as [|x r IH]; [reflexivity|]. cbn [map rmap snd as_info mi_acr of_option rbind]. rewrite IH. reflexivity.
Qed.
Print Assumptions C45_supported.

(** Whatever address a form is posted to, it makes nobody of its sender but the user whose password it has, by the list of a registered method. *)
Theorem C88_only_password : forall a url form n,
  posted a url form = Ok n -> exists id u, dget id (an_methods a) = Some (MUserPass u) /\ right_password (up_users u) form n.
Proof.
  intros a url form n H. unfold posted in H. destruct (dsub url (an_actions a)) as [id|]; [|discriminate]. cbn [rbind] in H. unfold dsub in H.
  destruct (dget id (an_methods a)) as [[u|o]|] eqn:E; cbn [of_option rbind] in H; try discriminate. exists id, u. split; [exact E|]. now apply verify_iff.
Qed.
Print Assumptions C88_only_password.

(** A cookie that cannot be read makes nobody of its bearer, not even with the method that lets everybody in. *)
Theorem C63_unreadable : forall e (request : msg) uri cinfo ru w name acr m now user cookie info sid id who w',
  method_for e request name acr m -> me_auth m = (fun _ => no_authn now user true cookie info) ->
  cookie = Ok None \/ cookie = Raise EAttr \/ cookie = Raise EAssertion ->
  setup_auth e request uri cinfo ru w <> (Ok (SDone sid id who), w').
Proof.
  intros e request uri cinfo ru w name acr m now user cookie info sid id who w' Hm Ha Hc H.
  destruct (SetupAuthProofs.setup_inv _ _ _ _ _ _ _ _ H) as (name' & acr' & m' & identity & ts & args & Hm' & Hi & _ & G).
  assert (m' = m). { destruct Hm as [P D], Hm' as [P' D']. rewrite P in P'. injection P' as -> ->. congruence. } subst m'.
  assert (N : forall limit, me_auth m limit = Ok (None, VInt 0)) by (intros limit; rewrite Ha; destruct Hc as [->|[->| ->]]; reflexivity).
  destruct (identify_inv _ _ _ _ _ _ _ Hi) as (_ & limit & _ & C). destruct identity as [i|].
  - destruct C as [[X _]|(? & ? & ? & ? & X & _)]; rewrite N in X; discriminate.
  - unfold go_on, bind, lift, ret in G. destruct (asks_none _) as [[]|]; [destruct (dsub _ _)| |]; discriminate.
Qed.
Print Assumptions C63_unreadable.


(** ** Cases *)
From Verif Require Import PropsSetupAuth PropsLogin.
Example C32_ex_one : new_ids [] ops1 /\ length (reg_run ops1) = 3%nat /\
  pick_auth (br_run ops1) None [("acr_values", VStr "mfa")]%string = Ok (Some (mkMI (Some "mfa") (Some "m2")))%string /\
  pick_auth (br_run ops1) None [("acr_values", VStr "mfa pw")]%string = Ok None /\
  (exists x, In x (reg_run ops1) /\ pick_authn_method (br_run ops1) None [] (Some (rm_id x)) None = Ok ("m3", "pw")%string) /\
  get_acr_values (br_run ops1) = Ok (map rm_acr (reg_run ops1)).
Proof.
  split; [vm_compute; intuition discriminate|]. split; [reflexivity|]. split; [vm_compute; reflexivity|]. split; [vm_compute; reflexivity|].
  split; [|vm_compute; reflexivity]. vm_compute. eexists. split; [right; left; reflexivity|]. vm_compute. reflexivity.
Qed.
Example C63_ex_unreadable : exists args,
  fst (setup9 (fun _ => no_authn 2000 "diana" true (Raise EAssertion) (fun s => VStr s)) []) = Ok (SLogin "user" args).
Proof. eexists. vm_compute. reflexivity. Qed.

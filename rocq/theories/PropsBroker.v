(** PropsBroker.v: C45 (the registry of authentication methods) and C32 (which method is picked). *)
From Verif Require Import Base BaseProofs Types Ctx Registration AuthnBroker AuthnBrokerSpec AuthnBrokerProofs.

(** ** C45 *)
(** After every sequence of registrations and removals in which no id is registered while it is
    registered, looking up by acr gives exactly the registered methods with that acr, oldest first; by id
    the one registered, and an unknown id is an error. *)
Theorem C45_lookup_partial : forall l acr,
  new_ids [] l ->
  pick_by_class_ref acr (br_run l) = Ok (map as_info (with_acr acr (reg_run l))).
Proof. intros l acr H. apply stands_pick. now apply run_stands. Qed.
Print Assumptions C45_lookup_partial.
Theorem C45_by_id : forall l,
  new_ids [] l ->
  (forall x, In x (reg_run l) -> br_get (rm_id x) (br_run l) = Ok (as_info x)) /\
  (forall id, ~ In id (reg_ids (reg_run l)) -> br_get id (br_run l) = Raise EKey).
Proof.
  intros l H. apply run_stands in H. split; [intros x; now apply stands_get|intros id; now apply stands_get_none].
Qed.
Print Assumptions C45_by_id.

Definition ops1 : list bop :=
  [Reg "a" (mkMI (Some "pw") (Some "m1")); Reg "b" (mkMI (Some "mfa") (Some "m2")); Reg "z" (mkMI None (Some "m9"));
   Reg "c" (mkMI (Some "pw") (Some "m3")); Unreg "a"; Unreg "q"; Reg "a" (mkMI (Some "mfa") (Some "m4"))]%string.
Example C45_ex : new_ids [] ops1 /\
  pick_by_class_ref "mfa" (br_run ops1) = Ok [mkMI (Some "mfa") (Some "m2"); mkMI (Some "mfa") (Some "m4")]%string /\
  pick_by_class_ref "pw" (br_run ops1) = Ok [mkMI (Some "pw") (Some "m3")]%string.
Proof. split; [|split; reflexivity]. cbn. intuition discriminate. Qed.

(** Refuted when an id is registered again with another acr: after every such history the method is found
    under its old acr, which it does not have any more. *)
Theorem C45_again_refuted : forall l id a m a' m' b,
  new_ids [] l -> In (mkRM id a m) (reg_run l) -> a' <> a ->
  br_set id (mkMI (Some a') (Some m')) (br_run l) = Ok b ->
  exists found, pick_by_class_ref a b = Ok found /\ In (mkMI (Some a') (Some m')) found /\
    br_get id b = Ok (mkMI (Some a') (Some m')).
Proof.
  intros l id a m a' m' b H I Ne E. apply run_stands in H. destruct H as (N & D & A & K).
  set (r := reg_run l) in *. cbn in E.
  assert (Eb : b = mkBroker (dset id (mkMI (Some a') (Some m')) (br_db (br_run l)))
                   (match dget a' (br_acr (br_run l)) with Some q => dset a' (q ++ [id]) (br_acr (br_run l))
                    | None => dset a' [id] (br_acr (br_run l)) end)) by congruence.
  assert (W : In (mkRM id a m) (with_acr a r)) by (apply filter_In; split; [exact I|apply String.eqb_refl]).
  assert (Ga : dget a (br_acr b) = Some (reg_ids (with_acr a r))).
  { rewrite Eb. cbn [br_acr].
    assert (Aa : dget a (br_acr (br_run l)) = Some (reg_ids (with_acr a r))).
    { rewrite A. destruct (with_acr a r); [easy|reflexivity]. }
    destruct (dget a' (br_acr (br_run l))); rewrite dget_dset_neq by congruence; exact Aa. }
  assert (Gi : dget id (br_db b) = Some (mkMI (Some a') (Some m'))) by (rewrite Eb; apply dget_dset_eq).
  unfold pick_by_class_ref. rewrite Ga.
  exists (map (fun x => if String.eqb (rm_id x) id then mkMI (Some a') (Some m') else as_info x) (with_acr a r)).
  assert (Q : forall q, (forall x, In x q -> In x r) ->
    rmap (fun i => dsub i (br_db b)) (reg_ids q)
    = Ok (map (fun x => if String.eqb (rm_id x) id then mkMI (Some a') (Some m') else as_info x) q)).
  { induction q as [|x q IH]; intros Hq; [reflexivity|]. cbn [reg_ids map rmap]. unfold dsub at 1.
    change (map rm_id q) with (reg_ids q). rewrite IH by (intros z J; apply Hq; now right).
    destruct (String.eqb_spec (rm_id x) id) as [Ex|Ex].
    - rewrite Ex, Gi. reflexivity.
    - rewrite Eb. cbn [br_db]. rewrite dget_dset_neq by exact Ex. rewrite D.
      rewrite (db_get _ _ N) by (apply Hq; now left). reflexivity. }
  split; [apply Q; intros x J; now apply filter_In in J|]. split; [|unfold br_get, dsub; now rewrite Gi].
  apply in_map_iff. exists (mkRM id a m). cbn [rm_id]. rewrite String.eqb_refl. now split.
Qed.
Print Assumptions C45_again_refuted.
(** Registered again and then removed, the whole class cannot be looked up any more. *)
Theorem C45_again_removed_refuted : exists l, ~ new_ids [] l /\
  reg_ids (with_acr "pw" (reg_run l)) = ["b"%string] /\ pick_by_class_ref "pw" (br_run l) = Raise EKey.
Proof.
  exists [Reg "a" (mkMI (Some "pw") (Some "m1")); Reg "b" (mkMI (Some "pw") (Some "m2"));
          Reg "a" (mkMI (Some "mfa") (Some "m1")); Unreg "a"]%string.
  split; [|split; reflexivity]. cbn. tauto.
Qed.
Print Assumptions C45_again_removed_refuted.

(** ** C32 *)
(** Two or more methods are registered. With acr_values, the method picked has the first of these classes for
    which there is a method, and is the oldest such; [None] exactly when there is none for any. *)
Theorem C32_acr_values : forall l hint rq want,
  new_ids [] l -> length (reg_run l) <> 1%nat -> dget "acr_values" rq = Some (vstrs want) ->
  (forall i, pick_auth (br_run l) hint rq = Ok (Some i) ->
     exists x w1 w2, i = as_info x /\ oldest_of (reg_run l) x /\ want = w1 ++ rm_acr x :: w2 /\
       forall y, In y (reg_run l) -> ~ In (rm_acr y) w1) /\
  (pick_auth (br_run l) hint rq = Ok None <-> forall y, In y (reg_run l) -> ~ In (rm_acr y) want) /\
  (forall e, pick_auth (br_run l) hint rq <> Raise e).
Proof.
  intros l hint rq want H Len Hw. apply run_stands in H.
  assert (E : pick_auth (br_run l) hint rq = Ok (option_map as_info (first_of (reg_run l) want))).
  { unfold pick_auth. pose proof (stands_length _ _ H) as L2. unfold wanted_acrs. rewrite Hw. unfold vstrs at 1.
    cbn [rbind iter_val]. unfold vstrs. cbn [iter_val rbind]. rewrite (stands_first _ _ _ H).
    destruct (br_db (br_run l)) as [|? [|? ?]]; cbn in L2; try reflexivity. destruct Len. now rewrite <- L2. }
  rewrite E. split; [|split].
  - intros i Hi. destruct (first_of (reg_run l) want) as [x|] eqn:F; [|discriminate]. cbn in Hi.
    assert (i = as_info x) by congruence. destruct (first_of_spec _ _ _ F) as (w1 & w2 & Ew & I & J).
    exists x, w1, w2. tauto.
  - rewrite <- first_of_none. destruct (first_of (reg_run l) want); cbn; split; congruence.
  - congruence.
Qed.
Print Assumptions C32_acr_values.

(** The same for the values of the claim acr of the ID Token, when there are no acr_values. *)
Theorem C32_claim_values : forall l hint rq want,
  new_ids [] l -> length (reg_run l) <> 1%nat -> dget "acr_values" rq = None -> claim_values rq (vstrs want) ->
  (forall i, pick_auth (br_run l) hint rq = Ok (Some i) ->
     exists x w1 w2, i = as_info x /\ oldest_of (reg_run l) x /\ want = w1 ++ rm_acr x :: w2 /\
       forall y, In y (reg_run l) -> ~ In (rm_acr y) w1) /\
  (pick_auth (br_run l) hint rq = Ok None <-> forall y, In y (reg_run l) -> ~ In (rm_acr y) want).
Proof.
  intros l hint rq want H Len Hw (a & (c & i0 & Hc & Hi & Ha) & Hv). apply run_stands in H.
  assert (E : pick_auth (br_run l) hint rq = Ok (option_map as_info (first_of (reg_run l) want))).
  { assert (Wa : wanted_acrs hint rq = Ok (Some (vstrs want))).
    { unfold wanted_acrs. rewrite Hw. unfold dsub at 1. rewrite Hc. cbn [of_option rbind vsub]. unfold dsub at 1. rewrite Hi.
      cbn [of_option rbind vsub]. unfold dsub at 1. rewrite Ha. cbn [of_option rbind vsub]. unfold dsub at 1. now rewrite Hv. }
    unfold pick_auth. pose proof (stands_length _ _ H) as L2. rewrite Wa.
    unfold vstrs. cbn [iter_val rbind]. rewrite (stands_first _ _ _ H).
    destruct (br_db (br_run l)) as [|? [|? ?]]; cbn in L2; try reflexivity. destruct Len. now rewrite <- L2. }
  rewrite E. split.
  - intros i Hi'. destruct (first_of (reg_run l) want) as [x|] eqn:F; [|discriminate]. cbn in Hi'.
    assert (i = as_info x) by congruence. destruct (first_of_spec _ _ _ F) as (w1 & w2 & Ew & I & J).
    exists x, w1, w2. tauto.
  - rewrite <- first_of_none. destruct (first_of (reg_run l) want); cbn; split; congruence.
Qed.
Print Assumptions C32_claim_values.

(** A request that asks for nothing and has no hints gets the method registered first (if any). *)
Theorem C32_default : forall l hint rq,
  new_ids [] l -> dget "acr_values" rq = None -> dget "claims" rq = None ->
  dget (verified "id_token_hint") rq = None -> dget "login_hint" rq = None ->
  pick_auth (br_run l) hint rq = Ok (option_map as_info (hd_error (reg_run l))).
Proof.
  intros l hint rq H Ha Hc Hi Hl. apply run_stands in H. rewrite <- (stands_default _ _ H). unfold pick_auth, wanted_acrs.
  rewrite Ha, Hi, Hl. unfold dsub. rewrite Hc. cbn. now destruct (br_db (br_run l)) as [|? [|? ?]].
Qed.
Print Assumptions C32_default.

(** What the authorization endpoint goes on with is the method of the one picked, and the class it is registered
    for. *)
Theorem C32_method : forall l hint rq want name acr,
  new_ids [] l -> length (reg_run l) <> 1%nat -> dget "acr_values" rq = Some (vstrs want) ->
  pick_authn_method (br_run l) hint rq None None = Ok (name, acr) ->
  exists x w1 w2, oldest_of (reg_run l) x /\ name = rm_method x /\ acr = rm_acr x /\ want = w1 ++ rm_acr x :: w2 /\
    forall y, In y (reg_run l) -> ~ In (rm_acr y) w1.
Proof.
  intros l hint rq want name acr H Len Hw P. destruct (C32_acr_values l hint rq want H Len Hw) as (A & _ & _).
  unfold pick_authn_method in P. destruct (pick_auth (br_run l) hint rq) as [[i|]|]; try discriminate.
  destruct (A i eq_refl) as (x & w1 & w2 & -> & I1 & W & F). cbn in P. injection P as <- <-. exists x, w1, w2. auto.
Qed.
Print Assumptions C32_method.
(** Picking changes the request in one place: a single value of acr_values is put in a list, if there is a choice. *)
Theorem C32_request : forall l rq, new_ids [] l ->
  (forall k, k <> "acr_values"%string -> dget k (listed_acrs (br_run l) rq) = dget k rq) /\
  dget "acr_values" (listed_acrs (br_run l) rq) =
    match dget "acr_values" rq with
    | Some (VList vs) => Some (VList vs)
    | Some v => if Nat.eqb (length (reg_run l)) 1 then Some v else Some (VList [v])
    | None => None
    end.
Proof.
  intros l rq H. apply run_stands in H. pose proof (stands_length _ _ H) as L. rewrite <- L. unfold listed_acrs.
  destruct (br_db (br_run l)) as [|? [|? ?]]; cbn [length Nat.eqb].
  1,3: destruct (dget "acr_values" rq) as [v|] eqn:E; [|rewrite E; auto]; destruct v; rewrite ?E;
       (split; [intros k N; rewrite ?dget_dset_neq by exact N; reflexivity|rewrite ?dget_dset_eq; reflexivity]).
  split; [reflexivity|]. destruct (dget "acr_values" rq) as [[]|]; reflexivity.
Qed.
Print Assumptions C32_request.

(** A class for which there is no method ends in an exception (KeyError), not in an error response. *)
Theorem C32_unsupported : forall l hint rq want,
  new_ids [] l -> length (reg_run l) <> 1%nat -> dget "acr_values" rq = Some (vstrs want) ->
  (forall y, In y (reg_run l) -> ~ In (rm_acr y) want) ->
  pick_authn_method (br_run l) hint rq None None = Raise EKey.
Proof.
  intros l hint rq want H Len Hw No. destruct (C32_acr_values l hint rq want H Len Hw) as (_ & [_ B] & _).
  unfold pick_authn_method. now rewrite (B No).
Qed.
Print Assumptions C32_unsupported.

Example C32_ex_method : pick_authn_method (br_run ops1) None [("acr_values", vstrs ["loa3"; "mfa"])]%string None None = Ok ("m2", "mfa")%string /\
  listed_acrs (br_run ops1) [("acr_values", VStr "mfa")]%string = [("acr_values", VList [VStr "mfa"])]%string.
Proof. split; vm_compute; reflexivity. Qed.
Definition rq_mfa : msg := [("acr_values", vstrs ["loa3"; "mfa"])]%string.
Example C32_ex : length (reg_run ops1) = 3%nat /\ pick_auth (br_run ops1) None rq_mfa = Ok (Some (mkMI (Some "mfa") (Some "m2")))%string /\
  pick_auth (br_run ops1) None [] = Ok (Some (mkMI (Some "mfa") (Some "m2")))%string /\
  pick_auth (br_run ops1) None [("claims", VDict [("id_token", VDict [("acr", VDict [("values", vstrs ["pw"])])])])]%string
    = Ok (Some (mkMI (Some "pw") (Some "m3")))%string /\
  pick_authn_method (br_run ops1) None [("acr_values", vstrs ["loa3"])]%string None None = Raise EKey.
Proof. repeat split; vm_compute; reflexivity. Qed.

(** Refuted where only one method is registered: it is used whatever the request asks for. *)
Theorem C32_single_refuted : forall l hint rq x,
  new_ids [] l -> reg_run l = [x] -> pick_auth (br_run l) hint rq = Ok (Some (as_info x)).
Proof.
  intros l hint rq x H E. apply run_stands in H. pose proof (stands_default _ _ H) as Dd. pose proof (stands_length _ _ H) as L.
  rewrite E in *. unfold pick_auth. destruct (br_db (br_run l)) as [|? [|? ?]]; cbn in L; try lia. now rewrite Dd.
Qed.
Print Assumptions C32_single_refuted.

(** Refuted for a single value in the claim acr: it is not looked at. *)
Theorem C32_value_refuted : forall l hint rq a,
  new_ids [] l -> dget "acr_values" rq = None -> claim_acr rq (VDict a) -> dget "values" a = None ->
  dget (verified "id_token_hint") rq = None -> dget "login_hint" rq = None ->
  pick_auth (br_run l) hint rq = Ok (option_map as_info (hd_error (reg_run l))).
Proof.
  intros l hint rq a H Ha (c & i & Hc & Hi & Hacr) Hv Hh Hl. apply run_stands in H. rewrite <- (stands_default _ _ H).
  assert (Wa : wanted_acrs hint rq = Ok None).
  { unfold wanted_acrs. rewrite Ha, Hh, Hl. unfold dsub at 1. rewrite Hc. cbn [of_option rbind vsub].
    unfold dsub at 1. rewrite Hi. cbn [of_option rbind vsub]. unfold dsub at 1. rewrite Hacr. cbn [of_option rbind vsub].
    unfold dsub at 1. now rewrite Hv. }
  unfold pick_auth. rewrite Wa. cbn. now destruct (br_db (br_run l)) as [|? [|? ?]].
Qed.
Print Assumptions C32_value_refuted.
Example C32_value_ex :
  let rq := [("claims", VDict [("id_token", VDict [("acr", VDict [("essential", VBool true); ("value", VStr "pw")])])])]%string in
  claim_acr rq (VDict [("essential", VBool true); ("value", VStr "pw")])%string /\
  pick_auth (br_run ops1) None rq = Ok (Some (mkMI (Some "mfa") (Some "m2")))%string.
Proof. split; [do 2 eexists; repeat split; reflexivity|vm_compute; reflexivity]. Qed.

(** A request that just asks for the claim acr, {"id_token": {"acr": null}}, ends in a TypeError. *)
Theorem C32_null_claim_refuted : forall l hint rq,
  new_ids [] l -> length (reg_run l) <> 1%nat -> dget "acr_values" rq = None -> claim_acr rq VNone ->
  pick_auth (br_run l) hint rq = Raise EType.
Proof.
  intros l hint rq H Len Ha (c & i & Hc & Hi & Hacr). apply run_stands in H. pose proof (stands_length _ _ H) as L2.
  assert (Wa : wanted_acrs hint rq = Raise EType).
  { unfold wanted_acrs. rewrite Ha. unfold dsub at 1. rewrite Hc. cbn [of_option rbind vsub].
    unfold dsub at 1. rewrite Hi. cbn [of_option rbind vsub]. unfold dsub at 1. now rewrite Hacr. }
  unfold pick_auth. rewrite Wa. cbn.
  destruct (br_db (br_run l)) as [|? [|? ?]]; cbn in L2; try reflexivity. destruct Len. now rewrite <- L2.
Qed.
Print Assumptions C32_null_claim_refuted.
Example C32_null_ex : pick_auth (br_run ops1) None [("claims", VDict [("id_token", VDict [("acr", VNone)])])]%string = Raise EType.
Proof. reflexivity. Qed.

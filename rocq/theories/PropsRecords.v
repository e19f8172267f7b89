(** PropsRecords.v: C106, what is registered of a client lasts, whatever is received. *)
From Verif Require Import Base BaseProofs Monad MonadProofs Types Ctx Scopes Claims ClaimsSpec ClaimsProofs World ClientAuthn TokenEndpoint AuthzEndpoint Logout Fronts AuthzFront Door DoorSpec System
  DoorIsolationSpec Registration RegistrationSpec IDToken RecordsSpec RecordsProofs.
From Verif Require PropsRegistration PropsFrontFlow PropsDoorFlow PropsIsolation PropsFlow PropsClaims.

(** Whatever arrives, the records of the clients stay as they are, but for the note how a client has authenticated and for claims of single
    clients kept as dicts. *)
Theorem C106_lasts : forall y l a,
  idtokens_only_read y -> Forall (of_provider (sy_cx y)) l -> lasting (sy_cx y) (clients_of a) (clients_of (after y l a)).
Proof.
  intros y l. induction l as [|k l IH]; intros a I F; [apply lasting_refl|]. inversion F as [|? ? Hk Hl]; subst. cbn [after].
  apply (lasting_trans _ _ (clients_of (dstep y k a))); [|apply IH; auto].
  assert (D : from_outside k \/ ~ from_outside k) by (destruct k; cbn; auto).
  destruct D as [D|D]; [|exact (proj1 (step_rel y k a I Hk D))].
  destruct k; try contradiction. intros c info E. exists info. split; [exact (Hk _ _ _ E)|apply kept_refl].
Qed.
Print Assumptions C106_lasts.

(** No request makes a client. *)
Theorem C106_none_new : forall y l a,
  idtokens_only_read y -> Forall (of_provider (sy_cx y)) l -> Forall (fun k => ~ from_outside k) l ->
  none_new (clients_of a) (clients_of (after y l a)).
Proof.
  intros y l. induction l as [|k l IH]; intros a I F N c E; [exact E|]. inversion F as [|? ? Hk Hl]; subst. inversion N as [|? ? Nk Nl]; subst.
  cbn [after]. apply IH; auto. exact (proj2 (step_rel y k a I Hk Nk) c E).
Qed.
Print Assumptions C106_none_new.

(** Where claims of single clients are not switched on, or the client has none, nothing else changes: what C103 and C104 ask for. *)
Theorem C106_same_record : forall y l a c info,
  idtokens_only_read y -> Forall (of_provider (sy_cx y)) l -> dget c (clients_of a) = Some info ->
  (forall usage d, per_client (sy_cx y) usage -> dget (usage ++ "_claims") info <> Some (VDict d)) ->
  same_record c (clients_of a) (clients_of (after y l a)).
Proof.
  intros y l a c info I F E N. destruct (C106_lasts y l a I F c info E) as (info' & E' & K).
  red. rewrite E, E'. intros k Nk. apply (ke_same _ _ _ K k Nk). intros u d P ->. exact (N u d P).
Qed.
Print Assumptions C106_same_record.

(** Registering a client is such an addition from outside. *)
Theorem C106_registration : forall cx conf d set_secret rq s,
  of_provider cx (KClients (fun clients => rg_cdb (snd (client_registration_setup conf d true set_secret rq (set_cdb (fun _ => clients) s))))).
Proof.
  intros cx conf d ss rq s clients c info E.
  destruct (client_registration_setup conf d true ss rq (set_cdb (fun _ => clients) s)) as [r s'] eqn:H. cbn [snd].
  destruct (PropsRegistration.C26_others _ _ _ _ _ _ _ _ H) as [->|(i & rq' & _ & (b & a & _ & Ni & _) & O & _)]; [exact E|].
  assert (N : c <> i) by (intros ->; unfold rg_cdb, set_cdb in Ni; cbn in Ni; congruence). rewrite (O c N). exact E.
Qed.
Print Assumptions C106_registration.

(** The supplied maker of ID Tokens does not write. *)
Theorem C106_idtokens : forall ic cx,
  (forall s sid clients, snd (make_for_token ic cx s sid clients) = clients) /\
  (forall s sid code access clients, snd (make_for_authz ic cx s sid code access clients) = clients).
Proof. intros ic cx. split; reflexivity. Qed.
Print Assumptions C106_idtokens.

(** Refuted for claims of single clients kept as a dict: whatever a request asks for is written into the record of the client. *)
Lemma claims_ref cx c ar scopes usage s r s' : on cx usage "enable_claims_per_client" = true -> get_client_claims s c usage = Ok (CClient c usage) ->
  get_claims cx c ar scopes usage s = (Ok r, s') -> r = CClient c usage.
Proof.
  intros O G H.
  assert (U : forall d x x' q, cupdate (CClient c usage) d x = (Ok q, x') -> q = CClient c usage).
  { intros d x x' q. cbn. unfold bind, gets, modify, ret, id. cbn. destruct (dget c x); congruence. }
  unfold get_claims in H. change (smem usage ["userinfo"; "id_token"; "introspection"; "access_token"]%string) with (smem usage usages) in H.
  fold (kwarg_of cx usage "enable_claims_per_client") (kwarg_of cx usage "base_claims") (kwarg_of cx usage "add_claims_by_scope") in H.
  fold (on cx usage "enable_claims_per_client") (on cx usage "add_claims_by_scope") in H.
  rewrite O in H. rewrite (bind_run (gets id) _ s s s eq_refl) in H. cbv beta in H. rewrite G in H.
  destruct (bind_ok _ _ _ _ _ H) as (r0 & s0 & H0 & H1). unfold lift in H0. assert (r0 = CClient c usage) by congruence. subst r0. clear H H0.
  destruct (bind_ok _ _ _ _ _ H1) as (b & s1 & _ & H2). destruct (bind_ok _ _ _ _ _ H2) as (r1 & s2 & H3 & H4). apply U in H3. subst r1.
  destruct (bind_ok _ _ _ _ _ H4) as (r2 & s3 & H5 & H6).
  assert (r2 = CClient c usage).
  { destruct (on cx usage "add_claims_by_scope" && negb (is_nil scopes)); [|unfold ret in H5; congruence].
    destruct (bind_ok _ _ _ _ _ H5) as (? & ? & _ & H7). destruct (bind_ok _ _ _ _ _ H7) as (? & ? & _ & H8). destruct (bind_ok _ _ _ _ _ H8) as (? & ? & _ & H9).
    now apply U in H9. }
  subst r2. destruct (bind_ok _ _ _ _ _ H6) as (q & s4 & _ & H7). destruct q as [v|]; [|unfold ret in H7; congruence].
  destruct (truthy v); [|unfold ret in H7; congruence]. destruct (bind_ok _ _ _ _ _ H7) as (? & ? & _ & H8). now apply U in H8.
Qed.
Theorem C106_claims_refuted : forall cx (clients : cdb) c (info : msg) usage d (ar asked : msg) scopes r clients' name,
  per_client cx usage -> In usage ["userinfo"; "id_token"]%string -> dget c clients = Some info -> dget (usage ++ "_claims") info = Some (VDict d) ->
  dget "claims" ar = Some (VDict asked) -> (exists l, dget usage asked = Some (VDict l) /\ dmem name l = true) ->
  get_claims cx c (Some ar) scopes usage clients = (Ok r, clients') ->
  exists (info' : msg) d', dget c clients' = Some info' /\ dget (usage ++ "_claims") info' = Some (VDict d') /\ dmem name d' = true.
Proof.
  intros cx clients c info usage d ar asked scopes r clients' name [P1 (kw & v & M & Kv & T)] Hu E Ed Ea (l & El & Nl) H.
  assert (O : on cx usage "enable_claims_per_client" = true).
  { unfold on, kwarg_of. assert (S_ : smem usage usages = true) by (apply smem_In; exact P1). rewrite S_, M, Kv. exact T. }
  assert (G : get_client_claims clients c usage = Ok (CClient c usage)) by (unfold get_client_claims; rewrite E; unfold claims_key; now rewrite Ed).
  assert (Er := claims_ref _ _ _ _ _ _ _ _ O G H). subst r.
  destruct (get_claims_main cx c (Some ar) scopes usage clients) as (_ & Mn & _). rewrite H in Mn. cbn [fst snd] in Mn.
  destruct (Mn _ eq_refl) as (r0 & base & scl & rq & _ & _ & _ & Rq & Rs & _ & _ & _ & info' & d' & E' & Ed').
  exists info', d'. split; [exact E'|]. split; [exact Ed'|].
  cbn [resolve] in Rs. rewrite E', Ed' in Rs. subst d'.
  assert (rq = l).
  { unfold requested, authorization_request_claims in Rq. assert (S_ : smem usage ["id_token"; "userinfo"]%string = true).
    { apply smem_In. cbn in Hu |- *. tauto. }
    rewrite S_, Ea in Rq. cbn [rbind] in Rq. rewrite El in Rq.
    destruct l as [|x l]; [discriminate Nl|]. cbn in Rq. congruence. }
  subst rq. unfold dmem. rewrite dget_dupdate. unfold dmem in Nl. destruct (dget name l) as [x|] eqn:X; [|discriminate Nl].
  assert (I : In (name, x) (rev l)) by (apply -> in_rev; now apply dget_In).
  destruct (dget name (rev l)) eqn:Y; [reflexivity|]. exfalso. apply (proj1 (dget_None_key _ _) Y). apply in_map_iff. exists (name, x). auto.
Qed.
Print Assumptions C106_claims_refuted.

(** ** The hypotheses are met: the visitors of C103 *)
Import PropsFrontFlow PropsDoorFlow PropsIsolation PropsFlow.
#[local] Opaque dstep after.
Definition l106 : list knock :=
  (bob103 ++ [KClients (fun clients => rg_cdb (snd (client_registration_setup PropsRegistration.conf1 PropsRegistration.draw1 true true PropsRegistration.reg_rq
                                                  (set_cdb (fun _ => clients) PropsRegistration.reg0))))])%list.
Example C106_ex :
  idtokens_only_read y82 /\ Forall (of_provider (sy_cx y82)) l106 /\
  (forall usage d, per_client (sy_cx y82) usage -> dget (usage ++ "_claims") cli95 <> Some (VDict d)) /\ dget "c1" (clients_of a103) = Some cli95.
Proof.
  split; [intros s sid clients; reflexivity|]. split; [|split].
  - unfold l106, bob103. cbn [app].
    do 5 (apply Forall_cons; [first [exact I | split; [reflexivity|intros; reflexivity]]|]).
    apply Forall_cons; [apply C106_registration|apply Forall_nil].
  - intros u d [Hu _]. repeat destruct Hu as [<-|Hu]; try discriminate. contradiction.
  - vm_compute. reflexivity.
Qed.
Example C106_ex_after : exists info info2,
  dget "c1" (clients_of (after y82 l106 a103)) = Some info /\ info <> cli95 /\ same_record "c1" (clients_of a103) (clients_of (after y82 l106 a103)) /\
  dget "taken" (clients_of a103) = None /\ dget "taken" (clients_of (after y82 l106 a103)) = Some info2.
Proof.
  destruct C106_ex as (H1 & H2 & H3 & H4).
  eexists. eexists. split; [vm_compute; reflexivity|]. split; [discriminate|]. split; [exact (C106_same_record _ _ _ _ _ H1 H2 H4 H3)|].
  split; vm_compute; reflexivity.
Qed.
(** A client with claims kept as a dict: after one visit the names that were asked for are in its record. *)
Definition cli106 : msg := (cli95 ++ [("userinfo_claims"%string, VDict [("email"%string, VNone)])])%list.
Definition a106 : astate := mkAS (mkFS (mkW (w_db w95) [("c1", cli106)]%string) []) [].
Example C106_ex_claims : per_client (sy_cx y82) "userinfo" /\
  exists info d, dget "c1" (clients_of (dstep y82 diana103 a106)) = Some info /\ dget "userinfo_claims" info = Some (VDict d) /\
    dmem "nickname" d = true /\ dmem "email" d = true.
Proof.
  split; [split; [left; reflexivity|]; eexists; eexists; split; [vm_compute; reflexivity|split; reflexivity]|].
  eexists. eexists. split; [vm_compute; reflexivity|]. split; [vm_compute; reflexivity|]. split; vm_compute; reflexivity.
Qed.

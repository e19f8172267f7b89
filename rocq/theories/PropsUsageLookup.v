(** PropsUsageLookup.v: looking up usage rules (C107), the arguments of a grant that is added (C108). *)
From Verif Require Import Base BaseProofs Types Monad MonadProofs Token Grant Ctx Authz AuthzSpec AuthzProofs UsageLookup UsageLookupSpec.

Lemma truthy_says r : ur_truthy r = true <-> r <> no_rules.
Proof.
  destruct r as [[]  [] []]; cbn; split; intros H; try reflexivity; try discriminate; try (now intros E; discriminate E). now destruct H.
Qed.
Lemma not_says o : ~ says o -> match o with Some r => r = no_rules | None => True end.
Proof.
  intros N. destruct o as [r|]; [|exact I]. destruct (ur_truthy r) eqn:T.
  - exfalso. apply N. exists r. split; [reflexivity|]. now apply truthy_says.
  - destruct r as [[]  [] []]; cbn in T; try discriminate. reflexivity.
Qed.
Lemma update_nothing r : ur_update r no_rules = r.
Proof. now destruct r. Qed.
Lemma nothing_update r : ur_update no_rules r = r.
Proof. now destruct r as [[] [] []]. Qed.


(** What client and provider say *)
Lemma effective_says env c ttype :
  match effective env c ttype with
  | Some r => (ur_truthy r = true <-> says (client_rules env c ttype) \/ says (provider_default env ttype)) /\
              decided_by [client_rules env c ttype; provider_default env ttype] r
  | None => client_rules env c ttype = None /\ provider_default env ttype = None
  end.
Proof.
  unfold effective. destruct (provider_default env ttype) as [d|], (client_rules env c ttype) as [p|]; auto.
  - split; [|destruct p as [[] [] []], d as [[] [] []]; repeat split]. split.
    + intros T. destruct (ur_truthy p) eqn:Tp; [left; exists p; split; [reflexivity|now apply truthy_says]|].
      right. exists d. split; [reflexivity|]. apply truthy_says. destruct p as [[] [] []]; cbn in Tp; try discriminate. now rewrite update_nothing in T.
    + intros [(r & [= <-] & N)|(r & [= <-] & N)]; apply truthy_says in N; 
        destruct p as [[] [] []], d as [[] [] []]; cbn in *; try discriminate; reflexivity.
  - split; [|destruct d as [[] [] []]; repeat split]. split; [intros T; right; exists d; split; [reflexivity|now apply truthy_says]|].
    intros [(r & E & _)|(r & [= <-] & N)]; [discriminate|now apply truthy_says].
  - split; [|destruct p as [[] [] []]; repeat split]. split; [intros T; left; exists p; split; [reflexivity|now apply truthy_says]|].
    intros [(r & [= <-] & N)|(r & E & _)]; [now apply truthy_says|discriminate].
Qed.

(** The rules of the grant on top *)
Definition on_top (o : option urules) (r : urules) : urules :=
  match o with Some g => if ur_truthy g then ur_update r g else r | None => r end.
Lemma decided_on_top o l r : decided_by l r -> decided_by (o :: l) (on_top o r).
Proof.
  intros (A & B & C). destruct o as [[[] [] []]|]; cbn [on_top ur_truthy]; unfold decided_by; cbn [first_opinion ur_max_usage ur_mints ur_expires_in ur_update]; auto.
Qed.

(** What is done, with the two cases apart *)
Lemma lookup_given e m c ttype r : effective (le_rules e) c ttype = Some r -> ur_truthy r = true ->
  fst (get_usage_rules ttype m c e) = Ok (on_top (applied (le_rules e) m ttype) r) /\ le_default (snd (get_usage_rules ttype m c e)) = le_default e /\
  (on_top (applied (le_rules e) m ttype) r = r -> (forall g, applied (le_rules e) m ttype = Some g -> ur_truthy g = false) ->
   snd (get_usage_rules ttype m c e) = e).
Proof.
  intros E T. assert (U := usage_rules_applied (le_rules e) c ttype). unfold applied in U. rewrite E in U.
  unfold get_usage_rules, bind, gets, id, applied.
  destruct (rules_at (le_rules e) (usage_rules (le_rules e) c) ttype) as [x|]; [|discriminate]. cbn in U. injection U as U. rewrite U, T.
  destruct (rules_at (le_rules e) m ttype) as [g|]; cbn [option_map on_top]; [|cbn; rewrite ?U; auto].
  destruct (ur_truthy (rules_now (le_rules e) g)) eqn:Tg; [|cbn; rewrite ?U; auto]. unfold modify, ret. cbn. rewrite ?U. split; [reflexivity|]. split; [reflexivity|].
  intros _ H. specialize (H _ eq_refl). congruence.
Qed.
Lemma lookup_default e m c ttype : (forall r, effective (le_rules e) c ttype = Some r -> ur_truthy r = false) ->
  get_usage_rules ttype m c e =
  match dget ttype (le_default e) with
  | None => (Raise EKey, e)
  | Some d => (Ok (on_top (applied (le_rules e) m ttype) d),
               match applied (le_rules e) m ttype with
               | Some g => if ur_truthy g then mkLE (le_rules e) (dset ttype (ur_update d g) (le_default e)) else e
               | None => e
               end)
  end.
Proof.
  intros N. assert (U := usage_rules_applied (le_rules e) c ttype). unfold applied in U.
  unfold get_usage_rules, bind, gets, id, applied.
  assert (X : match rules_at (le_rules e) (usage_rules (le_rules e) c) ttype with
              | Some r => if ur_truthy (rules_now (le_rules e) r) then Some r else None
              | None => None
              end = None).
  { destruct (rules_at (le_rules e) (usage_rules (le_rules e) c) ttype) as [x|]; [|reflexivity]. cbn in U. now rewrite (N _ (eq_sym U)). }
  rewrite X. unfold lift, dsub. destruct (dget ttype (le_default e)) as [d|]; [|reflexivity]. cbn [of_option].
  destruct (rules_at (le_rules e) m ttype) as [g|]; cbn [option_map on_top]; [|reflexivity].
  destruct (ur_truthy (rules_now (le_rules e) g)); reflexivity.
Qed.
Lemma neither_iff e c ttype : neither_says e c ttype <-> forall r, effective (le_rules e) c ttype = Some r -> ur_truthy r = false.
Proof.
  assert (H := effective_says (le_rules e) c ttype). unfold neither_says. destruct (effective (le_rules e) c ttype) as [r|].
  - destruct H as [H _]. split.
    + intros [A B] r0 [= <-]. destruct (ur_truthy r); [|reflexivity]. destruct (proj1 H eq_refl); tauto.
    + intros A. specialize (A r eq_refl). split; intros B; assert (ur_truthy r = true) by (apply H; auto); congruence.
  - destruct H as [-> ->]. split; [discriminate|]. intros _. split; intros (x & E & _); discriminate.
Qed.

(** The rules that are found are those in force: member by member the grant's, else the client's, else the provider's; the defaults where neither
    the client nor the provider says anything. *)
Theorem C107_order : forall e m c ttype r e',
  get_usage_rules ttype m c e = (Ok r, e') -> in_force e m c ttype r.
Proof.
  intros e m c ttype r e' H. assert (S_ := effective_says (le_rules e) c ttype).
  destruct (effective (le_rules e) c ttype) as [x|] eqn:E.
  - destruct (ur_truthy x) eqn:T.
    + left. split.
      * rewrite neither_iff. intros N. specialize (N x E). congruence.
      * destruct (lookup_given e m c ttype x E T) as [F _]. rewrite H in F. cbn in F. injection F as ->. apply decided_on_top. exact (proj2 S_).
    + right. assert (N : forall r, effective (le_rules e) c ttype = Some r -> ur_truthy r = false) by (intros q Q; congruence).
      split; [now apply neither_iff|]. rewrite (lookup_default e m c ttype N) in H. destruct (dget ttype (le_default e)) as [d|]; [|discriminate].
      exists d. split; [reflexivity|]. injection H as <- _. apply decided_on_top. destruct d as [[] [] []]; repeat split.
  - right. assert (N : forall r, effective (le_rules e) c ttype = Some r -> ur_truthy r = false) by (intros q Q; congruence).
    split; [now apply neither_iff|]. rewrite (lookup_default e m c ttype N) in H. destruct (dget ttype (le_default e)) as [d|]; [|discriminate].
    exists d. split; [reflexivity|]. injection H as <- _. apply decided_on_top. destruct d as [[] [] []]; repeat split.
Qed.
Print Assumptions C107_order.

(** Rules are found for every type of token that has defaults, or for which something is said. *)
Theorem C107_found : forall e m c ttype,
  (exists r, fst (get_usage_rules ttype m c e) = Ok r) <-> (~ neither_says e c ttype \/ dmem ttype (le_default e) = true).
Proof.
  intros e m c ttype. destruct (effective (le_rules e) c ttype) as [x|] eqn:E; [destruct (ur_truthy x) eqn:T|].
  - destruct (lookup_given e m c ttype x E T) as [F _]. rewrite F. split; [|eauto]. intros _. left. rewrite neither_iff. intros N.
    specialize (N x E). congruence.
  - assert (N : forall r, effective (le_rules e) c ttype = Some r -> ur_truthy r = false) by (intros q Q; congruence).
    rewrite (lookup_default e m c ttype N), neither_iff. unfold dmem. destruct (dget ttype (le_default e)) as [d|]; cbn.
    + split; [auto|eauto].
    + split; [intros (r & R); discriminate|intros [K|K]; [now destruct K|discriminate]].
  - assert (N : forall r, effective (le_rules e) c ttype = Some r -> ur_truthy r = false) by (intros q Q; congruence).
    rewrite (lookup_default e m c ttype N), neither_iff. unfold dmem. destruct (dget ttype (le_default e)) as [d|]; cbn.
    + split; [auto|eauto].
    + split; [intros (r & R); discriminate|intros [K|K]; [now destruct K|discriminate]].
Qed.
Print Assumptions C107_found.

(** Where the grant says nothing for the type, and where the provider is configured with rules for it, looking up changes nothing. *)
Theorem C107_unchanged : forall e m c ttype,
  ~ says (applied (le_rules e) m ttype) \/ (says (provider_default (le_rules e) ttype)) ->
  snd (get_usage_rules ttype m c e) = e.
Proof.
  intros e m c ttype H.
  assert (U := usage_rules_applied (le_rules e) c ttype). unfold applied in U.
  destruct H as [H|(d & Ed & Nd)].
  - assert (G : match rules_at (le_rules e) m ttype with
                | Some g => if ur_truthy (rules_now (le_rules e) g) then Some (rules_now (le_rules e) g) else None
                | None => None
                end = None).
    { unfold applied in H. destruct (rules_at (le_rules e) m ttype) as [g|]; [|reflexivity].
      destruct (ur_truthy (rules_now (le_rules e) g)) eqn:T; [|reflexivity]. exfalso. apply H. eexists. split; [reflexivity|]. now apply truthy_says. }
    unfold get_usage_rules, bind, gets, id. rewrite G.
    destruct (match rules_at (le_rules e) (usage_rules (le_rules e) c) ttype with Some _ => _ | None => _ end) as [x|]; [reflexivity|].
    unfold lift. now destruct (dsub ttype (le_default e)).
  - unfold get_usage_rules, bind, gets, id.
    assert (C : match re_config (le_rules e) with Some d => dget ttype d | None => None end = Some d) by exact Ed.
    destruct (re_config (le_rules e)) as [base|] eqn:Eb; [|discriminate].
    assert (Nb : base <> []) by (intros ->; discriminate).
    assert (K : exists r0, rules_at (le_rules e) (usage_rules (le_rules e) c) ttype = Some (RNew r0)).
    { unfold usage_rules, config_rules. rewrite Eb.
      destruct (dget c (re_clients (le_rules e))) as [pc|].
      - assert (X : is_nil base = false) by (now destruct base). rewrite X. cbn [rules_at]. rewrite dget_app.
        match goal with |- context [dget ttype (map (fun kr => (fst kr, RNew (@?f kr))) base)] =>
          rewrite (dget_map_snd (fun k r => RNew (f (k, r)))) end. cbn beta. rewrite C. cbn. eauto.
      - cbn [rules_at]. rewrite (dget_map_snd (fun _ r => RNew r)). rewrite C. cbn. eauto. }
    destruct K as (r0 & K). rewrite K.
    destruct (ur_truthy (rules_now (le_rules e) (RNew r0))) eqn:T.
    + destruct (match rules_at (le_rules e) m ttype with Some _ => _ | None => _ end); [|reflexivity].
      unfold modify, ret. cbn. now destruct e.
    + exfalso. rewrite K in U. cbn in U.
      assert (S_ := effective_says (le_rules e) c ttype). rewrite <- U in S_. destruct S_ as [S_ _]. cbn in T.
      assert (ur_truthy r0 = true); [|congruence]. apply S_. right. exists d. auto.
Qed.
Print Assumptions C107_unchanged.

(** Refuted where neither the client nor the provider says anything: the rules of the grant go into the defaults, and they are in force for every other
    client and grant of which nothing is said. *)
Theorem C107_default_refuted : forall e m c ttype d g m' c',
  neither_says e c ttype -> dget ttype (le_default e) = Some d -> applied (le_rules e) m ttype = Some g -> g <> no_rules ->
  neither_says e c' ttype -> applied (le_rules e) m' ttype = None ->
  let e' := snd (get_usage_rules ttype m c e) in
  fst (get_usage_rules ttype m' c' e) = Ok d /\ fst (get_usage_rules ttype m' c' e') = Ok (ur_update d g).
Proof.
  intros e m c ttype d g m' c' N D A Ng N' A' e'. apply truthy_says in Ng.
  rewrite neither_iff in N, N'. subst e'. rewrite (lookup_default e m c ttype N), D, A, Ng. cbn [snd].
  rewrite (lookup_default e m' c' ttype N'), D, A'. split; [reflexivity|].
  rewrite (lookup_default (mkLE (le_rules e) _) m' c' ttype N'). cbn [le_default le_rules]. rewrite dget_dset_eq, A'. reflexivity.
Qed.
Print Assumptions C107_default_refuted.

(** ... and where only the client says something they go into the record of the client. *)
Theorem C107_client_refuted : forall e m c ttype p g,
  re_config (le_rules e) = None -> client_rules (le_rules e) c ttype = Some p -> p <> no_rules ->
  applied (le_rules e) m ttype = Some g -> g <> no_rules ->
  client_rules (le_rules (snd (get_usage_rules ttype m c e))) c ttype = Some (ur_update p g).
Proof.
  intros e m c ttype p g Rc Cr Np A Ng. apply truthy_says in Ng. apply truthy_says in Np. unfold client_rules in Cr.
  destruct (dget c (re_clients (le_rules e))) as [pc|] eqn:Ec; [|discriminate].
  unfold get_usage_rules, bind, gets, id. unfold applied in A.
  destruct (rules_at (le_rules e) m ttype) as [x|]; [|discriminate]. cbn in A. injection A as A. rewrite A, Ng.
  unfold usage_rules, config_rules. rewrite Rc, Ec. cbn [is_nil rules_at]. rewrite Ec. unfold dmem. rewrite Cr.
  cbn [rules_now]. unfold dget_or. rewrite Ec, Cr, Np. unfold modify, ret. cbn [snd le_rules rules_write]. rewrite Ec.
  unfold client_rules. cbn [re_clients]. rewrite dget_dset_eq. rewrite dget_dset_eq. unfold rules_now, dget_or. rewrite ?Ec, ?Cr. reflexivity.
Qed.
Print Assumptions C107_client_refuted.

(** Before any lookup, where nobody says anything, the rules are those out of the box. *)
Theorem C107_out_of_the_box : forall rules m c ttype r,
  let e := mkLE rules DEFAULT_USAGE in
  neither_says e c ttype -> applied rules m ttype = None ->
  (fst (get_usage_rules ttype m c e) = Ok r <-> out_of_the_box ttype r).
Proof.
  intros rules m c ttype r e N A. rewrite neither_iff in N. rewrite (lookup_default e m c ttype N). unfold e. cbn [le_default le_rules]. rewrite A.
  unfold DEFAULT_USAGE, out_of_the_box. cbn [dget].
  destruct (String.eqb_spec ttype "authorization_code") as [->|N1]; [|destruct (String.eqb_spec ttype "access_token") as [->|N2]; [|destruct (String.eqb_spec ttype "refresh_token") as [->|N3]]];
    cbn [fst on_top].
  1-3: split; [intros X; injection X as <-; cbn; auto 8|]; destruct r as [a b x]; cbn; intros [(E & -> & -> & ->)|[(E & -> & -> & ->)|(E & -> & -> & ->)]]; try discriminate E; reflexivity.
  split; [discriminate|]. intros [(-> & _)|[(-> & _)|(-> & _)]]; contradiction.
Qed.
Print Assumptions C107_out_of_the_box.

(** A provider with rules for codes, a client with its own for access tokens, a grant with its own for refresh tokens *)
Definition env107 : lookup_env :=
  mkLE (mkRE (Some [("authorization_code", mkURules (Some 1%Z) None (Some 120%Z))])
             [("c1", [("access_token", mkURules None None (Some 600%Z))]); ("c2", [])]) DEFAULT_USAGE.
Definition grant107 : rulemap :=
  MNew [("authorization_code", RNew (mkURules None (Some ["access_token"]) (Some 60%Z))); ("refresh_token", RNew (mkURules (Some 5%Z) None None));
        ("access_token", RNew no_rules)].
Example C107_ex :
  get_usage_rules "authorization_code" grant107 "c1" env107 = (Ok (mkURules (Some 1%Z) (Some ["access_token"]) (Some 60%Z)), env107) /\
  get_usage_rules "access_token" grant107 "c1" env107 = (Ok (mkURules None None (Some 600%Z)), env107) /\
  get_usage_rules "access_token" grant107 "c2" env107 = (Ok (mkURules None (Some []) (Some 3600%Z)), env107) /\
  get_usage_rules "id_token" grant107 "c2" env107 = (Raise EKey, env107).
Proof. vm_compute. repeat split. Qed.
Example C107_ex_default :
  let e' := snd (get_usage_rules "refresh_token" grant107 "c1" env107) in
  neither_says env107 "c1" "refresh_token" /\ neither_says env107 "c2" "refresh_token" /\
  option_map ur_max_usage (match fst (get_usage_rules "refresh_token" (MNew []) "c2" env107) with Ok r => Some r | _ => None end) = Some None /\
  option_map ur_max_usage (match fst (get_usage_rules "refresh_token" (MNew []) "c2" e') with Ok r => Some r | _ => None end) = Some (Some 5%Z).
Proof.
  cbv zeta. split; [|split]; [split; intros (r & E & _); discriminate| split; intros (r & E & _); discriminate|]. vm_compute. split; reflexivity.
Qed.

Example C107_ex_box : neither_says env107 "c2" "access_token" /\ applied (le_rules env107) (MNew []) "access_token" = None /\
  out_of_the_box "access_token" (mkURules None (Some []) (Some 3600%Z)).
Proof. split; [split; intros (r & E & _); discriminate|]. split; [reflexivity|right; left; auto]. Qed.

(** ** C108 *)
(** What a grant is made with when it is added: what is given for the parameters that are passed on, and nothing else. *)
Theorem C108_arguments : forall (V : Type) (kwargs args : dict V),
  add_grant_arguments kwargs = Ok args ->
  forall k, dget k args = (if smem k passed_on then dget k kwargs else None).
Proof.
  intros V kwargs args H k. unfold add_grant_arguments in H. cbv zeta in H.
  destruct (forallb _ _) eqn:F; [|discriminate].
  assert (E : args = filter (fun kv => smem (fst kv) grant_attributes) kwargs) by congruence. subst args. clear H. rewrite forallb_forall in F.
  assert (G : dget k (filter (fun kv => smem (fst kv) grant_attributes) kwargs) = if smem k grant_attributes then dget k kwargs else None).
  { clear F. induction kwargs as [|[q v] l IH]; [now destruct (smem k grant_attributes)|]. cbn [filter fst].
    destruct (smem q grant_attributes) eqn:S_; cbn [dget]; destruct (String.eqb k q) eqn:Q.
    - apply String.eqb_eq in Q. subst q. now rewrite S_.
    - exact IH.
    - apply String.eqb_eq in Q. subst q. rewrite IH, S_. reflexivity.
    - exact IH. }
  rewrite G. destruct (smem k grant_attributes) eqn:S_.
  2:{ destruct (smem k passed_on) eqn:S2; [|reflexivity]. exfalso. apply smem_In in S2. cbn in S2.
      repeat (destruct S2 as [<-|S2]; [discriminate S_|]). contradiction. }
  destruct (smem k passed_on) eqn:S2; [reflexivity|].
  destruct (dget k kwargs) as [v|] eqn:D; [|reflexivity]. exfalso.
  assert (I : In (k, v) (filter (fun kv => smem (fst kv) grant_attributes) kwargs)) by (apply dget_In; exact G).
  specialize (F _ I). cbn [fst] in F. apply smem_In in S_. cbn in S_.
  repeat (destruct S_ as [<-|S_]; [first [discriminate S2 | discriminate F]|]). contradiction.
Qed.
Print Assumptions C108_arguments.

(** Refuted: the claims that are given (and expires_in and the map of tokens) are dropped without a word ... *)
Theorem C108_dropped_refuted : forall (V : Type) (kwargs : dict V) k v,
  In k ["claims"; "expires_in"; "token_map"] -> add_grant_arguments ((k, v) :: kwargs) = add_grant_arguments kwargs.
Proof. intros V kwargs k v H. cbn in H. destruct H as [<-|[<-|[<-|[]]]]; reflexivity. Qed.
Print Assumptions C108_dropped_refuted.

(** ... while giving "claim" or "users" is an error, though other names that a grant does not have are none. *)
Theorem C108_error_refuted : forall (V : Type) (kwargs : dict V) k v,
  In (k, v) kwargs -> In k ["claim"; "users"] -> add_grant_arguments kwargs = Raise EType.
Proof.
  intros V kwargs k v I H. unfold add_grant_arguments. destruct (forallb _ _) eqn:F; [|reflexivity]. rewrite forallb_forall in F.
  assert (J : In (k, v) (filter (fun kv => smem (fst kv) grant_attributes) kwargs)).
  { apply filter_In. split; [exact I|]. cbn in H. destruct H as [<-|[<-|[]]]; reflexivity. }
  specialize (F _ J). cbn in H. destruct H as [<-|[<-|[]]]; discriminate.
Qed.
Print Assumptions C108_error_refuted.
Example C108_ex :
  add_grant_arguments [("scope", 1); ("claims", 2); ("sub", 3); ("nonsense", 4)] = Ok [("scope", 1); ("sub", 3)] /\
  add_grant_arguments [("scope", 1); ("users", 2)] = Raise EType.
Proof. split; reflexivity. Qed.

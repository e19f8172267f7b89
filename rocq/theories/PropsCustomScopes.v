(** PropsCustomScopes.v: the add-on for scopes of one's own (C99), oidc/add_on/custom_scopes.py. *)
From Verif Require Import Base BaseProofs Types Monad Ctx Scopes ScopesSpec ScopesProofs Claims ClaimsSpec ClaimsProofs PropsClaims.
Local Open Scope string_scope.

Lemma In_dget_some {A} (k : string) (d : dict A) : In k (dkeys d) -> exists v, dget k d = Some v.
Proof.
  intros I. destruct (dget k d) as [v|] eqn:E; [eauto|]. exfalso. unfold dkeys in I. induction d as [|[k' v] d IH]; [easy|]. cbn in *.
  destruct (String.eqb_spec k k') as [->|N]; [discriminate|]. destruct I as [E'|I]; [congruence|auto].
Qed.
Lemma dget_some_In {A} (k : string) (d : dict A) v : dget k d = Some v -> In k (dkeys d).
Proof. intros E. apply dget_In in E. unfold dkeys. now apply (in_map fst) in E. Qed.
Lemma strs_vstrs l : strs_of (map VStr l) = l.
Proof. induction l as [|x l IH]; [reflexivity|]. cbn [map]. unfold strs_of in *. cbn [flat_map]. rewrite IH. reflexivity. Qed.
Lemma in_vstrs s l : In (VStr s) (map VStr l) <-> In s l.
Proof. rewrite in_map_iff. split; [intros (x & E & I); now injection E as ->|intros I; exists s; auto]. Qed.

Section Custom.
  Variables (standard custom : dict (list string)) (cx : ctx).
  Hypothesis Hc : NoDup (dkeys custom).
  Let after := add_custom_scopes standard custom cx.

  (** ** What the scopes stand for: one's own as configured, the others as ever. *)
Theorem C99_meaning : forall s, dget s (cx_scope2claims after) = match dget s custom with Some names => Some names | None => dget s standard end.
  Proof. intros s. unfold after, add_custom_scopes. cbn [cx_scope2claims]. rewrite dget_dupdate, ScopesProofs.dget_rev by exact Hc. reflexivity. Qed.

  (** ** What is published: what was published, and one's own scopes and their claims. Nothing else changes. *)
Theorem C99_published : forall sup cls,
    dget "scopes_supported" (cx_provider_info cx) = Some (vstrs sup) -> dget "claims_supported" (cx_provider_info cx) = Some (vstrs cls) ->
    (exists l, dget "scopes_supported" (cx_provider_info after) = Some (vstrs l) /\ forall s, In s l <-> In s sup \/ exists names, dget s custom = Some names) /\
    (exists l, dget "claims_supported" (cx_provider_info after) = Some (vstrs l) /\
       forall k, In k l <-> In k cls \/ exists s names, dget s custom = Some names /\ In k names) /\
    (forall k, k <> "scopes_supported" -> k <> "claims_supported" -> dget k (cx_provider_info after) = dget k (cx_provider_info cx)) /\
    cx_issuer after = cx_issuer cx /\ cx_capabilities after = cx_capabilities cx /\ cx_modules after = cx_modules cx /\
    cx_users after = cx_users cx /\ cx_grant_config after = cx_grant_config cx.
  Proof.
    intros sup cls E1 E2. unfold after, add_custom_scopes. cbn [cx_provider_info cx_issuer cx_capabilities cx_modules cx_users cx_grant_config]. unfold vstrs in E1, E2. rewrite E1, E2. cbv beta iota zeta. rewrite !strs_vstrs.
    split; [|split; [|split; [|repeat split]]].
    - eexists. rewrite dget_dset_neq, dget_dset_eq by discriminate. split; [reflexivity|]. intros s. rewrite in_app_iff.
      split; intros [I|I]; auto; [right; now apply In_dget_some|destruct I as (n & I); right; now apply dget_some_In in I].
    - eexists. rewrite dget_dset_eq. split; [reflexivity|]. intros k. rewrite in_app_iff, in_concat.
      split; (intros [I|I]; [now left|right]).
      + destruct I as (names & I & K). apply in_map_iff in I. destruct I as ((s & n) & E & I). cbn in E. subst n. exists s, names. split; [now apply In_dget|exact K].
      + destruct I as (s & names & E & K). exists names. split; [|exact K]. apply dget_In in E. now apply (in_map snd) in E.
    - intros k N1 N2. rewrite !dget_dset_neq by congruence. reflexivity.
  Qed.

  (** ** Who may use them: every client that has no list of its own; and what could be used before can be used still. This holds where scopes
      are published. *)
Theorem C99_usable_partial : forall sup clients c s,
    cx_scope2claims cx = standard -> dget "scopes_supported" (cx_provider_info cx) = Some (vstrs sup) -> sup <> [] ->
    (may_use after clients c s <->
     may_use cx clients c s \/
     ((exists names, dget s custom = Some names) /\
      exists cli : msg, dget c clients = Some cli /\ forall l, dget "allowed_scopes" cli = Some (VList l) -> l = [])).
  Proof.
    intros sup clients c s Es E Ne. assert (K : In s (dkeys (cx_scope2claims after)) <-> (exists n, dget s custom = Some n) \/ In s (dkeys standard)).
    { split.
      - intros I. apply In_dget_some in I. destruct I as (n & I). rewrite C99_meaning in I. destruct (dget s custom); [eauto|]. right. now apply dget_some_In in I.
      - intros I. assert (X : exists n, dget s (cx_scope2claims after) = Some n).
        { rewrite C99_meaning. destruct (dget s custom); [eauto|]. destruct I as [(n & I)|I]; [discriminate|]. now apply In_dget_some. }
        destruct X as (n & X). now apply dget_some_In in X. }
    assert (P : dget "scopes_supported" (cx_provider_info after) = Some (vstrs (sup ++ dkeys custom))).
    { unfold after, add_custom_scopes. cbn [cx_provider_info]. rewrite dget_dset_neq, dget_dset_eq by discriminate. rewrite E. unfold vstrs at 2. now rewrite strs_vstrs. }
    unfold may_use. split.
    - intros (cli & Ec & [A|(N & I & J)]); [left; exists cli; auto|]. specialize (J _ P). assert (X : map VStr (sup ++ dkeys custom) <> []).
      { destruct sup; [congruence|discriminate]. } specialize (J X). apply (proj1 (in_vstrs _ _)) in J. apply in_app_iff in J. destruct J as [J|J].
      + destruct (dget s custom) as [n|] eqn:Ed; [right; split; [eauto|exists cli; auto]|].
        left. exists cli. split; [exact Ec|]. right. split; [exact N|]. apply K in I. destruct I as [(n & I)|I]; [congruence|]. rewrite Es. split; [exact I|].
        intros l El _. rewrite E in El. injection El as <-. now apply in_vstrs.
      + right. apply In_dget_some in J. split; [exact J|exists cli; auto].
    - intros [(cli & Ec & [A|(N & I & J)])|((n & I) & cli & Ec & N)]; exists cli; (split; [exact Ec|]); [now left|right|right]; (split; [exact N|]); (split; [apply K|]).
      + right. now rewrite <- Es.
      + intros l El _. rewrite P in El. injection El as <-. apply in_vstrs, in_app_iff. left. apply in_vstrs. apply (J _ E). destruct sup; [congruence|discriminate].
      + eauto.
      + intros l El _. rewrite P in El. injection El as <-. apply in_vstrs, in_app_iff. right. now apply dget_some_In in I.
  Qed.

  (** ** Whoever asks for one of them gets, where scopes stand for claims, all the claims configured for it (clients without a list of their own). *)
Theorem C99_released : forall clients c (cli : msg) scopes s names k,
    dget c clients = Some cli -> dget "allowed_scopes" cli = None -> In s scopes -> dget s custom = Some names -> In k names ->
    exists sc d, filter_scopes after clients c scopes = Ok sc /\ convert_scopes2claims sc None (cx_scope2claims after) [] = Ok d /\ dget k d = Some VNone.
  Proof.
    intros clients c cli scopes s names k Ec Al Is Es Ik.
    assert (P : exists l, dget "scopes_supported" (cx_provider_info after) = Some (vstrs (l ++ dkeys custom))).
    { unfold after, add_custom_scopes. cbn [cx_provider_info]. rewrite dget_dset_neq, dget_dset_eq by discriminate. eexists. reflexivity. }
    destruct P as (l & P). assert (T1 : list_or_absent "scopes_supported" (cx_provider_info after)) by (right; eauto).
    assert (T : forall cli', dget c clients = Some cli' -> list_or_absent "allowed_scopes" cli') by (intros cli' E'; left; congruence).
    destruct (filter_kept after clients c scopes T1 T) as (sc & R & Kp).
    assert (All : forall x, In x sc -> dmem x (cx_scope2claims after) = true).
    { intros x I. apply (kept_In _ _ _ Kp) in I. destruct I as (_ & cli' & E' & [(l' & A & _)|(_ & I & _)]); [congruence|].
      apply In_dget_some in I. destruct I as (n & I). unfold dmem. now rewrite I. }
    destruct (convert_go (cx_scope2claims after) sc [] All) as (d & Hd & _). exists sc, d. split; [exact R|]. split; [exact Hd|].
    apply (C40_scope_claims after clients c scopes sc d T1 T R Hd k). exists s, names. split; [exact Is|]. split; [|split; [|exact Ik]].
    - exists cli. split; [exact Ec|]. right. split; [intros l' E'; congruence|]. split.
      + apply (dget_some_In s _ names). now rewrite C99_meaning, Es.
      + intros l' E' _. rewrite P in E'. injection E' as <-. apply in_vstrs, in_app_iff. right. now apply dget_some_In in Es.
    - now rewrite C99_meaning, Es.
  Qed.

  (** ** Refuted: where none are published, which stands for all of them and is what a provider with the OAuth2 authorization endpoint does
      (C76_none_published_refuted), the add-on takes all other scopes away from every client without a list of its own, openid too. *)
Theorem C99_taken_away_refuted : forall clients c (cli : msg) s,
    (dget "scopes_supported" (cx_provider_info cx) = None \/ dget "scopes_supported" (cx_provider_info cx) = Some (VList [])) ->
    cx_scope2claims cx = standard -> custom <> [] -> dget c clients = Some cli -> dget "allowed_scopes" cli = None ->
    In s (dkeys standard) -> dget s custom = None ->
    may_use cx clients c s /\ filter_scopes cx clients c [s] = Ok [s] /\ ~ may_use after clients c s /\ filter_scopes after clients c [s] = Ok [].
  Proof.
    intros clients c cli s P Es Ne Ec Al I Ds. assert (M : may_use cx clients c s).
    { exists cli. split; [exact Ec|]. right. split; [intros l El; congruence|]. rewrite Es. split; [exact I|]. intros l El Nl. destruct P as [P|P]; [congruence|].
      rewrite P in El. injection El as <-. congruence. }
    assert (P' : dget "scopes_supported" (cx_provider_info after) = Some (vstrs (dkeys custom))).
    { unfold after, add_custom_scopes. cbn [cx_provider_info]. rewrite dget_dset_neq, dget_dset_eq by discriminate. destruct P as [-> | ->]; reflexivity. }
    assert (M' : ~ may_use after clients c s).
    { intros (cli' & Ec' & [(l & A & _)|(_ & _ & J)]); [congruence|]. specialize (J _ P'). assert (X : map VStr (dkeys custom) <> []) by (destruct custom; [congruence|discriminate]).
      specialize (J X). apply (proj1 (in_vstrs _ _)) in J. apply In_dget_some in J. destruct J as (n & J). congruence. }
    assert (T : forall cli', dget c clients = Some cli' -> list_or_absent "allowed_scopes" cli') by (intros cli' E'; left; congruence).
    split; [exact M|]. split; [|split; [exact M'|]].
    - destruct (filter_kept cx clients c [s]) as (r & R & Kp); [destruct P; [now left|right; eauto]|exact T|]. rewrite R. f_equal.
      inversion Kp as [|? ? ? _ Kn|? ? ? B Kn]; subst; [inversion Kn; reflexivity|contradiction].
    - destruct (filter_kept after clients c [s]) as (r & R & Kp); [right; eauto|exact T|]. rewrite R. f_equal.
      inversion Kp as [|? ? ? B Kn|? ? ? _ Kn]; subst; [contradiction|inversion Kn; reflexivity].
  Qed.

  (** ** Refuted: the policy for unknown scopes does not know them: unless the capabilities list them too, every request with one of them is
      refused to every client without a list of its own. *)
Theorem C99_denied_refuted : forall cinfo l s before rest,
    dget "allowed_scopes" cinfo = None -> dmem "client_id" cinfo = true -> capability cx "scopes_supported" = Some (VList l) -> denies_unknown cx ->
    (exists names, dget s custom = Some names) -> ~ In (VStr s) l ->
    check_unknown_scopes_policy after (before ++ s :: rest)%list cinfo = Raise EUnAuthorizedClient.
  Proof.
    intros cinfo l s before rest Al Id C D _ N. destruct (check_policy after cinfo (before ++ s :: rest)%list) as (H & _).
    - now left.
    - exists l. exact C.
    - exact Id.
    - destruct (H D) as [(_ & F)|(E & _)]; [|exact E]. exfalso. apply Forall_app in F. destruct F as (_ & F). inversion F as [|? ? A _]; subst.
      destruct A as [(l' & A & _)|(_ & l' & A & B)]; [congruence|]. apply N. change (capability after "scopes_supported") with (capability cx "scopes_supported") in A. congruence.
  Qed.
End Custom.
Print Assumptions C99_meaning.
Print Assumptions C99_published.
Print Assumptions C99_usable_partial.
Print Assumptions C99_released.
Print Assumptions C99_taken_away_refuted.
Print Assumptions C99_denied_refuted.

(** ** Refuted: configured twice, under two names, the add-on forgets the scopes of the first time, though it goes on publishing them. *)
Theorem C99_twice_refuted : forall standard first second cx s names, NoDup (dkeys first) -> NoDup (dkeys second) ->
  dget s first = Some names -> dget s standard = None -> dget s second = None ->
  let after := add_custom_scopes standard second (add_custom_scopes standard first cx) in
  dget s (cx_scope2claims after) = None /\
  exists l, dget "scopes_supported" (cx_provider_info after) = Some (vstrs l) /\ In s l.
Proof.
  intros standard first second cx s names N1 N2 E1 Es E2 after. split; [unfold after; rewrite C99_meaning, E2, Es by assumption; reflexivity|].
  unfold after, add_custom_scopes. cbn [cx_provider_info]. eexists. rewrite dget_dset_neq, dget_dset_eq by discriminate. split; [reflexivity|].
  rewrite (dget_dset_neq "scopes_supported" "claims_supported"), dget_dset_eq by discriminate. cbn [vstrs]. rewrite strs_vstrs.
  apply in_app_iff. left. apply in_app_iff. right. now apply dget_some_In in E1.
Qed.
Print Assumptions C99_twice_refuted.

(** ** Refuted, about all scopes: a scope that is listed for a client but stands for no claims (a scope for some API, for example, or one that was
      forgotten) makes every request with it fail with a KeyError, wherever scopes stand for claims. *)
Theorem C99_listed_refuted : forall cx clients c (cli : msg) l ar scopes usage s,
  In usage usages -> enabled cx usage "add_claims_by_scope" -> module_kwarg cx usage "base_claims" = None ->
  module_kwarg cx usage "enable_claims_per_client" = None ->
  dget c clients = Some cli -> dget "allowed_scopes" cli = Some (VList l) -> list_or_absent "scopes_supported" (cx_provider_info cx) ->
  In (VStr s) l -> dget s (cx_scope2claims cx) = None -> In s scopes ->
  get_claims cx c ar scopes usage clients = (Raise EKey, clients).
Proof.
  intros cx clients c cli l ar scopes usage s Iu (v & On & T) Nb Nc Ec Al Ls Il Ns Is.
  destruct (filter_kept cx clients c scopes) as (r & R & Kp); [exact Ls|intros cli' E; assert (cli' = cli) by congruence; subst; right; eauto|].
  assert (Ir : In s r) by (apply (kept_In _ _ _ Kp); split; [exact Is|exists cli; split; [exact Ec|left; eauto]]).
  assert (X : forall d, convert_scopes2claims r None (cx_scope2claims cx) d = Raise EKey).
  { clear -Ir Ns. induction r as [|x r IH]; intros d; [easy|]. cbn [convert_scopes2claims]. unfold dsub. destruct Ir as [->|I].
    - now rewrite Ns.
    - destruct (dget x (cx_scope2claims cx)); cbn; [now apply IH|reflexivity]. }
  assert (Z : smem usage ["userinfo"; "id_token"; "introspection"; "access_token"] = true) by (apply smem_In; exact Iu).
  unfold get_claims. rewrite Z. unfold module_kwarg in On, Nb, Nc. destruct (dget usage (cx_modules cx)) as [kw|] eqn:Em; [|discriminate].
  rewrite Nc, Nb, On. unfold bind, gets, ret, lift, id. rewrite T. cbn [cupdate]. unfold ret.
  assert (Q : negb (is_nil scopes) = true) by (destruct scopes; [easy|reflexivity]). rewrite Q. cbn [andb]. rewrite R, X. reflexivity.
Qed.
Print Assumptions C99_listed_refuted.

(** ** A case: the scope "research" of one's own, with affiliations, and another meaning for "email" *)
Definition own99 : dict (list string) := [("research", ["eduperson"; "name"]); ("email", ["email"])].
Definition cx99 : ctx := add_custom_scopes s2c own99 cx1.
Definition bare99 : ctx := mkCtx "https://op.example.org" [("scopes_supported", VList [])] (cx_capabilities cx1) s2c mods users (mkGConf None None).
Example C99_ex :
  NoDup (dkeys own99) /\
  filter_scopes cx1 clients1 "c2" ["research"; "openid"] = Ok ["openid"] /\ filter_scopes cx99 clients1 "c2" ["research"; "openid"] = Ok ["research"; "openid"] /\
  filter_scopes cx99 clients1 "c1" ["research"; "openid"] = Ok ["openid"] /\
  convert_scopes2claims ["research"] None (cx_scope2claims cx99) [] = Ok [("eduperson", VNone); ("name", VNone)] /\
  filter_scopes bare99 clients1 "c2" ["openid"] = Ok ["openid"] /\ filter_scopes (add_custom_scopes s2c own99 bare99) clients1 "c2" ["openid"] = Ok [] /\
  filter_scopes (add_custom_scopes s2c own99 bare99) clients1 "c2" ["research"] = Ok ["research"].
Proof. split; [|vm_compute; repeat split]. repeat constructor; cbn; intuition discriminate. Qed.
Example C99_ex_denied : let cx := add_custom_scopes s2c [("lab", ["name"])] cx1 in
  check_unknown_scopes_policy cx ["openid"; "lab"] [("client_id", VStr "c2")] = Raise EUnAuthorizedClient /\
  filter_scopes cx clients1 "c2" ["openid"; "lab"] = Ok ["openid"; "lab"] /\
  capability cx "scopes_supported" = Some (vstrs ["openid"; "email"; "profile"; "research"]).
Proof. vm_compute. repeat split. Qed.
(** c9 may use the scope "api", which stands for nothing *)
Definition clients99 : cdb := [("c9", [("client_id", VStr "c9"); ("allowed_scopes", vstrs ["openid"; "api"])])].
Definition cx99b : ctx := mkCtx "https://op.example.org" (cx_provider_info cx1) (cx_capabilities cx1) s2c [("userinfo", [("add_claims_by_scope", VBool true)])] users (mkGConf None None).
Example C99_ex_listed : enabled cx99b "userinfo" "add_claims_by_scope" /\ dget "api" s2c = None /\
  fst (get_claims cx99b "c9" None ["openid"] "userinfo" clients99) <> Raise EKey /\
  get_claims cx99b "c9" None ["openid"; "api"] "userinfo" clients99 = (Raise EKey, clients99).
Proof. split; [exists (VBool true); split; reflexivity|]. split; [reflexivity|]. split; [vm_compute; discriminate|vm_compute; reflexivity]. Qed.

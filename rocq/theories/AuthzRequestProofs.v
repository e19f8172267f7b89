From Verif Require Import Base BaseProofs Monad MonadProofs Types Ctx Uri Registration AuthnBroker ScopesProofs ClientAuthnProofs AuthzRequest AuthzRequestSpec.

Lemma rmap_str e l r : Registration.rmap (as_str e) l = Ok r -> l = map VStr r.
Proof.
  revert r. induction l as [|x l IH]; intros r; cbn; [intros E; assert (r = []) by congruence; now subst|]. destruct x; cbn; try discriminate.
  destruct (Registration.rmap (as_str e) l) as [r'|]; cbn; [|discriminate]. intros E. assert (r = s :: r') by congruence. subst. cbn. now rewrite (IH r' eq_refl).
Qed.
Lemma rmap_str_ok e l : Registration.rmap (as_str e) (map VStr l) = Ok l.
Proof. induction l as [|x l IH]; cbn; [reflexivity|]. now rewrite IH. Qed.
Lemma rmap_words e l r : Registration.rmap (fun x => let* s := as_str e x in Ok (split " " s)) l = Ok r ->
  forall ws, In ws r <-> exists s, In (VStr s) l /\ ws = split " " s.
Proof.
  revert r. induction l as [|x l IH]; intros r; cbn [Registration.rmap].
  - intros E ws. assert (r = []) by congruence. subst. split; [intros []|intros (s & [] & _)].
  - destruct x as [| | |s| |]; cbn [as_str rbind]; try discriminate.
    destruct (Registration.rmap _ l) as [r'|]; cbn; [|discriminate]. intros E. assert (r = split " " s :: r') by congruence. subst.
    intros ws. cbn. rewrite (IH r' eq_refl ws). split.
    + intros [<-|(s' & I & ->)]; eauto.
    + intros (s' & [X|I] & ->); [left; congruence|right; eauto].
Qed.
Lemma rmap_words_ok e l : (forall v, In v l -> exists s, v = VStr s) ->
  exists r, Registration.rmap (fun x => let* s := as_str e x in Ok (split " " s)) l = Ok r.
Proof.
  induction l as [|x l IH]; intros H; cbn; [eauto|]. destruct (H x (or_introl eq_refl)) as (s & ->). cbn.
  destruct IH as (r & ->); [intros; apply H; now right|]. cbn. eauto.
Qed.
Lemma set_eqb_words a b : set_eqb a b = true <-> same_words a b.
Proof. rewrite set_eqb_spec. reflexivity. Qed.

Lemma verify_sound rq info : verify_response_type rq info = Ok true -> typed rq ->
  (forall v, dget "response_types" info = Some v -> exists l, v = VList l) ->
  exists rt, dget "response_type" rq = Some (VList (map VStr rt)) /\
    match dget "response_types" info with
    | None | Some (VList []) => same_words rt ["code"]
    | Some (VList l) => exists r, In (VStr r) l /\ same_words rt (split " " r)
    | _ => False
    end.
Proof.
  unfold verify_response_type, word_sets, dsub. intros H T L.
  destruct (dget "response_type" rq) as [v|] eqn:E.
  2:{ match type of H with rbind ?x _ = _ => destruct x end; cbn in H; discriminate. }
  destruct (T v E) as (l & ->). cbn [of_option] in H.
  assert (Hr : exists regs, dget_or "response_types" (VList []) info = VList regs /\
     match dget "response_types" info with None => regs = [] | Some v => v = VList regs end).
  { unfold dget_or. destruct (dget "response_types" info) as [w|] eqn:W; [|eauto].
    destruct (L w eq_refl) as (regs & ->). eauto. }
  destruct Hr as (regs & Er & Em). rewrite Er in H. cbn [iter_val rbind] in H.
  destruct (Registration.rmap (fun x => let* s := as_str EAttr x in Ok (split " " s)) regs) as [ws|] eqn:R; cbn [rbind] in H; [|discriminate].
  destruct (Registration.rmap (as_str EType) l) as [rt|] eqn:R2; cbn [rbind] in H; [|discriminate].
  apply rmap_str in R2. subst l. exists rt. split; [reflexivity|].
  assert (X : existsb (set_eqb rt) (match ws with [] => [["code"]] | _ => ws end) = true) by congruence. clear H.
  assert (Y : match regs with [] => same_words rt ["code"] | _ => exists r, In (VStr r) regs /\ same_words rt (split " " r) end).
  { destruct regs as [|x regs].
    - cbn in R. assert (ws = []) by congruence. subst. cbn in X. apply set_eqb_words. now destruct (set_eqb rt ["code"]).
    - destruct ws as [|w ws].
      + cbn in R. destruct x; cbn in R; try discriminate. destruct (Registration.rmap _ regs); discriminate.
      + apply existsb_exists in X. destruct X as (y & I & S). apply set_eqb_words in S.
        apply (rmap_words EAttr _ _ R y) in I. destruct I as (s & I & ->). eauto. }
  destruct (dget "response_types" info) as [w|]; [|now subst regs]. subst w. destruct regs; exact Y.
Qed.

Lemma verify_complete rq info rt : dget "response_type" rq = Some (VList (map VStr rt)) ->
  match dget "response_types" info with
  | None | Some (VList []) => same_words rt ["code"]
  | Some (VList l) => (forall v, In v l -> exists s, v = VStr s) /\ exists r, In (VStr r) l /\ same_words rt (split " " r)
  | _ => False
  end -> verify_response_type rq info = Ok true.
Proof.
  intros E H. unfold verify_response_type, word_sets, dsub, dget_or. rewrite E. cbn [of_option].
  assert (C : same_words rt ["code"] -> existsb (set_eqb rt) [["code"]] = true).
  { intros S. cbn. apply set_eqb_words in S. now rewrite S. }
  destruct (dget "response_types" info) as [v|].
  - destruct v as [| | | |l|]; try easy. cbn [iter_val rbind]. destruct l as [|x l].
    + cbn [Registration.rmap rbind]. rewrite rmap_str_ok. cbn [rbind]. now rewrite (C H).
    + destruct H as [A (r & I & S)]. destruct (rmap_words_ok EAttr _ A) as (ws & R). rewrite R. cbn [rbind].
      rewrite rmap_str_ok. cbn [rbind].
      assert (J : In (split " " r) ws) by (apply (rmap_words EAttr _ _ R); eauto).
      destruct ws as [|w ws]; [destruct J|]. f_equal. apply existsb_exists. exists (split " " r). split; [exact J|]. now apply set_eqb_words.
  - cbn [iter_val rbind Registration.rmap]. rewrite rmap_str_ok. cbn [rbind]. now rewrite (C H).
Qed.

Lemma dset_same {A} k (v : A) d : dget k d = Some v -> dset k v d = d.
Proof.
  induction d as [|[k' v'] d IH]; cbn; [discriminate|]. destruct (String.eqb_spec k k') as [E|E].
  - intros X. injection X as X. subst. reflexivity.
  - intros X. now rewrite (IH X).
Qed.

(** ** One pass *)
Lemma post_parse_inv e c rq m : post_parse e c rq = Ok (Parsed m) ->
  exists cid info uri, c = Some cid /\ dget cid (re_cdb e) = Some info /\ info <> [] /\
    verify_response_type rq info = Ok true /\ get_uri (re_u e) (re_cdb e) rq "redirect_uri" = Ok uri /\
    m = dset "redirect_uri" (VStr uri) rq.
Proof.
  unfold post_parse. destruct rq as [|kv rq]; [discriminate|]. set (r := kv :: rq).
  destruct (client_sub (re_cdb e) c) as [[|i info]|] eqn:C.
  - destruct (dsub "client_id" r); cbn; discriminate.
  - unfold client_sub in C. destruct c as [cid|]; [|discriminate]. unfold of_option in C.
    destruct (dget cid (re_cdb e)) as [info'|] eqn:D; [|discriminate]. assert (info' = i :: info) by congruence. subst info'.
    destruct (verify_response_type r (i :: info)) as [[|]|] eqn:V; cbn [rbind negb]; try discriminate.
    destruct (get_uri (re_u e) (re_cdb e) r "redirect_uri") as [uri|x] eqn:G.
    + intros H. exists cid, (i :: info), uri. repeat split; try assumption; congruence.
    + destruct x; discriminate.
  - destruct (dsub "client_id" r); cbn; discriminate.
Qed.
Lemma post_parse_ok e cid info rq uri : rq <> [] -> dget cid (re_cdb e) = Some info -> info <> [] ->
  verify_response_type rq info = Ok true -> get_uri (re_u e) (re_cdb e) rq "redirect_uri" = Ok uri ->
  post_parse e (Some cid) rq = Ok (Parsed (dset "redirect_uri" (VStr uri) rq)).
Proof.
  intros N D I V G. unfold post_parse. destruct rq as [|kv rq]; [easy|]. unfold client_sub, of_option. rewrite D.
  destruct info; [easy|]. rewrite V. cbn [rbind negb]. now rewrite G.
Qed.

(** the request is the client's own or an allowed one *)
Definition sound (e : reqenv) (c : string) (m : msg) : Prop :=
  typed m /\ (dget "client_id" m = Some (VStr c) \/ allowed (re_cdb e) m).
Definition all_allowed (e : reqenv) (db : pardb) : Prop := forall k m, dget k db = Some m -> allowed (re_cdb e) m.

Lemma allowed_typed db m : allowed db m -> typed m.
Proof. intros (c & rt & _ & E & _) v Hv. rewrite E in Hv. injection Hv as <-. eauto. Qed.
Lemma allowed_dset db m k v : k <> "client_id" -> k <> "response_type" -> allowed db m -> allowed db (dset k v m).
Proof. intros H1 H2 (c & rt & A & B & C). exists c, rt. rewrite !dget_dset_neq; auto. Qed.

Lemma do_request_uri_sound e c rq db rq' db' : faithful e -> all_allowed e db -> sound e c rq ->
  do_request_uri e (Some c) rq db = (Ok rq', db') -> sound e c rq' /\ all_allowed e db'.
Proof.
  intros F A S. unfold do_request_uri. destruct (truthy_get "request_uri" rq) as [v|].
  2:{ unfold ret. intros E. injection E as <- <-. auto. }
  destruct v as [| | |uri| |]; try (unfold raise; discriminate).
  destruct (re_par e && starts_with "urn:uuid:" uri).
  - unfold bind, gets, modify, ret, raise. cbv beta iota. destruct (dget uri db) as [[|x m]|] eqn:D; try discriminate.
    intros E. assert (rq' = x :: m /\ db' = ddel uri db) as [-> ->] by (split; congruence).
    split; [split; [|right]; [eapply allowed_typed|]; eapply A; exact D|].
    intros k m' Hk. destruct (String.eqb_spec k uri) as [->|N]; [now rewrite dget_ddel_eq in Hk|].
    rewrite dget_ddel_neq in Hk by congruence. eapply A; exact Hk.
  - unfold lift, fetch_request. destruct (client_sub (re_cdb e) (Some c)) as [info|]; cbn [rbind]; [|discriminate].
    match goal with |- context [rbind ?x _] => destruct x as [[]|] end; cbn [rbind]; [|discriminate].
    destruct (re_fetch e (Some c) uri) as [ver|] eqn:R; cbn [rbind]; [|discriminate].
    intros E. assert (rq' = dset (verified "request") (VDict ver) (dupdate rq ver) /\ db' = db) as [-> ->] by (split; congruence).
    split; [|exact A]. destruct (F _ _ _ R) as (Fc & Ft & Fn). split.
    + intros v Hv. rewrite dget_dset_neq in Hv by discriminate. rewrite dget_dupdate, (dget_rev _ _ Fn) in Hv.
      destruct (dget "response_type" ver) as [w|] eqn:Ew; [assert (v = w) by congruence; subst; now apply Ft|].
      destruct S as [S _]. now apply S.
    + left. rewrite dget_dset_neq by discriminate. rewrite dget_dupdate, (dget_rev _ _ Fn), Fc. reflexivity.
Qed.

Lemma post_parse_sound e c rq m : listed (re_cdb e) -> sound e c rq -> post_parse e (Some c) rq = Ok (Parsed m) ->
  allowed (re_cdb e) m /\ sound e c m.
Proof.
  intros L [T S] H. destruct (post_parse_inv _ _ _ _ H) as (cid & info & uri & Ec & D & I & V & G & ->).
  assert (cid = c) by congruence. subst cid.
  assert (Al : allowed (re_cdb e) rq).
  { destruct S as [S|S]; [|exact S]. destruct (verify_sound _ _ V T) as (rt & E1 & E2); [intros v Hv; eapply L; eauto|].
    exists c, rt. split; [exact S|]. split; [exact E1|]. exists info. split; [exact D|exact E2]. }
  assert (Al' : allowed (re_cdb e) (dset "redirect_uri" (VStr uri) rq)) by (apply allowed_dset; [discriminate|discriminate|exact Al]).
  split; [exact Al'|]. split; [now apply allowed_typed in Al'|now right].
Qed.
Lemma stage_sound e c p db p' db' : faithful e -> listed (re_cdb e) -> all_allowed e db ->
  (forall m, p = Parsed m -> sound e c m) -> stage e (Some c) p db = (Ok p', db') ->
  all_allowed e db' /\ forall m, p' = Parsed m -> allowed (re_cdb e) m /\ sound e c m.
Proof.
  intros F L A S. unfold stage. destruct p as [x|rq].
  - unfold ret. intros E. injection E as <- <-. split; [exact A|discriminate].
  - unfold bind, lift. destruct (do_request_uri e (Some c) rq db) as [[rq'|] db1] eqn:D; [|discriminate].
    destruct (do_request_uri_sound _ _ _ _ _ _ F A (S _ eq_refl) D) as [S1 A1].
    intros E. destruct (post_parse e (Some c) rq') as [q|] eqn:Q; [|discriminate].
    assert (q = p' /\ db' = db1) as [-> ->] by (split; congruence). split; [exact A1|].
    intros m ->. now apply (post_parse_sound _ _ _ _ L S1).
Qed.
(** exceptions leave the store allowed, too *)
Lemma do_request_uri_store e c rq db r db' : all_allowed e db -> do_request_uri e c rq db = (r, db') -> all_allowed e db'.
Proof.
  intros A. unfold do_request_uri. destruct (truthy_get "request_uri" rq) as [v|].
  2:{ unfold ret. intros E. injection E as <- <-. auto. }
  destruct v as [| | |uri| |]; try (unfold raise; intros E; injection E as <- <-; exact A).
  destruct (re_par e && starts_with "urn:uuid:" uri).
  - unfold bind, gets, modify, ret, raise. cbv beta iota. destruct (dget uri db) as [[|x m]|] eqn:D; try (intros E; injection E as <- <-; exact A).
    intros E. assert (db' = ddel uri db) as -> by congruence.
    intros k m' Hk. destruct (String.eqb_spec k uri) as [->|N]; [now rewrite dget_ddel_eq in Hk|].
    rewrite dget_ddel_neq in Hk by congruence. eapply A; exact Hk.
  - unfold lift. intros E. assert (db' = db) as -> by congruence. exact A.
Qed.
Lemma stage_store e c p db r db' : all_allowed e db -> stage e c p db = (r, db') -> all_allowed e db'.
Proof.
  intros A. unfold stage. destruct p as [x|rq]; [unfold ret; intros E; injection E as <- <-; exact A|].
  unfold bind, lift. destruct (do_request_uri e c rq db) as [[rq'|] db1] eqn:D; intros E;
    pose proof (do_request_uri_store _ _ _ _ _ _ A D); assert (db' = db1) as -> by congruence; assumption.
Qed.

Lemma happen_sound e oidc ev db r db' : faithful e -> listed (re_cdb e) -> own ev -> all_allowed e db ->
  happen e oidc ev db = (r, db') ->
  all_allowed e db' /\ forall m, r = Ok (Parsed m) -> allowed (re_cdb e) m.
Proof.
  intros F L O A H.
  assert (S0 : forall c rq, dget "client_id" rq = Some (VStr c) /\ typed rq -> forall m, Parsed rq = Parsed m -> sound e c m).
  { intros c rq [O1 O2] m E. injection E as <-. split; [exact O2|now left]. }
  destruct ev as [t u c rq|t c rq]; cbn [own happen] in *.
  - unfold parse_push, bind in H. destruct (stage e (Some c) (Parsed rq) db) as [[p|] db1] eqn:St.
    2:{ pose proof (stage_store _ _ _ _ _ _ A St). assert (db' = db1) as -> by congruence. split; [assumption|]. intros m X; congruence. }
    destruct (stage_sound _ _ _ _ _ _ F L A (S0 _ _ O) St) as [A1 P1].
    destruct p as [x|m1].
    + unfold ret in H. assert (r = Ok (Refused x) /\ db' = db1) as [-> ->] by (split; congruence). split; [exact A1|]. intros m X; congruence.
    + destruct (P1 _ eq_refl) as [_ S1]. unfold lift in H. destruct (post_parse e (Some c) m1) as [[x|m2]|] eqn:Q.
      * unfold ret in H. assert (r = Ok (Refused x) /\ db' = db1) as [-> ->] by (split; congruence). split; [exact A1|]. intros m X; congruence.
      * destruct (post_parse_sound _ _ _ _ L S1 Q) as [Al _].
        unfold push_request, bind, modify, lift, ret in H.
        assert (A2 : all_allowed e (dset (urn u) m2 db1)).
        { intros k m Hk. rewrite dget_dset in Hk. destruct (String.eqb k (urn u)); [assert (m = m2) by congruence; now subst|eapply A1; exact Hk]. }
        destruct (dsub "redirect_uri" m2); (assert (db' = dset (urn u) m2 db1) as -> by congruence); (split; [exact A2|]);
          intros m X; [assert (m = m2) by congruence; now subst|congruence].
      * assert (db' = db1) as -> by congruence. split; [exact A1|]. intros m X; congruence.
  - destruct oidc.
    + unfold parse_authn, bind in H. destruct (stage e (Some c) (Parsed rq) db) as [[p|] db1] eqn:St.
      2:{ pose proof (stage_store _ _ _ _ _ _ A St). assert (db' = db1) as -> by congruence. split; [assumption|]. intros m X; congruence. }
      destruct (stage_sound _ _ _ _ _ _ F L A (S0 _ _ O) St) as [A1 P1].
      destruct r as [p2|].
      * destruct (stage_sound e c p db1 p2 db' F L A1 (fun m X => proj2 (P1 m X)) H) as [A2 P2]. split; [exact A2|].
        intros m X. assert (p2 = Parsed m) by congruence. now apply P2.
      * split; [eapply stage_store; [|exact H]; exact A1|]. intros m X; congruence.
    + unfold parse_authz in H. destruct r as [p2|].
      * destruct (stage_sound _ _ _ _ _ _ F L A (S0 _ _ O) H) as [A2 P2]. split; [exact A2|].
        intros m X. assert (p2 = Parsed m) by congruence. now apply P2.
      * split; [eapply stage_store; [|exact H]; exact A|]. intros m X; congruence.
Qed.

(** ** Using a pushed request *)
Definition gone (k : string) (db : pardb) : Prop := dget k db = None.
Lemma do_uri_keeps_gone e c rq db r db' k : gone k db -> do_request_uri e c rq db = (r, db') -> gone k db'.
Proof.
  intros A. unfold do_request_uri. destruct (truthy_get "request_uri" rq) as [v|].
  2:{ unfold ret. intros E. injection E as <- <-. auto. }
  destruct v as [| | |uri| |]; try (unfold raise; intros E; injection E as <- <-; exact A).
  destruct (re_par e && starts_with "urn:uuid:" uri).
  - unfold bind, gets, modify, ret, raise. cbv beta iota. destruct (dget uri db) as [[|x m]|]; try (intros E; injection E as <- <-; exact A).
    intros E. assert (db' = ddel uri db) as -> by congruence. unfold gone. rewrite dget_ddel. destruct (String.eqb k uri); [reflexivity|exact A].
  - unfold lift. intros E. assert (db' = db) as -> by congruence. exact A.
Qed.
Lemma stage_keeps_gone e c p db r db' k : gone k db -> stage e c p db = (r, db') -> gone k db'.
Proof.
  intros A. unfold stage. destruct p as [x|rq]; [unfold ret; intros E; injection E as <- <-; exact A|].
  unfold bind, lift. destruct (do_request_uri e c rq db) as [[rq'|] db1] eqn:D; intros E;
    pose proof (do_uri_keeps_gone _ _ _ _ _ _ _ A D); assert (db' = db1) as -> by congruence; assumption.
Qed.
Lemma urn_prefix u : starts_with "urn:uuid:" (urn u) = true.
Proof. unfold starts_with, urn. apply prefix_app. Qed.
Lemma stage_names e c u rq db r db' : re_par e = true -> names u rq -> stage e c (Parsed rq) db = (r, db') ->
  gone (urn u) db' \/ (dget (urn u) db = Some [] /\ r = Raise EValue /\ db' = db).
Proof.
  intros Pr N. unfold stage, do_request_uri. unfold names in N. unfold truthy_get. rewrite N.
  change (truthy (VStr (urn u))) with true. cbn iota. rewrite Pr, urn_prefix. cbn [andb].
  unfold bind, gets, modify, ret, raise, lift. cbv beta iota. destruct (dget (urn u) db) as [[|x m]|] eqn:D; intros E.
  - right. split; [reflexivity|split; congruence].
  - left. assert (db' = ddel (urn u) db) as -> by congruence. unfold gone. apply dget_ddel_eq.
  - left. assert (db' = db) as -> by congruence. exact D.
Qed.
Lemma stage_gone e c u rq db : re_par e = true -> names u rq -> gone (urn u) db -> stage e c (Parsed rq) db = (Raise EValue, db).
Proof.
  intros Pr N G. unfold stage, do_request_uri. unfold names in N. unfold truthy_get. rewrite N.
  change (truthy (VStr (urn u))) with true. cbn iota. rewrite Pr, urn_prefix. cbn [andb].
  unfold bind, gets, raise. cbv beta iota. now rewrite G.
Qed.
Lemma authz_gone e oidc t c u rq db : re_par e = true -> names u rq -> gone (urn u) db ->
  happen e oidc (Authz t c rq) db = (Raise EValue, db).
Proof.
  intros Pr N G. cbn [happen]. destruct oidc; unfold parse_authn, parse_authz, bind; now rewrite (stage_gone _ _ _ _ _ Pr N G).
Qed.
Lemma authz_spent e oidc t c u rq db r db' : re_par e = true -> names u rq ->
  happen e oidc (Authz t c rq) db = (r, db') -> went_through r = true -> gone (urn u) db' /\ dget (urn u) db <> None.
Proof.
  intros Pr N H W. cbn [happen] in H. split.
  - destruct oidc.
    + unfold parse_authn, bind in H. destruct (stage e (Some c) (Parsed rq) db) as [[p|] db1] eqn:S.
      * destruct (stage_names _ _ _ _ _ _ _ Pr N S) as [G|(_ & X & _)]; [|discriminate]. eapply stage_keeps_gone; [exact G|exact H].
      * assert (r = Raise e0) by congruence. subst. discriminate.
    + destruct (stage_names _ _ _ _ _ _ _ Pr N H) as [G|(_ & X & _)]; [exact G|]. subst. discriminate.
  - intros G. assert (X := authz_gone e oidc t c u rq db Pr N G). cbn [happen] in X. rewrite X in H. injection H as <- _. discriminate.
Qed.
(** only pushing puts something under a URN *)
Lemma happen_keeps_gone e oidc ev db r db' u : gone (urn u) db -> (forall t c rq, ev <> Push t u c rq) ->
  happen e oidc ev db = (r, db') -> gone (urn u) db'.
Proof.
  intros G N H. destruct ev as [t u' c rq|t c rq]; cbn [happen] in H.
  - unfold parse_push, bind in H. destruct (stage e (Some c) (Parsed rq) db) as [[p|] db1] eqn:S; pose proof (stage_keeps_gone _ _ _ _ _ _ _ G S) as G1.
    2:{ assert (db' = db1) as -> by congruence. exact G1. }
    destruct p as [x|m1]; [unfold ret in H; assert (db' = db1) as -> by congruence; exact G1|].
    unfold lift in H. destruct (post_parse e (Some c) m1) as [[x|m2]|];
      [unfold ret in H; assert (db' = db1) as -> by congruence; exact G1| |assert (db' = db1) as -> by congruence; exact G1].
    unfold push_request, bind, modify, lift, ret in H.
    assert (db' = dset (urn u') m2 db1) as -> by (destruct (dsub "redirect_uri" m2); congruence).
    unfold gone. rewrite dget_dset_neq; [exact G1|]. intros E. unfold urn in E.
    assert (u = u') by (cbn in E; congruence). subst. now apply (N t c rq).
  - destruct oidc; unfold parse_authn, parse_authz, bind in H.
    + destruct (stage e (Some c) (Parsed rq) db) as [[p|] db1] eqn:S; pose proof (stage_keeps_gone _ _ _ _ _ _ _ G S) as G1.
      * eapply stage_keeps_gone; [exact G1|exact H].
      * assert (db' = db1) as -> by congruence. exact G1.
    + eapply stage_keeps_gone; [exact G|exact H].
Qed.

Lemma names_b_true u rq : names_b u rq = true -> names u rq.
Proof. unfold names_b, names. destruct (dget "request_uri" rq) as [[| | |s| |]|]; try discriminate. intros E. apply String.eqb_eq in E. now subst. Qed.

Fixpoint pushes (u : string) (l : list event) : nat :=
  match l with [] => 0 | Push _ u' _ _ :: l' => (if String.eqb u' u then 1 else 0) + pushes u l' | _ :: l' => pushes u l' end.
Lemma used_bound e oidc u l : re_par e = true -> forall db,
  (times_used u l (outcomes e oidc l db) <= pushes u l + match dget (urn u) db with Some _ => 1 | None => 0 end)%nat.
Proof.
  intros Pr. induction l as [|ev l IH]; intros db; cbn [outcomes times_used]; [lia|].
  destruct (happen e oidc ev db) as [r db'] eqn:H.
  destruct ev as [t u' c rq|t c rq]; cbn [times_used pushes].
  - destruct (String.eqb_spec u' u) as [E|E].
    + specialize (IH db'). destruct (dget (urn u) db'), (dget (urn u) db); lia.
    + specialize (IH db'). destruct (dget (urn u) db) as [m|] eqn:D.
      * destruct (dget (urn u) db'); lia.
      * assert (G : gone (urn u) db') by (eapply happen_keeps_gone; [exact D| |exact H]; congruence). rewrite G in IH. lia.
  - specialize (IH db'). destruct (names_b u rq && went_through r) eqn:B.
    + apply andb_true_iff in B. destruct B as [B W]. apply names_b_true in B.
      destruct (authz_spent _ _ _ _ _ _ _ _ _ Pr B H W) as [G D]. rewrite G in IH. destruct (dget (urn u) db); [lia|easy].
    + destruct (dget (urn u) db) as [m|] eqn:D.
      * destruct (dget (urn u) db'); lia.
      * assert (G : gone (urn u) db') by (eapply happen_keeps_gone; [exact D| |exact H]; congruence). rewrite G in IH. lia.
Qed.
Lemma pushes_uuids u l : NoDup (uuids l) -> (pushes u l <= 1)%nat /\ (~ In u (uuids l) -> pushes u l = 0%nat).
Proof.
  induction l as [|ev l IH]; cbn; [split; [lia|reflexivity]|]. destruct ev as [t u' c rq|t c rq]; cbn; [|exact IH].
  intros N. inversion N as [|? ? N1 N2]; subst. destruct (IH N2) as [A B]. destruct (String.eqb_spec u' u) as [->|E].
  - split; [rewrite (B N1); lia|]. intros H. destruct H. now left.
  - split; [lia|]. intros H. apply B. tauto.
Qed.

Lemma taken_bound u l : forall db, (times_taken u l db <= times_pushed u l + if dmem (urn u) db then 1 else 0)%nat.
Proof.
  assert (Inj : forall a b, urn a = urn b -> a = b) by (intros a b E; unfold urn in E; cbn in E; congruence).
  induction l as [|s l IH]; intros db; cbn [times_taken times_pushed]; [lia|]. specialize (IH (tnext s db)).
  destruct s as [u' rq|t u'|t u']; cbn [tnext taken] in *.
  - unfold dmem in *. rewrite dget_dset in IH. destruct (String.eqb_spec u' u) as [->|E].
    + rewrite String.eqb_refl in IH. destruct (dget (urn u) db); lia.
    + destruct (String.eqb_spec (urn u) (urn u')) as [X|X]; [apply Inj in X; congruence|]. lia.
  - lia.
  - unfold dmem in *. rewrite dget_ddel in IH. destruct (String.eqb_spec u' u) as [->|E].
    + rewrite String.eqb_refl in IH. cbn [andb]. destruct (dget (urn u) db); lia.
    + cbn [andb]. destruct (String.eqb_spec (urn u) (urn u')) as [X|X]; [apply Inj in X; congruence|]. lia.
Qed.

(** ** Pushed and then used *)
Lemma get_uri_present u db rq uri uri' : dget "redirect_uri" rq = Some (VStr uri) -> get_uri u db rq "redirect_uri" = Ok uri' -> uri' = uri.
Proof.
  intros E. unfold get_uri, dmem. rewrite E. destruct (verify_uri u db rq "redirect_uri" None); cbn [rbind]; [|discriminate].
  unfold msub_str. rewrite E. congruence.
Qed.
Lemma push_fix e c rq db m db' : parse_push e (Some c) rq db = (Ok (Parsed m), db') ->
  exists uri, dget "redirect_uri" m = Some (VStr uri) /\ get_uri (re_u e) (re_cdb e) m "redirect_uri" = Ok uri /\ m <> [].
Proof.
  unfold parse_push, bind. destruct (stage e (Some c) (Parsed rq) db) as [[[x|m1]|] db1] eqn:S; try (unfold ret; discriminate).
  unfold lift. intros H. assert (Q : post_parse e (Some c) m1 = Ok (Parsed m)) by congruence. clear H.
  unfold stage, bind, lift in S. destruct (do_request_uri e (Some c) rq db) as [[rq1|] db2]; [|discriminate].
  assert (Q0 : post_parse e (Some c) rq1 = Ok (Parsed m1)) by congruence. clear S.
  destruct (post_parse_inv _ _ _ _ Q0) as (_ & _ & uri0 & _ & _ & _ & _ & _ & E0).
  destruct (post_parse_inv _ _ _ _ Q) as (_ & _ & uri & _ & _ & _ & _ & G & E).
  assert (D1 : dget "redirect_uri" m1 = Some (VStr uri0)) by (subst m1; apply dget_dset_eq).
  assert (uri = uri0) by (eapply get_uri_present; eauto). subst uri0.
  rewrite (dset_same _ _ _ D1) in E. subst m. exists uri. split; [exact D1|]. split; [exact G|].
  intros X. rewrite X in D1. discriminate.
Qed.
Lemma stage_again e A info m uri db : dget A (re_cdb e) = Some info -> info <> [] -> verify_response_type m info = Ok true ->
  dget "redirect_uri" m = Some (VStr uri) -> get_uri (re_u e) (re_cdb e) m "redirect_uri" = Ok uri -> m <> [] ->
  truthy_get "request_uri" m = None -> stage e (Some A) (Parsed m) db = (Ok (Parsed m), db).
Proof.
  intros D I V R G N U. unfold stage, do_request_uri. rewrite U. unfold bind, ret, lift.
  rewrite (post_parse_ok _ _ _ _ _ N D I V G), (dset_same _ _ _ R). reflexivity.
Qed.
Lemma pushed_used e oidc t t' u A B rq out m info db db1 :
  re_par e = true ->
  happen e oidc (Push t u B rq) db = (Ok (Parsed m), db1) ->
  truthy_get "request_uri" m = None -> names u out ->
  dget A (re_cdb e) = Some info -> info <> [] -> verify_response_type m info = Ok true ->
  happen e oidc (Authz t' A out) db1 = (Ok (Parsed m), ddel (urn u) db1).
Proof.
  intros Pr H U N D I V. cbn [happen] in H. unfold bind in H.
  destruct (parse_push e (Some B) rq db) as [[[x|m0]|] db2] eqn:Pp; try (unfold ret in H; discriminate).
  unfold push_request, bind, modify, lift, ret in H.
  destruct (dsub "redirect_uri" m0) eqn:Sr; [|discriminate].
  assert (m0 = m /\ db1 = dset (urn u) m db2) as [-> ->] by (split; congruence). clear H.
  destruct (push_fix _ _ _ _ _ _ Pp) as (uri & R & G & Nm).
  assert (S1 : stage e (Some A) (Parsed out) (dset (urn u) m db2) = (Ok (Parsed m), ddel (urn u) (dset (urn u) m db2))).
  { unfold stage, do_request_uri, names in *. unfold truthy_get. rewrite N. change (truthy (VStr (urn u))) with true. cbn iota.
    rewrite Pr, urn_prefix. cbn [andb]. unfold bind, gets, modify, ret, lift. cbv beta iota. rewrite dget_dset_eq. destruct m as [|x m]; [easy|].
    rewrite (post_parse_ok _ _ _ _ _ Nm D I V G), (dset_same _ _ _ R). reflexivity. }
  cbn [happen]. destruct oidc; unfold parse_authn, parse_authz, bind; rewrite S1; [|reflexivity].
  now apply (stage_again _ _ info _ uri).
Qed.

(** NewClientProofs.v: lemmas on the registration of new clients. *)
From Verif Require Import Base BaseProofs Types Monad MonadProofs Ctx ScopesProofs Uri UriSpec UriProofs
  ClientAuthn ClientAuthnSpec ClientAuthnProofs Registration RegistrationSpec RegistrationProofs NewClientSpec.
Local Open Scope Z_scope.

(** ** Preferences *)
Lemma rmap_vstrs l : rmap (fun x => let* s := as_str EAttr x in Ok (split " " s)) (map VStr l) = Ok (map (split " ") l).
Proof. induction l as [|s l IH]; [reflexivity|]. cbn [map rmap as_str rbind]. rewrite IH. reflexivity. Qed.
Lemma sp_sets_vstrs l : sp_sets (vstrs l) = Ok (map (split " ") l).
Proof. apply rmap_vstrs. Qed.
Lemma sp_sets_total v : (exists s, v = VStr s) \/ (exists l, v = vstrs l) -> sp_sets v = Ok (words v).
Proof.
  intros H. destruct (sp_sets v) as [w|] eqn:E; [f_equal; now apply sp_sets_words|]. destruct H as [(s & ->)|(l & ->)]; [discriminate|].
  rewrite sp_sets_vstrs in E. discriminate.
Qed.
Lemma hashable_strs l : forallb hashable (map VStr l) = true.
Proof. induction l; auto. Qed.

Lemma match_pref_holds provider pref prov v l :
  (exists s, v = VStr s) \/ (exists l, v = vstrs l) -> dget prov provider = Some (vstrs l) ->
  (by_words pref -> offered_words v (map VStr l)) -> (~ by_words pref -> offered v (map VStr l)) ->
  match_pref provider pref prov v = Ok tt.
Proof.
  intros Hv Hp W N. unfold match_pref, dsub. rewrite Hp. cbn [of_option rbind].
  destruct (smem pref ["response_types"; "default_acr_values"]%string) eqn:E.
  - apply smem_In in E. assert (B : by_words pref) by (destruct E as [<-|[<-|[]]]; [now left|now right]). specialize (W B).
    unfold match_sp_sep. rewrite sp_sets_total by exact Hv. cbn [rbind]. rewrite sp_sets_vstrs. cbn [rbind].
    replace (forallb _ (words v)) with true; [reflexivity|]. symmetry. apply forallb_forall. intros w Hw. apply existsb_exists.
    destruct (W w Hw) as (s & Hs & S). exists (split " " s). split; [|now apply set_eqb_spec].
    apply in_map_iff in Hs. destruct Hs as (s' & [= ->] & Hs). now apply in_map.
  - apply smem_false in E. assert (B : ~ by_words pref) by (intros [-> | ->]; apply E; cbn; tauto). specialize (N B).
    destruct Hv as [(s & ->)|(vs & ->)].
    + cbn [val_in vstrs rbind]. cbn [offered] in N. apply existsb_str in N. unfold vstrs. cbn [val_in rbind]. rewrite N. reflexivity.
    + unfold vstrs. cbn [iter_val rbind]. rewrite !hashable_strs. cbn [andb rbind].
      replace (forallb _ (map VStr vs)) with true; [reflexivity|]. symmetry. apply forallb_forall. intros x Hx.
      destruct (proj1 (in_map_iff _ _ _) Hx) as (s & <- & _). apply existsb_str. now apply N.
Qed.
Lemma match_prefs_holds provider prefs rq :
  (forall pref prov v, In (pref, prov) prefs -> dget pref rq = Some v -> match_pref provider pref prov v = Ok tt) ->
  match_prefs provider prefs rq = Ok tt.
Proof.
  induction prefs as [|[a b] prefs IH]; [reflexivity|]. intros H. cbn [match_prefs].
  assert (X : match dget a rq with Some v => match_pref provider a b v | None => Ok tt end = Ok tt).
  { destruct (dget a rq) as [v|] eqn:E; [|reflexivity]. apply H; [now left|exact E]. }
  rewrite X. cbn [rbind]. apply IH. intros pref prov v I. apply H. now right.
Qed.
Lemma supported_match c rq : supported (rc_provider c) rq -> match_client_request c rq = Ok tt.
Proof.
  intros H. apply match_prefs_holds. intros pref prov v I E.
  assert (Cap : incl preference2provider capabilities).
  { intros x Hx. cbn in Hx. repeat (destruct Hx as [<-|Hx]; [cbn; tauto|]). contradiction. }
  destruct (H pref prov v (Cap _ I) E) as (F & l & P & W & N). now apply match_pref_holds with l.
Qed.

(** ** Addresses *)
(** what is kept of a good address *)
Definition kept_entry (u : urllib) (p : urlparts) : val :=
  VList [VStr (up_base p); if nonempty (up_query p) then match ul_qs u (up_query p) with [] => VDict [] | d => vquery d end else VDict []].
Lemma good_kept u rq uri p : ul_split u uri = Ok p -> (own_scheme p -> up_query p = ""%string /\ up_base p = uri) -> kept u rq uri p (kept_entry u p).
Proof.
  intros Sp O. unfold kept, kept_entry.
  assert (D : (is_native rq /\ own_scheme p) \/ ~ (is_native rq /\ own_scheme p)).
  { destruct (String.string_dec (up_scheme p) "http") as [E1|N1]; [right; intros [_ [X _]]; congruence|].
    destruct (String.string_dec (up_scheme p) "https") as [E2|N2]; [right; intros [_ [_ X]]; congruence|].
    unfold is_native. destruct (dget "application_type" rq) as [v|]; [|right; intros [X _]; discriminate].
    destruct (str_dec v "native") as [->|N]; [|right; intros [X _]; congruence]. left. split; [reflexivity|]. split; auto. }
  destruct D as [[N1 N2]|D]; [|right; split; [exact D|eexists; split; reflexivity]].
  left. destruct (O N2) as [Q ->]. rewrite Q. cbn. auto.
Qed.
Lemma addresses_kept u rq uris : dget "redirect_uris" rq = Some (vstrs uris) -> Forall (good_address u rq) uris ->
  exists l, verify_redirect_uris u rq = Ok l /\ Forall2 (fun uri e => exists p, ul_split u uri = Ok p /\ up_fragment p = ""%string /\ e = kept_entry u p) uris l.
Proof.
  intros U F.
  assert (X : exists l, Forall2 (fun uri e => exists p, ul_split u uri = Ok p /\ scheme_ok rq p /\ up_fragment p = ""%string /\ kept u rq uri p e /\ e = kept_entry u p) uris l).
  { clear U. induction F as [|uri uris (p & Sp & Sc & Fr & O) F (l & IH)]; [exists []; constructor|].
    exists (kept_entry u p :: l). constructor; [|exact IH]. exists p. split; [exact Sp|]. split; [exact Sc|]. split; [exact Fr|]. split; [now apply good_kept|reflexivity]. }
  destruct X as (l & X). exists l. split.
  - apply (redirects_iff u rq l (map VStr uris) U). clear -X. induction X as [|uri e uris l (p & Sp & Sc & Fr & K & _) X IH]; [constructor|].
    cbn [map]. constructor; [|exact IH]. apply redirect_iff. exists uri, p. auto 10.
  - clear -X. induction X as [|uri e uris l (p & Sp & Sc & Fr & K & E) X IH]; constructor; [|exact IH]. exists p. auto.
Qed.
Lemma kept_proper u p : (forall q, proper_query (ul_qs u q)) -> proper_entry (kept_entry u p).
Proof.
  intros Q. unfold kept_entry. eexists _, _. split; [reflexivity|]. right; right. destruct (nonempty (up_query p)).
  - destruct (ul_qs u (up_query p)) as [|kv q] eqn:E.
    + exists []. split; [reflexivity|]. split; [constructor|easy].
    + exists (kv :: q). split; [reflexivity|]. rewrite <- E. apply Q.
  - exists []. split; [reflexivity|]. split; [constructor|easy].
Qed.
Lemma kept_same u p : same_params (query_of u p)
  (if nonempty (up_query p) then match ul_qs u (up_query p) with [] => VDict [] | d => vquery d end else VDict []).
Proof.
  unfold query_of. destruct (nonempty (up_query p)).
  - destruct (ul_qs u (up_query p)); intros k s; reflexivity.
  - intros k s. split; intros X; exfalso; revert X; now apply no_param_falsy.
Qed.
Lemma kept_matches u uris l uri : Forall2 (fun uri e => exists p, ul_split u uri = Ok p /\ up_fragment p = ""%string /\ e = kept_entry u p) uris l ->
  In uri uris -> matches u l uri.
Proof.
  intros F I. destruct (in_split _ _ I) as (u1 & u2 & ->). apply Forall2_app_inv_l in F. destruct F as (l1 & l2 & _ & F & ->).
  inversion F as [|? e ? l3 (p & Sp & Fr & ->) _]; subst. exists p. eexists. split; [exact Sp|]. split; [exact Fr|]. split; [apply in_or_app; right; left; reflexivity|].
  now apply kept_same.
Qed.
Lemma kept_bases u uris l : Forall2 (fun uri e => exists p, ul_split u uri = Ok p /\ up_fragment p = ""%string /\ e = kept_entry u p) uris l ->
  map base_of l = map (before_query u) uris.
Proof. induction 1 as [|uri e uris l (p & Sp & _ & ->) F IH]; [reflexivity|]. cbn [map]. rewrite IH. unfold before_query. rewrite Sp. reflexivity. Qed.

(** ** Showing *)
Lemma pairs_total q : exists ps, pairs_of (map (fun kv => (fst kv, vstrs (snd kv))) q) = Ok ps.
Proof.
  induction q as [|[k l] q (ps & IH)]; [exists []; reflexivity|]. cbn [map fst snd pairs_of vstrs as_list rbind]. rewrite IH. cbn [rbind]. eauto.
Qed.
Lemma pair_uri_total u p : exists s, pair_uri u (kept_entry u p) = Ok (VStr s).
Proof.
  unfold kept_entry, pair_uri, join_query. destruct (nonempty (up_query p)); [|cbn; eauto].
  destruct (ul_qs u (up_query p)) as [|kv q]; [cbn; eauto|]. destruct (pairs_total (kv :: q)) as (ps & E).
  unfold vquery. assert (T : truthy (VDict (map (fun kv0 => (fst kv0, vstrs (snd kv0))) (kv :: q))) = true) by reflexivity. rewrite T.
  cbn [as_dict rbind]. rewrite E. cbn. eauto.
Qed.
Lemma post_pair_total u uri e : post_logout_uri u (VStr uri) = Ok e -> exists s, pair_uri u e = Ok s.
Proof.
  unfold post_logout_uri, split_uri. cbn [as_str rbind]. destruct (ul_split u uri) as [p|]; [|discriminate]. cbn [rbind]. destruct (nonempty (up_fragment p)); [discriminate|].
  cbn [rbind fst snd]. intros H. assert (X : e = VList [VStr (up_base p); if nonempty (up_query p) then vquery (ul_qs u (up_query p)) else VStr ""]) by congruence. subst e.
  unfold pair_uri, join_query. destruct (nonempty (up_query p)); [|cbn; eauto].
  destruct (ul_qs u (up_query p)) as [|kv q]; [cbn; eauto|]. destruct (pairs_total (kv :: q)) as (ps & E).
  unfold vquery. assert (T : truthy (VDict (map (fun kv0 => (fst kv0, vstrs (snd kv0))) (kv :: q))) = true) by reflexivity. rewrite T.
  cbn [as_dict rbind]. rewrite E. cbn. eauto.
Qed.
Lemma request_frag_total u uri e : request_uri u (VStr uri) = Ok e -> (forall p, ul_split u uri = Ok p -> up_fragment p = ""%string \/ length (split "#" uri) = 2%nat) ->
  exists s, frag_uri e = Ok s.
Proof.
  unfold request_uri. cbn [as_str rbind]. destruct (ul_split u uri) as [p|]; [|discriminate]. cbn [rbind]. intros H N. specialize (N p eq_refl).
  destruct (nonempty (up_query p)); [discriminate|]. destruct (nonempty (up_fragment p)) eqn:F.
  - destruct N as [N|N]; [rewrite N in F; discriminate|]. destruct (split "#" uri) as [|a [|b [|]]]; cbn in N; try discriminate.
    assert (X : e = vstrs [a; b]) by congruence. subst e. unfold frag_uri, vstrs. cbn [map]. destruct (truthy (VStr b)); cbn; eauto.
  - assert (X : e = VList [VStr uri; VStr ""]) by congruence. subst e. cbn. eauto.
Qed.
(** every entry of the member can be shown *)
Definition showable (f : val -> result val) (k : string) (info : msg) : Prop :=
  forall v, dget k info = Some v -> exists l r, v = VList l /\ rmap f l = Ok r.
Lemma rmap_total {A B} (f : A -> result B) l : (forall x, In x l -> exists y, f x = Ok y) -> exists r, rmap f l = Ok r.
Proof.
  induction l as [|x l IH]; intros H; [exists []; reflexivity|]. destruct (H x (or_introl eq_refl)) as (y & E). destruct IH as (r & R); [intros z I; apply H; now right|].
  cbn [rmap]. rewrite E, R. cbn. eauto.
Qed.
Lemma rmap_out {A B} (f : A -> result B) l r y : rmap f l = Ok r -> In y r -> exists x, In x l /\ f x = Ok y.
Proof.
  intros H. apply rmap_Forall2 in H. induction H as [|a b l r H F IH]; intros I; [destruct I|]. destruct I as [<-|I]; [exists a; split; [now left|exact H]|].
  destruct (IH I) as (x & Ix & Ex). exists x. split; [now right|exact Ex].
Qed.
Lemma shown_total c info l uris : dget "redirect_uris" info = Some (VList l) ->
  Forall2 (fun uri e => exists p, ul_split (rc_url c) uri = Ok p /\ up_fragment p = ""%string /\ e = kept_entry (rc_url c) p) uris l ->
  showable (pair_uri (rc_url c)) "post_logout_redirect_uris" info -> showable frag_uri "request_uris" info ->
  exists args, shown c info = Ok args.
Proof.
  intros R F P Q. unfold shown, comb_uri. set (m := filter _ info).
  assert (G : forall k, dget k m = if smem k (rc_params c) then dget k info else None).
  { intros k. unfold m. apply (dget_filter_key (fun x => smem x (rc_params c))). }
  assert (X : exists m1, comb_pairs (rc_url c) "redirect_uris" m = Ok m1).
  { unfold comb_pairs. rewrite G, R. destruct (smem "redirect_uris" (rc_params c)); [|eauto]. cbn [iter_val rbind].
    assert (Y : exists r, rmap (pair_uri (rc_url c)) l = Ok r).
    { clear -F. induction F as [|uri e uris l (p & _ & _ & ->) F (r & IH)]; [exists []; reflexivity|].
      destruct (pair_uri_total (rc_url c) p) as (s & E). cbn [rmap]. rewrite E, IH. cbn. eauto. }
    destruct Y as (r & ->). cbn [rbind]. eauto. }
  destruct X as (m1 & E1). rewrite E1. cbn [rbind].
  assert (Y : exists m2, comb_pairs (rc_url c) "post_logout_redirect_uris" m1 = Ok m2).
  { unfold comb_pairs at 1. rewrite (comb_pairs_get _ _ _ _ _ E1) by discriminate. rewrite G. destruct (smem "post_logout_redirect_uris" (rc_params c)); [|eauto].
    destruct (dget "post_logout_redirect_uris" info) as [v|] eqn:D; [|eauto]. destruct (P v D) as (lp & r & -> & Er). cbn [iter_val rbind]. rewrite Er. cbn. eauto. }
  destruct Y as (m2 & E2). rewrite E2. cbn [rbind].
  unfold truthy_get. rewrite (comb_pairs_get _ _ _ _ _ E2) by discriminate. rewrite (comb_pairs_get _ _ _ _ _ E1) by discriminate. rewrite G.
  destruct (smem "request_uris" (rc_params c)); [|eauto]. destruct (dget "request_uris" info) as [v|] eqn:D; [|eauto].
  destruct (Q v D) as (lq & r & -> & Er). destruct (truthy (VList lq)); [|eauto]. cbn [iter_val rbind]. rewrite Er. cbn. eauto.
Qed.

(** ** The record *)
Lemma when_absent {A} k rq (f : val -> result A) none : dget k rq = None -> when_in k rq f none = Ok none.
Proof. unfold when_in. now intros ->. Qed.
Lemma key_for_total c rq item prov ci : supported (rc_provider c) rq -> In (item, prov) capabilities ->
  (forall v, dget item rq = Some v -> exists b, rc_has_key c v = Ok b) -> exists ci', key_for c rq item prov ci = Ok ci'.
Proof.
  intros S I K. unfold key_for, when_in. destruct (dget item rq) as [v|] eqn:E; [|eauto].
  destruct (S item prov v I E) as (_ & l & P & _). unfold dsub. rewrite P. cbn [of_option rbind val_in vstrs].
  destruct (existsb (val_eqb v) (map VStr l)); [|eauto]. destruct (K v eq_refl) as ([] & ->); cbn; eauto.
Qed.
Lemma page_total u rq item uris l ci :
  Forall2 (fun uri e => exists p, ul_split u uri = Ok p /\ up_fragment p = ""%string /\ e = kept_entry u p) uris l ->
  (forall uri p, In uri uris -> ul_split u uri = Ok p -> exists q, ul_split u (up_base p) = Ok q /\ up_scheme q = up_scheme p /\ up_netloc q = up_netloc p) ->
  (forall v, dget item rq = Some v -> page_of u uris v) -> dget "redirect_uris" ci = Some (VList l) ->
  exists ci', legal_url u rq item ci = Ok ci' /\ forall k, k <> item -> dget k ci' = dget k ci.
Proof.
  intros F S P D. unfold legal_url, when_in. destruct (dget item rq) as [v|]; [|eauto]. destruct (P v eq_refl) as (url & p & uri & q & -> & Sp & I & Sq & Es & En).
  cbn [as_str rbind]. rewrite Sp. cbn [rbind]. unfold dsub. rewrite D. cbn [of_option rbind iter_val].
  assert (V : verify_url u p l = Ok true).
  { clear P D. revert I S. induction F as [|uri' e uris l (p' & Sp' & _ & ->) F IH]; intros I S; [destruct I|]. unfold kept_entry. cbn [verify_url as_str rbind].
    destruct (S uri' p' (or_introl eq_refl) Sp') as (q' & Sq' & Es' & En'). rewrite Sq'. cbn [rbind].
    destruct (String.eqb (up_scheme p) (up_scheme q') && String.eqb (up_netloc p) (up_netloc q')) eqn:B; [reflexivity|].
    destruct I as [->|I]; [|apply IH; [exact I|intros x y Ix; apply S; now right]].
    exfalso. assert (p' = q) by congruence. subst p'. rewrite Es', En', Es, En, !String.eqb_refl in B. discriminate. }
  rewrite V. cbn [rbind]. eexists. split; [reflexivity|]. intros k N. now apply dget_dset_neq.
Qed.
Lemma sector_total c rq uris ci : dget "redirect_uris" rq = Some (vstrs uris) ->
  (forall v, dget "sector_identifier_uri" rq = Some v -> exists l, rc_fetch c v = Ok (vstrs l) /\ incl uris l) ->
  exists ci', when_in "sector_identifier_uri" rq (fun _ => let* si := verify_sector_identifier c rq in Ok (dset "sector_id" (snd si) (dset "si_redirects" (fst si) ci))) ci = Ok ci' /\
    forall k, k <> "sector_id"%string -> k <> "si_redirects"%string -> dget k ci' = dget k ci.
Proof.
  intros U H. unfold when_in. destruct (dget "sector_identifier_uri" rq) as [v|] eqn:D; [|eauto]. destruct (H v eq_refl) as (l & Fe & In').
  unfold verify_sector_identifier, dsub. rewrite D. cbn [of_option rbind]. rewrite Fe. cbn [rbind]. rewrite U. unfold vstrs at 1. cbn [iter_val rbind].
  assert (X : exists oks, rmap (fun uri => val_in uri (vstrs l)) (map VStr uris) = Ok oks /\ forallb (fun b : bool => b) oks = true).
  { clear -In'. induction uris as [|x uris IH]; [exists []; split; reflexivity|]. destruct IH as (oks & E & B); [intros y I; apply In'; now right|].
    exists (true :: oks). cbn [map rmap]. assert (V : val_in (VStr x) (vstrs l) = Ok true).
    { unfold vstrs. cbn [val_in]. f_equal. apply existsb_exists. exists (VStr x). split; [apply in_map; apply In'; now left|cbn; apply String.eqb_refl]. }
    rewrite V. cbn [rbind]. rewrite E. cbn [rbind]. split; [reflexivity|exact B]. }
  destruct X as (oks & -> & B). cbn [rbind]. rewrite B. cbn [rbind fst snd]. eexists. split; [reflexivity|].
  intros k N1 N2. rewrite dget_dset_neq by exact N1. now apply dget_dset_neq.
Qed.
Lemma post_total u rq ci : (forall v, dget "post_logout_redirect_uris" rq = Some v -> exists l, v = vstrs l /\
    forall uri, In uri l -> exists p, ul_split u uri = Ok p /\ up_fragment p = ""%string) ->
  (dget "post_logout_redirect_uris" rq = None -> dget "post_logout_redirect_uris" ci = None) ->
  exists ci', when_in "post_logout_redirect_uris" rq (fun v => let* l := iter_val v in let* r := rmap (post_logout_uri u) l in
      Ok (dset "post_logout_redirect_uris" (VList r) ci)) ci = Ok ci' /\ showable (pair_uri u) "post_logout_redirect_uris" ci' /\
    forall k, k <> "post_logout_redirect_uris"%string -> dget k ci' = dget k ci.
Proof.
  intros H No. unfold when_in. destruct (dget "post_logout_redirect_uris" rq) as [v|] eqn:D.
  2:{ exists ci. split; [reflexivity|]. split; [|auto]. intros v E. rewrite No in E by reflexivity. discriminate. }
  destruct (H v eq_refl) as (l & -> & F). unfold vstrs. cbn [iter_val rbind].
  destruct (rmap_total (post_logout_uri u) (map VStr l)) as (r & Er).
  { intros x I. apply in_map_iff in I. destruct I as (uri & <- & I). destruct (F uri I) as (p & Sp & Fr). unfold post_logout_uri, split_uri. cbn [as_str rbind]. rewrite Sp. cbn [rbind].
    rewrite Fr. cbn. eauto. }
  rewrite Er. cbn [rbind]. eexists. split; [reflexivity|]. split; [|intros k N; now apply dget_dset_neq].
  intros v E. rewrite dget_dset_eq in E. assert (v = VList r) by congruence. subst v.
  destruct (rmap_total (pair_uri u) r) as (r2 & E2); [|eauto]. intros y I. destruct (rmap_out _ _ _ _ Er I) as (x & Ix & Ex). apply in_map_iff in Ix. destruct Ix as (uri & <- & _).
  exact (post_pair_total _ _ _ Ex).
Qed.
Lemma request_total u rq ci : (forall v, dget "request_uris" rq = Some v -> exists l, v = vstrs l /\
    forall uri, In uri l -> exists p, ul_split u uri = Ok p /\ up_query p = ""%string /\ (up_fragment p = ""%string \/ length (split "#" uri) = 2%nat)) ->
  (dget "request_uris" rq = None -> dget "request_uris" ci = None) ->
  exists ci', when_in "request_uris" rq (fun v => let* l := iter_val v in let* r := rmap (request_uri u) l in
      Ok (dset "request_uris" (VList r) ci)) ci = Ok ci' /\ showable frag_uri "request_uris" ci' /\
    forall k, k <> "request_uris"%string -> dget k ci' = dget k ci.
Proof.
  intros H No. unfold when_in. destruct (dget "request_uris" rq) as [v|] eqn:D.
  2:{ exists ci. split; [reflexivity|]. split; [|auto]. intros v E. rewrite No in E by reflexivity. discriminate. }
  destruct (H v eq_refl) as (l & -> & F). unfold vstrs at 1. cbn [iter_val rbind].
  destruct (rmap_total (request_uri u) (map VStr l)) as (r & Er).
  { intros x I. apply in_map_iff in I. destruct I as (uri & <- & I). destruct (F uri I) as (p & Sp & Qu & _). unfold request_uri. cbn [as_str rbind]. rewrite Sp. cbn [rbind].
    rewrite Qu. change (nonempty "") with false. cbv iota. destruct (nonempty (up_fragment p)); eexists; reflexivity. }
  rewrite Er. cbn [rbind]. eexists. split; [reflexivity|]. split; [|intros k N; now apply dget_dset_neq].
  intros v E. rewrite dget_dset_eq in E. assert (v = VList r) by congruence. subst v.
  destruct (rmap_total frag_uri r) as (r2 & E2); [|eauto]. intros y I. destruct (rmap_out _ _ _ _ Er I) as (x & Ix & Ex). apply in_map_iff in Ix. destruct Ix as (uri & <- & Iu).
  apply (request_frag_total _ _ _ Ex). intros p Sp. destruct (F uri Iu) as (p' & Sp' & _ & X). assert (p' = p) by congruence. now subst p'.
Qed.
(** the members that registration works on *)
Definition worked_on : list string :=
  ["redirect_uris"; "id_token_signed_response_alg"; "userinfo_signed_response_alg"; "post_logout_redirect_uris"; "request_uris"; "sector_id"; "si_redirects";
   "policy_uri"; "logo_uri"; "tos_uri"]%string.
Lemma client_info_total c rq uris ci : registrable c rq uris -> dget "post_logout_redirect_uris" ci = None -> dget "request_uris" ci = None ->
  exists info l, client_info c rq ignored ci = Ok info /\
  verify_redirect_uris (rc_url c) rq = Ok l /\ dget "redirect_uris" info = Some (VList l) /\
  Forall2 (fun uri e => exists p, ul_split (rc_url c) uri = Ok p /\ up_fragment p = ""%string /\ e = kept_entry (rc_url c) p) uris l /\
  showable (pair_uri (rc_url c)) "post_logout_redirect_uris" info /\ showable frag_uri "request_uris" info /\
  forall k, ~ In k worked_on -> dget k info = dget k (take_over ignored rq ci).
Proof.
  intros [M Pl [Gp Gr Gs Ga Gw] Su Ke Lo (U & F) Qu] N1 N2. destruct (addresses_kept _ _ _ U F) as (l & V & Fk).
  unfold client_info. cbv zeta.
  destruct (post_total (rc_url c) rq (take_over ignored rq ci) Gp) as (c1 & E1 & S1 & K1). { intros A. rewrite take_over_get by exact M. now rewrite A, N1. }
  rewrite E1. cbn [rbind]. unfold when_in at 1. rewrite U, V. cbn [rbind].
  set (c2 := dset "redirect_uris" (VList l) c1).
  destruct (request_total (rc_url c) rq c2 Gr) as (c3 & E3 & S3 & K3).
  { intros A. unfold c2. rewrite dget_dset_neq by discriminate. rewrite K1 by discriminate. rewrite take_over_get by exact M. now rewrite A, N2. }
  rewrite E3. cbn [rbind].
  destruct (sector_total c rq uris c3 U Gs) as (c4 & E4 & K4). rewrite E4. cbn [rbind].
  assert (D4 : dget "redirect_uris" c4 = Some (VList l)). { rewrite K4 by discriminate. rewrite K3 by discriminate. apply dget_dset_eq. }
  destruct (page_total (rc_url c) rq "policy_uri" uris l c4 Fk Gw (fun v => Ga _ v (or_introl eq_refl)) D4) as (c5 & E5 & K5). rewrite E5. cbn [rbind].
  assert (D5 : dget "redirect_uris" c5 = Some (VList l)) by (rewrite K5 by discriminate; exact D4).
  destruct (page_total (rc_url c) rq "logo_uri" uris l c5 Fk Gw (fun v => Ga _ v (or_intror (or_introl eq_refl))) D5) as (c6 & E6 & K6). rewrite E6. cbn [rbind].
  assert (D6 : dget "redirect_uris" c6 = Some (VList l)) by (rewrite K6 by discriminate; exact D5).
  destruct (page_total (rc_url c) rq "tos_uri" uris l c6 Fk Gw (fun v => Ga _ v (or_intror (or_intror (or_introl eq_refl)))) D6) as (c7 & E7 & K7). rewrite E7. cbn [rbind].
  destruct (key_for_total c rq "id_token_signed_response_alg" "id_token_signing_alg_values_supported" c7) as (c8 & E8); [exact Su|cbn; tauto|intros v; apply Ke; cbn; tauto|].
  rewrite E8. cbn [rbind].
  destruct (key_for_total c rq "userinfo_signed_response_alg" "userinfo_signing_alg_values_supported" c8) as (c9 & E9); [exact Su|cbn; tauto|intros v; apply Ke; cbn; tauto|].
  exists c9, l. split; [exact E9|]. split; [reflexivity|].
  assert (G : forall k, k <> "id_token_signed_response_alg"%string -> k <> "userinfo_signed_response_alg"%string -> dget k c9 = dget k c7).
  { intros k A1 A2. transitivity (dget k c8); [destruct (key_for_get _ _ _ _ _ _ E9) as [-> |[_ ->]]|destruct (key_for_get _ _ _ _ _ _ E8) as [-> |[_ ->]]]; auto; now apply dget_ddel_neq. }
  split. { rewrite G by discriminate. rewrite K7 by discriminate. rewrite K6 by discriminate. rewrite K5 by discriminate. exact D4. }
  split; [exact Fk|].
  split. { intros v E. rewrite G in E by discriminate. rewrite K7 in E by discriminate. rewrite K6 in E by discriminate. rewrite K5 in E by discriminate. rewrite K4 in E by discriminate. rewrite K3 in E by discriminate. unfold c2 in E. rewrite dget_dset_neq in E by discriminate. now apply S1. }
  split. { intros v E. rewrite G in E by discriminate. rewrite K7 in E by discriminate. rewrite K6 in E by discriminate. rewrite K5 in E by discriminate. rewrite K4 in E by discriminate. now apply S3. }
  intros k N. assert (A : forall x, In x worked_on -> k <> x) by (intros x I ->; contradiction).
  rewrite G by (apply A; cbn; tauto). rewrite K7 by (apply A; cbn; tauto). rewrite K6 by (apply A; cbn; tauto). rewrite K5 by (apply A; cbn; tauto). rewrite K4 by (apply A; cbn; tauto). rewrite K3 by (apply A; cbn; tauto). unfold c2. rewrite dget_dset_neq by (apply A; cbn; tauto). apply K1. apply A. cbn. tauto.
Qed.

(** ScopesProofs.v *)
From Verif Require Import Base BaseProofs Types Ctx Scopes ScopesSpec.

Lemma val_eqb_str s v : val_eqb (VStr s) v = true <-> v = VStr s.
Proof.
  destruct v; cbn; split; try discriminate.
  - intros H. apply String.eqb_eq in H. now subst.
  - intros H. injection H as ->. apply String.eqb_refl.
Qed.

Lemma existsb_str s l : existsb (val_eqb (VStr s)) l = true <-> In (VStr s) l.
Proof.
  rewrite existsb_exists. split.
  - intros (x & Hx & He). apply val_eqb_str in He. now subst.
  - intros H. exists (VStr s). split; [exact H|]. now apply val_eqb_str.
Qed.

Lemma rfilter_kept (f : string -> result bool) (P : string -> Prop) l :
  (forall x, In x l -> (f x = Ok true /\ P x) \/ (f x = Ok false /\ ~ P x)) ->
  exists r, rfilter f l = Ok r /\ kept P l r.
Proof.
  induction l as [|x l IH]; intros H.
  - exists []. split; [reflexivity|constructor].
  - destruct IH as (r & Hr & Hk). { intros y Hy. apply H. now right. }
    destruct (H x (or_introl eq_refl)) as [(Hf & HP)|(Hf & HP)].
    + exists (x :: r). split. { cbn. rewrite Hf. cbn. rewrite Hr. reflexivity. } now constructor.
    + exists r. split. { cbn. rewrite Hf. cbn. rewrite Hr. reflexivity. } now constructor.
Qed.

Lemma kept_In P l r : kept P l r -> forall x, In x r <-> In x l /\ P x.
Proof.
  induction 1 as [|x l l' Hx Hk IH|x l l' Hx Hk IH]; intros y; cbn.
  - tauto.
  - rewrite IH. split; [intros [->|[? ?]]; auto|intros [[->|?] ?]; auto].
  - rewrite IH. split; [intros [? ?]; auto|intros [[->|?] ?]; [contradiction|auto]].
Qed.

Lemma kept_fun P l r r' : kept P l r -> kept P l r' -> r = r'.
Proof.
  intros H. revert r'. induction H; intros r' H'; inversion H'; subst; try contradiction; auto.
  f_equal. auto.
Qed.

Lemma truthy_get_list k m l : dget k m = Some (VList l) -> l <> [] -> truthy_get k m = Some (VList l).
Proof. intros H Hl. unfold truthy_get. rewrite H. destruct l; [contradiction|reflexivity]. Qed.
Lemma truthy_get_nil k m : dget k m = None \/ dget k m = Some (VList []) -> truthy_get k m = None.
Proof. unfold truthy_get. intros [-> | ->]; reflexivity. Qed.

Lemma in_list_cases s l :
  (val_in (VStr s) (VList l) = Ok true /\ In (VStr s) l) \/ (val_in (VStr s) (VList l) = Ok false /\ ~ In (VStr s) l).
Proof.
  cbn [val_in]. destruct (existsb (val_eqb (VStr s)) l) eqn:E.
  - left. split; [reflexivity|]. now apply existsb_str.
  - right. split; [reflexivity|]. rewrite <- existsb_str. congruence.
Qed.

Lemma available_ok cx :
  list_or_absent "scopes_supported" (cx_provider_info cx) ->
  exists r, available_scopes cx = Ok r /\
    forall s, In s r <-> In s (dkeys (cx_scope2claims cx)) /\
      (forall l, dget "scopes_supported" (cx_provider_info cx) = Some (VList l) -> l <> [] -> In (VStr s) l).
Proof.
  intros H. unfold available_scopes.
  assert (D : (exists l, dget "scopes_supported" (cx_provider_info cx) = Some (VList l) /\ l <> []) \/
              (dget "scopes_supported" (cx_provider_info cx) = None \/ dget "scopes_supported" (cx_provider_info cx) = Some (VList []))).
  { destruct H as [H|([|x l] & H)]; [auto|auto|]. left. exists (x :: l). split; [exact H|discriminate]. }
  destruct D as [(l & Hl & Hn)|D].
  - rewrite (truthy_get_list _ _ _ Hl Hn).
    destruct (rfilter_kept (fun s => val_in (VStr s) (VList l)) (fun s => In (VStr s) l)
                (dkeys (cx_scope2claims cx))) as (r & Hr & Hk).
    { intros x _. apply in_list_cases. }
    exists r. split; [exact Hr|]. intros s. rewrite (kept_In _ _ _ Hk). split.
    + intros [A B]. split; [exact A|]. intros l' Hl' _. assert (l' = l) by congruence. now subst.
    + intros [A B]. split; [exact A|]. now apply B.
  - rewrite (truthy_get_nil _ _ D). exists (dkeys (cx_scope2claims cx)). split; [reflexivity|].
    intros s. split; [|tauto]. intros A. split; [exact A|]. intros l Hl Hn. destruct D as [D|D]; congruence.
Qed.

Lemma filter_kept cx clients c scopes :
  list_or_absent "scopes_supported" (cx_provider_info cx) ->
  (forall cli, dget c clients = Some cli -> list_or_absent "allowed_scopes" cli) ->
  exists r, filter_scopes cx clients c scopes = Ok r /\ kept (may_use cx clients c) scopes r.
Proof.
  intros Hs Hc. unfold filter_scopes, allowed_scopes.
  destruct (dget c clients) as [cli|] eqn:Ec.
  - destruct (Hc cli eq_refl) as [Ha|([|x l] & Ha)].
    + rewrite truthy_get_nil by auto. destruct (available_ok cx Hs) as (av & Hav & Hin). rewrite Hav. cbn [rmap rbind].
      apply rfilter_kept. intros s _.
      assert (Hiff : In (VStr s) (map VStr av) <-> may_use cx clients c s).
      { rewrite in_map_iff. unfold may_use. split.
        - intros (y & Hy & Hi). injection Hy as ->. exists cli. split; [exact Ec|]. right.
          split; [congruence|]. now apply Hin.
        - intros (cli' & Hc' & [(l & Hl & _)|(_ & A)]); [congruence|]. exists s. split; [reflexivity|]. now apply Hin. }
      destruct (in_list_cases s (map VStr av)) as [(A & B)|(A & B)]; [left|right]; (split; [exact A|]); tauto.
    + rewrite truthy_get_nil by auto. destruct (available_ok cx Hs) as (av & Hav & Hin). rewrite Hav. cbn [rmap rbind].
      apply rfilter_kept. intros s _.
      assert (Hiff : In (VStr s) (map VStr av) <-> may_use cx clients c s).
      { rewrite in_map_iff. unfold may_use. split.
        - intros (y & Hy & Hi). injection Hy as ->. exists cli. split; [exact Ec|]. right.
          split; [congruence|]. now apply Hin.
        - intros (cli' & Hc' & [(l & Hl & Hi)|(_ & A)]).
          + assert (cli' = cli) by congruence. subst. assert (l = []) by congruence. subst. destruct Hi.
          + exists s. split; [reflexivity|]. now apply Hin. }
      destruct (in_list_cases s (map VStr av)) as [(A & B)|(A & B)]; [left|right]; (split; [exact A|]); tauto.
    + rewrite (truthy_get_list _ _ (x :: l)) by (congruence || discriminate). cbn [rbind].
      apply rfilter_kept. intros s _.
      assert (Hiff : In (VStr s) (x :: l) <-> may_use cx clients c s).
      { unfold may_use. split.
        - intros Hi. exists cli. split; [exact Ec|]. left. exists (x :: l). split; [exact Ha|exact Hi].
        - intros (cli' & Hc' & [(l' & Hl & Hi)|(Hn & A)]).
          + assert (cli' = cli) by congruence. subst. assert (l' = x :: l) by congruence. now subst.
          + assert (cli' = cli) by congruence. subst. specialize (Hn _ Ha). discriminate. }
      destruct (in_list_cases s (x :: l)) as [(A & B)|(A & B)]; [left|right]; (split; [exact A|]); tauto.
  - cbn [rbind]. apply rfilter_kept. intros s _. right. split; [reflexivity|]. intros (cli & Hc' & _). congruence.
Qed.

Lemma policy_spec deny allowed cinfo scopes (P : string -> Prop) :
  (forall s, (val_in (VStr s) allowed = Ok true /\ P s) \/ (val_in (VStr s) allowed = Ok false /\ ~ P s)) ->
  dmem "client_id" cinfo = true ->
  scope_policy deny allowed cinfo scopes =
    (if deny then scope_policy true allowed cinfo scopes else Ok tt) /\
  ((scope_policy true allowed cinfo scopes = Ok tt /\ Forall P scopes) \/
   (scope_policy true allowed cinfo scopes = Raise EUnAuthorizedClient /\ Exists (fun s => ~ P s) scopes)).
Proof.
  intros HP Hc. split.
  - destruct deny; [reflexivity|]. induction scopes as [|s l IH]; [reflexivity|]. cbn. exact IH.
  - induction scopes as [|s l IH]; [left; split; [reflexivity|constructor]|].
    cbn [scope_policy]. destruct (HP s) as [(Hv & Hs)|(Hv & Hs)]; rewrite Hv; cbn [rmap rbind negb].
    + destruct IH as [(A & B)|(A & B)]; [left|right]; split; auto.
    + right. rewrite Hc. split; [reflexivity|]. now constructor.
Qed.

Lemma check_policy cx cinfo scopes :
  list_or_absent "allowed_scopes" cinfo -> (exists l, capability cx "scopes_supported" = Some (VList l)) ->
  dmem "client_id" cinfo = true ->
  (denies_unknown cx ->
   (check_unknown_scopes_policy cx scopes cinfo = Ok tt /\ Forall (policy_allows cx cinfo) scopes) \/
   (check_unknown_scopes_policy cx scopes cinfo = Raise EUnAuthorizedClient /\
    Exists (fun s => ~ policy_allows cx cinfo s) scopes)) /\
  ((forall v, capability cx "deny_unknown_scopes" = Some v -> truthy v = false) ->
   check_unknown_scopes_policy cx scopes cinfo = Ok tt).
Proof.
  intros Ha (sup & Hsup) Hcid. unfold check_unknown_scopes_policy.
  assert (C : exists caps, cx_capabilities cx = Some caps). { unfold capability in Hsup. destruct (cx_capabilities cx); [eauto|discriminate]. }
  destruct C as (caps & C). rewrite C. cbn [of_option rbind].
  assert (K : forall k, capability cx k = dget k caps) by (intros k; unfold capability; now rewrite C).
  assert (E : exists l, match truthy_get "allowed_scopes" cinfo with
                        | Some v => Ok v | None => dsub "scopes_supported" caps end = Ok (VList l) /\
                        forall s, In (VStr s) l <-> policy_allows cx cinfo s).
  { destruct Ha as [Ha|([|x l] & Ha)].
    - rewrite truthy_get_nil by auto. unfold dsub. rewrite <- K, Hsup. exists sup. split; [reflexivity|].
      intros s. split.
      + intros Hi. right. split; [congruence|]. eauto.
      + intros [(l & Hl & _)|(_ & l & Hl & Hi)]; [congruence|]. assert (l = sup) by congruence. now subst.
    - rewrite truthy_get_nil by auto. unfold dsub. rewrite <- K, Hsup. exists sup. split; [reflexivity|].
      intros s. split.
      + intros Hi. right. split; [congruence|]. eauto.
      + intros [(l & Hl & Hi)|(_ & l & Hl & Hi)].
        * assert (l = []) by congruence. subst. destruct Hi.
        * assert (l = sup) by congruence. now subst.
    - rewrite (truthy_get_list _ _ (x :: l)) by (congruence || discriminate). exists (x :: l). split; [reflexivity|].
      intros s. split.
      + intros Hi. left. eauto.
      + intros [(l' & Hl & Hi)|(Hn & _)].
        * assert (l' = x :: l) by congruence. now subst.
        * specialize (Hn _ Ha). discriminate. }
  destruct E as (l & -> & Hl). cbn [rbind].
  assert (HP : forall s, (val_in (VStr s) (VList l) = Ok true /\ policy_allows cx cinfo s) \/
                         (val_in (VStr s) (VList l) = Ok false /\ ~ policy_allows cx cinfo s)).
  { intros s. destruct (in_list_cases s l) as [(A & B)|(A & B)]; [left|right]; (split; [exact A|]); now rewrite <- Hl. }
  split.
  - intros Hd. unfold truthy_get, denies_unknown in *. rewrite <- K, Hd. cbn [truthy].
    apply (policy_spec true (VList l) cinfo scopes _ HP Hcid).
  - intros N. assert (truthy_get "deny_unknown_scopes" caps = None) as ->.
    { unfold truthy_get. rewrite <- K. destruct (capability cx "deny_unknown_scopes") as [v|]; [|reflexivity]. now rewrite (N v eq_refl). }
    apply (policy_spec false (VList l) cinfo scopes _ HP Hcid).
Qed.

(** ** Claims of scopes *)
Lemma none_of_acc names d k :
  dget k (fold_left (fun d n => dset n VNone d) names d) = if smem k names then Some VNone else dget k d.
Proof.
  revert d. induction names as [|n names IH]; intros d; cbn [fold_left]; [reflexivity|].
  rewrite IH, dget_dset. cbn [smem existsb]. destruct (String.eqb k n) eqn:E; cbn [orb]; [|reflexivity].
  fold (smem k names). destruct (smem k names); reflexivity.
Qed.
Lemma dget_none_of names k : dget k (none_of names) = if smem k names then Some VNone else None.
Proof. apply none_of_acc. Qed.

Lemma NoDup_none_of names : NoDup (dkeys (none_of names)).
Proof.
  unfold none_of. assert (H : NoDup (dkeys (@nil (string * val)))) by constructor. revert H. generalize (@nil (string * val)).
  induction names as [|n names IH]; intros d Hd; cbn; [exact Hd|]. apply IH. now apply NoDup_dset.
Qed.

(** lookup in an update by a proper dict *)
Lemma dget_rev {A} (e : dict A) k : NoDup (dkeys e) -> dget k (rev e) = dget k e.
Proof.
  intros H. induction e as [|[k' v'] e IH]; [reflexivity|]. cbn [rev]. rewrite dget_app. inversion H; subst.
  rewrite IH by assumption. cbn [dget]. destruct (String.eqb k k') eqn:E.
  - apply String.eqb_eq in E. subst. replace (dget k' e) with (@None A); [reflexivity|].
    symmetry. now apply dget_None_key.
  - destruct (dget k e); reflexivity.
Qed.
Lemma dget_update {A} (d e : dict A) k : NoDup (dkeys e) ->
  dget k (dupdate d e) = match dget k e with Some v => Some v | None => dget k d end.
Proof. intros H. rewrite dget_dupdate, dget_rev by assumption. reflexivity. Qed.

Lemma NoDup_dupdate {A} (d e : dict A) : NoDup (dkeys d) -> NoDup (dkeys (dupdate d e)).
Proof.
  unfold dupdate. revert d. induction e as [|[k v] e IH]; intros d H; cbn; [exact H|]. apply IH. now apply NoDup_dset.
Qed.

(** some scope of the list brings in the claim *)
Definition brings (m : dict (list string)) (scopes : list string) (k : string) : bool :=
  existsb (fun s => match dget s m with Some names => smem k names | None => false end) scopes.

Lemma convert_go m scopes res :
  (forall s, In s scopes -> dmem s m = true) ->
  exists d, convert_scopes2claims scopes None m res = Ok d /\
    (forall k, dget k d = if brings m scopes k then Some VNone else dget k res) /\
    (NoDup (dkeys res) -> NoDup (dkeys d)).
Proof.
  revert res. induction scopes as [|s scopes IH]; intros res H.
  - exists res. cbn. auto.
  - assert (Hs := H s (or_introl eq_refl)). apply dmem_true in Hs. destruct Hs as (names & Hn).
    destruct (IH (dupdate res (none_of names))) as (d & Hd & Hk & Hnd). { intros x Hx. apply H. now right. }
    exists d. split. { cbn [convert_scopes2claims]. unfold dsub. rewrite Hn. cbn. exact Hd. }
    split.
    + intros k. rewrite Hk. unfold brings. cbn [existsb]. rewrite Hn. fold (brings m scopes k).
      rewrite dget_update by apply NoDup_none_of. rewrite dget_none_of.
      destruct (brings m scopes k); destruct (smem k names); reflexivity.
    + intros Hr. apply Hnd. now apply NoDup_dupdate.
Qed.

Lemma convert_fails m scopes res :
  ~ (forall s, In s scopes -> dmem s m = true) -> convert_scopes2claims scopes None m res = Raise EKey.
Proof.
  revert res. induction scopes as [|s scopes IH]; intros res H.
  - exfalso. apply H. intros s [].
  - cbn [convert_scopes2claims]. unfold dsub. destruct (dget s m) as [names|] eqn:E; cbn; [|reflexivity].
    apply IH. intros A. apply H. intros x [->|Hx]; [|auto]. unfold dmem. now rewrite E.
Qed.

(** with the allowed claims given: unknown scopes are skipped, other claims left out *)
Lemma convert_allowed m al scopes res :
  exists d, convert_scopes2claims scopes (Some al) m res = Ok d /\
    forall k, dget k d = if smem k al && brings m scopes k then Some VNone else dget k res.
Proof.
  revert res. induction scopes as [|s scopes IH]; intros res.
  - exists res. cbn. split; [reflexivity|]. intros k. now rewrite Bool.andb_false_r.
  - cbn [convert_scopes2claims]. destruct (dget s m) as [names|] eqn:E.
    + destruct (IH (dupdate res (none_of (filter (fun n => smem n al) names)))) as (d & Hd & Hk).
      exists d. split; [exact Hd|]. intros k. rewrite Hk. unfold brings. cbn [existsb]. rewrite E. fold (brings m scopes k).
      rewrite dget_update by apply NoDup_none_of. rewrite dget_none_of.
      assert (F : smem k (filter (fun n => smem n al) names) = smem k al && smem k names).
      { apply Bool.eq_true_iff_eq. rewrite smem_In, filter_In, Bool.andb_true_iff, !smem_In. tauto. }
      rewrite F. destruct (smem k al), (brings m scopes k), (smem k names); reflexivity.
    + destruct (IH res) as (d & Hd & Hk). exists d. split; [exact Hd|]. intros k. rewrite Hk.
      unfold brings. cbn [existsb]. rewrite E. reflexivity.
Qed.

Lemma brings_iff m scopes k :
  brings m scopes k = true <-> exists s names, In s scopes /\ dget s m = Some names /\ In k names.
Proof.
  unfold brings. rewrite existsb_exists. split.
  - intros (s & Hs & H). destruct (dget s m) as [names|] eqn:E; [|discriminate]. apply smem_In in H. eauto.
  - intros (s & names & Hs & E & Hk). exists s. rewrite E. split; [exact Hs|]. now apply smem_In.
Qed.

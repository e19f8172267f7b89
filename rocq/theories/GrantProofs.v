(** GrantProofs.v *)
From Verif Require Import Base BaseProofs Types Token Grant GrantSpec.
Open Scope Z_scope.

Ltac inv H := inversion H; subst; clear H.

(** ** Activity *)
Lemma item_is_active_iff clock now mu used rev nb ex :
  item_is_active clock now mu used rev nb ex = true <->
  usable_at (if now =? 0 then clock else now) mu used rev nb ex.
Proof.
  unfold item_is_active, usable_at, max_usage_reached.
  set (n := if now =? 0 then clock else now). clearbody n.
  destruct mu as [m|].
  - destruct (Z.leb_spec m used).
    + split; [discriminate|]. intros (_ & H1 & _). specialize (H1 m eq_refl). lia.
    + destruct rev; [split; [discriminate|intros [? _]; discriminate]|].
      destruct (Z.eqb_spec nb 0), (Z.ltb_spec n nb), (Z.eqb_spec ex 0), (Z.ltb_spec ex n); cbn;
        (split; [try discriminate; intros _; repeat split; try lia; intros; try congruence; try lia;
                 match goal with E : Some _ = Some _ |- _ => inv E; lia end
                |intros (_ & _ & H2 & H3); try reflexivity; exfalso; lia]).
  - destruct rev; [split; [discriminate|intros [? _]; discriminate]|].
    destruct (Z.eqb_spec nb 0), (Z.ltb_spec n nb), (Z.eqb_spec ex 0), (Z.ltb_spec ex n); cbn;
      (split; [try discriminate; intros _; repeat split; try lia; intros; try congruence; try lia
              |intros (_ & _ & H2 & H3); try reflexivity; exfalso; lia]).
Qed.

Lemma t_active_iff clock t : t_active clock t = true <-> token_usable clock t.
Proof. apply item_is_active_iff. Qed.
Lemma g_active_iff clock g : g_active clock g = true <-> grant_usable clock g.
Proof. apply item_is_active_iff. Qed.

Lemma supports_minting_iff b ty : supports_minting b ty = true <-> may_mint b ty.
Proof.
  unfold supports_minting, may_mint. destruct (ur_mints (t_rules b)) as [l|].
  - rewrite smem_In. split; [intros H; exists l; auto|intros (l' & E & H); inv E; auto].
  - split; [discriminate|intros (? & ? & _); discriminate].
Qed.

(** ** mint_token *)
Lemma mint_token_cases clock newid g ty base rules scope kw value :
  match mint_token clock newid g ty base rules scope kw value with
  | Raise _ => grant_usable clock g
  | Ok (None, g') => g' = g /\ ~ grant_usable clock g
  | Ok (Some t, g') =>
      grant_usable clock g /\
      (forall b, base = Some b -> may_mint b ty /\ token_usable clock b) /\
      value = Ok (t_value t) /\
      t_type t = ty /\ TOKEN_MAP ty = Some (t_class t) /\
      t_based_on t = option_map t_value base /\
      t_revoked t = false /\ t_used t = 0 /\ t_id t = newid /\
      t_issued_at t = clock /\ t_not_before t = kw_not_before kw /\
      t_expires_at t = (if kw_expires_at kw =? 0
                        then if kw_expires_in kw =? 0 then 0 else clock + kw_expires_in kw
                        else kw_expires_at kw) /\
      ur_max_usage (t_rules t) =
        (if String.eqb ty "authorization_code" then Some 1
         else ur_max_usage (rules_for rules ty g)) /\
      ur_mints (t_rules t) =
        (match ur_mints (rules_for rules ty g) with
         | Some l => Some l
         | None => if String.eqb ty "access_token" then None
                   else Some ["access_token"; "refresh_token"]%string
         end) /\
      g' = g_set_used (g_used g + 1) (g_set_issued (g_issued g ++ [t]) g)
  end.
Proof.
  unfold mint_token. destruct (g_active clock g) eqn:Ha; cbn [negb].
  2:{ split; [reflexivity|]. rewrite <- g_active_iff. congruence. }
  apply g_active_iff in Ha.
  assert (Hnew : forall c bv v, TOKEN_MAP ty = Some c ->
    let item := t_set_value v (new_token clock newid c ty bv
       (match rules with Some r => Some r | None => dget ty (gr_types (g_rules g)) end) scope
       (kw_expires_in kw) (kw_expires_at kw) (kw_not_before kw) (kw_resources kw)) in
    t_issued_at item = clock /\ t_not_before item = kw_not_before kw /\
      t_expires_at item = (if kw_expires_at kw =? 0
                        then if kw_expires_in kw =? 0 then 0 else clock + kw_expires_in kw
                        else kw_expires_at kw) /\
      ur_max_usage (t_rules item) =
        (if String.eqb ty "authorization_code" then Some 1
         else ur_max_usage (rules_for rules ty g)) /\
      ur_mints (t_rules item) =
        (match ur_mints (rules_for rules ty g) with
         | Some l => Some l
         | None => if String.eqb ty "access_token" then None
                   else Some ["access_token"; "refresh_token"]%string
         end)).
  { intros c bv v Hc. cbn. unfold item_expires_at.
    assert (Hr : match match rules with Some r => Some r | None => dget ty (gr_types (g_rules g)) end with
                 | Some r => r | None => no_rules end = rules_for rules ty g).
    { unfold rules_for, dget_or. destruct rules; reflexivity. }
    rewrite Hr. split; [reflexivity|]. split; [reflexivity|]. split.
    { destruct (Z.eqb_spec (kw_expires_at kw) 0) as [E|]; cbn [andb]; [|auto].
      destruct (kw_expires_in kw =? 0); cbn; auto. }
    unfold TOKEN_MAP in Hc.
    destruct (String.eqb_spec ty "authorization_code") as [->|]; [inv Hc; cbn; destruct (ur_mints _); auto|].
    destruct (String.eqb_spec ty "access_token") as [->|]; [inv Hc; cbn; destruct (ur_mints _); auto|].
    destruct (String.eqb_spec ty "refresh_token") as [->|]; [inv Hc; cbn; destruct (ur_mints _); auto|discriminate]. }
  destruct base as [b|]; cbn [rbind].
  - destruct (supports_minting b ty) eqn:Hm; cbn [andb rbind]; [|assumption].
    destruct (t_active clock b) eqn:Hb; cbn [rbind]; [|assumption].
    apply supports_minting_iff in Hm. apply t_active_iff in Hb.
    destruct (TOKEN_MAP ty) as [c|] eqn:Hc; [|assumption].
    destruct value as [v|e]; cbn [rbind]; [|assumption].
    split; [exact Ha|]. split; [intros b0 Eb; inv Eb; auto|].
    do 7 (split; [solve [auto]|]).
    destruct (Hnew c (Some (t_value b)) v eq_refl) as (H1 & H2 & H3 & H4 & H5).
    do 5 (split; [assumption|]). reflexivity.
  - destruct (TOKEN_MAP ty) as [c|] eqn:Hc; [|assumption].
    destruct value as [v|e]; cbn [rbind]; [|assumption].
    split; [exact Ha|]. split; [discriminate|].
    do 7 (split; [solve [auto]|]).
    destruct (Hnew c None v eq_refl) as (H1 & H2 & H3 & H4 & H5).
    do 5 (split; [assumption|]). reflexivity.
Qed.

Lemma g_set_issued_issued l g : g_issued (g_set_issued l g) = l.
Proof. reflexivity. Qed.

(** ** revoke_nth, upd_first: pointwise *)
Lemma revoke_nth_length i l : length (revoke_nth i l) = length l.
Proof. revert i; induction l as [|t l IH]; intros [|i]; cbn; auto. Qed.

Lemma nth_revoke_nth i l j :
  nth_error (revoke_nth i l) j =
  if Nat.eqb i j then option_map (t_set_revoked true) (nth_error l j) else nth_error l j.
Proof.
  revert i j; induction l as [|t l IH]; intros [|i] [|j]; cbn; auto.
  destruct (Nat.eqb i j); reflexivity.
Qed.

Definition sk (t : token) : string * option string := (t_value t, t_based_on t).

Lemma sk_revoke_nth i l : map sk (revoke_nth i l) = map sk l.
Proof. revert i; induction l as [|t l IH]; intros [|i]; cbn; f_equal; auto. Qed.

Lemma revoke_go_S d v b r l :
  revoke_go (S d) v b r l =
  rloop (fun w l => revoke_go d "" w true l) v b r 0 l l.
Proof. reflexivity. Qed.

(** Relation: same tokens, some more flags set *)
Definition flagged (t t' : token) : Prop := t' = t \/ t' = t_set_revoked true t.

Lemma flagged_trans a b c : flagged a b -> flagged b c -> flagged a c.
Proof. intros [->| ->] [->| ->]; unfold flagged; auto. Qed.

Lemma flagged_sk a b : flagged a b -> sk b = sk a.
Proof. intros [->| ->]; reflexivity. Qed.

Lemma revokes_flagged P l l' : revokes_exactly P l l' -> Forall2 flagged l l'.
Proof. intros H; induction H as [|t t' l l' (H1 & _) _ IH]; constructor; auto. Qed.

Lemma Forall2_flagged_refl l : Forall2 flagged l l.
Proof. induction l; constructor; unfold flagged; auto. Qed.

Lemma Forall2_flagged_trans a b c : Forall2 flagged a b -> Forall2 flagged b c -> Forall2 flagged a c.
Proof.
  intros H; revert c; induction H; intros c' Hc; inv Hc; constructor; eauto using flagged_trans.
Qed.

Lemma flagged_map_sk l l' : Forall2 flagged l l' -> map sk l' = map sk l.
Proof. intros H; induction H; cbn; f_equal; auto using flagged_sk. Qed.

Lemma flagged_nth l l' : Forall2 flagged l l' -> forall i t, nth_error l i = Some t ->
  exists t', nth_error l' i = Some t' /\ flagged t t'.
Proof. intros H; induction H; intros [|i] u E; cbn in *; try discriminate; [inv E; eauto|eauto]. Qed.

Lemma flagged_In l l' t : Forall2 flagged l l' -> In t l -> exists t', In t' l' /\ flagged t t'.
Proof. intros H; induction H; intros []; [subst; cbn; eauto|]. destruct IHForall2 as (t' & ? & ?); cbn; eauto. Qed.

Lemma revoke_nth_flagged i l : Forall2 flagged l (revoke_nth i l).
Proof.
  revert i; induction l as [|t l IH]; intros [|i]; cbn; constructor; unfold flagged; auto.
  apply Forall2_flagged_refl.
Qed.

(** whatever happens, only flags are set *)
Lemma rloop_flagged rec v b r :
  (forall w l, Forall2 flagged l (fst (rec w l))) ->
  forall rest i l, Forall2 flagged l (fst (rloop rec v b r i rest l)).
Proof.
  intros Hrec rest; induction rest as [|t rest IH]; intros i l; cbn [rloop]; [apply Forall2_flagged_refl|].
  assert (H1 : forall l0, Forall2 flagged l l0 -> Forall2 flagged l (fst (rloop rec v b r (S i) rest l0)))
    by (intros; eauto using Forall2_flagged_trans).
  pose proof (revoke_nth_flagged i l) as Hi.
  pose proof (Forall2_flagged_refl l) as Hr.
  destruct (negb (nonempty v) && negb (nonempty b)); [auto|].
  destruct (nonempty v && nonempty b); [destruct (String.eqb v (t_value t) && _); auto|].
  destruct (_ || _); [|auto].
  destruct r; [|auto]. cbv zeta.
  pose proof (Hrec (t_value t) (revoke_nth i l)) as Hw.
  destruct (rec (t_value t) (revoke_nth i l)) as [l2 [u|e]]; cbn [fst] in Hw;
    eauto using Forall2_flagged_trans.
Qed.

Lemma revoke_go_flagged d : forall v b r l, Forall2 flagged l (fst (revoke_go d v b r l)).
Proof.
  induction d as [|d IH]; intros v b r l; [apply Forall2_flagged_refl|].
  rewrite revoke_go_S. apply rloop_flagged. auto.
Qed.

(** ** derived *)
Lemma derived_sk l l' v w : map sk l' = map sk l -> derived l v w -> derived l' v w.
Proof.
  intros E H.
  assert (HI : forall t, In t l -> exists t', In t' l' /\ t_value t' = t_value t /\ t_based_on t' = t_based_on t).
  { intros t Ht. apply (in_map sk) in Ht. rewrite <- E in Ht. apply in_map_iff in Ht as (t' & Et & Ht').
    exists t'. inv Et. auto. }
  induction H as [t Ht Hb|w t _ IH Ht Hb]; destruct (HI t Ht) as (t' & H1 & H2 & H3); rewrite <- H2.
  - apply derived_child; congruence.
  - eapply derived_step; eauto; congruence.
Qed.

Lemma derived_front l v w :
  derived l v w <->
  exists c, In c l /\ t_based_on c = Some v /\ (w = t_value c \/ derived l (t_value c) w).
Proof.
  split.
  - intros H; induction H as [t Ht Hb|w t _ IH Ht Hb].
    + eauto.
    + destruct IH as (c & Hc & Hcb & [->|Hd]); exists c; repeat split; auto; right.
      * apply derived_child; auto.
      * eapply derived_step; eauto.
  - intros (c & Hc & Hb & [->|Hd]); [apply derived_child; auto|].
    induction Hd as [t Ht Htb|w t _ IH Ht Htb].
    + eapply derived_step; eauto. apply derived_child; auto.
    + eapply derived_step; eauto.
Qed.

(** ** composition of exact revocations *)
Lemma revokes_exactly_ext P Q l l' : (forall t, In t l -> (P t <-> Q t)) ->
  revokes_exactly P l l' -> revokes_exactly Q l l'.
Proof.
  intros HPQ H. unfold revokes_exactly in *.
  induction H as [|t t' l l' (H1 & H2 & H3) H IH]; constructor.
  - destruct (HPQ t (or_introl eq_refl)) as [Ha Hb]. repeat split; auto.
  - apply IH. intros u Hu. apply HPQ. right; auto.
Qed.

Lemma revokes_exactly_trans (P Q : token -> Prop) l l' l'' :
  (forall t, Q (t_set_revoked true t) <-> Q t) ->
  revokes_exactly P l l' -> revokes_exactly Q l' l'' ->
  revokes_exactly (fun t => P t \/ Q t) l l''.
Proof.
  intros HQ H; unfold revokes_exactly in *; revert l''.
  induction H as [|t t' l l' (H1 & H2 & H3) H IH]; intros l'' H''; inv H''; constructor; auto.
  match goal with K : _ /\ _ /\ _ |- _ => destruct K as (K1 & K2 & K3) end.
  assert (Hrr : t_set_revoked true (t_set_revoked true t) = t_set_revoked true t) by reflexivity.
  assert (HQ' : Q t' <-> Q t) by (destruct H1 as [->| ->]; [tauto|apply HQ]).
  repeat split.
  - destruct H1 as [->| ->], K1 as [->| ->]; auto.
  - intros [HP|HQt].
    + rewrite (H2 HP) in *. destruct K1 as [->| ->]; auto.
    + rewrite (K2 (proj2 HQ' HQt)). destruct H1 as [->| ->]; auto.
  - intros Hn. rewrite K3, H3; tauto.
Qed.

Lemma revokes_exactly_none l : revokes_exactly (fun _ => False) l l.
Proof. induction l; constructor; auto. repeat split; auto. intros []. Qed.

Lemma nth_value_inj l i j t u : NoDup (map t_value l) -> nth_error l i = Some t ->
  nth_error l j = Some u -> t_value t = t_value u -> i = j.
Proof.
  intros Hnd Hi Hj E. rewrite NoDup_nth_error in Hnd. apply Hnd.
  - rewrite map_length. apply nth_error_Some. congruence.
  - erewrite !map_nth_error by eauto. congruence.
Qed.

Lemma In_value_inj l t u : NoDup (map t_value l) -> In t l -> In u l -> t_value t = t_value u -> t = u.
Proof.
  intros Hnd Ht Hu E. apply In_nth_error in Ht as (i & Hi). apply In_nth_error in Hu as (j & Hj).
  assert (i = j) by eauto using nth_value_inj. subst. congruence.
Qed.

Lemma revoke_nth_exactly i l t : NoDup (map t_value l) -> nth_error l i = Some t ->
  revokes_exactly (fun u => t_value u = t_value t) l (revoke_nth i l).
Proof.
  revert i; induction l as [|a l IH]; intros [|i] Hnd E; cbn in *; try discriminate.
  - inv E. inv Hnd. constructor; [repeat split; auto; congruence|].
    eapply revokes_exactly_ext; [|apply revokes_exactly_none].
    intros u Hu. split; [intros []|]. intros Hv. apply H1. rewrite <- Hv. apply in_map; auto.
  - inv Hnd. constructor; [|apply IH; auto].
    repeat split; auto. intros Hv. exfalso. apply H1. rewrite Hv.
    apply in_map. eapply nth_error_In; eauto.
Qed.

Lemma map_sk_value l l' : map sk l' = map sk l -> map t_value l' = map t_value l.
Proof.
  intros E. apply (f_equal (map fst)) in E. rewrite !map_map in E. exact E.
Qed.

Lemma lineage_ok_sk l l' : map sk l' = map sk l -> lineage_ok l -> lineage_ok l'.
Proof.
  intros E (H1 & H2 & H3). repeat split.
  - rewrite (map_sk_value _ _ E). auto.
  - intros t Ht Hv. apply (in_map sk) in Ht. rewrite E in Ht. apply in_map_iff in Ht as (u & Eu & Hu).
    inv Eu. apply (H2 u Hu). congruence.
  - intros i t b Hi Hb. apply (map_nth_error sk) in Hi. rewrite E in Hi.
    rewrite nth_error_map in Hi. destruct (nth_error l i) as [u|] eqn:Eu; [|discriminate]. inv Hi.
    destruct (H3 i u b Eu) as (j & p & Hj & Hp & Hv); [congruence|].
    assert (HH := map_nth_error sk _ _ Hp). rewrite <- E, nth_error_map in HH.
    destruct (nth_error l' j) as [q|] eqn:Eq; [|discriminate]. inv HH. exists j, q. repeat split; auto.
Qed.

Lemma nth_sk l l' i t : map sk l' = map sk l -> nth_error l i = Some t ->
  exists t', nth_error l' i = Some t' /\ sk t' = sk t.
Proof.
  intros E Hi. apply (map_nth_error sk) in Hi. rewrite <- E, nth_error_map in Hi.
  destruct (nth_error l' i) as [u|]; [|discriminate]. exists u. cbn in Hi. split; congruence.
Qed.

Lemma opt_eqb_true a b : opt_eqb a b = true <-> a = Some b.
Proof. destruct a; cbn; [rewrite String.eqb_eq; split; congruence|split; discriminate]. Qed.

(** Main lemma: recursion by [based_on] on a well-formed list. *)
Lemma revoke_based_exact d : forall b k l0 l,
  map sk l = map sk l0 -> lineage_ok l0 -> b <> ""%string ->
  (forall i t, nth_error l0 i = Some t -> t_based_on t = Some b -> (k <= i)%nat) ->
  (length l0 - k < d)%nat ->
  exists l', revoke_go d "" b true l = (l', Ok tt) /\
    revokes_exactly (fun t => derived l0 b (t_value t)) l l'.
Proof.
  induction d as [|d IH]; intros b k l0 l Esk Hok Hb Hk Hlen; [lia|].
  rewrite revoke_go_S.
  pose proof (proj1 Hok) as Hnd.
  (* loop invariant *)
  set (P := fun (n : nat) (t : token) =>
         exists j c, (j < n)%nat /\ nth_error l0 j = Some c /\ t_based_on c = Some b /\
                     (t_value t = t_value c \/ derived l0 (t_value c) (t_value t))).
  assert (Hloop : forall rest i li, (exists pre, l = pre ++ rest /\ length pre = i) ->
            revokes_exactly (P i) l li ->
            exists l', rloop (fun w l => revoke_go d "" w true l) "" b true i rest li = (l', Ok tt) /\
                       revokes_exactly (P (length l)) l l').
  { induction rest as [|t rest IHr]; intros i li (pre & El & Hpre) Hli; cbn [rloop].
    - exists li. split; [reflexivity|]. replace (length l) with i; [assumption|]. rewrite El, app_nil_r. auto.
    - assert (Hti : nth_error l i = Some t).
      { rewrite El, nth_error_app2, Hpre, Nat.sub_diag by lia. reflexivity. }
      destruct (nth_sk l l0 i t (eq_sym Esk) Hti) as (t0 & Ht0 & Esk0).
      assert (Ev0 : t_value t0 = t_value t) by (unfold sk in Esk0; congruence).
      assert (Eb0 : t_based_on t0 = t_based_on t) by (unfold sk in Esk0; congruence).
      assert (Hnext : exists pre', l = pre' ++ rest /\ length pre' = S i).
      { exists (pre ++ [t]). rewrite <- app_assoc, app_length; cbn. split; [auto|lia]. }
      assert (Hne : nonempty b = true) by (apply nonempty_true; auto). rewrite Hne. cbn [nonempty negb andb orb].
      replace (nonempty "") with false by reflexivity. cbn [negb andb orb].
      destruct (opt_eqb (t_based_on t) b) eqn:Hob.
      + apply opt_eqb_true in Hob. cbv zeta.
        assert (Hskli : map sk li = map sk l) by (apply flagged_map_sk; eapply revokes_flagged; eauto).
        destruct (nth_sk l li i t Hskli Hti) as (ti & Htii & Eski).
        assert (Hndli : NoDup (map t_value li)).
        { rewrite (map_sk_value l li Hskli), (map_sk_value l0 l Esk). auto. }
        pose proof (revoke_nth_exactly i li ti Hndli Htii) as H1.
        assert (Hvi : t_value ti = t_value t) by (unfold sk in Eski; congruence).
        destruct (IH (t_value t) (S i) l0 (revoke_nth i li)) as (l2 & E2 & H2).
        * rewrite sk_revoke_nth. congruence.
        * assumption.
        * rewrite <- Ev0. apply (proj1 (proj2 Hok)). eapply nth_error_In; eauto.
        * intros j u Hj Hbu. destruct (proj2 (proj2 Hok) j u _ Hj Hbu) as (j' & p & Hlt & Hp & Hvp).
          assert (j' = i) by (eapply (nth_value_inj l0 j' i); eauto; congruence). lia.
        * assert (k <= i)%nat by (eapply Hk; eauto; congruence).
          assert (i < length l0)%nat by (apply nth_error_Some; congruence). lia.
        * rewrite E2. apply IHr; [assumption|].
          assert (Hc : revokes_exactly
                    (fun u => P i u \/ (t_value u = t_value ti \/ derived l0 (t_value t) (t_value u))) l l2).
          { eapply revokes_exactly_trans; [|exact Hli|]; [intros; reflexivity|].
            eapply revokes_exactly_trans; [|exact H1|exact H2]. intros; reflexivity. }
          eapply revokes_exactly_ext; [|exact Hc]. intros u _. unfold P. split.
          -- intros [(j & c & Hj & Hc1 & Hc2 & Hc3)|Hd].
             ++ exists j, c. repeat split; auto.
             ++ exists i, t0. split; [lia|]. split; [auto|]. split; [congruence|]. rewrite Ev0.
                destruct Hd as [Hd|Hd]; [left; congruence|right; auto].
          -- intros (j & c & Hj & Hc1 & Hc2 & Hc3).
             destruct (Nat.eq_dec j i) as [->|Hji].
             ++ right. assert (c = t0) by congruence. subst c. rewrite Ev0 in Hc3.
                destruct Hc3; [left; congruence|right; auto].
             ++ left. exists j, c. split; [lia|]. auto.
      + apply IHr; [assumption|]. eapply revokes_exactly_ext; [|exact Hli]. intros u _. unfold P. split.
        * intros (j & c & Hj & Hc). exists j, c. split; [lia|auto].
        * intros (j & c & Hj & Hc1 & Hc2 & Hc3). exists j, c. repeat split; auto.
          destruct (Nat.eq_dec j i) as [->|Hji]; [|lia]. exfalso.
          assert (c = t0) by congruence. subst c. rewrite Eb0 in Hc2.
          apply opt_eqb_true in Hc2. congruence. }
  destruct (Hloop l 0%nat l) as (l' & E & H').
  - exists []. auto.
  - eapply revokes_exactly_ext; [|apply revokes_exactly_none]. intros u _. unfold P. split; [intros []|].
    intros (j & c & Hj & _). lia.
  - exists l'. split; [exact E|]. eapply revokes_exactly_ext; [|exact H'].
    intros u _. unfold P. rewrite derived_front. split.
    + intros (j & c & Hj & Hc1 & Hc2 & Hc3). exists c. split; [eapply nth_error_In; eauto|auto].
    + intros (c & Hc1 & Hc2 & Hc3). apply In_nth_error in Hc1 as (j & Hj). exists j, c. split; [|auto].
      assert (length l = length l0) by (apply (f_equal (@length _)) in Esk; rewrite !map_length in Esk; auto).
      assert (j < length l0)%nat by (apply nth_error_Some; congruence). lia.
Qed.

(** The top call by value *)
Lemma revoke_value_exact d v l :
  lineage_ok l -> v <> ""%string -> (length l + 1 < d)%nat ->
  exists l', revoke_go d v "" true l = (l', Ok tt) /\
    revokes_exactly (fun t => In v (map t_value l) /\ (t_value t = v \/ derived l v (t_value t))) l l'.
Proof.
  intros Hok Hv Hd. destruct d as [|d]; [lia|]. rewrite revoke_go_S.
  pose proof (proj1 Hok) as Hnd.
  set (P := fun (n : nat) (t : token) =>
         exists j c, (j < n)%nat /\ nth_error l j = Some c /\ t_value c = v /\
                     (t_value t = v \/ derived l v (t_value t))).
  assert (Hloop : forall rest i li, (exists pre, l = pre ++ rest /\ length pre = i) ->
            revokes_exactly (P i) l li ->
            exists l', rloop (fun w l => revoke_go d "" w true l) v "" true i rest li = (l', Ok tt) /\
                       revokes_exactly (P (length l)) l l').
  { induction rest as [|t rest IHr]; intros i li (pre & El & Hpre) Hli; cbn [rloop].
    - exists li. split; [reflexivity|]. replace (length l) with i; [assumption|]. rewrite El, app_nil_r. auto.
    - assert (Hti : nth_error l i = Some t).
      { rewrite El, nth_error_app2, Hpre, Nat.sub_diag by lia. reflexivity. }
      assert (Hnext : exists pre', l = pre' ++ rest /\ length pre' = S i).
      { exists (pre ++ [t]). rewrite <- app_assoc, app_length; cbn. split; [auto|lia]. }
      assert (Hne : nonempty v = true) by (apply nonempty_true; auto). rewrite Hne. cbn [nonempty negb andb orb].
      replace (nonempty "") with false by reflexivity. cbn [negb andb orb]. rewrite orb_false_r.
      destruct (String.eqb_spec (t_value t) v) as [Htv|Htv].
      + cbv zeta.
        assert (Hskli : map sk li = map sk l) by (apply flagged_map_sk; eapply revokes_flagged; eauto).
        destruct (nth_sk l li i t Hskli Hti) as (ti & Htii & Eski).
        assert (Hndli : NoDup (map t_value li)) by (rewrite (map_sk_value l li Hskli); auto).
        pose proof (revoke_nth_exactly i li ti Hndli Htii) as H1.
        assert (Hvi : t_value ti = v) by (unfold sk in Eski; congruence).
        destruct (revoke_based_exact d (t_value t) 0 l (revoke_nth i li)) as (l2 & E2 & H2).
        * rewrite sk_revoke_nth. congruence.
        * assumption.
        * congruence.
        * intros; lia.
        * lia.
        * rewrite E2. apply IHr; [assumption|].
          assert (Hc : revokes_exactly
                    (fun u => P i u \/ (t_value u = t_value ti \/ derived l (t_value t) (t_value u))) l l2).
          { eapply revokes_exactly_trans; [|exact Hli|]; [intros; reflexivity|].
            eapply revokes_exactly_trans; [|exact H1|exact H2]. intros; reflexivity. }
          eapply revokes_exactly_ext; [|exact Hc]. intros u _. unfold P. split.
          -- intros [(j & c & Hj & Hc1 & Hc2 & Hc3)|Hdd].
             ++ exists j, c. repeat split; auto.
             ++ exists i, t. repeat split; auto. rewrite Htv in Hdd. rewrite Hvi in Hdd. auto.
          -- intros (j & c & Hj & Hc1 & Hc2 & Hc3). right. rewrite Htv, Hvi. auto.
      + apply IHr; [assumption|]. eapply revokes_exactly_ext; [|exact Hli]. intros u _. unfold P. split.
        * intros (j & c & Hj & Hc). exists j, c. split; [lia|auto].
        * intros (j & c & Hj & Hc1 & Hc2 & Hc3). exists j, c. repeat split; auto.
          destruct (Nat.eq_dec j i) as [->|Hji]; [|lia]. exfalso. congruence. }
  destruct (Hloop l 0%nat l) as (l' & E & H').
  - exists []. auto.
  - eapply revokes_exactly_ext; [|apply revokes_exactly_none]. intros u _. unfold P. split; [intros []|].
    intros (j & c & Hj & _). lia.
  - exists l'. split; [exact E|]. eapply revokes_exactly_ext; [|exact H'].
    intros u _. unfold P. split.
    + intros (j & c & Hj & Hc1 & Hc2 & Hc3). split; [|auto]. rewrite <- Hc2. apply in_map. eapply nth_error_In; eauto.
    + intros (Hin & Hc3). apply in_map_iff in Hin as (c & Hc & Hcl). apply In_nth_error in Hcl as (j & Hj).
      exists j, c. repeat split; auto. apply nth_error_Some. congruence.
Qed.

(** ** Histories of a grant *)
(** what an operation never changes in a token *)
Definition same_core (t t' : token) : Prop :=
  t_class t' = t_class t /\ t_type t' = t_type t /\ t_value t' = t_value t /\
  t_based_on t' = t_based_on t /\ t_rules t' = t_rules t /\ t_issued_at t' = t_issued_at t /\
  t_expires_at t' = t_expires_at t /\ t_not_before t' = t_not_before t /\ t_id t' = t_id t /\
  t_scope t' = t_scope t /\ t_claims t' = t_claims t /\ t_resources t' = t_resources t /\
  t_used t <= t_used t' /\ (t_revoked t = true -> t_revoked t' = true).

Lemma same_core_refl t : same_core t t.
Proof. unfold same_core; repeat split; auto; lia. Qed.
Lemma same_core_trans a b c : same_core a b -> same_core b c -> same_core a c.
Proof. unfold same_core; intuition (try congruence; try lia). Qed.
Lemma flagged_core t t' : flagged t t' -> same_core t t'.
Proof. intros [-> | ->]; unfold same_core; cbn; repeat split; auto; lia. Qed.
Lemma register_usage_core t : same_core t (register_usage t).
Proof. unfold same_core; cbn; repeat split; auto; lia. Qed.

Lemma Forall2_core_refl l : Forall2 same_core l l.
Proof. induction l; constructor; auto using same_core_refl. Qed.

Lemma flagged_core_list l l' : Forall2 flagged l l' -> Forall2 same_core l l'.
Proof. intros H; induction H; constructor; auto using flagged_core. Qed.

Lemma upd_first_core v f l : (forall t, same_core t (f t)) -> Forall2 same_core l (upd_first v f l).
Proof.
  intros Hf; induction l as [|t l IH]; cbn; [constructor|].
  destruct (String.eqb (t_value t) v); constructor; auto using same_core_refl, Forall2_core_refl.
Qed.

Lemma Forall2_core_sk l l' : Forall2 same_core l l' -> map sk l' = map sk l.
Proof.
  intros H; induction H as [|t t' l l' H1 H2 IH]; cbn; [auto|]. f_equal; auto.
  unfold sk. destruct H1 as (_ & _ & H3 & H4 & _). congruence.
Qed.

Lemma Forall2_nth {A B} (R : A -> B -> Prop) l l' : Forall2 R l l' -> forall i t',
  nth_error l' i = Some t' -> exists t, nth_error l i = Some t /\ R t t'.
Proof. intros H; induction H; intros [|i] u E; cbn in *; try discriminate; [inv E; eauto|eauto]. Qed.

(** One operation keeps the tokens that are there and adds at most one *)
Lemma gstep_issued g o :
  Forall2 same_core (g_issued g) (g_issued (gstep g o)) \/
  (exists clock newid ttype base rules scope kw t,
     o = GMint clock newid ttype base rules scope kw (Ok (t_value t)) /\
     g_issued (gstep g o) = g_issued g ++ [t] /\
     t_type t = ttype /\ TOKEN_MAP ttype = Some (t_class t) /\ t_id t = newid /\
     t_used t = 0 /\ t_revoked t = false /\
     grant_usable clock g /\
     match base with
     | None => t_based_on t = None
     | Some j => exists b, nth_error (g_issued g) j = Some b /\ t_based_on t = Some (t_value b) /\
                           may_mint b ttype /\ token_usable clock b
     end).
Proof.
  destruct o as [clock newid ttype base rules scope kw value|v|depth v b r|]; cbn [gstep].
  - unfold gmint. destruct base as [j|].
    + destruct (nth_error (g_issued g) j) as [b|] eqn:Ej; [|left; apply Forall2_core_refl].
      pose proof (mint_token_cases clock newid g ttype (Some b) rules scope kw value) as H.
      destruct (mint_token _ _ _ _ _ _ _ _ _) as [[[t|] g']|e].
      * destruct H as (H1 & H2 & H3 & H4 & H5 & H6 & H7 & H8 & H9 & _ & _ & _ & _ & _ & ->).
        right. exists clock, newid, ttype, (Some j), rules, scope, kw, t. subst value.
        repeat (split; [solve [auto]|]). exists b. destruct (H2 b eq_refl). cbn in H6. repeat split; auto; apply H0.
      * destruct H as (-> & _). left. apply Forall2_core_refl.
      * left. apply Forall2_core_refl.
    + pose proof (mint_token_cases clock newid g ttype None rules scope kw value) as H.
      destruct (mint_token _ _ _ _ _ _ _ _ _) as [[[t|] g']|e].
      * destruct H as (H1 & H2 & H3 & H4 & H5 & H6 & H7 & H8 & H9 & _ & _ & _ & _ & _ & ->).
        right. exists clock, newid, ttype, None, rules, scope, kw, t. subst value.
        repeat (split; [solve [auto]|]). assumption.
      * destruct H as (-> & _). left. apply Forall2_core_refl.
      * left. apply Forall2_core_refl.
  - left. apply upd_first_core. apply register_usage_core.
  - left. unfold revoke_token. pose proof (revoke_go_flagged depth v b r (g_issued g)) as H.
    destruct (revoke_go _ _ _ _ _) as [l e]. cbn. apply flagged_core_list. exact H.
  - left. apply Forall2_core_refl.
Qed.

Lemma grun_app g a b : grun g (a ++ b) = grun (grun g a) b.
Proof. apply fold_left_app. Qed.

Lemma Forall2_length' {A B} (R : A -> B -> Prop) l l' : Forall2 R l l' -> length l = length l'.
Proof. intros H; induction H; cbn; auto. Qed.

Lemma lineage_history g0 ops : g_issued g0 = [] -> forall i t,
  nth_error (g_issued (grun g0 ops)) i = Some t ->
  exists ops1 ops2 clock newid ttype base rules scope kw,
    ops = ops1 ++ GMint clock newid ttype base rules scope kw (Ok (t_value t)) :: ops2 /\
    i = length (g_issued (grun g0 ops1)) /\
    t_type t = ttype /\ TOKEN_MAP ttype = Some (t_class t) /\
    grant_usable clock (grun g0 ops1) /\
    match base with
    | None => t_based_on t = None
    | Some j => exists b, nth_error (g_issued (grun g0 ops1)) j = Some b /\
                  t_based_on t = Some (t_value b) /\ may_mint b ttype /\ token_usable clock b
    end.
Proof.
  intros H0. induction ops as [|o ops IH] using rev_ind; intros i t Hi.
  - cbn in Hi. rewrite H0 in Hi. destruct i; discriminate.
  - rewrite grun_app in Hi. cbn in Hi.
    destruct (gstep_issued (grun g0 ops) o) as [Hc|(clock & newid & ttype & base & rules & scope & kw & u & Ho & Hg & H1 & H2 & _ & _ & _ & H3 & H4)].
    + destruct (Forall2_nth _ _ _ Hc i t Hi) as (t0 & Ht0 & Hcore).
      destruct (IH i t0 Ht0) as (ops1 & ops2 & clock & newid & ttype & base & rules & scope & kw & E & K).
      destruct Hcore as (C1 & C2 & C3 & C4 & _).
      exists ops1, (ops2 ++ [o]), clock, newid, ttype, base, rules, scope, kw.
      rewrite E, C1, C2, C3, C4, <- app_assoc. split; [reflexivity|exact K].
    + rewrite Hg in Hi.
      destruct (Nat.lt_ge_cases i (length (g_issued (grun g0 ops)))) as [Hlt|Hge].
      * rewrite nth_error_app1 in Hi by auto.
        destruct (IH i t Hi) as (ops1 & ops2 & clock' & newid' & ttype' & base' & rules' & scope' & kw' & E & K).
        exists ops1, (ops2 ++ [o]), clock', newid', ttype', base', rules', scope', kw'.
        rewrite E, <- app_assoc. split; [reflexivity|exact K].
      * rewrite nth_error_app2 in Hi by auto.
        destruct (i - length (g_issued (grun g0 ops)))%nat as [|n] eqn:En; cbn in Hi; [|destruct n; discriminate].
        inv Hi. exists ops, [], clock, newid, (t_type t), base, rules, scope, kw.
        repeat (split; [solve [auto|lia]|]). assumption.
Qed.

Lemma grun_core g ops : exists l, g_issued (grun g ops) = l ++ skipn (length l) (g_issued (grun g ops)) /\
   Forall2 same_core (g_issued g) l.
Proof.
  induction ops as [|o ops IH] using rev_ind.
  - exists (g_issued g). cbn. rewrite skipn_all, app_nil_r. split; auto using Forall2_core_refl.
  - destruct IH as (l & E & H). rewrite grun_app; cbn.
    set (g1 := grun g ops) in *. clearbody g1.
    destruct (gstep_issued g1 o) as [Hc|(clock & newid & ttype & base & rules & scope & kw & u & Ho & Hg & _)].
    + rewrite E in Hc. apply Forall2_app_inv_l in Hc as (l1 & l2 & Hl1 & Hl2 & E2).
      exists l1. rewrite E2. split.
      * f_equal. rewrite skipn_app, skipn_all, Nat.sub_diag. reflexivity.
      * clear - H Hl1. revert l1 Hl1. induction H; intros l1 Hl1; inv Hl1; constructor; eauto using same_core_trans.
    + exists l. rewrite Hg. split; [|auto]. rewrite E, <- app_assoc. f_equal.
      rewrite skipn_app, skipn_all, Nat.sub_diag. reflexivity.
Qed.

(** tokens of a grant are never lost, and never un-revoked or un-used *)
Lemma grun_monotone g ops i t : nth_error (g_issued g) i = Some t ->
  exists t', nth_error (g_issued (grun g ops)) i = Some t' /\ same_core t t'.
Proof.
  intros Hi. destruct (grun_core g ops) as (l & E & H).
  assert (Hl : exists t', nth_error l i = Some t' /\ same_core t t').
  { clear E. revert i Hi. induction H; intros [|i] Hi; cbn in *; try discriminate; [inv Hi; eauto|eauto]. }
  destruct Hl as (t' & Ht' & Hc). exists t'. split; [|auto]. rewrite E, nth_error_app1; auto.
  apply nth_error_Some. congruence.
Qed.

(** the lineage is well-formed *)
Lemma lineage_ok_nil : lineage_ok [].
Proof. repeat split; [constructor|intros t []|intros [|i] t b H; discriminate]. Qed.

Lemma lineage_ok_snoc l t :
  lineage_ok l -> t_value t <> ""%string -> ~ In (t_value t) (map t_value l) ->
  (forall b, t_based_on t = Some b -> In b (map t_value l)) ->
  lineage_ok (l ++ [t]).
Proof.
  intros (H1 & H2 & H3) Hv Hn Hb. repeat split.
  - rewrite map_app. cbn. apply NoDup_Add with (a := t_value t) (l := map t_value l); [|auto].
    rewrite <- (app_nil_r (map t_value l)) at 1. apply Add_app.
  - intros u Hu. apply in_app_or in Hu as [Hu|[<-|[]]]; auto.
  - intros i u b Hi Hub. destruct (Nat.lt_ge_cases i (length l)) as [Hlt|Hge].
    + rewrite nth_error_app1 in Hi by auto. destruct (H3 i u b Hi Hub) as (j & p & Hj & Hp & E).
      exists j, p. repeat split; auto. rewrite nth_error_app1; auto. lia.
    + rewrite nth_error_app2 in Hi by auto.
      destruct (i - length l)%nat as [|n] eqn:En; cbn in Hi; [|destruct n; discriminate]. inv Hi.
      apply Hb in Hub. apply in_map_iff in Hub as (p & Hp & Hin). apply In_nth_error in Hin as (j & Hj).
      assert (j < length l)%nat by (apply nth_error_Some; congruence).
      exists j, p. repeat split; auto; [lia|]. rewrite nth_error_app1; auto.
Qed.

Lemma fresh_values_prefix g0 a b : fresh_values g0 (a ++ b) -> fresh_values g0 a.
Proof.
  intros H ops1 ops2 clock newid ttype base rules scope kw v E.
  eapply (H ops1 (ops2 ++ b)). rewrite E, <- app_assoc. reflexivity.
Qed.

Lemma lineage_ok_history g0 ops : g_issued g0 = [] -> fresh_values g0 ops ->
  lineage_ok (g_issued (grun g0 ops)).
Proof.
  intros H0. induction ops as [|o ops IH] using rev_ind; intros Hf.
  - cbn. rewrite H0. apply lineage_ok_nil.
  - specialize (IH (fresh_values_prefix _ _ _ Hf)). rewrite grun_app. cbn.
    destruct (gstep_issued (grun g0 ops) o) as [Hc|(clock & newid & ttype & base & rules & scope & kw & u & Ho & Hg & H1 & H2 & _ & _ & _ & H3 & H4)].
    + eapply lineage_ok_sk; [|exact IH]. apply Forall2_core_sk. exact Hc.
    + rewrite Hg. destruct (Hf ops [] clock newid ttype base rules scope kw (t_value u)) as (Hv & Hn).
      { rewrite Ho. reflexivity. }
      apply lineage_ok_snoc; auto. intros b Hb. destruct base as [j|]; [|congruence].
      destruct H4 as (p & Hp & Hpb & _). rewrite Hb in Hpb. inv Hpb. apply in_map. eapply nth_error_In; eauto.
Qed.

(** ** The other modes of [revoke_token] *)
Lemma revokes_exactly_app P a a' b b' :
  revokes_exactly P a a' -> revokes_exactly P b b' -> revokes_exactly P (a ++ b) (a' ++ b').
Proof. apply Forall2_app. Qed.

Lemma revoke_nth_app pre t rest :
  revoke_nth (length pre) (pre ++ t :: rest) = pre ++ t_set_revoked true t :: rest.
Proof. induction pre as [|a pre IH]; cbn; [auto|f_equal; auto]. Qed.

(** one pass, no recursion *)
Lemma rloop_flat rec v b r (f : token -> bool) :
  (nonempty v && nonempty b = true \/ nonempty v || nonempty b = false \/ r = false) ->
  (forall t, f t =
     (negb (nonempty v) && negb (nonempty b)
      || (if nonempty v && nonempty b then String.eqb v (t_value t) && opt_eqb (t_based_on t) b
          else nonempty v && String.eqb (t_value t) v || nonempty b && opt_eqb (t_based_on t) b))) ->
  forall rest pre, rloop rec v b r (length pre) rest (pre ++ rest) =
    (pre ++ map (fun t => if f t then t_set_revoked true t else t) rest, Ok tt).
Proof.
  intros Hmode Hf rest; induction rest as [|t rest IH]; intros pre; cbn [rloop map].
  - reflexivity.
  - assert (Hyes : rloop rec v b r (S (length pre)) rest (pre ++ t_set_revoked true t :: rest)
                   = (pre ++ t_set_revoked true t :: map (fun t => if f t then t_set_revoked true t else t) rest, Ok tt)).
    { specialize (IH (pre ++ [t_set_revoked true t])). rewrite <- !app_assoc, app_length in IH. cbn in IH.
      rewrite Nat.add_1_r in IH. exact IH. }
    assert (Hno : rloop rec v b r (S (length pre)) rest (pre ++ t :: rest)
                   = (pre ++ t :: map (fun t => if f t then t_set_revoked true t else t) rest, Ok tt)).
    { specialize (IH (pre ++ [t])). rewrite <- !app_assoc, app_length in IH. cbn in IH.
      rewrite Nat.add_1_r in IH. exact IH. }
    rewrite revoke_nth_app. rewrite (Hf t).
    destruct (nonempty v), (nonempty b); cbn [negb andb orb] in *; try exact Hyes;
      (destruct Hmode as [Hm|[Hm|Hm]]; [discriminate Hm || idtac|discriminate Hm|subst r || idtac]);
      try (match goal with |- context [if ?c then _ else _] => destruct c end; cbv zeta; assumption).
Qed.

Lemma map_revokes_exactly f (P : token -> Prop) l : (forall t, f t = true <-> P t) ->
  revokes_exactly P l (map (fun t => if f t then t_set_revoked true t else t) l).
Proof.
  intros H; induction l as [|t l IH]; cbn; constructor; auto.
  specialize (H t). destruct (f t); repeat split; auto; intros HP; try (exfalso; tauto).
  - apply H in HP. discriminate.
Qed.

Lemma revoke_all_exact d r l :
  exists l', revoke_go (S d) "" "" r l = (l', Ok tt) /\ revokes_exactly (fun _ => True) l l'.
Proof.
  eexists. split.
  - rewrite revoke_go_S.
    apply (rloop_flat (fun w l => revoke_go d "" w true l) "" "" r (fun _ => true)) with (pre := []);
    [right; left; reflexivity|reflexivity].
  - apply (map_revokes_exactly (fun _ => true)). tauto.
Qed.

Lemma revoke_pair_exact d v b r l : v <> ""%string -> b <> ""%string ->
  exists l', revoke_go (S d) v b r l = (l', Ok tt) /\
    revokes_exactly (fun t => t_value t = v /\ t_based_on t = Some b) l l'.
Proof.
  intros Hv Hb. apply nonempty_true in Hv, Hb. eexists. split.
  - rewrite revoke_go_S.
    apply (rloop_flat (fun w l => revoke_go d "" w true l) v b r
             (fun t => String.eqb v (t_value t) && opt_eqb (t_based_on t) b)) with (pre := []).
    + left. rewrite Hv, Hb. reflexivity.
    + intros t. rewrite Hv, Hb. reflexivity.
  - cbn [app]. apply map_revokes_exactly. intros t. rewrite andb_true_iff, String.eqb_eq, opt_eqb_true.
    intuition congruence.
Qed.

Lemma revoke_single_exact d v l : v <> ""%string ->
  exists l', revoke_go (S d) v "" false l = (l', Ok tt) /\
    revokes_exactly (fun t => t_value t = v) l l'.
Proof.
  intros Hv. apply nonempty_true in Hv. eexists. split.
  - rewrite revoke_go_S.
    apply (rloop_flat (fun w l => revoke_go d "" w true l) v "" false
             (fun t => String.eqb (t_value t) v)) with (pre := []).
    + auto.
    + intros t. rewrite Hv. cbn. rewrite orb_false_r. reflexivity.
  - cbn [app]. apply map_revokes_exactly. intros t. apply String.eqb_eq.
Qed.

(** Deciding [fresh_values] *)
Fixpoint freshb (g : grant) (ops : list gop) : bool :=
  match ops with
  | [] => true
  | o :: ops' =>
      match o with
      | GMint _ _ _ _ _ _ _ (Ok v) => nonempty v && negb (smem v (map t_value (g_issued g)))
      | _ => true
      end && freshb (gstep g o) ops'
  end.

Lemma freshb_sound ops : forall g, freshb g ops = true -> fresh_values g ops.
Proof.
  induction ops as [|o ops IH]; intros g H ops1 ops2 clock newid ttype base rules scope kw v E.
  - destruct ops1; discriminate.
  - cbn [freshb] in H. apply andb_true_iff in H as [H1 H2].
    destruct ops1 as [|o' ops1]; cbn [app] in E; inv E.
    + apply andb_true_iff in H1 as [H1 H3]. split; [apply nonempty_true; auto|].
      apply smem_false. apply negb_true_iff. exact H3.
    + eapply (IH _ H2). reflexivity.
Qed.

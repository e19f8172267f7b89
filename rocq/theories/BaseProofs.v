(** BaseProofs.v: facts about the Python fragment of Base.v. *)
From Verif Require Import Base.

(** ** dict *)
Lemma dget_dset_eq {A} k (v : A) d : dget k (dset k v d) = Some v.
Proof.
  induction d as [|[k' v'] d IH]; cbn.
  - rewrite String.eqb_refl. reflexivity.
  - destruct (String.eqb_spec k k') as [->|Hne]; cbn.
    + rewrite String.eqb_refl. reflexivity.
    + apply String.eqb_neq in Hne. rewrite Hne. exact IH.
Qed.

Lemma dget_dset_neq {A} k k' (v : A) d : k <> k' -> dget k (dset k' v d) = dget k d.
Proof.
  intros Hne. induction d as [|[k2 v2] d IH]; cbn.
  - apply String.eqb_neq in Hne. rewrite Hne. reflexivity.
  - destruct (String.eqb_spec k' k2) as [->|H2]; cbn.
    + apply String.eqb_neq in Hne. rewrite Hne. reflexivity.
    + destruct (String.eqb_spec k k2); [reflexivity|exact IH].
Qed.

Lemma dget_dset {A} k k' (v : A) d :
  dget k (dset k' v d) = if String.eqb k k' then Some v else dget k d.
Proof.
  destruct (String.eqb_spec k k') as [->|H]; [apply dget_dset_eq|apply dget_dset_neq; exact H].
Qed.

Lemma dget_ddel_eq {A} k (d : dict A) : dget k (ddel k d) = None.
Proof.
  induction d as [|[k' v'] d IH]; cbn; [reflexivity|].
  destruct (String.eqb_spec k k') as [->|Hne]; [exact IH|cbn].
  apply String.eqb_neq in Hne. rewrite Hne. exact IH.
Qed.

Lemma dget_ddel_neq {A} k k' (d : dict A) : k <> k' -> dget k (ddel k' d) = dget k d.
Proof.
  intros Hne. induction d as [|[k2 v2] d IH]; cbn; [reflexivity|].
  destruct (String.eqb_spec k' k2) as [->|H2]; cbn.
  - apply String.eqb_neq in Hne. rewrite Hne. exact IH.
  - destruct (String.eqb_spec k k2); [reflexivity|exact IH].
Qed.

Lemma dget_ddel {A} k k' (d : dict A) :
  dget k (ddel k' d) = if String.eqb k k' then None else dget k d.
Proof.
  destruct (String.eqb_spec k k') as [->|H]; [apply dget_ddel_eq|apply dget_ddel_neq; exact H].
Qed.

Lemma dget_app {A} k (d e : dict A) :
  dget k (d ++ e) = match dget k d with Some v => Some v | None => dget k e end.
Proof.
  induction d as [|[k' v'] d IH]; cbn; [reflexivity|].
  destruct (String.eqb k k'); [reflexivity|exact IH].
Qed.

(** The value [d.update(e)] gives to a key is the last one in [e], else the one in [d]. *)
Lemma dget_dupdate {A} (e d : dict A) k :
  dget k (dupdate d e) =
  match dget k (rev e) with Some v => Some v | None => dget k d end.
Proof.
  unfold dupdate. revert d. induction e as [|[k' v'] e IH]; intros d; cbn [fold_left rev].
  - reflexivity.
  - rewrite IH. cbn [fst snd]. rewrite dget_app. destruct (dget k (rev e)) as [w|]; [reflexivity|].
    rewrite dget_dset. cbn. destruct (String.eqb k k'); reflexivity.
Qed.

Lemma dget_In {A} k (v : A) d : dget k d = Some v -> In (k, v) d.
Proof.
  induction d as [|[k' v'] d IH]; cbn; [discriminate|].
  destruct (String.eqb_spec k k') as [->|Hne].
  - intros [= ->]. left. reflexivity.
  - intros H. right. apply IH, H.
Qed.

Lemma dget_key {A} k (v : A) d : dget k d = Some v -> In k (dkeys d).
Proof. intros H. apply dget_In in H. apply in_map_iff. exists (k, v). split; [reflexivity|exact H]. Qed.

Lemma dget_None_key {A} k (d : dict A) : dget k d = None <-> ~ In k (dkeys d).
Proof.
  unfold dkeys. induction d as [|[k' v'] d IH]; cbn; [tauto|].
  destruct (String.eqb_spec k k') as [->|Hne].
  - split; [discriminate|]. intros H. exfalso. apply H. left. reflexivity.
  - rewrite IH. split; [|tauto]. intros H [E|E]; [congruence|tauto].
Qed.

Lemma In_dget {A} k (v : A) d : NoDup (dkeys d) -> In (k, v) d -> dget k d = Some v.
Proof.
  unfold dkeys. induction d as [|[k' v'] d IH]; cbn; [tauto|].
  intros Hnd [E|E].
  - injection E as -> ->. rewrite String.eqb_refl. reflexivity.
  - inversion Hnd; subst. destruct (String.eqb_spec k k') as [->|Hne].
    + exfalso. apply H1. apply in_map_iff. exists (k', v). split; [reflexivity|exact E].
    + apply IH; assumption.
Qed.

Lemma dkeys_dset {A} k (v : A) d x : In x (dkeys (dset k v d)) <-> x = k \/ In x (dkeys d).
Proof.
  unfold dkeys. induction d as [|[k' v'] d IH]; cbn.
  - intuition congruence.
  - destruct (String.eqb_spec k k') as [->|Hne]; cbn; intuition congruence.
Qed.

Lemma NoDup_dset {A} k (v : A) d : NoDup (dkeys d) -> NoDup (dkeys (dset k v d)).
Proof.
  induction d as [|[k' v'] d IH]; intros Hnd; cbn.
  - constructor; [intros []|constructor].
  - inversion Hnd; subst. destruct (String.eqb_spec k k') as [->|Hne]; cbn.
    + constructor; assumption.
    + constructor; [|apply IH; assumption].
      intros Hin. apply (dkeys_dset k v d k') in Hin. destruct Hin as [E|E]; [congruence|tauto].
Qed.

Lemma dmem_true {A} k (d : dict A) : dmem k d = true <-> exists v, dget k d = Some v.
Proof.
  unfold dmem. destruct (dget k d) as [v|]; split; intros H; try discriminate; eauto.
  destruct H as [v H]. discriminate.
Qed.

(** ** membership *)
Lemma smem_In x l : smem x l = true <-> In x l.
Proof.
  unfold smem. rewrite existsb_exists. split.
  - intros [y [Hy E]]. apply String.eqb_eq in E. subst. exact Hy.
  - intros H. exists x. split; [exact H|apply String.eqb_refl].
Qed.

Lemma smem_false x l : smem x l = false <-> ~ In x l.
Proof. rewrite <- smem_In. destruct (smem x l); split; intros; congruence. Qed.

Lemma subset_spec a b : subset a b = true <-> incl a b.
Proof.
  unfold subset. rewrite forallb_forall. unfold incl.
  split; intros H x Hx; apply smem_In, H, Hx.
Qed.

Lemma set_eqb_spec a b : set_eqb a b = true <-> (forall x, In x a <-> In x b).
Proof.
  unfold set_eqb. rewrite andb_true_iff, !subset_spec. unfold incl.
  split; [intros [H1 H2] x; split; auto | intros H; split; intros x; apply H].
Qed.

Lemma In_sremove x y l : In x (sremove y l) -> In x l.
Proof.
  induction l as [|z l IH]; cbn; [tauto|].
  destruct (String.eqb_spec y z) as [->|Hne]; cbn; intuition.
Qed.

Lemma In_sremove_neq x y l : x <> y -> In x l -> In x (sremove y l).
Proof.
  intros Hne. induction l as [|z l IH]; cbn; [tauto|].
  destruct (String.eqb_spec y z) as [->|Hyz]; cbn; intuition congruence.
Qed.

Lemma NoDup_sremove y l : NoDup l -> NoDup (sremove y l) /\ ~ In y (sremove y l).
Proof.
  induction l as [|z l IH]; cbn; intros Hnd.
  - split; [exact Hnd|tauto].
  - inversion Hnd; subst. destruct (String.eqb_spec y z) as [->|Hyz].
    + split; assumption.
    + destruct (IH H2) as [H3 H4]. split.
      * constructor; [|exact H3]. intros Hin. apply H1, (In_sremove _ _ _ Hin).
      * cbn. intuition congruence.
Qed.

(** ** strings *)
Lemma str_app_nil_r s : (s ++ "")%string = s.
Proof. induction s as [|c s IH]; cbn; congruence. Qed.

Lemma str_app_assoc a b c : ((a ++ b) ++ c)%string = (a ++ (b ++ c))%string.
Proof. induction a as [|x a IH]; cbn; congruence. Qed.

Lemma str_app_cancel_l a b c : (a ++ b)%string = (a ++ c)%string -> b = c.
Proof. induction a as [|x a IH]; cbn; [tauto|]. intros [= H]. auto. Qed.

Lemma slen_app a b : slen (a ++ b) = slen a + slen b.
Proof. unfold slen. induction a as [|x a IH]; cbn; [reflexivity|lia]. Qed.

Lemma str_app_inj_len a b c d :
  slen a = slen c -> (a ++ b)%string = (c ++ d)%string -> a = c /\ b = d.
Proof.
  revert c. induction a as [|x a IH]; intros [|y c] Hl H; cbn in *; try discriminate.
  - split; [reflexivity|exact H].
  - injection H as -> H. destruct (IH c) as [-> ->]; [unfold slen in *; lia|exact H|].
    split; reflexivity.
Qed.

Lemma str_app_cancel_r a b c : (a ++ c)%string = (b ++ c)%string -> a = b.
Proof.
  intros H. assert (slen a = slen b).
  { apply (f_equal slen) in H. rewrite !slen_app in H. lia. }
  apply (str_app_inj_len _ _ _ _ H0 H).
Qed.

Lemma stake_app a b : stake (slen a) (a ++ b) = a.
Proof. unfold slen. induction a as [|x a IH]; cbn; [destruct b; reflexivity|congruence]. Qed.

Lemma sdrop_app a b : sdrop (slen a) (a ++ b) = b.
Proof. unfold slen. induction a as [|x a IH]; cbn; [reflexivity|exact IH]. Qed.

Lemma stake_sdrop n s : (stake n s ++ sdrop n s)%string = s.
Proof. revert n. induction s as [|c s IH]; intros [|n]; cbn; congruence. Qed.

Lemma sdrop_len n s : slen (sdrop n s) <= slen s.
Proof. unfold slen. revert n. induction s as [|c s IH]; intros [|n]; cbn; try lia. specialize (IH n). lia. Qed.

Lemma cut_spec c s a b : cut c s = Some (a, b) -> s = (a ++ String c b)%string /\ sforall (fun d => negb (Ascii.eqb c d)) a = true.
Proof.
  revert a b. induction s as [|d s IH]; cbn; intros a b; [discriminate|].
  destruct (Ascii.eqb_spec c d) as [->|Hne].
  - intros [= <- <-]. split; reflexivity.
  - destruct (cut c s) as [[a' b']|]; [|discriminate]. intros [= <- <-].
    destruct (IH a' b' eq_refl) as [-> Ha]. split; [reflexivity|cbn].
    apply Ascii.eqb_neq in Hne. rewrite Hne. exact Ha.
Qed.

Lemma cut_app c a b : sforall (fun d => negb (Ascii.eqb c d)) a = true -> cut c (a ++ String c b) = Some (a, b).
Proof.
  induction a as [|d a IH]; cbn.
  - rewrite Ascii.eqb_refl. reflexivity.
  - intros H. apply andb_true_iff in H. destruct H as [H1 H2].
    apply negb_true_iff in H1. rewrite H1, (IH H2). reflexivity.
Qed.

Lemma cut_None c s : cut c s = None <-> sforall (fun d => negb (Ascii.eqb c d)) s = true.
Proof.
  induction s as [|d s IH]; cbn; [split; reflexivity|].
  destruct (Ascii.eqb c d); cbn; [split; discriminate|].
  rewrite <- IH. destruct (cut c s) as [[a b]|]; split; congruence.
Qed.

Lemma sforall_app f a b : sforall f (a ++ b) = sforall f a && sforall f b.
Proof. induction a as [|c a IH]; cbn; [reflexivity|]. rewrite IH. apply andb_assoc. Qed.

Lemma prefix_spec p s : String.prefix p s = true <-> exists r, s = (p ++ r)%string.
Proof.
  revert s. induction p as [|c p IH]; intros s.
  - split; [intros _; exists s; reflexivity|intros _; destruct s; reflexivity].
  - destruct s as [|d s].
    + split; [discriminate|intros [r H]; discriminate].
    + change (String.prefix (String c p) (String d s))
        with (if ascii_dec c d then String.prefix p s else false).
      destruct (ascii_dec c d) as [->|Hne].
      * rewrite IH. split; intros [r H]; exists r; [cbn; congruence|injection H; auto].
      * split; [discriminate|intros [r H]; injection H as E _; congruence].
Qed.

Lemma contains_spec p s : contains p s = true <-> exists a b, s = (a ++ p ++ b)%string.
Proof.
  induction s as [|c s IH].
  - cbn [contains]. rewrite orb_false_r, prefix_spec. split.
    + intros [r H]. exists ""%string, r. exact H.
    + intros [a [b H]]. destruct a; [exists b; exact H|discriminate].
  - cbn [contains]. rewrite orb_true_iff, prefix_spec, IH. split.
    + intros [[r H]|[a [b H]]].
      * exists ""%string, r. exact H.
      * exists (String c a), b. cbn. congruence.
    + intros [a [b H]]. destruct a as [|d a].
      * left. exists b. exact H.
      * right. injection H as -> H. exists a, b. exact H.
Qed.

Lemma nonempty_true s : nonempty s = true <-> s <> ""%string.
Proof. unfold nonempty. rewrite negb_true_iff. apply String.eqb_neq. Qed.

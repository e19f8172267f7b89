(** LVProofs.v: proofs about LV.v. *)
From Verif Require Import Base BaseProofs PyInt PyIntProofs LV.

Lemma slice_from_len n v : slen (slice_from n v) <= slen v.
Proof. unfold slice_from. destruct (0 <=? n)%Z; apply sdrop_len. Qed.

Lemma cut_len c s a b : cut c s = Some (a, b) -> slen b < slen s.
Proof. intros H. apply cut_spec in H as [-> _]. rewrite slen_app. change (slen (String c b)) with (S (slen b)). lia. Qed.

(** termination: every iteration shortens the text *)
Lemma lv_loop_total f : forall txt, slen txt <= f -> lv_loop f txt <> None.
Proof.
  induction f as [|f IH]; intros txt Hl.
  - destruct txt; [discriminate|cbn in Hl; lia].
  - destruct txt as [|c txt]; [discriminate|]. cbn [lv_loop].
    destruct (cut ":" (String c txt)) as [[l v]|] eqn:E; [|discriminate].
    destruct (py_int l) as [n|]; [|discriminate].
    assert (H : lv_loop f (slice_from n v) <> None).
    { apply IH. pose proof (slice_from_len n v). apply cut_len in E. lia. }
    destruct (lv_loop f (slice_from n v)) as [[]|]; congruence.
Qed.

(** more fuel changes nothing *)
Lemma lv_loop_mono f : forall txt r, lv_loop f txt = Some r -> forall f', f <= f' -> lv_loop f' txt = Some r.
Proof.
  induction f as [|f IH]; intros txt r H f' Hf.
  - destruct txt; [|discriminate]. destruct f'; exact H.
  - destruct f' as [|f']; [lia|]. destruct txt as [|c txt]; [exact H|]. cbn [lv_loop] in *.
    destruct (cut ":" (String c txt)) as [[l v]|]; [|exact H].
    destruct (py_int l) as [n|]; [|exact H].
    destruct (lv_loop f (slice_from n v)) as [x|] eqn:E; [|discriminate].
    rewrite (IH _ _ E f') by lia. exact H.
Qed.

Definition strip_last (l : list string) : list string :=
  match rev l with
  | [] => []
  | x :: r => rev r ++ [rstrip x]
  end.

Lemma strip_last_cons x l : l <> [] -> strip_last (x :: l) = x :: strip_last l.
Proof.
  unfold strip_last. cbn [rev]. destruct (rev l) as [|y r] eqn:E.
  - apply (f_equal (@rev string)) in E. rewrite rev_involutive in E. cbn in E. congruence.
  - cbn [app]. rewrite rev_app_distr. reflexivity.
Qed.

Lemma lv_pack_cons a l : lv_pack (a :: l) = (py_str (Z.of_nat (slen a)) ++ ":" ++ a ++ lv_pack l)%string.
Proof.
  unfold lv_pack. cbn [map String.concat]. destruct (map _ l) as [|y m] eqn:E.
  - destruct l; [|discriminate]. cbn [String.concat]. rewrite str_app_nil_r. reflexivity.
  - rewrite !str_app_assoc. reflexivity.
Qed.

Lemma rstrip_app a b : rstrip b <> ""%string -> rstrip (a ++ b) = (a ++ rstrip b)%string.
Proof.
  intros H. induction a as [|c a IH]; cbn; [auto|]. rewrite IH.
  destruct (a ++ rstrip b)%string as [|y m] eqn:E; [|reflexivity].
  destruct a; [cbn in E; congruence|discriminate].
Qed.
Lemma rstrip_cons c b : is_space c = false -> rstrip (String c b) = String c (rstrip b).
Proof. intros H. cbn. rewrite H. destruct (rstrip b); reflexivity. Qed.


(** packed text whose last value has lost its trailing white space, but not its length *)
Fixpoint lv_pack_cut (l : list string) : string :=
  match l with
  | [] => ""
  | [a] => (py_str (Z.of_nat (slen a)) ++ ":" ++ rstrip a)%string
  | a :: l' => (py_str (Z.of_nat (slen a)) ++ ":" ++ a ++ lv_pack_cut l')%string
  end.

Lemma lv_pack_cut_cons a b l : lv_pack_cut (a :: b :: l) = (py_str (Z.of_nat (slen a)) ++ ":" ++ a ++ lv_pack_cut (b :: l))%string.
Proof. reflexivity. Qed.

Lemma lv_pack_cut_ne a l : lv_pack_cut (a :: l) <> ""%string.
Proof.
  assert (H : forall x : string, (py_str (Z.of_nat (slen a)) ++ x)%string <> ""%string).
  { intros x E. destruct (py_str (Z.of_nat (slen a))) eqn:P; [exact (py_str_nonempty _ P)|discriminate]. }
  destruct l; [apply H|rewrite lv_pack_cut_cons; apply H].
Qed.

Lemma rstrip_lv_pack l : rstrip (lv_pack l) = lv_pack_cut l.
Proof.
  induction l as [|a l IH]; [reflexivity|]. rewrite lv_pack_cons. destruct l as [|b l].
  - change (lv_pack []) with ""%string. rewrite str_app_nil_r. cbn [lv_pack_cut].
    change (":" ++ a)%string with (String ":" a). rewrite rstrip_app; rewrite rstrip_cons by reflexivity; [reflexivity|discriminate].
  - rewrite lv_pack_cut_cons. rewrite <- IH.
    assert (H : rstrip (lv_pack (b :: l)) <> ""%string) by (rewrite IH; apply lv_pack_cut_ne).
    assert (H2 : rstrip (a ++ lv_pack (b :: l)) = (a ++ rstrip (lv_pack (b :: l)))%string) by (apply rstrip_app; auto).
    change (":" ++ a ++ lv_pack (b :: l))%string with (String ":" (a ++ lv_pack (b :: l))).
    rewrite rstrip_app; rewrite rstrip_cons by reflexivity; rewrite H2; [reflexivity|discriminate].
Qed.

Lemma lstrip_lv_pack l : lstrip (lv_pack l) = lv_pack l.
Proof.
  destruct l as [|a l]; [reflexivity|]. rewrite lv_pack_cons.
  pose proof (py_str_no_space (Z.of_nat (slen a))) as H. pose proof (py_str_nonempty (Z.of_nat (slen a))) as Hn.
  destruct (py_str (Z.of_nat (slen a))) as [|c s]; [congruence|].
  cbn in H. apply andb_true_iff in H as [H _]. apply negb_true_iff in H. cbn. rewrite H. reflexivity.
Qed.

Lemma no_colon n : (0 <= n)%Z -> sforall (fun d => negb (Ascii.eqb ":" d)) (py_str n) = true.
Proof.
  intros H. eapply sforall_impl; [|apply py_str_digits; auto].
  intros c Hc. destruct (Ascii.eqb ":" c) eqn:E; [|reflexivity].
  apply Ascii.eqb_eq in E. subst. discriminate.
Qed.

Lemma rstrip_len s : slen (rstrip s) <= slen s.
Proof.
  unfold slen. induction s as [|c s IH]; cbn; [lia|]. destruct (rstrip s) as [|y r]; cbn in *; [|lia].
  destruct (is_space c); cbn; lia.
Qed.
Lemma stake_all n s : slen s <= n -> stake n s = s.
Proof. unfold slen. revert n. induction s; intros [|n] H; cbn in *; try reflexivity; [lia|]. f_equal. apply IHs. lia. Qed.
Lemma sdrop_all n s : slen s <= n -> sdrop n s = ""%string.
Proof. unfold slen. revert n. induction s; intros [|n] H; cbn in *; try reflexivity; [lia|]. apply IHs. lia. Qed.

Lemma lv_loop_cut l : exists f, lv_loop f (lv_pack_cut l) = Some (Ok (strip_last l)).
Proof.
  induction l as [|a l IH]; [exists O; reflexivity|].
  assert (P : forall rest f r, lv_loop f (sdrop (slen a) rest) = Some (Ok r) ->
     lv_loop (S f) (py_str (Z.of_nat (slen a)) ++ ":" ++ rest) = Some (Ok (stake (slen a) rest :: r))).
  { intros rest f r H.
    assert (C : cut ":" (py_str (Z.of_nat (slen a)) ++ ":" ++ rest) = Some (py_str (Z.of_nat (slen a)), rest)).
    { change (":" ++ rest)%string with (String ":" rest). apply cut_app, no_colon. lia. }
    pose proof (py_str_nonempty (Z.of_nat (slen a))) as Hn.
    destruct (py_str (Z.of_nat (slen a)) ++ ":" ++ rest)%string as [|c t] eqn:E.
    - destruct (py_str (Z.of_nat (slen a))); [congruence|discriminate].
    - cbn [lv_loop]. rewrite C, py_int_str. unfold slice_from, slice_to.
      replace (0 <=? Z.of_nat (slen a))%Z with true by (symmetry; apply Z.leb_le; lia).
      rewrite Nat2Z.id, H. reflexivity. }
  destruct l as [|b l].
  - exists 1. cbn [lv_pack_cut]. rewrite (P (rstrip a) 0 []).
    + rewrite stake_all by apply rstrip_len. reflexivity.
    + rewrite sdrop_all by apply rstrip_len. reflexivity.
  - destruct IH as (f & IH). exists (S f). rewrite lv_pack_cut_cons, strip_last_cons by discriminate.
    rewrite (P _ f (strip_last (b :: l))); [rewrite stake_app; reflexivity|]. rewrite sdrop_app. exact IH.
Qed.

(** the exact result of unpacking what was packed *)
Theorem lv_round_trip_exact l : lv_unpack (lv_pack l) = Ok (strip_last l).
Proof.
  unfold lv_unpack, strip. rewrite lstrip_lv_pack, rstrip_lv_pack.
  destruct (lv_loop_cut l) as (f & E).
  assert (T := lv_loop_total (slen (lv_pack_cut l)) (lv_pack_cut l) (le_n _)).
  destruct (lv_loop (slen (lv_pack_cut l)) (lv_pack_cut l)) as [r|] eqn:E2; [|congruence].
  pose proof (lv_loop_mono _ _ _ E (f + slen (lv_pack_cut l)) ltac:(lia)) as E3.
  pose proof (lv_loop_mono _ _ _ E2 (f + slen (lv_pack_cut l)) ltac:(lia)) as E4. congruence.
Qed.

Lemma strip_last_id l : strip_last l = l <-> (forall p x, l = p ++ [x] -> rstrip x = x).
Proof.
  unfold strip_last. destruct (rev l) as [|x r] eqn:E.
  - apply (f_equal (@rev string)) in E. rewrite rev_involutive in E. cbn in E. subst. split; auto.
    intros _ p x H. destruct p; discriminate.
  - apply (f_equal (@rev string)) in E. rewrite rev_involutive in E. cbn in E. subst l. split.
    + intros H p y Hp. apply app_inj_tail in H as [_ H]. apply app_inj_tail in Hp as [_ ->]. exact H.
    + intros H. f_equal. f_equal. apply (H (rev r)). reflexivity.
Qed.

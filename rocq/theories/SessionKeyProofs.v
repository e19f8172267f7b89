(** SessionKeyProofs.v *)
From Verif Require Import Base BaseProofs SessionKey SplitProofs.

(** An id contains ";;" / ends in ";" - independent reading of "unambiguous id". *)
Definition id_ok (x : string) : Prop :=
  (forall a b, x <> (a ++ ";;" ++ b)%string) /\ (forall a, x <> (a ++ ";")%string).

(** Ids that may be used in the last position only need to be free of ";;". *)
Definition last_id_ok (x : string) : Prop := forall a b, x <> (a ++ ";;" ++ b)%string.

Definition ids_ok (l : list string) : Prop :=
  match rev l with
  | [] => False
  | x :: l' => last_id_ok x /\ Forall id_ok l'
  end.

Lemma ends_c_spec c x : ends_c c x = true <-> exists a, x = (a ++ String c "")%string.
Proof.
  induction x as [|d x IH].
  - split; [discriminate|]. intros [[|e a] H]; discriminate.
  - destruct x as [|e x].
    + cbn [ends_c]. rewrite Ascii.eqb_eq. split.
      * intros ->. exists "". reflexivity.
      * intros [[|f a] H]; [injection H; auto|]. injection H as _ H. destruct a; discriminate.
    + change (ends_c c (String d (String e x))) with (ends_c c (String e x)).
      rewrite IH. split; intros [a H].
      * exists (String d a). cbn. congruence.
      * destruct a as [|f a]; [discriminate|]. injection H as _ H. exists a. exact H.
Qed.

Lemma contains_dsep_spec x :
  contains ";;" x = false <-> last_id_ok x.
Proof.
  unfold last_id_ok. split.
  - intros H a b E. assert (contains ";;" x = true); [|congruence].
    apply contains_spec. exists a, b. exact E.
  - intros H. destruct (contains ";;" x) eqn:E; [|reflexivity].
    apply contains_spec in E. destruct E as [a [b E]]. exfalso. eapply H, E.
Qed.

Lemma id_ok_spec x : id_ok x <-> contains ";;" x = false /\ ends_c ";" x = false.
Proof.
  unfold id_ok. fold (last_id_ok x). rewrite <- contains_dsep_spec.
  split; intros [H1 H2]; split; try exact H1.
  - destruct (ends_c ";" x) eqn:E; [|reflexivity].
    apply ends_c_spec in E. destruct E as [a E]. exfalso. eapply H2, E.
  - intros a E. assert (ends_c ";" x = true); [|congruence].
    apply ends_c_spec. exists a. exact E.
Qed.

Lemma clean_snoc l x :
  clean ";" (l ++ [x]) = true <-> last_id_ok x /\ Forall id_ok l.
Proof.
  induction l as [|y l IH].
  - cbn [app clean]. rewrite negb_true_iff. change (dsep ";") with ";;".
    rewrite contains_dsep_spec. split; [intros H; split; [exact H|constructor]|tauto].
  - cbn [app]. assert (E : clean ";" (y :: l ++ [x]) =
      negb (contains ";;" y) && negb (ends_c ";" y) && clean ";" (l ++ [x])).
    { destruct l; reflexivity. }
    rewrite E, !andb_true_iff, !negb_true_iff, IH, Forall_cons_iff, id_ok_spec. tauto.
Qed.

Lemma ids_ok_clean l : ids_ok l <-> clean ";" l = true.
Proof.
  unfold ids_ok. destruct (rev l) as [|x l'] eqn:E.
  - apply (f_equal (@rev string)) in E. rewrite rev_involutive in E. cbn in E. subst l.
    split; [tauto|discriminate].
  - apply (f_equal (@rev string)) in E. rewrite rev_involutive in E. cbn in E. subst l.
    rewrite clean_snoc. split; intros [H1 H2]; (split; [exact H1|]).
    + apply Forall_rev, H2.
    + apply Forall_rev in H2. rewrite rev_involutive in H2. exact H2.
Qed.

Theorem session_key_roundtrip_iff ids :
  unpack_session_key (session_key ids) = ids <-> ids_ok ids.
Proof.
  unfold unpack_session_key, session_key. change DIVIDER with (dsep ";").
  rewrite ids_ok_clean. split.
  - intros H. rewrite <- H. apply clean_split.
  - apply split_join.
Qed.

Theorem session_key_injective ids1 ids2 :
  ids_ok ids1 -> ids_ok ids2 -> session_key ids1 = session_key ids2 -> ids1 = ids2.
Proof.
  intros H1 H2 E. apply session_key_roundtrip_iff in H1, H2. congruence.
Qed.

(** Every string is the session key of the (only) well-formed id list it unpacks to. *)
Theorem unpack_session_key_total k :
  ids_ok (unpack_session_key k) /\ session_key (unpack_session_key k) = k.
Proof.
  unfold unpack_session_key, session_key. change DIVIDER with (dsep ";").
  split; [apply ids_ok_clean, clean_split|apply join_split].
Qed.

Theorem unpack3_spec k u c g :
  unpack3 k = Ok (u, c, g) <->
  unpack_session_key k = [u; c; g].
Proof.
  unfold unpack3. destruct (unpack_session_key k) as [|a [|b [|d [|e l]]]];
    split; intros H; try discriminate; injection H as -> -> ->; reflexivity.
Qed.

Lemma unpack3_key u c g : ids_ok [u; c; g] -> unpack3 (session_key [u; c; g]) = Ok (u, c, g).
Proof. intros H. apply unpack3_spec, session_key_roundtrip_iff, H. Qed.

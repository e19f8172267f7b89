(** SplitProofs.v: [split] and [join] with a separator made of one character,
    or of the same character twice ("::" and ";;"). *)
From Verif Require Import Base BaseProofs.

(** ** separator of two equal characters *)
Section Double.
Variable c : ascii.
Definition dsep : string := String c (String c "").

(** [ends_c s]: the last character of [s] is [c] *)
Fixpoint ends_c (s : string) : bool :=
  match s with
  | "" => false
  | String d "" => Ascii.eqb c d
  | String _ s' => ends_c s'
  end.

Lemma prefix_dsep d s :
  String.prefix dsep (String d s) =
  Ascii.eqb c d && match s with "" => false | String e _ => Ascii.eqb c e end.
Proof.
  unfold dsep.
  change (String.prefix (String c (String c "")) (String d s))
    with (if ascii_dec c d then String.prefix (String c "") s else false).
  destruct (ascii_dec c d) as [->|Hne].
  - rewrite Ascii.eqb_refl. cbn [andb]. destruct s as [|e s]; [reflexivity|].
    change (String.prefix (String d "") (String e s))
      with (if ascii_dec d e then String.prefix "" s else false).
    destruct (ascii_dec d e) as [->|Hne].
    + rewrite Ascii.eqb_refl. destruct s; reflexivity.
    + apply Ascii.eqb_neq in Hne. rewrite Hne. reflexivity.
  - apply Ascii.eqb_neq in Hne. rewrite Hne. reflexivity.
Qed.

Lemma prefix_nonempty_empty : String.prefix dsep "" = false.
Proof. reflexivity. Qed.

Lemma split_go_cons d s :
  split_go dsep (String d s) 0 =
  if Ascii.eqb c d && match s with "" => false | String e _ => Ascii.eqb c e end
  then "" :: split_go dsep s 1 else push d (split_go dsep s 0).
Proof. cbn [split_go]. rewrite prefix_dsep. reflexivity. Qed.

Lemma split_go_nonempty s k : split_go dsep s k <> [].
Proof.
  revert k. induction s as [|d s IH]; intros k; [discriminate|].
  destruct k as [|k]; [|apply (IH k)].
  rewrite split_go_cons. destruct (_ && _); [discriminate|].
  destruct (split_go dsep s 0); discriminate.
Qed.

(** A clean piece followed by the separator is cut off as is. *)
Lemma split_app_sep x rest :
  contains dsep x = false -> ends_c x = false ->
  split dsep (x ++ dsep ++ rest) = x :: split dsep rest.
Proof.
  unfold split. induction x as [|d x IH]; intros Hc He.
  - cbn [append dsep]. rewrite split_go_cons. cbn [append].
    rewrite Ascii.eqb_refl. reflexivity.
  - cbn [append]. rewrite split_go_cons.
    assert (E : Ascii.eqb c d && match (x ++ dsep ++ rest)%string with
                "" => false | String e _ => Ascii.eqb c e end = false).
    { cbn [contains] in Hc. apply orb_false_iff in Hc. destruct Hc as [Hc _].
      rewrite prefix_dsep in Hc. destruct x as [|e x]; cbn [append dsep].
      - cbn in He. rewrite He. reflexivity.
      - exact Hc. }
    rewrite E. rewrite IH.
    + reflexivity.
    + cbn [contains] in Hc. apply orb_false_iff in Hc. apply Hc.
    + destruct x; [reflexivity|exact He].
Qed.

Lemma split_no_sep x : contains dsep x = false -> split dsep x = [x].
Proof.
  unfold split. induction x as [|d x IH]; intros Hc; [reflexivity|].
  rewrite split_go_cons. cbn [contains] in Hc. apply orb_false_iff in Hc. destruct Hc as [H1 H2].
  rewrite prefix_dsep in H1. rewrite H1, (IH H2). reflexivity.
Qed.

(** The ids for which the separator is unambiguous. *)
Fixpoint clean (l : list string) : bool :=
  match l with
  | [] => false
  | [x] => negb (contains dsep x)
  | x :: l' => negb (contains dsep x) && negb (ends_c x) && clean l'
  end.

Lemma split_join l : clean l = true -> split dsep (join dsep l) = l.
Proof.
  induction l as [|x l IH]; cbn [clean]; [discriminate|].
  destruct l as [|y l].
  - intros H. apply negb_true_iff in H. apply split_no_sep, H.
  - intros H. apply andb_true_iff in H. destruct H as [H H3].
    apply andb_true_iff in H. destruct H as [H1 H2].
    apply negb_true_iff in H1, H2.
    change (join dsep (x :: y :: l)) with (x ++ dsep ++ join dsep (y :: l))%string.
    rewrite split_app_sep by assumption. rewrite IH by exact H3. reflexivity.
Qed.

(** Whatever is split, joining gives the input back ... *)
Lemma join_push d l : l <> [] -> join dsep (push d l) = String d (join dsep l).
Proof. intros Hl. destruct l as [|h [|h2 t]]; [congruence|reflexivity|reflexivity]. Qed.

Lemma join_split_go s :
  join dsep (split_go dsep s 0) = s /\
  (forall s', s = String c s' -> join dsep (split_go dsep s 1) = s').
Proof.
  induction s as [|d s IH].
  - split; [reflexivity|discriminate].
  - destruct IH as [IH0 IH1]. split.
    + rewrite split_go_cons. destruct (_ && _) eqn:E.
      * apply andb_true_iff in E. destruct E as [E1 E2].
        apply Ascii.eqb_eq in E1. subst d.
        destruct s as [|e s]; [discriminate|]. apply Ascii.eqb_eq in E2. subst e.
        specialize (IH1 s eq_refl).
        destruct (split_go dsep (String c s) 1) as [|h t] eqn:E3.
        -- exfalso. eapply split_go_nonempty, E3.
        -- change (join dsep ("" :: h :: t)) with (dsep ++ join dsep (h :: t))%string.
           rewrite IH1. reflexivity.
      * rewrite join_push by apply split_go_nonempty. congruence.
    + intros s' [= -> ->]. cbn [split_go]. exact IH0.
Qed.

Lemma join_split s : join dsep (split dsep s) = s.
Proof. apply join_split_go. Qed.

(** ... and the pieces are always clean. *)
Lemma clean_push d l :
  clean l = true ->
  (contains dsep (String d (hd "" l)) = false) ->
  (tl l <> [] -> ends_c (String d (hd "" l)) = false) ->
  clean (push d l) = true.
Proof.
  destruct l as [|h [|h2 t]]; intros Hc H1 H2; [discriminate| |].
  - cbn [push clean hd] in *. rewrite H1. reflexivity.
  - cbn [hd tl] in *. cbn [push].
    change (negb (contains dsep (String d h)) && negb (ends_c (String d h))
            && clean (h2 :: t) = true).
    rewrite H1, H2 by discriminate. cbn [negb andb].
    change (negb (contains dsep h) && negb (ends_c h) && clean (h2 :: t) = true) in Hc.
    apply andb_true_iff in Hc. apply Hc.
Qed.

Lemma clean_head l h t : clean l = true -> l = h :: t -> contains dsep h = false.
Proof.
  intros H ->. destruct t; cbn [clean] in H.
  - apply negb_true_iff, H.
  - apply andb_true_iff in H. destruct H as [H _]. apply andb_true_iff in H.
    apply negb_true_iff, H.
Qed.

(** Head of a split: either the whole string, or up to a separator. *)
Lemma split_go_head s :
  (exists h t, split_go dsep s 0 = h :: t /\
     (t = [] /\ h = s \/ t <> [] /\ exists r, s = (h ++ dsep ++ r)%string)).
Proof.
  pose proof (join_split s) as J. unfold split in J.
  destruct (split_go dsep s 0) as [|h t] eqn:E; [exfalso; eapply split_go_nonempty, E|].
  exists h, t. split; [reflexivity|]. destruct t as [|h2 t].
  - left. split; [reflexivity|exact J].
  - right. split; [discriminate|]. exists (join dsep (h2 :: t)). symmetry. exact J.
Qed.

Lemma split_go_clean s :
  clean (split_go dsep s 0) = true /\
  (forall s', s = String c s' -> clean (split_go dsep s 1) = true).
Proof.
  induction s as [|d s IH].
  - split; [reflexivity|discriminate].
  - destruct IH as [IH0 IH1]. split.
    + rewrite split_go_cons. destruct (_ && _) eqn:E.
      * apply andb_true_iff in E. destruct E as [E1 E2].
        destruct s as [|e s]; [discriminate|]. apply Ascii.eqb_eq in E2. subst e.
        specialize (IH1 s eq_refl).
        destruct (split_go dsep (String c s) 1) eqn:E3;
          [exfalso; eapply split_go_nonempty, E3|].
        cbn [clean]. cbn [contains ends_c]. exact IH1.
      * destruct (split_go_head s) as [h [t [Es Hs]]]. rewrite Es in *.
        apply clean_push; [exact IH0| |]; cbn [hd tl].
        -- cbn [contains]. rewrite prefix_dsep.
           rewrite (clean_head _ h t IH0 eq_refl), orb_false_r.
           destruct Hs as [[-> ->]|[_ [r ->]]]; [exact E|].
           destruct h as [|e h]; [apply andb_false_r|exact E].
        -- intros Ht. destruct Hs as [[-> _]|[_ [r Hr]]]; [congruence|]. subst s.
           destruct h as [|e h]; cbn [ends_c].
           ++ cbn [append dsep] in E. rewrite Ascii.eqb_refl, andb_true_r in E. exact E.
           ++ destruct t as [|h2 t]; [congruence|]. cbn [clean] in IH0.
              apply andb_true_iff in IH0. destruct IH0 as [IH0 _].
              apply andb_true_iff in IH0. destruct IH0 as [_ IH0].
              apply negb_true_iff, IH0.
    + intros s' [= -> ->]. cbn [split_go]. exact IH0.
Qed.

Lemma clean_split s : clean (split dsep s) = true.
Proof. apply split_go_clean. Qed.

End Double.

(** ** separator of one character *)
Section Single.
Variable c : ascii.
Definition ssep : string := String c "".

Lemma prefix_ssep d s : String.prefix ssep (String d s) = Ascii.eqb c d.
Proof.
  change (String.prefix ssep (String d s))
    with (if ascii_dec c d then String.prefix "" s else false).
  destruct (ascii_dec c d) as [->|Hne].
  - rewrite Ascii.eqb_refl. destruct s; reflexivity.
  - apply Ascii.eqb_neq in Hne. rewrite Hne. reflexivity.
Qed.

Lemma split1_cons d s :
  split ssep (String d s) =
  if Ascii.eqb c d then "" :: split ssep s else push d (split ssep s).
Proof.
  unfold split. cbn [split_go]. rewrite prefix_ssep. reflexivity.
Qed.

Lemma split1_nonempty s : split ssep s <> [].
Proof.
  induction s as [|d s IH]; [discriminate|].
  rewrite split1_cons. destruct (Ascii.eqb c d); [discriminate|].
  destruct (split ssep s); discriminate.
Qed.

Definition free (s : string) : bool := sforall (fun d => negb (Ascii.eqb c d)) s.

Lemma split1_app x rest :
  free x = true -> split ssep (x ++ String c rest) = x :: split ssep rest.
Proof.
  unfold free. induction x as [|d x IH]; cbn [append sforall]; intros H.
  - rewrite split1_cons, Ascii.eqb_refl. reflexivity.
  - apply andb_true_iff in H. destruct H as [H1 H2]. apply negb_true_iff in H1.
    rewrite split1_cons, H1, (IH H2). reflexivity.
Qed.

Lemma split1_free x : free x = true -> split ssep x = [x].
Proof.
  unfold free. induction x as [|d x IH]; cbn [sforall]; intros H; [reflexivity|].
  apply andb_true_iff in H. destruct H as [H1 H2]. apply negb_true_iff in H1.
  rewrite split1_cons, H1, (IH H2). reflexivity.
Qed.

Lemma split1_join l : l <> [] -> forallb free l = true -> split ssep (join ssep l) = l.
Proof.
  induction l as [|x l IH]; [congruence|]. intros _. cbn [forallb]. intros H.
  apply andb_true_iff in H. destruct H as [H1 H2]. destruct l as [|y l].
  - apply split1_free, H1.
  - change (join ssep (x :: y :: l)) with (x ++ String c (join ssep (y :: l)))%string.
    rewrite split1_app by exact H1. rewrite IH; [reflexivity|discriminate|exact H2].
Qed.

Lemma join1_split s : join ssep (split ssep s) = s.
Proof.
  induction s as [|d s IH]; [reflexivity|].
  rewrite split1_cons. destruct (Ascii.eqb_spec c d) as [Ecd|Hne].
  - destruct (split ssep s) as [|h t] eqn:E; [exfalso; eapply split1_nonempty, E|].
    change (join ssep ("" :: h :: t)) with (String c (join ssep (h :: t))). congruence.
  - rewrite <- IH at 2. destruct (split ssep s) as [|h [|h2 t]] eqn:E;
      [exfalso; eapply split1_nonempty, E|reflexivity|reflexivity].
Qed.

Lemma split1_pieces s : forallb free (split ssep s) = true.
Proof.
  induction s as [|d s IH]; [reflexivity|].
  rewrite split1_cons. destruct (Ascii.eqb c d) eqn:E; [exact IH|].
  destruct (split ssep s) as [|h t]; cbn [push forallb] in *.
  - cbn. rewrite E. reflexivity.
  - unfold free at 1. cbn [sforall]. rewrite E. exact IH.
Qed.
End Single.

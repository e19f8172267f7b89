(** ServicesProofs.v *)
From Verif Require Import Base BaseProofs SplitProofs Types Ctx Services ServicesSpec.
Local Open Scope string_scope.

(** ** Names *)
Lemma free_contains1 c s : free c s = true <-> contains (String c "") s = false.
Proof.
  unfold free. induction s as [|d s IH]; [easy|]. cbn [sforall contains].
  change (String.prefix (String c "") (String d s)) with (if ascii_dec c d then String.prefix "" s else false).
  rewrite andb_true_iff, orb_false_iff, IH, negb_true_iff, Ascii.eqb_neq.
  destruct (ascii_dec c d) as [->|]; [|easy]. split; intros [A B]; [congruence|destruct s; discriminate A].
Qed.
Lemma contains1_app c a b : contains (String c "") (a ++ String c b) = true.
Proof. apply contains_spec. exists a, b. reflexivity. Qed.
Lemma join_last sep l x : l <> [] -> join sep (l ++ [x])%list = join sep l ++ sep ++ x.
Proof.
  induction l as [|y l IH]; [congruence|]. intros _. destruct l as [|z l]; [reflexivity|].
  change (join sep ((y :: z :: l) ++ [x])%list) with (y ++ sep ++ join sep ((z :: l) ++ [x])%list).
  rewrite IH by discriminate. change (join sep (y :: z :: l)) with (y ++ sep ++ join sep (z :: l)).
  now rewrite !str_app_assoc.
Qed.

Lemma modsplit_iff s m k : modsplit s = Ok (m, k) <-> denotes s m k.
Proof.
  unfold modsplit, denotes. destruct (contains ":" s) eqn:C.
  - split.
    + intros E. left. pose proof (join1_split ":" s) as J. pose proof (split1_pieces ":" s) as F.
      change (ssep ":") with ":" in J, F. destruct (split ":" s) as [|a [|b [|? ?]]]; try discriminate.
      injection E as -> ->. cbn [join forallb] in J, F. rewrite !andb_true_iff in F. destruct F as (A & B & _).
      split; [now rewrite <- J|]. split; now apply free_contains1.
    + intros [(E & A & B)|(_ & A & _)]; [|congruence]. apply free_contains1 in A, B. subst s.
      change (m ++ ":" ++ k) with (m ++ String ":" k). change ":" with (ssep ":").
      now rewrite (split1_app ":" m k A), (split1_free ":" k B).
  - split.
    + intros E. right. pose proof (join1_split "." s) as J. pose proof (split1_pieces "." s) as F.
      change (ssep ".") with "." in J, F. destruct (split "." s) as [|a l] eqn:P; [discriminate|].
      destruct l as [|b l]; [discriminate|]. remember (b :: l) as l' eqn:L.
      assert (X : Ok (join "." (removelast (a :: l')), last (a :: l') "") = Ok (m, k)) by (subst l'; exact E).
      assert (N : a :: l' <> []) by discriminate. rewrite (app_removelast_last "" N) in J, F.
      rewrite forallb_app in F. apply andb_true_iff in F. destruct F as [_ F]. cbn [forallb] in F. rewrite andb_true_r in F.
      assert (R : removelast (a :: l') <> []) by (subst l'; discriminate).
      rewrite (join_last "." _ _ R) in J.
      assert (join "." (removelast (a :: l')) = m) by congruence. assert (last (a :: l') "" = k) by congruence.
      split; [|split; [reflexivity|]].
      * rewrite <- J. congruence.
      * apply free_contains1. congruence.
    + intros [(E & _)|(E & _ & B)].
      * exfalso. subst s. change (m ++ ":" ++ k) with (m ++ String ":" k) in C. now rewrite contains1_app in C.
      * apply free_contains1 in B. subst s.
        assert (P : split "." (m ++ "." ++ k) = (split "." m ++ [k])%list).
        { clear C. induction m as [|d m IH].
          - change ("" ++ "." ++ k) with ("" ++ String "." k). change "." with (ssep ".") at 1.
            rewrite (split1_app "." "" k eq_refl). now rewrite (split1_free "." k B).
          - change (String d m ++ "." ++ k) with (String d (m ++ "." ++ k)).
            pose proof (split1_cons "." d (m ++ "." ++ k)) as S1. pose proof (split1_cons "." d m) as S2.
            change (ssep ".") with "." in S1, S2. rewrite S1, S2, IH.
            destruct (Ascii.eqb "." d); [reflexivity|].
            pose proof (split1_nonempty "." m) as N. change (ssep ".") with "." in N.
            destruct (split "." m); [congruence|reflexivity]. }
        rewrite P. pose proof (split1_nonempty "." m) as N. pose proof (join1_split "." m) as J.
        change (ssep ".") with "." in N, J.
        destruct (split "." m) as [|a l] eqn:Q; [congruence|].
        assert (D : ((a :: l) ++ [k] = a :: (l ++ [k]))%list) by reflexivity.
        destruct (l ++ [k])%list as [|b l'] eqn:W; [destruct l; discriminate|].
        rewrite D. change (match a :: b :: l' with [] | [_] => Raise EValue | _ => Ok (join "." (removelast (a :: b :: l')), last (a :: b :: l') "") end)
          with (Ok (join "." (removelast (a :: b :: l')), last (a :: b :: l') "")). rewrite <- D.
        rewrite removelast_last, last_last, J. reflexivity.
Qed.

(** ** Paths *)
Lemma prefix_slash p : String.prefix "/" p = true <-> absolute p.
Proof. rewrite prefix_spec. reflexivity. Qed.
Lemma join_absolute d p : absolute p -> path_join d p = p.
Proof. intros A. apply prefix_slash in A. unfold path_join. now rewrite A. Qed.
Lemma join_below d p : d <> "" -> ends_with "/" d = false -> ~ absolute p -> path_join d p = below d p.
Proof.
  intros N E A. unfold path_join, below. destruct (String.prefix "/" p) eqn:P; [now apply prefix_slash in P|].
  rewrite E. now destruct d.
Qed.
Lemma absolute_app d p : absolute d -> absolute (d ++ p).
Proof. intros [r ->]. exists (r ++ p). reflexivity. Qed.
Lemma absolute_join d p : absolute d -> absolute (path_join d p).
Proof.
  intros A. unfold path_join. destruct (String.prefix "/" p) eqn:P; [now apply prefix_slash|].
  destruct (negb (nonempty d) || ends_with "/" d); now apply absolute_app.
Qed.
Lemma join_twice d p : absolute d \/ absolute p \/ d = "" -> path_join d (path_join d p) = path_join d p.
Proof.
  intros [A|[A| ->]].
  - now apply join_absolute, absolute_join.
  - now rewrite !(join_absolute d p A).
  - assert (E : forall q, path_join "" q = q) by (intros q; unfold path_join; now destruct (String.prefix "/" q)).
    now rewrite !E.
Qed.
Lemma app_len a b : String.length (a ++ b) = (String.length a + String.length b)%nat.
Proof. induction a; cbn; congruence. Qed.
Lemma join_grows d p : d <> "" -> ~ absolute d -> ~ absolute p -> path_join d (path_join d p) <> path_join d p.
Proof.
  intros N D P E. assert (G : forall q, ~ absolute q -> (String.length q < String.length (path_join d q))%nat).
  { intros q Q. unfold path_join. destruct (String.prefix "/" q) eqn:X; [now apply prefix_slash in X|].
    destruct d as [|c d]; [congruence|]. destruct (negb (nonempty (String c d)) || ends_with "/" (String c d));
    rewrite ?app_len; cbn; lia. }
  assert (A : ~ absolute (path_join d p)).
  { intros A. unfold path_join in A. destruct (String.prefix "/" p) eqn:X; [now apply prefix_slash in X|].
    apply D. destruct d as [|c d]; [congruence|].
    destruct (negb (nonempty (String c d)) || ends_with "/" (String c d)); destruct A as [r R]; injection R as -> _; now exists d. }
  specialize (G _ A). rewrite E in G. lia.
Qed.

(** ** Helpers *)
Section Helpers.
  Variables (obj : Type) (import : string -> string -> result obj) (call : obj -> bool -> msg -> result obj)
            (invoke : obj -> msg -> result obj) (set_user_info : obj -> obj -> result obj) (is_true : obj -> bool).

  Lemma importer_iff s f : importer obj import s = Ok f <-> exists m k, denotes s m k /\ import m k = Ok f.
  Proof.
    unfold importer. split.
    - destruct (modsplit s) as [[m k]|e] eqn:M; [|discriminate]. cbn. apply modsplit_iff in M. eauto.
    - intros (m & k & D & I). apply modsplit_iff in D. now rewrite D.
  Qed.
  Lemma callee_iff i f : callee obj import i = Ok f <-> stands_for obj import i f.
  Proof.
    unfold callee, stands_for. destruct i as [s|o|a].
    - rewrite importer_iff. split.
      + intros (m & k & D & J). right. exists s, m, k. auto.
      + intros [E|(s' & m & k & E & D & J)]; [discriminate|]. injection E as <-. eauto.
    - split.
      + intros [= <-]. now left.
      + intros [E|(s' & m & k & E & _)]; [congruence|discriminate].
    - split; [discriminate|]. intros [E|(s' & m & k & E & _)]; discriminate.
  Qed.
  Lemma arguments_iff c k : arguments obj c = Ok k <-> given_args obj c k.
  Proof.
    unfold arguments, given_args. destruct (dget "kwargs" c) as [[s|o|m]|].
    - split; [discriminate|]. intros [[E _]|E]; discriminate.
    - split; [discriminate|]. intros [[E _]|E]; discriminate.
    - split; [intros [= <-]; auto|]. intros [[E _]|E]; congruence.
    - split; [intros [= <-]; auto|]. intros [[_ ->]|E]; [reflexivity|discriminate].
  Qed.
  Lemma init_service_iff c ctx o : init_service obj import call true c ctx = Ok o <-> instance_of obj import call c ctx o.
  Proof.
    unfold init_service, instance_of, dsub. split.
    - destruct (arguments obj c) as [k|] eqn:A; [|discriminate]. cbn. apply arguments_iff in A.
      destruct (dget "class" c) as [i|]; [|discriminate]. cbn.
      destruct (callee obj import i) as [f|] eqn:F; [|discriminate]. apply callee_iff in F. cbn.
      intros H. exists i, f, k. destruct ctx; auto.
    - intros (i & f & k & C & F & A & H). apply arguments_iff in A. rewrite A, C. cbn.
      apply callee_iff in F. rewrite F. cbn. now destruct ctx.
  Qed.

  Lemma do_sub_func_get entries acc d key : NoDup (map fst entries) ->
    do_sub_func obj import call true entries acc = Ok d ->
    match dget key entries with
    | None => dget key d = dget key acc
    | Some args => exists r, sub_entry obj import call true args = Ok r /\
                             dget key d = match r with Some f => Some f | None => dget key acc end
    end.
  Proof.
    revert acc. induction entries as [|[k args] l IH]; intros acc N H.
    - now injection H as <-.
    - cbn in H. inversion N as [|? ? N1 N2]; subst. cbn [dget].
      destruct (sub_entry obj import call true args) as [r|] eqn:E; [|discriminate]. cbn in H. specialize (IH _ N2 H).
      destruct (String.eqb_spec key k) as [->|Ne].
      + assert (X : dget k l = None).
        { destruct (dget k l) eqn:G; [|reflexivity]. exfalso. apply N1. apply dget_In in G.
          now apply (in_map fst) in G. }
        rewrite X in IH. exists r. split; [exact E|]. rewrite IH. destruct r; [apply dget_dset_eq|reflexivity].
      + destruct (dget key l).
        * destruct IH as (r' & E' & G). exists r'. split; [exact E'|]. rewrite G. destruct r'; [reflexivity|].
          destruct r; [now apply dget_dset_neq|reflexivity].
        * rewrite IH. destruct r; [now apply dget_dset_neq|reflexivity].
  Qed.
  Lemma default_to_get {A} k k' (v : A) d :
    dget k (default_to k' v d) = match dget k d with Some x => Some x | None => if String.eqb k k' then Some v else None end.
  Proof.
    unfold default_to, dmem. destruct (dget k' d) eqn:E.
    - destruct (dget k d) eqn:F; [reflexivity|]. destruct (String.eqb_spec k k'); [congruence|reflexivity].
    - rewrite dget_dset. destruct (String.eqb_spec k k') as [->|]; [now rewrite E|now destruct (dget k d)].
  Qed.
  Lemma sub_entry_iff args f : sub_entry obj import call true args = Ok (Some f) <-> sub_stands_for obj import call args f.
  Proof.
    unfold sub_entry, sub_stands_for, dmem. destruct (dget "class" args) as [i|] eqn:C.
    - split.
      + destruct (init_service obj import call true args false) as [o|] eqn:E; [|discriminate]. cbn. intros [= <-].
        left. now apply init_service_iff.
      + intros [E|[E _]]; [|congruence]. apply init_service_iff in E. now rewrite E.
    - split.
      + destruct (dget "function" args) as [i|]; [|discriminate].
        destruct (callee obj import i) as [o|] eqn:E; [|discriminate]. cbn. intros [= <-].
        right. split; [reflexivity|]. exists i. split; [reflexivity|]. now apply callee_iff.
      + intros [E|(_ & i & F & E)].
        * destruct E as (i & ? & ? & E & _). congruence.
        * rewrite F. apply callee_iff in E. now rewrite E.
  Qed.
  Lemma do_add_on_iff entries l : do_add_on obj import entries = Ok l <->
    Forall2 (fun e fa => add_on_of obj import (snd e) fa) entries l.
  Proof.
    revert l. induction entries as [|[k spec] es IH]; intros l.
    - cbn. split; [intros [= <-]; constructor|]. intros H. now inversion H.
    - cbn. unfold dsub. split.
      + destruct (dget "function" spec) as [i|] eqn:F; [|discriminate]. cbn.
        destruct (callee obj import i) as [f|] eqn:C; [|discriminate]. cbn.
        destruct (dget "kwargs" spec) as [[| |m]|] eqn:K; try discriminate. cbn.
        destruct (do_add_on obj import es) as [l'|] eqn:D; [|discriminate]. cbn. intros [= <-].
        constructor; [|now apply IH]. exists i. apply callee_iff in C. auto.
      + intros H. inversion H as [|? [f m] ? l' (i & F & C & K) R]; subst. cbn in F, C, K. rewrite F. cbn.
        apply callee_iff in C. rewrite C. cbn. rewrite K. cbn. apply IH in R. now rewrite R.
  Qed.
  Lemma configured_iff c : configured obj c = None <-> unset obj c.
  Proof. unfold configured, unset. destruct c as [[|? ?]|]; split; auto; intros H; try discriminate; destruct H; discriminate. Qed.
  Lemma configured_some c s : configured obj c = Some s -> c = Some s /\ ~ unset obj c.
  Proof.
    unfold configured, unset. destruct c as [[|? ?]|]; try discriminate. intros [= <-]. split; [reflexivity|].
    intros [E|E]; discriminate.
  Qed.
End Helpers.

Lemma ends_slash d : ends_with "/" d = true <-> exists r, d = r ++ "/".
Proof.
  induction d as [|c d IH].
  - split; [discriminate|]. intros [[|? ?] E]; discriminate.
  - cbn [ends_with]. rewrite orb_true_iff, IH. split.
    + intros [E|[r ->]]; [|now exists (String c r)]. apply String.eqb_eq in E. exists "". exact (eq_sym E).
    + intros [[|c' r] E].
      * left. now injection E as -> ->.
      * right. injection E as _ ->. eauto.
Qed.
Lemma path_join_relative cwd : relative_to cwd (path_join cwd).
Proof.
  split; [intros; now apply join_absolute|]. split; [|split].
  - intros -> f. unfold path_join. now destruct (String.prefix "/" f).
  - intros f r E A. unfold path_join. destruct (String.prefix "/" f) eqn:P; [now apply prefix_slash in P|].
    assert (W : ends_with "/" cwd = true) by (apply ends_slash; eauto). rewrite W. now rewrite orb_true_r.
  - intros f N E A. apply join_below; [exact N| |exact A]. destruct (ends_with "/" cwd) eqn:W; [|reflexivity].
    apply ends_slash in W. destruct W as [r W]. now apply E in W.
Qed.

Lemma dset_id {A} k (v : A) d : dget k d = Some v -> dset k v d = d.
Proof.
  induction d as [|[k' v'] d IH]; [discriminate|]. cbn. destruct (String.eqb_spec k k') as [->|]; [congruence|].
  intros H. now rewrite IH.
Qed.
Lemma dset_over {A} k (v v' : A) d : dset k v (dset k v' d) = dset k v d.
Proof.
  induction d as [|[k' w] d IH]; cbn; [now rewrite String.eqb_refl|].
  destruct (String.eqb_spec k k') as [->|N]; cbn; [now rewrite String.eqb_refl|].
  destruct (String.eqb_spec k k'); [congruence|]. now rewrite IH.
Qed.

Lemma configured_dset obj k v (s : sconf obj) : configured obj (Some (dset k v s)) = Some (dset k v s).
Proof. destruct s as [|[k' v'] s]; [reflexivity|]. cbn. now destruct (String.eqb k k'). Qed.

(** PyIntProofs.v: [int(str(z)) == z]. *)
From Verif Require Import Base BaseProofs PyInt.
From Coq Require Import DecimalString DecimalPos.
Local Open Scope Z_scope.

Lemma digits_uint d : forall acc prev,
  digits (Zpos acc) prev (NilEmpty.string_of_uint d) =
  match d, prev with Decimal.Nil, false => None | _, _ => Some (Zpos (Pos.of_uint_acc d acc)) end.
Proof.
  induction d; intros acc prev; cbn [NilEmpty.string_of_uint]; [destruct prev; reflexivity|..];
  (cbn [digits]; match goal with |- context [digit ?c] => let v := eval vm_compute in (digit c) in change (digit c) with v end;
   cbv iota;
   match goal with |- digits ?z true ?s = Some (Zpos (Pos.of_uint_acc ?D acc)) =>
     let q := eval cbn [Pos.of_uint_acc] in (Pos.of_uint_acc D acc) in
     change (Pos.of_uint_acc D acc) with q;
     match q with Pos.of_uint_acc _ ?a => replace z with (Zpos a) by lia end end;
   rewrite IHd; destruct d; reflexivity).
Qed.

Definition uint_nz (d : Decimal.uint) : Prop :=
  match d with Decimal.Nil => False | Decimal.D0 _ => False | _ => True end.

Lemma digits_pos d : uint_nz d ->
  exists p, Pos.of_uint d = Npos p /\ digits 0 false (NilEmpty.string_of_uint d) = Some (Zpos p).
Proof.
  intros H. destruct d; try contradiction; cbn [Pos.of_uint]; eexists; (split; [reflexivity|]);
  cbn [NilEmpty.string_of_uint digits];
  (match goal with |- context [digit ?c] => let v := eval vm_compute in (digit c) in change (digit c) with v end;
   cbv iota;
   match goal with |- digits ?z true _ = _ => let v := eval vm_compute in z in change z with v end;
   rewrite digits_uint; destruct d; reflexivity).
Qed.

Lemma nzhead_not0 d x : Decimal.nzhead d <> Decimal.D0 x.
Proof. induction d; cbn; congruence. Qed.

Lemma to_uint_nz p : uint_nz (Pos.to_uint p).
Proof.
  assert (H : Decimal.unorm (Pos.to_uint p) = Pos.to_uint p).
  { rewrite <- DecimalPos.Unsigned.to_of, DecimalPos.Unsigned.of_to. reflexivity. }
  pose proof (DecimalPos.Unsigned.to_uint_nonzero p) as Hn.
  unfold Decimal.unorm in H.
  destruct (Decimal.nzhead (Pos.to_uint p)) eqn:E; rewrite <- H in *; cbn; auto.
  exact (nzhead_not0 _ _ E).
Qed.

Lemma digits_str p : digits 0 false (NilEmpty.string_of_uint (Pos.to_uint p)) = Some (Zpos p).
Proof.
  destruct (digits_pos _ (to_uint_nz p)) as (q & E & ->).
  rewrite DecimalPos.Unsigned.of_to in E. congruence.
Qed.

(** all characters of [str(z)] are digits, but for the sign *)
Definition is_digit (c : ascii) : bool := match digit c with Some _ => true | None => false end.
Lemma uint_digits d : sforall is_digit (NilEmpty.string_of_uint d) = true.
Proof. induction d; cbn; auto. Qed.

Lemma digit_not_space c : is_digit c = true -> is_space c = false.
Proof.
  unfold is_digit, digit, is_space. set (n := N_of_ascii c).
  destruct ((48 <=? Z.of_N n) && (Z.of_N n <=? 57)) eqn:E; [|discriminate]. intros _.
  apply andb_true_iff in E as [E1 E2]. apply Z.leb_le in E1, E2.
  destruct ((9 <=? n)%N && (n <=? 13)%N || (28 <=? n)%N && (n <=? 32)%N || (n =? 133)%N || (n =? 160)%N) eqn:F; auto.
  exfalso. repeat (apply orb_true_iff in F as [F|F]); try (apply andb_true_iff in F as [F1 F2]);
  try apply N.leb_le in F1; try apply N.leb_le in F2; try apply N.eqb_eq in F; lia.
Qed.

Definition no_space (s : string) : bool := sforall (fun c => negb (is_space c)) s.
Lemma rstrip_no_space s : no_space s = true -> rstrip s = s.
Proof.
  induction s as [|c s IH]; cbn; auto. intros H. apply andb_true_iff in H as [H1 H2].
  rewrite IH by exact H2. destruct s; [|reflexivity]. destruct (is_space c); [discriminate|auto].
Qed.
Lemma lstrip_no_space c s : is_space c = false -> lstrip (String c s) = String c s.
Proof. cbn. intros ->. reflexivity. Qed.
Lemma strip_no_space s : no_space s = true -> strip s = s.
Proof.
  intros H. unfold strip. destruct s as [|c s]; [reflexivity|].
  assert (H' := H). cbn in H. apply andb_true_iff in H as [H1 H2]. apply negb_true_iff in H1.
  rewrite lstrip_no_space by auto. apply rstrip_no_space; auto.
Qed.

Lemma sforall_impl (f g : ascii -> bool) s : (forall c, f c = true -> g c = true) -> sforall f s = true -> sforall g s = true.
Proof. intros H. induction s; cbn; auto. rewrite !andb_true_iff. intuition. Qed.

Lemma uint_no_space d : no_space (NilEmpty.string_of_uint d) = true.
Proof.
  eapply sforall_impl; [|apply uint_digits]. intros c H. apply digit_not_space in H. rewrite H. reflexivity.
Qed.

Lemma py_str_no_space z : no_space (py_str z) = true.
Proof. destruct z; [reflexivity| |]; cbn [py_str]; [apply uint_no_space|]. cbn. apply uint_no_space. Qed.

Theorem py_int_str z : py_int (py_str z) = Some z.
Proof.
  unfold py_int. rewrite strip_no_space by apply py_str_no_space.
  destruct z as [|p|p]; [reflexivity| |].
  - cbn [py_str]. pose proof (digits_str p) as H. pose proof (uint_digits (Pos.to_uint p)) as Hd.
    destruct (NilEmpty.string_of_uint (Pos.to_uint p)) as [|c s]; [discriminate|].
    cbn in Hd. apply andb_true_iff in Hd as [Hd _].
    destruct (Ascii.eqb c "-") eqn:E1; [apply Ascii.eqb_eq in E1; subst; discriminate|].
    destruct (Ascii.eqb c "+") eqn:E2; [apply Ascii.eqb_eq in E2; subst; discriminate|]. exact H.
  - cbn [py_str]. cbn [Ascii.eqb Bool.eqb]. rewrite digits_str. reflexivity.
Qed.

Lemma py_str_nonempty z : py_str z <> ""%string.
Proof.
  intros H. assert (X := py_int_str z). rewrite H in X. discriminate.
Qed.
Lemma py_str_inj a b : py_str a = py_str b -> a = b.
Proof. intros H. assert (X := py_int_str a). rewrite H, py_int_str in X. congruence. Qed.

(** a number that is not negative is written with digits only *)
Lemma py_str_digits z : 0 <= z -> sforall is_digit (py_str z) = true.
Proof. destruct z; intros H; [reflexivity| |lia]. apply uint_digits. Qed.

(** GrantDeep.v: a refresh-token chain of any length can be built by minting; recursive revocation
    of its root runs out of any given recursion depth. *)
From Verif Require Import Base BaseProofs Types Token Grant GrantSpec GrantProofs.
Open Scope Z_scope.

Fixpoint unary (n : nat) : string := match n with O => "r" | S n' => String "r" (unary n') end.

Lemma unary_inj n m : unary n = unary m -> n = m.
Proof.
  revert m; induction n as [|n IH]; intros [|m] H; cbn in H; auto.
  - inv H. destruct m; discriminate.
  - inv H. destruct n; discriminate.
  - inv H. f_equal; auto.
Qed.
Lemma unary_ne n : unary n <> ""%string.
Proof. destruct n; discriminate. Qed.

Definition chain_grant : grant := new_grant 1000 "g1" "sub" None None None None.
Definition chain_base (i : nat) : option nat := match i with O => None | S j => Some j end.
Definition chain_op (i : nat) : gop :=
  GMint 1000 "id" "refresh_token" (chain_base i) None None no_kw (Ok (unary i)).
Definition chain_ops (n : nat) : list gop := map chain_op (seq 0 n).

Definition chain_tok (i : nat) : token :=
  mkToken CRefresh "refresh_token" (unary i) (option_map unary (chain_base i))
    (mkURules None (Some ["access_token"; "refresh_token"]%string) None) 1000 0 0 false 0 "id" [] [] [].

Lemma chain_state n : g_issued (grun chain_grant (chain_ops n)) = map chain_tok (seq 0 n) /\
  g_revoked (grun chain_grant (chain_ops n)) = false /\ g_rules (grun chain_grant (chain_ops n)) = no_grules /\
  g_not_before (grun chain_grant (chain_ops n)) = 0 /\ g_expires_at (grun chain_grant (chain_ops n)) = 0.
Proof.
  induction n as [|n IH]; [cbn; auto|].
  unfold chain_ops in *. rewrite seq_S, !map_app, grun_app. cbn [Nat.add map].
  set (g := grun chain_grant (map chain_op (seq 0 n))) in *. clearbody g.
  destruct IH as (H1 & H2 & H3 & H4 & H5). cbn [grun fold_left gstep chain_op].
  assert (Ha : g_active 1000 g = true).
  { unfold g_active. rewrite H2, H3, H4, H5. reflexivity. }
  unfold gmint. destruct n as [|n]; cbn [chain_base].
  - unfold mint_token. rewrite Ha. cbn. rewrite H1, H3. cbn. auto.
  - rewrite H1. rewrite (map_nth_error chain_tok n (seq 0 (S n)) (d := n)).
    2:{ rewrite nth_error_nth' with (d := O) by (rewrite seq_length; lia). rewrite seq_nth by lia. reflexivity. }
    unfold mint_token. rewrite Ha. cbn [negb].
    replace (supports_minting (chain_tok n) "refresh_token" && t_active 1000 (chain_tok n)) with true by reflexivity.
    cbn [rbind]. rewrite H3. cbn [dget gr_types no_grules].
    replace (TOKEN_MAP "refresh_token") with (Some CRefresh) by reflexivity. cbn [rbind].
    cbn [g_set_used g_set_issued g_issued g_revoked g_rules g_not_before g_expires_at].
    rewrite H1, H2, H3, H4, H5. auto.
Qed.

Lemma rloop_skip rec b r i a rest l : b <> ""%string ->
  (forall t, In t a -> t_based_on t <> Some b) ->
  rloop rec "" b r i (a ++ rest) l = rloop rec "" b r (i + length a) rest l.
Proof.
  intros Hb; revert i; induction a as [|t a IH]; intros i Ha; cbn [app rloop length].
  - f_equal. lia.
  - apply nonempty_true in Hb as Hb'. rewrite Hb'. replace (nonempty "") with false by reflexivity.
    cbn [negb andb orb].
    destruct (opt_eqb (t_based_on t) b) eqn:E.
    { apply opt_eqb_true in E. exfalso. apply (Ha t); [left; auto|auto]. }
    rewrite IH by (intros u Hu; apply Ha; right; auto). f_equal. lia.
Qed.

Lemma revoke_deep d : forall k n l, (k + d < n)%nat -> map sk l = map sk (map chain_tok (seq 0 n)) ->
  snd (revoke_go d "" (unary k) true l) = Raise ERecursion.
Proof.
  induction d as [|d IH]; intros k n l Hlt Hsk; [reflexivity|].
  rewrite revoke_go_S.
  assert (Hlen : length l = n).
  { apply (f_equal (@length _)) in Hsk. rewrite !map_length, seq_length in Hsk. auto. }
  assert (Hnth : forall i, (i < n)%nat -> exists t, nth_error l i = Some t /\
                 t_value t = unary i /\ t_based_on t = option_map unary (chain_base i)).
  { intros i Hi. assert (H : nth_error (map sk l) i = Some (sk (chain_tok i))).
    { rewrite Hsk. apply map_nth_error. apply map_nth_error.
      rewrite nth_error_nth' with (d := O) by (rewrite seq_length; lia). rewrite seq_nth by lia. reflexivity. }
    rewrite nth_error_map in H. destruct (nth_error l i) as [t|]; [|discriminate].
    exists t. split; [auto|]. cbn in H. unfold sk in H. inv H. auto. }
  destruct (Hnth (S k)) as (t & Ht & Hv & Hb); [lia|].
  apply nth_error_split in Ht as (a & c & El & Hla). cbn in Hb.
  assert (Hgo : forall l0, map sk l0 = map sk l ->
            snd (rloop (fun w l => revoke_go d "" w true l) "" (unary k) true 0 (a ++ t :: c) l0) = Raise ERecursion).
  { intros l0 Hl0. rewrite rloop_skip.
    - cbn [rloop]. pose proof (unary_ne k) as Hne. apply nonempty_true in Hne. rewrite Hne.
      replace (nonempty "") with false by reflexivity. cbn [negb andb orb].
      rewrite Hb. cbn [opt_eqb]. rewrite String.eqb_refl. cbv zeta.
      assert (HR := IH (S k) n (revoke_nth (0 + length a) l0) ltac:(lia)).
      rewrite Hv. destruct (revoke_go d "" (unary (S k)) true (revoke_nth (0 + length a) l0)) as [l2 [[]|e]] eqn:E2.
      + exfalso. rewrite sk_revoke_nth, Hl0 in HR. specialize (HR Hsk). discriminate HR.
      + rewrite sk_revoke_nth, Hl0 in HR. specialize (HR Hsk). exact HR.
    - apply unary_ne.
    - intros u Hu. apply In_nth_error in Hu as (i & Hi).
      assert (Hil : (i < length a)%nat) by (apply nth_error_Some; congruence).
      destruct (Hnth i) as (u' & Hu' & _ & Hub'); [lia|].
      rewrite El, nth_error_app1, Hi in Hu' by auto. inv Hu'. rewrite Hub'.
      destruct i as [|i]; cbn; [discriminate|]. intros E. inv E. apply unary_inj in H0. lia. }
  rewrite El at 1. apply Hgo. reflexivity.
Qed.

(** For every recursion limit there is a grant, built by minting fresh tokens only, on which
    recursive revocation of the first token fails. *)
Lemma revoke_too_deep d : exists ops v,
  fresh_values chain_grant ops /\
  In v (map t_value (g_issued (grun chain_grant ops))) /\
  snd (revoke_token d v "" true (grun chain_grant ops)) = Raise ERecursion.
Proof.
  exists (chain_ops (S (S d))), (unary 0). split; [|split].
  - intros ops1 ops2 clock newid ttype base rules scope kw v E.
    unfold chain_ops in E.
    assert (Hops1 : exists i, ops1 = chain_ops i /\ v = unary i).
    { assert (Hn : forall n s, map chain_op (seq s n) = ops1 ++ GMint clock newid ttype base rules scope kw (Ok v) :: ops2 ->
                exists i, ops1 = map chain_op (seq s i) /\ v = unary (s + i)).
      { clear E. induction ops1 as [|o ops1 IH]; intros n s E.
        - destruct n; cbn in E; [discriminate|]. exists O. split; [reflexivity|]. inv E. f_equal. lia.
        - destruct n; cbn in E; [discriminate|]. inv E. destruct (IH n (S s) H1) as (i & -> & ->).
          exists (S i). split; [reflexivity|]. f_equal. lia. }
      destruct (Hn _ _ E) as (i & -> & ->). exists i. auto. }
    destruct Hops1 as (i & -> & ->). split; [apply unary_ne|].
    rewrite (proj1 (chain_state i)), map_map. intros H. apply in_map_iff in H as (j & Hj & Hin).
    cbn in Hj. apply unary_inj in Hj. subst. apply in_seq in Hin. lia.
  - rewrite (proj1 (chain_state (S (S d)))), map_map. left. reflexivity.
  - unfold revoke_token. rewrite (proj1 (chain_state (S (S d)))).
    destruct d as [|d]; [reflexivity|]. rewrite revoke_go_S.
    rewrite (surjective_pairing (rloop _ _ _ _ _ _ _)). cbn [snd].
    pose proof (revoke_deep d 0 (S (S (S d)))
      (revoke_nth 0 (map chain_tok (seq 0 (S (S (S d)))))) ltac:(lia) (sk_revoke_nth _ _)) as H.
    set (l := map chain_tok (seq 0 (S (S (S d))))) in *.
    change (snd (rloop (fun (w : string) (l : list token) => revoke_go d "" w true l)
       (unary 0) "" true 0 (chain_tok 0 :: map chain_tok (seq 1 (S (S d)))) l) = Raise ERecursion).
    cbn [rloop]. replace (nonempty "") with false by reflexivity.
    replace (nonempty (unary 0)) with true by reflexivity. cbn [negb andb orb].
    replace (String.eqb (t_value (chain_tok 0)) (unary 0)) with true by reflexivity. cbv zeta. cbn [orb].
    change (t_value (chain_tok 0)) with (unary 0).
    destruct (revoke_go d "" (unary 0) true (revoke_nth 0 l)) as [l2 [[]|e]]; cbn [snd] in H; [discriminate|exact H].
Qed.

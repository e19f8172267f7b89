(** SchedRead.v: a reader beside a writer. *)
From Verif Require Import Base BaseProofs Monad Types SessionKey SessionKeyProofs Token Grant Database DatabaseSpec DatabaseProofs
  Manager ManagerSpec ManagerProofs Ctx Claims World Minting UserInfo TokenEndpoint WorldSpec WorldProofs Prog ProgProofs CrashSpec CrashProofs SchedSpec SchedProofs.
Local Open Scope prog_scope.

(** The storages a program passes through *)
Fixpoint trace {A} (p : prog A) (w : world) : list store :=
  w_db w ::
  match p with
  | Done _ => []
  | Get k f => trace (f (dget k (w_db w))) w
  | Put k v p' => trace p' (mkW (dset k v (w_db w)) (w_cdb w))
  | Del k f => trace (f (dmem k (w_db w))) (mkW (ddel k (w_db w)) (w_cdb w))
  | Act B m f => let (r, c) := m (w_db w) (w_cdb w) in trace (f r) (mkW (w_db w) c)
  end.
Lemma trace_head {A} (p : prog A) w : exists t, trace p w = w_db w :: t.
Proof. destruct p; cbn [trace]; eauto. Qed.
Lemma trace_step {A} (p p' : prog A) w w' : pstep p w = Some (p', w') -> trace p w = w_db w :: trace p' w'.
Proof.
  destruct p as [r|k f|k v q|k f|B m f]; cbn [pstep trace]; intros E; try discriminate; try (injection E as <- <-; reflexivity).
  destruct (m (w_db w) (w_cdb w)) as [r c]. injection E as <- <-. reflexivity.
Qed.

(** A reader that looks at storages of the list, later and later ones *)
Inductive sees {A} : prog A -> list store -> result A -> Prop :=
| S_done r ss : sees (Done r) ss r
| S_get k f s ss r : sees (f (dget k s)) (s :: ss) r -> sees (Get k f) (s :: ss) r
| S_next p s ss r : sees p ss r -> sees p (s :: ss) r.
Lemma sees_twice {A} (p : prog A) s ss r : sees p (s :: s :: ss) r -> sees p (s :: ss) r.
Proof.
  intros H. remember (s :: s :: ss) as l eqn:E. induction H; subst.
  - apply S_done.
  - injection E as -> ->. apply S_get. auto.
  - injection E as -> ->. assumption.
Qed.

(** Programs that only read *)
Fixpoint reader {A} (p : prog A) : Prop :=
  match p with
  | Done _ => True
  | Get _ f => forall o, reader (f o)
  | _ => False
  end.
Lemma reader_bind {A B} (p : prog A) (k : A -> prog B) : reader p -> (forall a, reader (k a)) -> reader (pbind p k).
Proof. intros R K. induction p as [[a|e]|x f IH|x v p IH|x f IH|C m f IH]; cbn [reader pbind] in *; auto; contradiction. Qed.
Lemma reader_catch {A} (p : prog A) c h : reader p -> reader h -> reader (pcatch p c h).
Proof. intros R K. induction p as [[a|e]|x f IH|x v p IH|x f IH|C m f IH]; cbn [reader pcatch] in *; auto; try contradiction. destruct (c e); auto. Qed.
Lemma reader_read q : reader (p_read q).
Proof.
  unfold p_read. apply reader_bind; [exact I|]. intros [[u c] g]. apply reader_bind; [cbn; intros [o|]; exact I|]. intros e.
  destruct c as [c|]; [|exact I]. apply reader_bind; [exact I|]. intros sub. destruct (negb _); [exact I|].
  apply reader_bind; [apply reader_catch; [cbn; intros [o|]; exact I|exact I]|]. intros csi. destruct g as [g|]; [|exact I].
  apply reader_bind; [exact I|]. intros gs. destruct (negb _); [exact I|]. apply reader_catch; [cbn; intros [o|]; exact I|exact I].
Qed.
Lemma turns_sees {A} l : forall (p q : prog A) w r q' w', reader p -> turns l [p; q] w = ([Done r; q'], w') -> sees p (trace q w) r.
Proof.
  induction l as [|i l IH]; intros p q w r q' w' R H; cbn [turns] in H.
  - injection H as -> _ _. apply S_done.
  - destruct i as [|[|i]]; cbn [turn] in H.
    + destruct p as [x|k f|k v p|k f|B m f]; cbn [pstep reader] in *; try contradiction; [eapply IH; eauto; exact I|].
      assert (X := IH _ _ _ _ _ _ (R _) H). destruct (trace_head q w) as [t Et]. rewrite Et in *. now apply S_get.
    + destruct (pstep q w) as [[q1 w1]|] eqn:E; [|eapply IH; eauto].
      rewrite (trace_step q q1 w w1 E). apply S_next. eapply IH; eauto.
    + destruct i; cbn [turn] in H; eapply IH; eauto.
Qed.
Lemma exec_reader {A} (p : prog A) w : reader p -> snd (exec p w) = w.
Proof. intros R. induction p as [x|k f IH|k v p IH|k f IH|B m f IH]; cbn [reader exec] in *; try contradiction; auto. Qed.

(** A writer that begins with reading *)
Lemma trace_then {A B} (q : prog A) (k : A -> result B) : forall w, trace (pbind q (fun a => Done (k a))) w = trace q w.
Proof.
  induction q as [[a|e]|x f IH|x v q IH|x f IH|C m f IH]; intros w; cbn [pbind trace]; try reflexivity; f_equal; auto.
  destruct (m (w_db w) (w_cdb w)) as [r c]. apply IH.
Qed.
Lemma sees_first {A B C} (p : prog C) (q : prog A) (k : A -> prog B) w r : reader q -> sees p (trace (pbind q k) w) r ->
  match exec q w with (Ok a, _) => sees p (trace (k a) w) r | (Raise _, _) => sees p [w_db w] r end.
Proof.
  intros R. induction q as [[a|e]|x f IH|x v q IH|x f IH|D m f IH]; cbn [reader pbind exec] in *; try contradiction; auto.
  intros H. apply IH; [apply R|]. cbn [trace] in H. destruct (trace_head (pbind (f (dget x (w_db w))) k) w) as [t Et]. rewrite Et in *. now apply sees_twice.
Qed.

(** ** The storages a [set] passes through *)
(** programs that write at most once, at the end *)
Fixpoint one_put {A} (p : prog A) : Prop :=
  match p with
  | Done _ => True
  | Get _ f => forall o, one_put (f o)
  | Put _ _ (Done _) => True
  | _ => False
  end.
Lemma sees_pre {A} ss ss' : (forall (p : prog A) r, sees p ss r -> sees p ss' r) ->
  forall pre (p : prog A) r, sees p (pre ++ ss) r -> sees p (pre ++ ss') r.
Proof.
  intros H pre. induction pre as [|s pre IH]; [exact H|]. intros p r X. cbn [app] in *. remember (s :: pre ++ ss) as l eqn:E. induction X; subst.
  - apply S_done.
  - injection E as -> ->. apply S_get. auto.
  - injection E as -> ->. apply S_next. auto.
Qed.
Lemma sees_one {A B C} (p : prog C) (q : prog A) (k : A -> prog B) w r : one_put q -> sees p (trace (pbind q k) w) r ->
  match exec q w with (Ok a, w1) => sees p (w_db w :: trace (k a) w1) r | (Raise _, w1) => sees p [w_db w; w_db w1] r end.
Proof.
  intros O. induction q as [[a|e]|x f IH|x v q IH|x f IH|D m f IH]; cbn [one_put pbind exec] in *; try contradiction.
  - intros H. now apply S_next.
  - cbn [trace]. intros H. now apply S_next.
  - intros H. apply IH; [apply O|]. cbn [trace] in H. destruct (trace_head (pbind (f (dget x (w_db w))) k) w) as [t Et]. rewrite Et in *. now apply sees_twice.
  - destruct q as [[a|e]| | | |]; try contradiction; cbn [pbind exec]; auto.
Qed.
Lemma one_client_block u c g : one_put (p_client_block u c g).
Proof.
  unfold p_client_block, p_get, pret. cbn [pbind one_put]. intros o. cbv zeta.
  destruct (subordinate _) as [l|]; cbn [pbind]; [|exact I]. destruct (negb _); exact I.
Qed.
Lemma one_user_block u c : one_put (p_user_block u c).
Proof.
  unfold p_user_block, p_get, pret. cbn [pbind one_put]. intros o. cbv zeta.
  destruct (subordinate _) as [l|]; cbn [pbind]; [|exact I]. destruct (negb _); exact I.
Qed.
Lemma sees_end {A B} (p : prog B) (q : prog A) w r : one_put q -> sees p (trace q w) r -> sees p [w_db w; w_db (snd (exec q w))] r.
Proof.
  intros O H. rewrite <- (trace_then q (fun a => Ok a)) in H. apply sees_one in H; [|exact O].
  destruct (exec q w) as [[a|e] w1]; exact H.
Qed.
Lemma sees_set3 {A} (p : prog A) w u c g v r : kinds_ok (w_db w) -> good u -> good c -> good g ->
  sees p (trace (p_store [u; c; g] (EGrant v)) w) r ->
  let s1 := dset (session_key [u; c; g]) (EGrant v) (w_db w) in
  let s2 := store_client s1 u c g in
  sees p [w_db w; s1; s2; store_user s2 u c] r.
Proof.
  intros Hk Hu Hc Hg H s1 s2. rewrite p_store3_eq in H by assumption. cbn [trace] in H. fold s1 in H.
  assert (Hk1 : kinds_ok s1) by (apply kinds_dset; auto with gp).
  revert H. apply (sees_pre _ _) with (pre := [w_db w]). clear p r. intros p r H.
  apply sees_one in H; [|apply one_client_block]. rewrite does_client_block in H. unfold in_db in H. cbn [w_db w_cdb] in H.
  rewrite client_block_spec in H by assumption. fold s2 in H.
  revert H. apply (sees_pre _ _) with (pre := [s1]). clear p r. intros p r H.
  apply sees_end in H; [|apply one_user_block]. rewrite does_user_block in H. unfold in_db in H. cbn [w_db w_cdb] in H.
  rewrite user_block_spec in H by (unfold s2; auto using kinds_store_client). exact H.
Qed.
Lemma sees_set2 {A} (p : prog A) w u c v r : kinds_ok (w_db w) -> good u -> good c ->
  sees p (trace (p_store [u; c] (EInfo v)) w) r ->
  let s1 := dset (session_key [u; c]) (EInfo v) (w_db w) in
  sees p [w_db w; w_db w; s1; store_user s1 u c] r.
Proof.
  intros Hk Hu Hc H s1. rewrite p_store2_eq in H by assumption. cbn [trace] in H. fold s1 in H.
  assert (Hk1 : kinds_ok s1) by (apply kinds_dset; cbn; auto with gp).
  revert H. apply (sees_pre _ _) with (pre := [w_db w; w_db w]). clear p r. intros p r H.
  apply sees_end in H; [|apply one_user_block]. rewrite does_user_block in H. unfold in_db in H. cbn [w_db w_cdb] in H.
  rewrite user_block_spec in H by assumption. exact H.
Qed.
Lemma sees_set1 {A} (p : prog A) w u v r : sees p (trace (p_store [u] v) w) r ->
  sees p [w_db w; w_db w; w_db w; dset u v (w_db w)] r.
Proof.
  intros H. unfold p_store in H. cbn [eval_path pbind tr str_or_empty p_get] in H. unfold p_get, pret, p_set in H. cbn [pbind trace w_db w_cdb] in H.
  apply S_next. exact H.
Qed.

(** ** What a reader gets *)
Definition lst (o : option entry) (x : string) : bool :=
  match o with Some e => match subordinate e with Ok sub => smem x sub | Raise _ => false end | None => false end.
(** the answer when the next record is not listed *)
Definition unlisted (missing : exn) (o : option entry) : result entry :=
  match o with Some e => match subordinate e with Ok _ => Raise EValue | Raise x => Raise x end | None => Raise missing end.
Definition found (missing : exn) (o : option entry) : result entry := match o with Some e => Ok e | None => Raise missing end.

Section Phases.
  Variables s0 s1 s2 s3 : store.
  Variables a b x : string.
  Notation ss := [s0; s1; s2; s3].
  Notation ka := a.
  Notation kb := (session_key [a; b]).
  Notation kx := (session_key [a; b; x]).
  Hypothesis U1 : dget ka s1 = dget ka s0.
  Hypothesis U2 : dget ka s2 = dget ka s0.
  Hypothesis C1 : dget kb s1 = dget kb s0.
  Hypothesis C2 : dget kb s2 = dget kb s3.
  Hypothesis G1 : dget kx s1 = dget kx s3.
  Hypothesis G2 : dget kx s2 = dget kx s3.
  Hypothesis Mu : lst (dget ka s0) b = true -> lst (dget ka s3) b = true \/ (dget kb s0 = dget kb s3 /\ dget kx s0 = dget kx s3).
  Hypothesis Mc : lst (dget kb s0) x = true -> lst (dget kb s3) x = true \/ dget kx s0 = dget kx s3.

  Definition rd3 (U C G : option entry) : result entry :=
    if lst U b then if lst C x then found ENoGrant G else unlisted ENoClientSession C else unlisted EKey U.
  Definition rd2 (U C : option entry) : result entry := if lst U b then found ENoClientSession C else unlisted EKey U.

  Lemma sees_done {A} (r r' : result A) l : sees (Done r) l r' -> r' = r.
  Proof. intros H. remember (Done r) as p eqn:E. induction H; try discriminate; [congruence|auto]. Qed.
  Lemma sees_get_nil {A} k (f : option entry -> prog A) r : ~ sees (Get k f) [] r.
  Proof. intros H. inversion H. Qed.
  Lemma sees_get {A} k (f : option entry -> prog A) s l r : sees (Get k f) (s :: l) r -> sees (f (dget k s)) (s :: l) r \/ sees (Get k f) l r.
  Proof. intros H. inversion H; subst; auto. Qed.

  Ltac red1 := cbn [pcatch pbind exec fst w_db w_cdb of_option subordinate is_key_error praise lst unlisted found negb].
  Lemma exec_read3 s d : fst (exec (p_read [a; b; x]) (mkW s d)) = rd3 (dget ka s) (dget kb s) (dget kx s).
  Proof.
    unfold p_read, rd3. cbn [eval_path pbind]. unfold p_sub, p_get, pret. red1.
    destruct (dget a s) as [e|]; red1; [|reflexivity]. destruct e as [i|g]; red1; [|reflexivity].
    destruct (smem b (si_sub i)); red1; [|reflexivity].
    destruct (dget kb s) as [e|]; red1; [|reflexivity]. destruct e as [j|g]; red1; [|reflexivity].
    destruct (smem x (si_sub j)); red1; [|reflexivity].
    destruct (dget kx s) as [e|]; reflexivity.
  Qed.
  Lemma exec_read2 s d : fst (exec (p_read [a; b]) (mkW s d)) = rd2 (dget ka s) (dget kb s).
  Proof.
    unfold p_read, rd2. cbn [eval_path pbind]. unfold p_sub, p_get, pret. red1.
    destruct (dget a s) as [e|]; red1; [|reflexivity]. destruct e as [i|g]; red1; [|reflexivity].
    destruct (smem b (si_sub i)); red1; [|reflexivity].
    destruct (dget kb s) as [e|]; reflexivity.
  Qed.
  Lemma exec_read1 s d : fst (exec (p_read [a]) (mkW s d)) = found EKey (dget ka s).
  Proof. unfold p_read. cbn [eval_path pbind]. unfold p_sub, p_get, pret. red1. destruct (dget a s); reflexivity. Qed.

  (** one record after the other, each from the phase the reader is in *)
  Lemma sees_get_ex {A} k (f : option entry -> prog A) l r : sees (Get k f) l r ->
    exists pre s l', l = pre ++ s :: l' /\ sees (f (dget k s)) (s :: l') r.
  Proof.
    intros H. remember (Get k f) as p eqn:E. revert E. induction H as [| |]; intros E; try discriminate.
    - exists [], s, ss. split; [reflexivity|]. injection E as -> ->. assumption.
    - destruct (IHsees E) as (pre & s' & l' & -> & Hs). exists (s :: pre), s', l'. auto.
  Qed.
  Lemma sees_read3 l r : sees (p_read [a; b; x]) l r ->
    exists l1 sU l2, l = l1 ++ sU :: l2 /\ exists l3 sC l4, sU :: l2 = l3 ++ sC :: l4 /\ exists l5 sG l6, sC :: l4 = l5 ++ sG :: l6 /\
      r = rd3 (dget ka sU) (dget kb sC) (dget kx sG).
  Proof.
    unfold p_read, rd3. cbn [eval_path pbind]. unfold p_sub, p_get, pret. cbn [pbind pcatch].
    intros H. apply sees_get_ex in H. destruct H as (l1 & sU & l2 & E1 & H). exists l1, sU, l2. split; [exact E1|].
    assert (N : forall r', r = r' -> (forall C G, r' = rd3 (dget ka sU) C G) ->
      exists l3 sC l4, sU :: l2 = l3 ++ sC :: l4 /\ exists l5 sG l6, sC :: l4 = l5 ++ sG :: l6 /\ r = rd3 (dget ka sU) (dget kb sC) (dget kx sG)).
    { intros r' -> E. exists [], sU, l2. split; [reflexivity|]. exists [], sU, l2. split; [reflexivity|]. apply E. }
    unfold rd3 in N. destruct (dget a sU) as [e|]; cbn [of_option pbind] in H; [|apply sees_done in H; exact (N _ H (fun _ _ => eq_refl))].
    destruct e as [i|g]; cbn [subordinate pbind] in H; [|apply sees_done in H; exact (N _ H (fun _ _ => eq_refl))].
    cbn [lst subordinate unlisted] in N |- *.
    destruct (smem b (si_sub i)); cbn [negb praise] in H; [|apply sees_done in H; exact (N _ H (fun _ _ => eq_refl))]. clear N.
    apply sees_get_ex in H. destruct H as (l3 & sC & l4 & E3 & H). exists l3, sC, l4. split; [exact E3|].
    assert (N : forall r', r = r' -> (forall G, r' = if lst (dget kb sC) x then found ENoGrant G else unlisted ENoClientSession (dget kb sC)) ->
      exists l5 sG l6, sC :: l4 = l5 ++ sG :: l6 /\ r = if lst (dget kb sC) x then found ENoGrant (dget kx sG) else unlisted ENoClientSession (dget kb sC)).
    { intros r' -> E. exists [], sC, l4. split; [reflexivity|]. apply E. }
    destruct (dget kb sC) as [e|]; cbn [of_option pbind pcatch is_key_error praise] in H; [|apply sees_done in H; exact (N _ H (fun _ => eq_refl))].
    destruct e as [j|g]; cbn [subordinate pbind] in H; [|apply sees_done in H; exact (N _ H (fun _ => eq_refl))].
    cbn [lst subordinate unlisted] in N |- *.
    destruct (smem x (si_sub j)); cbn [negb praise] in H; [|apply sees_done in H; exact (N _ H (fun _ => eq_refl))]. clear N.
    apply sees_get_ex in H. destruct H as (l5 & sG & l6 & E5 & H). exists l5, sG, l6. split; [exact E5|].
    destruct (dget kx sG) as [e|]; cbn [of_option pbind pcatch is_key_error praise found] in H |- *; apply sees_done in H; exact H.
  Qed.
  Lemma sees_read2 l r : sees (p_read [a; b]) l r ->
    exists l1 sU l2, l = l1 ++ sU :: l2 /\ exists l3 sC l4, sU :: l2 = l3 ++ sC :: l4 /\ r = rd2 (dget ka sU) (dget kb sC).
  Proof.
    unfold p_read, rd2. cbn [eval_path pbind]. unfold p_sub, p_get, pret. cbn [pbind pcatch].
    intros H. apply sees_get_ex in H. destruct H as (l1 & sU & l2 & E1 & H). exists l1, sU, l2. split; [exact E1|].
    assert (N : forall r', r = r' -> (forall C, r' = rd2 (dget ka sU) C) ->
      exists l3 sC l4, sU :: l2 = l3 ++ sC :: l4 /\ r = rd2 (dget ka sU) (dget kb sC)).
    { intros r' -> E. exists [], sU, l2. split; [reflexivity|]. apply E. }
    unfold rd2 in N. destruct (dget a sU) as [e|]; cbn [of_option pbind] in H; [|apply sees_done in H; exact (N _ H (fun _ => eq_refl))].
    destruct e as [i|g]; cbn [subordinate pbind] in H; [|apply sees_done in H; exact (N _ H (fun _ => eq_refl))].
    cbn [lst subordinate unlisted] in N |- *.
    destruct (smem b (si_sub i)); cbn [negb praise] in H; [|apply sees_done in H; exact (N _ H (fun _ => eq_refl))]. clear N.
    apply sees_get_ex in H. destruct H as (l3 & sC & l4 & E3 & H). exists l3, sC, l4. split; [exact E3|].
    destruct (dget kb sC) as [e|]; cbn [of_option pbind pcatch is_key_error praise found] in H |- *; apply sees_done in H; exact H.
  Qed.
  Lemma sees_read1 l r : sees (p_read [a]) l r -> exists l1 sU l2, l = l1 ++ sU :: l2 /\ r = found EKey (dget ka sU).
  Proof.
    unfold p_read. cbn [eval_path pbind]. unfold p_sub, p_get, pret. cbn [pbind pcatch].
    intros H. apply sees_get_ex in H. destruct H as (l1 & sU & l2 & E1 & H). exists l1, sU, l2. split; [exact E1|].
    destruct (dget a sU); cbn [of_option pbind found] in H |- *; apply sees_done in H; exact H.
  Qed.

  Lemma phase_U l1 sU l2 : ss = l1 ++ sU :: l2 -> dget ka sU = dget ka s0 \/ (dget ka sU = dget ka s3 /\ sU :: l2 = [s3]).
  Proof.
    destruct l1 as [|? [|? [|? [|? l1]]]]; cbn; intros E; inversion E; subst; auto.
    destruct l1; discriminate.
  Qed.
  Lemma suffix_ss (l1 l2 : list store) : ss = l1 ++ l2 -> l2 = ss \/ l2 = [s1; s2; s3] \/ l2 = [s2; s3] \/ l2 = [s3] \/ l2 = [].
  Proof. destruct l1 as [|? [|? [|? [|? [|? l1]]]]]; cbn; intros E; inversion E; subst; auto. Qed.
  Lemma suffix_trans {B} (l l1 l2 l3 l4 : list B) y : l = l1 ++ y :: l2 -> y :: l2 = l3 ++ l4 -> exists l5, l = l5 ++ l4.
  Proof. intros -> ->. exists (l1 ++ l3). rewrite app_assoc. reflexivity. Qed.
  Lemma phase_C l1 sC l2 : ss = l1 ++ sC :: l2 -> (dget kb sC = dget kb s0) \/ (dget kb sC = dget kb s3 /\ (sC :: l2 = [s2; s3] \/ sC :: l2 = [s3])).
  Proof.
    destruct l1 as [|? [|? [|? [|? l1]]]]; cbn; intros E; inversion E; subst; auto.
    destruct l1; discriminate.
  Qed.
  Lemma phase_G l1 sG l2 : ss = l1 ++ sG :: l2 -> dget kx sG = dget kx s0 \/ dget kx sG = dget kx s3.
  Proof.
    destruct l1 as [|? [|? [|? [|? l1]]]]; cbn; intros E; inversion E; subst; auto.
    destruct l1; discriminate.
  Qed.

  Lemma either3 d d' r : sees (p_read [a; b; x]) ss r ->
    r = fst (exec (p_read [a; b; x]) (mkW s0 d)) \/ r = fst (exec (p_read [a; b; x]) (mkW s3 d')).
  Proof.
    intros H. apply sees_read3 in H. destruct H as (l1 & sU & l2 & E1 & l3 & sC & l4 & E3 & l5 & sG & l6 & E5 & ->).
    rewrite !exec_read3.
    destruct (suffix_trans _ _ _ _ _ _ E1 E3) as [l7 E7]. destruct (suffix_trans _ _ _ _ _ _ E7 E5) as [l8 E8].
    destruct (phase_U _ _ _ E1) as [HU|[HU EU]].
    2:{ rewrite EU in E3. rewrite HU. clear HU. destruct l3 as [|? [|? ?]]; inversion E3; subst. destruct l5 as [|? [|? ?]]; inversion E5; subst. auto. }
    rewrite HU. destruct (phase_C _ _ _ E7) as [HC|[HC EC]].
    - rewrite HC. destruct (phase_G _ _ _ E8) as [HG|HG]; [rewrite HG; auto|].
      rewrite HG. unfold rd3. destruct (lst (dget ka s0) b) eqn:LU; [|auto].
      destruct (lst (dget kb s0) x) eqn:LC; [|auto].
      destruct (Mu eq_refl) as [Hu|[HCe HGe]]; [|rewrite HGe; auto].
      destruct (Mc eq_refl) as [Hc|HGe]; [|rewrite HGe; auto]. rewrite Hu, Hc. auto.
    - assert (HG : dget kx sG = dget kx s3).
      { destruct EC as [EC|EC]; rewrite EC in E5.
        - destruct l5 as [|? [|? [|? ?]]]; inversion E5; subst; auto.
        - destruct l5 as [|? [|? ?]]; inversion E5; subst; auto. }
      rewrite HC, HG. unfold rd3. destruct (lst (dget ka s0) b) eqn:LU; [|auto].
      destruct (Mu eq_refl) as [Hu|[HCe HGe]]; [rewrite Hu; auto|]. rewrite HCe, HGe. auto.
  Qed.
  Lemma either2 d d' r : sees (p_read [a; b]) ss r ->
    r = fst (exec (p_read [a; b]) (mkW s0 d)) \/ r = fst (exec (p_read [a; b]) (mkW s3 d')).
  Proof.
    intros H. apply sees_read2 in H. destruct H as (l1 & sU & l2 & E1 & l3 & sC & l4 & E3 & ->).
    rewrite !exec_read2.
    destruct (suffix_trans _ _ _ _ _ _ E1 E3) as [l7 E7].
    destruct (phase_U _ _ _ E1) as [HU|[HU EU]].
    2:{ rewrite EU in E3. rewrite HU. clear HU. destruct l3 as [|? [|? ?]]; inversion E3; subst. auto. }
    rewrite HU. destruct (phase_C _ _ _ E7) as [HC|[HC EC]]; [rewrite HC; auto|].
    rewrite HC. unfold rd2. destruct (lst (dget ka s0) b) eqn:LU; [|auto].
    destruct (Mu eq_refl) as [Hu|[HCe HGe]]; [rewrite Hu; auto|]. rewrite HCe. auto.
  Qed.
  Lemma either1 d d' r : sees (p_read [a]) ss r ->
    r = fst (exec (p_read [a]) (mkW s0 d)) \/ r = fst (exec (p_read [a]) (mkW s3 d')).
  Proof.
    intros H. apply sees_read1 in H. destruct H as (l1 & sU & l2 & E1 & ->). rewrite !exec_read1.
    destruct (phase_U _ _ _ E1) as [HU|[HU _]]; rewrite HU; auto.
  Qed.
End Phases.

Lemma lst_listing b i : lst (Some (EInfo i)) b = smem b (si_sub i).
Proof. reflexivity. Qed.
Lemma smem_listing_mono x y i : smem y (si_sub i) = true -> smem y (si_sub (listing x i)) = true.
Proof. intros H. apply smem_In. apply listing_iff. right. now apply smem_In. Qed.
Lemma dget_stored1 s (a : string) : dget a s = stored s [a].
Proof. reflexivity. Qed.
Lemma dget_stored s q : dget (session_key q) s = stored s q.
Proof. reflexivity. Qed.

Lemma either_phases s0 s1 s2 s3 q d d' r : good_path q ->
  (forall a, good a -> stored s1 [a] = stored s0 [a] /\ stored s2 [a] = stored s0 [a]) ->
  (forall a b, good a -> good b -> stored s1 [a; b] = stored s0 [a; b] /\ stored s2 [a; b] = stored s3 [a; b]) ->
  (forall a b x, good a -> good b -> good x -> stored s1 [a; b; x] = stored s3 [a; b; x] /\ stored s2 [a; b; x] = stored s3 [a; b; x]) ->
  (forall a b x, good a -> good b -> good x -> lst (stored s0 [a]) b = true ->
     lst (stored s3 [a]) b = true \/ (stored s0 [a; b] = stored s3 [a; b] /\ stored s0 [a; b; x] = stored s3 [a; b; x])) ->
  (forall a b x, good a -> good b -> good x -> lst (stored s0 [a; b]) x = true -> lst (stored s3 [a; b]) x = true \/ stored s0 [a; b; x] = stored s3 [a; b; x]) ->
  sees (p_read q) [s0; s1; s2; s3] r -> r = fst (exec (p_read q) (mkW s0 d)) \/ r = fst (exec (p_read q) (mkW s3 d')).
Proof.
  intros Gq HU HC HG MU MC H. destruct (good_path_cases q Gq) as [(a & -> & Ha)|[(a & b & -> & Ha & Hb)|(a & b & x & -> & Ha & Hb & Hx)]]. 
  - destruct (HU a Ha), (HC a a Ha Ha), (HG a a a Ha Ha Ha). apply (either1 s0 s1 s2 s3 a a a); auto; intros L; [apply MU|apply MC]; auto.
  - destruct (HU a Ha), (HC a b Ha Hb), (HG a b b Ha Hb Hb). apply (either2 s0 s1 s2 s3 a b b); auto; intros L; [apply MU|apply MC]; auto.
  - destruct (HU a Ha). destruct (HC a b Ha Hb). destruct (HG a b x Ha Hb Hx).
    apply (either3 s0 s1 s2 s3); auto; intros L; [apply MU|apply MC]; auto.
Qed.

Definition shaped (p : list string) (v : entry) : Prop :=
  match p, v with
  | [_; _; _], EGrant _ | [_; _], EInfo _ | [_], EInfo _ => True
  | _, _ => False
  end.
Lemma mkW_eta w : mkW (w_db w) (w_cdb w) = w.
Proof. destruct w; reflexivity. Qed.
Ltac pd := repeat match goal with |- context [path_dec ?x ?y] => destruct (path_dec x y); try discriminate; try contradiction end.

Lemma either_set w p v q r : kinds_ok (w_db w) -> good_path p -> shaped p v -> good_path q ->
  sees (p_read q) (trace (p_store p v) w) r ->
  r = fst (exec (p_read q) w) \/ r = fst (exec (p_read q) (snd (exec (p_store p v) w))).
Proof.
  intros Hk Gp Hs Gq H. destruct (good_path_cases p Gp) as [(u & -> & Hu)|[(u & c & -> & Hu & Hc)|(u & c & g & -> & Hu & Hc & Hg)]]; destruct v as [i|v]; try contradiction.
  - apply sees_set1 in H. rewrite does_store. unfold in_db. rewrite db_store1 by assumption. cbn [snd].
    rewrite <- (mkW_eta w) at 1. revert H. apply either_phases; auto.
    + intros a b Ha Hb. rewrite stored_dset1 by auto with gp. pd. auto.
    + intros a b x Ha Hb Hx. rewrite stored_dset1 by auto with gp. pd. auto.
    + intros a b x Ha Hb Hx _. right. rewrite !stored_dset1 by auto with gp. pd. auto.
    + intros a b x Ha Hb Hx L. left. rewrite stored_dset1 by auto with gp. pd. auto.
  - apply sees_set2 in H; [|assumption..]. rewrite exec_store2 by assumption. cbn [snd]. cbv zeta in H.
    assert (Hk1 : kinds_ok (dset (session_key [u; c]) (EInfo i) (w_db w))) by (apply kinds_dset; cbn; auto with gp).
    rewrite <- (mkW_eta w) at 1. revert H. apply either_phases; auto.
    + intros a Ha. rewrite stored_dset by auto with gp. pd. auto.
    + intros a b Ha Hb. rewrite stored_store_user by auto with gp. pd. auto.
    + intros a b x Ha Hb Hx. rewrite stored_store_user, stored_dset by auto with gp. pd. auto.
    + intros a b x Ha Hb Hx L. left. rewrite stored_store_user by auto with gp. destruct (path_dec [a] [u]) as [E|].
      * injection E as ->. rewrite lst_listing. apply smem_listing_mono. unfold uopt. rewrite stored_dset by auto with gp. pd.
        unfold lst in L. destruct (stored (w_db w) [u]) as [[j|gr]|]; cbn [subordinate info_or] in *; congruence.
      * rewrite stored_dset by auto with gp. pd. auto.
    + intros a b x Ha Hb Hx L. right. rewrite stored_store_user, stored_dset by auto with gp. pd. auto.
  - apply sees_set3 in H; [|assumption..]. rewrite exec_store3 by assumption. cbn [snd]. cbv zeta in H.
    assert (Hk1 : kinds_ok (dset (session_key [u; c; g]) (EGrant v) (w_db w))) by (apply kinds_dset; cbn; auto with gp).
    assert (Hk2 := kinds_store_client _ u c g Hk1 Hu Hc).
    rewrite <- (mkW_eta w) at 1. revert H. apply either_phases; auto.
    + intros a Ha. rewrite stored_store_client, stored_dset by auto with gp. pd. auto.
    + intros a b Ha Hb. rewrite stored_store_user by auto with gp. rewrite stored_dset by auto with gp. pd; auto.
    + intros a b x Ha Hb Hx. rewrite stored_store_user, stored_store_client by auto with gp. pd. auto.
    + intros a b x Ha Hb Hx L. left. rewrite stored_store_user by auto with gp. destruct (path_dec [a] [u]) as [E|].
      * injection E as ->. rewrite lst_listing. apply smem_listing_mono. unfold uopt. rewrite stored_store_client, stored_dset by auto with gp. pd.
        unfold lst in L. destruct (stored (w_db w) [u]) as [[j|gr]|]; cbn [subordinate info_or] in *; congruence.
      * rewrite stored_store_client, stored_dset by auto with gp. pd. auto.
    + intros a b x Ha Hb Hx L. left. rewrite stored_store_user, stored_store_client by auto with gp. pd.
      * injection e as -> ->. rewrite lst_listing. apply smem_listing_mono. unfold copt. rewrite stored_dset by auto with gp. pd.
        unfold lst in L. destruct (stored (w_db w) [u; c]) as [[j|gr]|]; cbn [subordinate info_or] in *; congruence.
      * rewrite stored_dset by auto with gp. pd. auto.
Qed.

(** ** Calls of one [set] *)
Definition either {A} (p : prog A) (w : world) : Prop :=
  forall q r, good_path q -> sees (p_read q) (trace p w) r ->
  r = fst (db_read q (w_db w)) \/ r = fst (db_read q (w_db (snd (exec p w)))).
Lemma exec_read_fst q w : fst (exec (p_read q) w) = fst (db_read q (w_db w)).
Proof. rewrite does_read. unfold in_db. destruct (db_read q (w_db w)); reflexivity. Qed.
Lemma either_store p v w : kinds_ok (w_db w) -> good_path p -> shaped p v -> either (p_store p v) w.
Proof. intros Hk Gp S q r Gq H. rewrite <- !exec_read_fst. eapply either_set; eauto. Qed.

Lemma trace_stops {A} (p : prog A) : forall w s, In s (trace p w) -> exists w', stops p w w' /\ w_db w' = s.
Proof.
  induction p as [x|k f IH|k v p IH|k f IH|B m f IH]; intros w s H; cbn [trace] in H;
    (destruct H as [<-|H]; [exists w; split; [apply stops_refl|reflexivity]|]).
  - destruct H.
  - destruct (IH _ _ _ H) as (w' & S & E). exists w'. split; [|exact E]. eapply stops_more; [reflexivity|exact S].
  - destruct (IH _ _ H) as (w' & S & E). exists w'. split; [|exact E]. eapply stops_more; [reflexivity|exact S].
  - destruct (IH _ _ _ H) as (w' & S & E). exists w'. split; [|exact E]. eapply stops_more; [reflexivity|exact S].
  - destruct (m (w_db w) (w_cdb w)) as [r c] eqn:Em. destruct (IH _ _ _ H) as (w' & S & E). exists w'. split; [|exact E].
    eapply stops_more; [cbn [pstep]; rewrite Em; reflexivity|exact S].
Qed.
Lemma still_trace {A} (p : prog A) w : still p -> Forall (eq (w_db w)) (trace p w).
Proof. intros S. apply Forall_forall. intros s H. destruct (trace_stops p w s H) as (w' & X & <-). symmetry. exact (S _ _ X). Qed.
Lemma trace_bind {A B} (p : prog A) (k : A -> prog B) : forall w,
  match exec p w with
  | (Ok a, w1) => exists l, trace (pbind p k) w = l ++ trace (k a) w1 /\ incl l (trace p w)
  | (Raise _, _) => trace (pbind p k) w = trace p w
  end.
Proof.
  assert (C : forall (x : result A * world) (y : list store) (s : store) (t : list store),
    match x with (Ok a, w1) => exists l, t = l ++ trace (k a) w1 /\ incl l y | (Raise _, _) => t = y end ->
    match x with (Ok a, w1) => exists l, s :: t = l ++ trace (k a) w1 /\ incl l (s :: y) | (Raise _, _) => s :: t = s :: y end).
  { intros [[a|e] w1] y s t H; [|congruence]. destruct H as (l & -> & I1). exists (s :: l). split; [reflexivity|].
    intros z [->|Hz]; [now left|right; auto]. }
  induction p as [[a|e]|x f IH|x v p IH|x f IH|D m f IH]; intros w; cbn [exec pbind trace].
  - exists []. split; [reflexivity|intros z []].
  - reflexivity.
  - apply C, IH.
  - apply C, IH.
  - apply C, IH.
  - destruct (m (w_db w) (w_cdb w)) as [r c]. apply C, IH.
Qed.
Lemma sees_same {A} (p : prog A) s l : forall t r, Forall (eq s) l -> sees p (l ++ s :: t) r -> sees p (s :: t) r.
Proof.
  induction l as [|y l IH]; intros t r F H; [exact H|]. assert (y = s) by (inversion F; congruence). subst y.
  apply IH; [now inversion F|]. cbn [app] in H. destruct l as [|z l]; cbn [app] in *.
  - now apply sees_twice.
  - assert (z = s) by (inversion F as [|? ? ? F']; inversion F'; congruence). subst z. now apply sees_twice.
Qed.
Lemma sees_all_same {A} (p : prog A) s l r : l <> [] -> Forall (eq s) l -> sees p l r -> sees p [s] r.
Proof.
  intros N F H. destruct (exists_last N) as (l' & y & ->). apply Forall_app in F. destruct F as [F1 F2].
  assert (y = s) by (inversion F2; congruence). subst y. now apply sees_same in H.
Qed.
Lemma either_here q w r : good_path q -> sees (p_read q) [w_db w] r -> r = fst (db_read q (w_db w)).
Proof.
  intros Gq H. rewrite <- exec_read_fst, <- (mkW_eta w).
  assert (H4 : sees (p_read q) [w_db w; w_db w; w_db w; w_db w] r) by (apply S_next, S_next, S_next; exact H).
  destruct (either_phases (w_db w) (w_db w) (w_db w) (w_db w) q (w_cdb w) (w_cdb w) r) as [E|E]; auto.
Qed.
Lemma either_done {A} (x : result A) w : either (Done x) w.
Proof. intros q r Gq H. left. now apply either_here. Qed.
Lemma either_still {A B} (p : prog A) (k : A -> prog B) w : still p ->
  (forall a w1, exec p w = (Ok a, w1) -> w_db w1 = w_db w -> either (k a) w1) -> either (pbind p k) w.
Proof.
  intros S X q r Gq H. assert (T := trace_bind p k w). assert (F := still_trace p w S). rewrite exec_bind.
  destruct (exec p w) as [[a|e] w1] eqn:E.
  - assert (D := still_exec p w _ w1 S E). destruct T as (l & Et & I1). rewrite Et in H.
    destruct (trace_head (k a) w1) as [t Ek]. rewrite Ek in H.
    assert (Fl : Forall (eq (w_db w1)) l). { rewrite Forall_forall in *. intros z Hz. rewrite D. auto. }
    apply sees_same in H; [|exact Fl]. rewrite <- Ek in H. rewrite <- D. now apply (X a w1 eq_refl D).
  - rewrite T in H. left. apply either_here; [exact Gq|]. apply (sees_all_same _ _ (trace p w)); auto.
    destruct (trace_head p w) as [t ->]. discriminate.
Qed.
Lemma either_then {A B} (p : prog A) (k : A -> result B) w : either p w -> either (pbind p (fun a => Done (k a))) w.
Proof.
  intros X q r Gq H. rewrite trace_then in H. rewrite exec_bind. destruct (X q r Gq H) as [R|R]; [auto|right].
  destruct (exec p w) as [[a|e] w1]; exact R.
Qed.
Lemma either_read {B} q (k : entry -> prog B) w :
  (forall e, view (w_db w) q = Some e -> either (k e) w) -> either (pbind (p_read q) k) w.
Proof.
  intros X. apply either_still; [apply still_read|]. intros e w1 E D. assert (Y := does_read q w). unfold in_db in Y.
  assert (Z := db_read_state q (w_db w)). unfold view in X. destruct (db_read q (w_db w)) as [r s]. cbn [snd fst] in *. subst s.
  rewrite mkW_eta in Y. rewrite Y in E. injection E as -> <-. auto.
Qed.
Lemma either_write u c g f w : kinds_ok (w_db w) -> good u -> good c -> good g -> either (p_write (session_key [u; c; g]) f) w.
Proof.
  intros Hk Hu Hc Hg. unfold p_write. apply either_still; [apply still_get_grant|]. intros gr w1 _ D.
  unfold p_mset. rewrite unpack_good by auto with gp. apply either_store; [now rewrite D|auto with gp|exact I].
Qed.
Lemma either_mint cx mt u c g gr ttype b w : kinds_ok (w_db w) -> good u -> good c -> good g ->
  either (p_mint cx mt (session_key [u; c; g]) gr ttype b) w.
Proof.
  intros Hk Hu Hc Hg. unfold p_mint. cbv zeta. apply either_still; [apply still_mint_in|]. intros [[t|] g1] w1 _ D; rewrite ?unpack_good by auto with gp.
  - apply (either_then _ (fun _ => Ok _)). apply either_store; [now rewrite D|auto with gp|exact I].
  - destruct (negb _); [apply either_done|]. apply (either_then _ (fun _ => Ok _)). apply either_store; [now rewrite D|auto with gp|exact I].
Qed.
Lemma either_authz_mint cx mt u c g ttype b w : kinds_ok (w_db w) -> good u -> good c -> good g ->
  either (p_authz_mint cx mt u c g ttype b) w.
Proof.
  intros Hk Hu Hc Hg. unfold p_authz_mint. apply either_still; [apply still_get_grant|]. intros gr w1 _ D.
  apply (either_then _ (fun _ => Ok _)). apply either_mint; try assumption. now rewrite D.
Qed.
Lemma either_update q new w : kinds_ok (w_db w) -> good_path q -> either (p_update q new) w.
Proof.
  intros Hk Hq. unfold p_update. apply either_read. intros e V. apply view_stored in V; [|assumption]. specialize (Hk q e Hq V) as K.
  destruct e as [i|gr]; cbn [pbind].
  - apply either_store; [exact Hk|exact Hq|]. destruct (good_path_cases q Hq) as [(a & -> & Ha)|[(a & b & -> & Ha & Hb)|(a & b & d & -> & Ha & Hb & Hd)]]; [exact I|exact I|cbn in K; lia].
  - destruct (is_nil new); cbn [pbind]; [|apply either_done].
    apply either_store; [exact Hk|exact Hq|]. destruct (good_path_cases q Hq) as [(a & -> & Ha)|[(a & b & -> & Ha & Hb)|(a & b & d & -> & Ha & Hb & Hd)]]; try discriminate. exact I.
Qed.
Lemma either_mop op w : kinds_ok (w_db w) -> good (op_user op) -> good (op_client op) -> good (op_grant op) -> one_set op ->
  either (p_mop op) w.
Proof.
  intros Hk Hu Hc Hg O. destruct op; cbn [op_user op_client op_grant p_mop one_set] in *; try contradiction.
  - apply (either_then _ (fun _ => Ok _)). unfold p_create_grant. destruct sub as [x|e]; cbn [pbind]; [|apply either_done].
    apply (either_then _ (fun _ => Ok _)). apply either_store; [exact Hk|auto with gp|exact I].
  - unfold p_revoke_client_session. rewrite unpack_good by auto with gp. cbn [pbind pret]. apply either_read. intros e V.
    apply view_stored in V; [|auto with gp]. specialize (Hk [u; c] e ltac:(auto with gp) V) as K. destruct e as [i|gr]; [|discriminate K].
    apply either_store; [exact Hk|auto with gp|exact I].
  - unfold p_revoke_grant. rewrite unpack_good by auto with gp. apply either_read. intros e V.
    apply view_stored in V; [|auto with gp]. specialize (Hk [u; c; g] e ltac:(auto with gp) V) as K. destruct e as [i|gr]; [cbn in K; lia|].
    apply either_store; [exact Hk|auto with gp|exact I].
  - unfold p_revoke_token. rewrite unpack3_good by auto. cbn [pbind]. apply either_read. intros e V.
    destruct e as [i|gr]; cbn [pbind]; [apply either_done|]. destruct (get_token _ gr); [|apply either_done].
    destruct recursive; [|apply either_done]. rewrite unpack_good by auto with gp. apply either_read. intros e2 V2.
    destruct e2; cbn [pbind]; apply either_done.
  - now apply either_write.
Qed.

(** from [either] to schedules *)
Lemma sees_map {A B} (p : prog A) (k : A -> result B) ss r : sees (pbind p (fun a => Done (k a))) ss r ->
  exists r0, sees p ss r0 /\ r = match r0 with Ok a => k a | Raise e => Raise e end.
Proof.
  intros H. remember (pbind p (fun a => Done (k a))) as x eqn:E. revert p E. induction H as [x ss|y f s ss x H IH|x s ss y H IH]; intros p E.
  - destruct p as [[a|e]|? ?|? ? ?|? ?|? ? ?]; cbn [pbind] in E; try discriminate; injection E as ->; eexists; split; try apply S_done; reflexivity.
  - destruct p as [[a|e]|? f0|? ? ?|? ?|? ? ?]; cbn [pbind] in E; try discriminate. injection E as -> ->.
    destruct (IH _ eq_refl) as (r0 & S & ->). exists r0. split; [now apply S_get|reflexivity].
  - destruct (IH _ E) as (r0 & S & ->). exists r0. split; [now apply S_next|reflexivity].
Qed.
Lemma either_entire {A} (p : prog A) w : either p w -> read_entire p w.
Proof.
  intros X q l r p' w' Gq H. apply turns_sees in H.
  2:{ apply reader_bind; [apply reader_read|]. intros; exact I. }
  assert (T : trace (p ;~ pret (@None entry)) w = trace p w) by exact (trace_then p (fun _ => Ok None) w).
  rewrite T in H. apply sees_map in H. destruct H as (r0 & S & ->).
  destruct (X q r0 Gq S) as [-> | ->]; auto.
Qed.

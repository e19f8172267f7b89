(** PropsStores.v: property C78 (the key-value stores). *)
From Verif Require Import Base BaseProofs Types Ctx Stores StoresSpec.
From Coq Require Import Permutation.

Lemma dkeys_ddel {A} k (d : dict A) x : In x (dkeys (ddel k d)) -> In x (dkeys d).
Proof. induction d as [|(k', v) d IH]; cbn; [auto|]. destruct (String.eqb k k'); cbn; intuition. Qed.
Lemma nodup_ddel {A} k (d : dict A) : NoDup (dkeys d) -> NoDup (dkeys (ddel k d)).
Proof.
  induction d as [|(k', v) d IH]; cbn; intros H; [constructor|]. inversion H; subst. destruct (String.eqb k k'); [auto|]. cbn. constructor; [|auto].
  intros X. now apply dkeys_ddel in X.
Qed.
Lemma nodup_dset {A} k (v : A) (d : dict A) : NoDup (dkeys d) -> NoDup (dkeys (dset k v d)).
Proof.
  induction d as [|(k', v') d IH]; cbn; intros H; [constructor; [intros []|constructor]|]. inversion H; subst. destruct (String.eqb_spec k k') as [->|N]; [now constructor|]. cbn [dkeys map fst]. constructor; [|auto].
  intros X. apply dkeys_dset in X. destruct X as [X|X]; [congruence|contradiction].
Qed.
Lemma dmem_dget {A} k (d : dict A) : dmem k d = true <-> dget k d <> None.
Proof. unfold dmem. destruct (dget k d); split; congruence. Qed.
Lemma keys_dget {A} k (d : dict A) : In k (dkeys d) <-> dget k d <> None.
Proof. split. - intros H X. now apply dget_None_key in X. - intros H. destruct (in_dec string_dec k (dkeys d)) as [I|I]; [exact I|]. now apply dget_None_key in I. Qed.
Lemma put_same k o m : m k = o -> forall x, put k o m x = m x.
Proof. intros H x. unfold put. now destruct (String.eqb_spec x k) as [->|]. Qed.
Lemma put_set (db : dict val) k v x : put k (Some v) (fun k => dget k db) x = dget x (dset k v db).
Proof. unfold put. rewrite dget_dset. now destruct (String.eqb x k). Qed.
Lemma put_del (db : dict val) k x : put k None (fun k => dget k db) x = dget x (ddel k db).
Proof. unfold put. rewrite dget_ddel. now destruct (String.eqb x k). Qed.

(** A shelf is a map whatever is stored in it, if objects are not changed in place or writeback is on. *)
Theorem C78_shelve_partial : forall order writeback ops db, some_order order -> NoDup (dkeys db) -> (writeback = true \/ Forall no_change ops) ->
  map_run ops (fun k => dget k db) (srun (shelve_step order writeback) ops db).
Proof.
  intros order writeback ops db O. revert db. induction ops as [|op ops IH]; intros db N W; [constructor|]. cbn [srun].
  assert (W' : writeback = true \/ Forall no_change ops) by (destruct W as [W|W]; [auto|right; now inversion W]).
  assert (Q : forall k, put k None (fun k => dget k db) k = None) by (intros k; unfold put; now rewrite String.eqb_refl).
  destruct op as [k|k|k v|k|k v|k d|k| | |k f]; cbn [shelve_step]; cbv beta iota.
  - econstructor; [constructor; apply dmem_dget|reflexivity|auto].
  - econstructor; [unfold dget_or; apply MGetItem|reflexivity|auto].
  - econstructor; [constructor|apply put_set|]. apply IH; [now apply nodup_dset|exact W'].
  - destruct (dmem k db) eqn:D; (econstructor; [constructor| |]).
    + apply put_del.
    + apply IH; [now apply nodup_ddel|exact W'].
    + apply put_same. unfold dmem in D. now destruct (dget k db).
    + now apply IH.
  - econstructor; [constructor|apply put_set|]. apply IH; [now apply nodup_dset|exact W'].
  - econstructor; [unfold dget_or; apply MGet|reflexivity|auto].
  - destruct (dmem k db) eqn:D; (econstructor; [constructor| |]).
    + apply put_del.
    + apply IH; [now apply nodup_ddel|exact W'].
    + apply put_same. unfold dmem in D. now destruct (dget k db).
    + now apply IH.
  - econstructor; [constructor| |apply IH; assumption].
    + eapply Permutation_NoDup; [apply O|exact N].
    + intros k. rewrite <- keys_dget. split; intros I; [eapply Permutation_in; [symmetry; apply O|exact I]|eapply Permutation_in; [apply O|exact I]].
    + reflexivity.
  - econstructor; [constructor|reflexivity|]. apply (IH []); [constructor|exact W'].
  - destruct W as [->|W]; [|inversion W; contradiction]. destruct (dget k db) as [v|] eqn:D.
    + econstructor; [constructor| |apply IH; [now apply nodup_dset|exact W']]. intros x. cbv beta. rewrite D. apply put_set.
    + econstructor; [constructor| |apply IH; assumption]. cbv beta. rewrite D. now apply put_same.
Qed.
Print Assumptions C78_shelve_partial.

(** The store in memory is a map as long as no value counts as false. *)
Theorem C78_memory_partial : forall ops db, NoDup (dkeys db) -> (forall k v, dget k db = Some v -> truthy v = true) -> Forall sound_op ops ->
  map_run ops (fun k => dget k db) (srun mem_step ops db).
Proof.
  induction ops as [|op ops IH]; intros db N T F; [constructor|]. cbn [srun]. inversion F as [|o l F1 F2]; subst.
  assert (G : forall k, truthy_get k db = dget k db). { intros k. unfold truthy_get. destruct (dget k db) as [v|] eqn:D; [|reflexivity]. now rewrite (T _ _ D). }
  assert (TS : forall k v, truthy v = true -> forall k' v', dget k' (dset k v db) = Some v' -> truthy v' = true).
  { intros k v V k' v'. rewrite dget_dset. destruct (String.eqb k' k); [congruence|apply T]. }
  assert (TD : forall k k' v', dget k' (ddel k db) = Some v' -> truthy v' = true).
  { intros k k' v'. rewrite dget_ddel. destruct (String.eqb k' k); [discriminate|apply T]. }
  destruct op as [k|k|k v|k|k v|k d|k| | |k f]; cbn [mem_step]; cbv beta iota; cbn [sound_op] in F1.
  - econstructor; [constructor|reflexivity|auto]. rewrite G. destruct (dget k db); split; congruence.
  - econstructor; [unfold dget_or; apply MGetItem|reflexivity|auto].
  - econstructor; [constructor|apply put_set|]. apply IH; [now apply nodup_dset|eauto|exact F2].
  - destruct (dmem k db) eqn:D.
    + econstructor; [constructor|apply put_del|]. apply IH; [now apply nodup_ddel|eauto|exact F2].
    + econstructor; [apply MDelItem_raise|reflexivity|auto]. unfold dmem in D. now destruct (dget k db).
  - econstructor; [constructor|apply put_set|]. apply IH; [now apply nodup_dset|eauto|exact F2].
  - econstructor; [unfold dget_or; apply MGet|reflexivity|auto].
  - rewrite G. destruct (dget k db) as [v|] eqn:D; (econstructor; [constructor| |]).
    + apply put_del.
    + apply IH; [now apply nodup_ddel|eauto|exact F2].
    + now apply put_same.
    + now apply IH.
  - econstructor; [constructor; [exact N|intros k; apply keys_dget]|reflexivity|auto].
  - econstructor; [constructor|reflexivity|]. apply (IH []); [constructor|discriminate|exact F2].
  - destruct (dget k db) as [v|] eqn:D.
    + econstructor; [constructor| |apply IH; [now apply nodup_dset|eauto|exact F2]]. intros x. cbv beta. rewrite D. apply put_set.
    + econstructor; [constructor| |apply IH; assumption]. cbv beta. rewrite D. now apply put_same.
Qed.
Print Assumptions C78_memory_partial.

Lemma run_cons op ops m a l : map_run (op :: ops) m (a :: l) -> exists m1 m2, map_step op m a m1 /\ (forall k, m1 k = m2 k) /\ map_run ops m2 l.
Proof. intros H. inversion H; subst. eauto. Qed.
(** A value that counts as false is there and is not, and cannot be deleted. *)
Theorem C78_false_refuted : forall k v db, truthy v = false ->
  srun mem_step [OSet k v; OContains k; ODelete k; OGetItem k] db = [SNone; SBool false; SNone; SVal v] /\
  forall m, ~ map_run [OSet k v; OContains k] m [SNone; SBool false] /\ ~ map_run [OSet k v; ODelete k; OGet k (VStr "gone")] m [SNone; SNone; SVal v].
Proof.
  intros k v db T. split.
  - cbn [srun mem_step]. unfold truthy_get, dget_or. rewrite !dget_dset_eq, T. rewrite dget_dset_eq. reflexivity.
  - intros m. split; intros H.
    + apply run_cons in H. destruct H as (m1 & m2 & S1 & E1 & H). apply run_cons in H. destruct H as (m3 & m4 & S2 & E2 & H).
      inversion S1; subst. inversion S2 as [? ? b B| | | | | | | | | |]; subst.
      assert (X : m3 k <> None) by (rewrite <- E1; unfold put; rewrite String.eqb_refl; discriminate). apply B in X. discriminate.
    + apply run_cons in H. destruct H as (m1 & m2 & S1 & E1 & H). apply run_cons in H. destruct H as (m3 & m4 & S2 & E2 & H). apply run_cons in H. destruct H as (m5 & m6 & S3 & E3 & _).
      inversion S2; subst. inversion S3 as [| | | | | |k0 d0 m0 X1 X2 X3| | | |]; subst. assert (X : m5 k = None) by (rewrite <- E2; unfold put; now rewrite String.eqb_refl).
      rewrite X in T. discriminate.
Qed.
Print Assumptions C78_false_refuted.

(** Changes made in place to what a shelf has handed out are lost, where the store in memory keeps them. *)
Theorem C78_change_refuted : forall order k v f db,
  srun mem_step [OSet k v; OChange k f; OGetItem k] db = [SNone; SNone; SVal (f v)] /\
  srun (shelve_step order false) [OSet k v; OChange k f; OGetItem k] db = [SNone; SNone; SVal v].
Proof. intros order k v f db. cbn [srun mem_step shelve_step]. unfold dget_or. now rewrite !dget_dset_eq. Qed.
Print Assumptions C78_change_refuted.
(** Deleting a key that is not there is an error in one store and none in the other. *)
Theorem C78_delete_refuted : forall order writeback k db, dget k db = None ->
  srun mem_step [ODelItem k] db = [SRaise EKey] /\ srun (shelve_step order writeback) [ODelItem k] db = [SNone].
Proof. intros order writeback k db D. cbn [srun mem_step shelve_step]. unfold dmem. now rewrite D. Qed.
Print Assumptions C78_delete_refuted.

(** A ListDB has what was appended last; *)
Theorem C78_list_partial : forall order ops v db, 
  exists l, lrun (list_step order) (ops ++ [LContains v]) db = l ++ [SBool (present v ops (dmem v db))].
Proof.
  intros order ops v. induction ops as [|op ops IH]; intros db; [now exists []|]. cbn [app lrun].
  destruct (list_step order op db) as (a, db') eqn:E. destruct (IH db') as (l & ->). exists (a :: l). cbn [app]. do 2 f_equal. f_equal. f_equal.
  destruct op as [x|x|x|]; cbn [list_step present] in *.
  - injection E as <- <-. unfold dmem. rewrite dget_dset. now destruct (String.eqb v x).
  - destruct (dmem x db) eqn:D; injection E as <- <-.
    + unfold dmem. rewrite dget_ddel. now destruct (String.eqb v x).
    + destruct (String.eqb_spec v x) as [->|]; [now rewrite D|reflexivity].
  - now injection E as <- <-.
  - now injection E as <- <-.
Qed.
Print Assumptions C78_list_partial.
(** but unlike a list it has everything once only. *)
Theorem C78_list_refuted : forall order v, (forall l, Permutation l (order l)) ->
  lrun (list_step order) [LAppend v; LAppend v; LList; LRemove v; LContains v] [] = [SNone; SNone; SKeys [v]; SNone; SBool false].
Proof.
  intros order v O. cbn. rewrite String.eqb_refl. cbn. rewrite String.eqb_refl. cbn. assert (order [v] = [v]) as -> by (apply Permutation_length_1_inv, O).
  unfold dmem. cbn. now rewrite String.eqb_refl.
Qed.
Print Assumptions C78_list_refuted.

Example C78_ex :
  let ops := [OSet "a" (VStr "x"); OSet "b" (VInt 1); OContains "a"; ODelete "a"; OContains "a"; OGet "a" (VStr "d"); OChange "b" (fun _ => VInt 2); OGetItem "b"; OKeys] in
  Forall sound_op ops /\ srun mem_step ops [] = [SNone; SNone; SBool true; SNone; SBool false; SVal (VStr "d"); SNone; SVal (VInt 2); SKeys ["b"%string]] /\
  srun (shelve_step (@rev string) true) ops [] = srun mem_step ops [].
Proof. split; [repeat (apply Forall_cons; [cbn; reflexivity || auto|]); apply Forall_nil|]. split; vm_compute; reflexivity. Qed.

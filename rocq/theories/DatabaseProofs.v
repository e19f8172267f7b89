(** DatabaseProofs.v *)
From Verif Require Import Base BaseProofs Monad Types SessionKey SplitProofs SessionKeyProofs Database DatabaseSpec.

Ltac inv H := inversion H; subst; clear H.

(** ** keys *)
Lemma good_id_ok x : good x -> id_ok x.
Proof. intros (_ & H1 & H2). split; auto. Qed.
Lemma good_ne x : good x -> x <> "".
Proof. intros (H & _); auto. Qed.
Lemma good_tr x : good x -> nonempty x = true.
Proof. intros H. apply nonempty_true, good_ne, H. Qed.

Lemma good_ids_ok q : q <> [] -> Forall good q -> ids_ok q.
Proof.
  intros Hq H. unfold ids_ok. destruct (rev q) as [|x l] eqn:E.
  - apply (f_equal (@rev string)) in E. rewrite rev_involutive in E. auto.
  - assert (HF : Forall good (x :: l)) by (rewrite <- E; apply Forall_rev; auto). inv HF. split.
    + apply good_id_ok in H2. destruct H2; auto.
    + eapply Forall_impl; [|eassumption]. apply good_id_ok.
Qed.

Definition path_dec : forall p q : list string, {p = q} + {p <> q} := list_eq_dec string_dec.

Lemma key_eq p q : good_path p -> good_path q -> (session_key p = session_key q <-> p = q).
Proof.
  intros [Hp Lp] [Hq Lq]. split; [|congruence].
  apply session_key_injective; apply good_ids_ok; auto; intros ->; cbn in *; lia.
Qed.

Lemma gp1 u : good u -> good_path [u].
Proof. intros; split; [auto|cbn; lia]. Qed.
Lemma gp2 u c : good u -> good c -> good_path [u; c].
Proof. intros; split; [auto|cbn; lia]. Qed.
Lemma gp3 u c g : good u -> good c -> good g -> good_path [u; c; g].
Proof. intros; split; [auto|cbn; lia]. Qed.
#[global] Hint Resolve gp1 gp2 gp3 : gp.

Lemma stored_dset p q v s : good_path p -> good_path q ->
  stored (dset (session_key p) v s) q = if path_dec q p then Some v else stored s q.
Proof.
  intros Hp Hq. unfold stored. rewrite dget_dset.
  destruct (String.eqb_spec (session_key q) (session_key p)) as [E|E];
    destruct (path_dec q p) as [E'|E']; auto.
  - apply key_eq in E; auto. contradiction.
  - subst. contradiction.
Qed.

Lemma stored_ddel p q s : good_path p -> good_path q ->
  stored (ddel (session_key p) s) q = if path_dec q p then None else stored s q.
Proof.
  intros Hp Hq. unfold stored. rewrite dget_ddel.
  destruct (String.eqb_spec (session_key q) (session_key p)) as [E|E];
    destruct (path_dec q p) as [E'|E']; auto.
  - apply key_eq in E; auto. contradiction.
  - subst. contradiction.
Qed.

Lemma stored_dset1 u q v s : good u -> good_path q ->
  stored (dset u v s) q = if path_dec q [u] then Some v else stored s q.
Proof. intros Hu Hq. exact (stored_dset [u] q v s (gp1 u Hu) Hq). Qed.
Lemma stored_ddel1 u q s : good u -> good_path q ->
  stored (ddel u s) q = if path_dec q [u] then None else stored s q.
Proof. intros Hu Hq. exact (stored_ddel [u] q s (gp1 u Hu) Hq). Qed.

(** ** reading *)
Lemma good_path_cases q : good_path q ->
  (exists u, q = [u] /\ good u) \/ (exists u c, q = [u; c] /\ good u /\ good c) \/
  (exists u c g, q = [u; c; g] /\ good u /\ good c /\ good g).
Proof.
  intros [HF HL]. destruct q as [|u [|c [|g [|x q]]]]; cbn in HL; try lia.
  - inv HF. eauto 8.
  - inv HF. inv H2. right; left. eauto 8.
  - inv HF. inv H2. inv H4. right; right. exists u, c, g. auto.
Qed.

Lemma view1 s u : view s [u] = stored s [u].
Proof. unfold view, stored, db_read, db_sub, lift, bind, ret, dsub. cbn. destruct (dget u s); reflexivity. Qed.

Lemma view2 s u c : view s [u; c] =
  match stored s [u] with
  | Some (EInfo ui) => if smem c (si_sub ui) then stored s [u; c] else None
  | _ => None
  end.
Proof.
  unfold view, stored, db_read, db_sub, lift, bind, ret, dsub, catch.
  change (session_key [u]) with u. cbn [eval_path].
  destruct (dget u s) as [[ui|g]|]; cbn [of_option subordinate fst]; auto.
  destruct (smem c (si_sub ui)); cbn [negb]; auto.
  destruct (dget (session_key [u; c]) s); cbn; reflexivity.
Qed.

Lemma view3 s u c g : view s [u; c; g] =
  match view s [u; c] with
  | Some (EInfo ci) => if smem g (si_sub ci) then stored s [u; c; g] else None
  | _ => None
  end.
Proof.
  rewrite view2. unfold view, stored, db_read, db_sub, lift, bind, ret, dsub, catch.
  change (session_key [u]) with u. cbn [eval_path].
  destruct (dget u s) as [[ui|?]|]; cbn [of_option subordinate fst]; auto.
  destruct (smem c (si_sub ui)); cbn [negb]; auto.
  destruct (dget (session_key [u; c]) s) as [[ci|?]|]; cbn [of_option subordinate fst is_key_error raise]; auto.
  destruct (smem g (si_sub ci)); cbn [negb]; auto.
  destruct (dget (session_key [u; c; g]) s); cbn; reflexivity.
Qed.

Lemma db_read_state q s : snd (db_read q s) = s.
Proof.
  unfold db_read, bind, lift. destruct (eval_path q) as [[[u oc] og]|]; [|reflexivity].
  unfold db_sub. destruct (dsub u s) as [e|]; [|reflexivity].
  destruct oc as [c|]; [|reflexivity].
  destruct (subordinate e) as [l|]; [|reflexivity].
  destruct (negb (smem c l)); [reflexivity|].
  unfold catch. destruct (dsub (session_key [u; c]) s) as [e2|x]; [|destruct (is_key_error x); reflexivity].
  destruct og as [g|]; [|reflexivity].
  destruct (subordinate e2) as [l2|]; [|reflexivity].
  destruct (negb (smem g l2)); [reflexivity|].
  destruct (dsub (session_key [u; c; g]) s) as [e3|x]; [|destruct (is_key_error x); reflexivity].
  reflexivity.
Qed.

Lemma view_stored s q e : view s q = Some e -> good_path q -> stored s q = Some e.
Proof.
  intros H Hq. destruct (good_path_cases q Hq) as [(u & -> & _)|[(u & c & -> & _)|(u & c & g & -> & _)]].
  - rewrite view1 in H. auto.
  - rewrite view2 in H. destruct (stored s [u]) as [[ui|]|]; try discriminate. destruct (smem c _); [auto|discriminate].
  - rewrite view3 in H. destruct (view s [u; c]) as [[ci|]|]; try discriminate. destruct (smem g _); [auto|discriminate].
Qed.

(** two stores that agree on what is stored at the prefixes of [q] agree on the view of [q] *)
Lemma view_ext s s' q : good_path q ->
  (forall p, good_path p -> is_prefix p q -> stored s' p = stored s p) -> view s' q = view s q.
Proof.
  intros Hq H. destruct (good_path_cases q Hq) as [(u & -> & Hu)|[(u & c & -> & Hu & Hc)|(u & c & g & -> & Hu & Hc & Hg)]].
  - rewrite !view1. apply H; auto. exists []. reflexivity.
  - rewrite !view2. rewrite (H [u]), (H [u; c]); auto with gp; [exists []|exists [c]]; reflexivity.
  - rewrite !view3, !view2. rewrite (H [u]), (H [u; c]), (H [u; c; g]); auto with gp;
     [exists []|exists [g]|exists [c; g]]; reflexivity.
Qed.

Lemma kinds_info s q e : kinds_ok s -> good_path q -> (length q < 3)%nat -> stored s q = Some e ->
  exists i, e = EInfo i.
Proof. intros Hk Hq Hl E. specialize (Hk q e Hq E). destruct e; eauto. lia. Qed.

(** ** db_store *)
Definition fresh_c := ClientSessionInfo None.
Definition fresh_u := UserSessionInfo None.

Lemma set_sub_listing x i :
  (if negb (smem x (si_sub i)) then EInfo (with_sub (si_sub i ++ [x]) i) else EInfo i) = EInfo (listing x i).
Proof. unfold listing. destruct (smem x (si_sub i)); reflexivity. Qed.

(** what is stored after [db_store [u]] *)
Lemma db_store1 s u v : db_store [u] v s = (Ok tt, dset u v s).
Proof. reflexivity. Qed.

Lemma in_listing x i : In x (si_sub (listing x i)).
Proof.
  unfold listing. destruct (smem x (si_sub i)) eqn:E; [apply smem_In; auto|].
  cbn. apply in_or_app. right. left. reflexivity.
Qed.
Lemma listing_iff x y i : In y (si_sub (listing x i)) <-> y = x \/ In y (si_sub i).
Proof.
  unfold listing. destruct (smem x (si_sub i)) eqn:E.
  - apply smem_In in E. split; [auto|]. intros [->|]; auto.
  - cbn. rewrite in_app_iff. cbn. intuition.
Qed.

Definition uopt (s : store) (u : string) : sinfo := info_or fresh_u (stored s [u]).
Definition copt (s : store) (u c : string) : sinfo := info_or fresh_c (stored s [u; c]).

(** the user part common to paths of length 2 and 3 *)
Definition store_user (s : store) (u c : string) : store :=
  if smem c (si_sub (uopt s u)) then s else dset u (EInfo (listing c (uopt s u))) s.

Lemma stored_store_user s u c q : kinds_ok s -> good u -> good c -> good_path q ->
  stored (store_user s u c) q = if path_dec q [u] then Some (EInfo (listing c (uopt s u))) else stored s q.
Proof.
  intros Hk Hu Hc Hq. unfold store_user.
  destruct (smem c (si_sub (uopt s u))) eqn:E.
  - destruct (path_dec q [u]) as [->|]; [|auto].
    unfold uopt, info_or in *. destruct (stored s [u]) as [e|] eqn:Es.
    + destruct (kinds_info s [u] e Hk (gp1 u Hu) ltac:(cbn; lia) Es) as [i ->].
      unfold listing. rewrite E. reflexivity.
    + discriminate E.
  - exact (stored_dset [u] q _ s (gp1 u Hu) Hq).
Qed.

Lemma db_store2 s u c v : kinds_ok s -> good u -> good c ->
  db_store [u; c] v s = (Ok tt, store_user (dset (session_key [u; c]) v s) u c).
Proof.
  intros Hk Hu Hc. unfold db_store, bind, lift, db_get, gets, db_set, modify, ret.
  cbn [eval_path tr str_or_empty]. rewrite (good_tr c Hc). cbn [negb].
  set (s1 := dset (session_key [u; c]) v s).
  unfold store_user, uopt, info_or, stored. change (session_key [u]) with u.
  assert (Eu : dget u s1 = dget u s).
  { change (stored s1 [u] = stored s [u]). unfold s1. rewrite stored_dset by auto with gp.
    destruct (path_dec [u] [u; c]); [discriminate|reflexivity]. }
  destruct (dget u s1) as [e|] eqn:E.
  - destruct (kinds_info s [u] e Hk (gp1 u Hu) ltac:(cbn; lia) (eq_sym Eu)) as [i ->].
    cbn [subordinate set_subordinate]. destruct (smem c (si_sub i)) eqn:Em; cbn [negb]; [reflexivity|].
    unfold listing. rewrite Em. reflexivity.
  - cbn. reflexivity.
Qed.

Definition store_client (s : store) (u c g : string) : store :=
  if smem g (si_sub (copt s u c)) then s else dset (session_key [u; c]) (EInfo (listing g (copt s u c))) s.

Lemma stored_store_client s u c g q : kinds_ok s -> good u -> good c -> good g -> good_path q ->
  stored (store_client s u c g) q =
  if path_dec q [u; c] then Some (EInfo (listing g (copt s u c))) else stored s q.
Proof.
  intros Hk Hu Hc Hg Hq. unfold store_client.
  destruct (smem g (si_sub (copt s u c))) eqn:E.
  - destruct (path_dec q [u; c]) as [->|]; [|auto].
    unfold copt, info_or in *. destruct (stored s [u; c]) as [e|] eqn:Es.
    + destruct (kinds_info s [u; c] e Hk (gp2 u c Hu Hc) ltac:(cbn; lia) Es) as [i ->].
      unfold listing. rewrite E. reflexivity.
    + discriminate E.
  - apply stored_dset; auto with gp.
Qed.

Lemma kinds_dset s p v : kinds_ok s -> good_path p ->
  match v with EInfo _ => (length p < 3)%nat | EGrant _ => length p = 3 end -> kinds_ok (dset (session_key p) v s).
Proof.
  intros Hk Hp Hv q e Hq E. rewrite stored_dset in E by auto.
  destruct (path_dec q p) as [->|]; [inv E; auto|]. apply Hk; auto.
Qed.

Lemma kinds_ddel s p : kinds_ok s -> good_path p -> kinds_ok (ddel (session_key p) s).
Proof.
  intros Hk Hp q e Hq E. rewrite stored_ddel in E by auto.
  destruct (path_dec q p) as [->|]; [discriminate|]. apply Hk; auto.
Qed.

Lemma kinds_store_client s u c g : kinds_ok s -> good u -> good c -> kinds_ok (store_client s u c g).
Proof.
  intros Hk Hu Hc. unfold store_client. destruct (smem g _); [auto|].
  apply kinds_dset; auto with gp.
Qed.
Lemma kinds_store_user s u c : kinds_ok s -> good u -> kinds_ok (store_user s u c).
Proof.
  intros Hk Hu. unfold store_user. destruct (smem c _); [auto|].
  exact (kinds_dset s [u] (EInfo _) Hk (gp1 u Hu) ltac:(cbn; lia)).
Qed.

Definition client_block (u c g : string) : DB unit :=
  o <-- db_get (session_key [u; c]) ;;
  let cid_info := match o with Some e => e | None => EInfo (ClientSessionInfo None) end in
  sub <-- lift (subordinate cid_info) ;;
  if negb (smem g sub) then db_set (session_key [u; c]) (set_subordinate (sub ++ [g]) cid_info)
  else ret tt.
Definition user_block (u c : string) : DB unit :=
  o <-- db_get u ;;
  let userinfo := match o with Some e => e | None => EInfo (UserSessionInfo None) end in
  ret tt ;;;
  sub <-- lift (subordinate userinfo) ;;
  if negb (smem c sub) then db_set u (set_subordinate (sub ++ [c]) userinfo) else ret tt.

Lemma client_block_spec s u c g : kinds_ok s -> good u -> good c ->
  client_block u c g s = (Ok tt, store_client s u c g).
Proof.
  intros Hk Hu Hc. unfold client_block, store_client, copt, info_or, stored, bind, lift, db_get, gets, db_set, modify, ret.
  destruct (dget (session_key [u; c]) s) as [e|] eqn:E.
  - destruct (kinds_info s [u; c] e Hk (gp2 u c Hu Hc) ltac:(cbn; lia) E) as [i ->].
    cbn [subordinate set_subordinate]. destruct (smem g (si_sub i)) eqn:Em; cbn [negb]; [reflexivity|].
    unfold listing. rewrite Em. reflexivity.
  - reflexivity.
Qed.
Lemma user_block_spec s u c : kinds_ok s -> good u ->
  user_block u c s = (Ok tt, store_user s u c).
Proof.
  intros Hk Hu. unfold user_block, store_user, uopt, info_or, stored, bind, lift, db_get, gets, db_set, modify, ret.
  change (session_key [u]) with u.
  destruct (dget u s) as [e|] eqn:E.
  - destruct (kinds_info s [u] e Hk (gp1 u Hu) ltac:(cbn; lia) E) as [i ->].
    cbn [subordinate set_subordinate]. destruct (smem c (si_sub i)) eqn:Em; cbn [negb]; [reflexivity|].
    unfold listing. rewrite Em. reflexivity.
  - reflexivity.
Qed.

Lemma db_store3 s u c g v : kinds_ok s -> good u -> good c -> good g ->
  db_store [u; c; g] (EGrant v) s =
  (Ok tt, store_user (store_client (dset (session_key [u; c; g]) (EGrant v) s) u c g) u c).
Proof.
  intros Hk Hu Hc Hg.
  assert (E : db_store [u; c; g] (EGrant v) s =
     bind (db_set (session_key [u; c; g]) (EGrant v))
       (fun _ => bind (client_block u c g) (fun _ => user_block u c)) s).
  { unfold db_store. cbn [eval_path tr str_or_empty]. unfold bind at 1, lift at 1. cbn [tr str_or_empty].
    rewrite (good_tr c Hc), (good_tr g Hg). reflexivity. }
  rewrite E. clear E. unfold bind, db_set, modify.
  set (s1 := dset (session_key [u; c; g]) (EGrant v) s).
  assert (Hk1 : kinds_ok s1) by (apply kinds_dset; auto with gp).
  rewrite client_block_spec by auto. rewrite user_block_spec; auto using kinds_store_client.
Qed.

Lemma path_dec_refl {A} q (a b : A) : (if path_dec q q then a else b) = a.
Proof. destruct (path_dec q q); congruence. Qed.
Lemma path_dec_neq {A} p q (a b : A) : p <> q -> (if path_dec p q then a else b) = b.
Proof. intros. destruct (path_dec p q); congruence. Qed.

(** contents after storing a grant *)
Lemma stored_store3 s u c g v q : kinds_ok s -> good u -> good c -> good g -> good_path q ->
  stored (snd (db_store [u; c; g] (EGrant v) s)) q =
  if path_dec q [u] then Some (EInfo (listing c (uopt s u)))
  else if path_dec q [u; c] then Some (EInfo (listing g (copt s u c)))
  else if path_dec q [u; c; g] then Some (EGrant v)
  else stored s q.
Proof.
  intros Hk Hu Hc Hg Hq. rewrite db_store3 by auto. cbn [snd].
  set (s1 := dset (session_key [u; c; g]) (EGrant v) s).
  assert (Hk1 : kinds_ok s1) by (apply kinds_dset; auto with gp).
  assert (Hk2 : kinds_ok (store_client s1 u c g)) by (apply kinds_store_client; auto).
  assert (H1 : copt s1 u c = copt s u c).
  { unfold copt, s1. rewrite stored_dset by auto with gp. rewrite path_dec_neq by discriminate. reflexivity. }
  assert (H2 : uopt (store_client s1 u c g) u = uopt s u).
  { unfold uopt. rewrite stored_store_client by auto with gp. rewrite path_dec_neq by discriminate.
    unfold s1. rewrite stored_dset by auto with gp. rewrite path_dec_neq by discriminate. reflexivity. }
  rewrite stored_store_user by auto. rewrite H2.
  destruct (path_dec q [u]) as [->|]; [auto|].
  rewrite stored_store_client by auto. rewrite H1.
  destruct (path_dec q [u; c]) as [->|]; [auto|].
  unfold s1. apply stored_dset; auto with gp.
Qed.

Lemma stored_store2 s u c v q : kinds_ok s -> good u -> good c -> good_path q ->
  stored (snd (db_store [u; c] (EInfo v) s)) q =
  if path_dec q [u] then Some (EInfo (listing c (uopt s u)))
  else if path_dec q [u; c] then Some (EInfo v)
  else stored s q.
Proof.
  intros Hk Hu Hc Hq. rewrite db_store2 by auto. cbn [snd].
  set (s1 := dset (session_key [u; c]) (EInfo v) s).
  assert (Hk1 : kinds_ok s1) by (apply kinds_dset; auto with gp).
  assert (H2 : uopt s1 u = uopt s u).
  { unfold uopt, s1. rewrite stored_dset by auto with gp. rewrite path_dec_neq by discriminate. reflexivity. }
  rewrite stored_store_user by auto. rewrite H2.
  destruct (path_dec q [u]) as [->|]; [auto|].
  unfold s1. apply stored_dset; auto with gp.
Qed.

Lemma stored_store1 s u v q : good u -> good_path q ->
  stored (snd (db_store [u] v s)) q = if path_dec q [u] then Some v else stored s q.
Proof. intros Hu Hq. rewrite db_store1. cbn [snd]. exact (stored_dset [u] q v s (gp1 u Hu) Hq). Qed.

Lemma kinds_store3 s u c g v : kinds_ok s -> good u -> good c -> good g ->
  kinds_ok (snd (db_store [u; c; g] (EGrant v) s)).
Proof.
  intros Hk Hu Hc Hg. rewrite db_store3 by auto. cbn [snd].
  apply kinds_store_user; auto. apply kinds_store_client; auto. apply kinds_dset; auto with gp.
Qed.
Lemma kinds_store2 s u c v : kinds_ok s -> good u -> good c ->
  kinds_ok (snd (db_store [u; c] (EInfo v) s)).
Proof.
  intros Hk Hu Hc. rewrite db_store2 by auto. cbn [snd].
  apply kinds_store_user; auto. apply kinds_dset; auto with gp.
Qed.
Lemma kinds_store1 s u v : kinds_ok s -> good u -> kinds_ok (snd (db_store [u] (EInfo v) s)).
Proof. intros Hk Hu. exact (kinds_dset s [u] (EInfo v) Hk (gp1 u Hu) ltac:(cbn; lia)). Qed.

Ltac pdec :=
  repeat match goal with
  | |- context [path_dec ?p ?p] => rewrite (path_dec_refl p)
  | |- context [path_dec ?p ?q] => rewrite (path_dec_neq p q) by congruence
  end.

Lemma linked_store3 s u c g v : kinds_ok s -> linked s -> good u -> good c -> good g ->
  linked (snd (db_store [u; c; g] (EGrant v) s)).
Proof.
  intros Hk Hl Hu Hc Hg u' c' Hu' Hc'. rewrite !stored_store3 by auto with gp.
  rewrite (path_dec_neq [u'; c'] [u]) by discriminate. rewrite (path_dec_neq [u'] [u; c]), (path_dec_neq [u'] [u; c; g]) by discriminate.
  intros H. destruct (path_dec [u'] [u]) as [E|E].
  - inv E. exists (listing c (uopt s u)). split; [auto|]. apply listing_iff.
    destruct (path_dec [u; c'] [u; c]) as [E|E]; [inv E; auto|]. right.
    rewrite path_dec_neq in H by discriminate. destruct (Hl u c' Hu Hc' H) as (ui & E1 & E2).
    unfold uopt. rewrite E1. exact E2.
  - rewrite path_dec_neq, path_dec_neq in H by congruence. auto.
Qed.
Lemma linked_store2 s u c v : kinds_ok s -> linked s -> good u -> good c ->
  linked (snd (db_store [u; c] (EInfo v) s)).
Proof.
  intros Hk Hl Hu Hc u' c' Hu' Hc'. rewrite !stored_store2 by auto with gp.
  rewrite (path_dec_neq [u'; c'] [u]) by discriminate. rewrite (path_dec_neq [u'] [u; c]) by discriminate.
  intros H. destruct (path_dec [u'] [u]) as [E|E].
  - inv E. exists (listing c (uopt s u)). split; [auto|]. apply listing_iff.
    destruct (path_dec [u; c'] [u; c]) as [E|E]; [inv E; auto|]. right.
    destruct (Hl u c' Hu Hc' H) as (ui & E1 & E2).
    unfold uopt. rewrite E1. exact E2.
  - rewrite path_dec_neq in H by congruence. auto.
Qed.

(** ** views after a store *)
Lemma linked_view2 s u c : linked s -> good u -> good c -> view s [u; c] = stored s [u; c].
Proof.
  intros Hl Hu Hc. rewrite view2. destruct (stored s [u; c]) as [e|] eqn:E.
  - destruct (Hl u c Hu Hc) as (ui & E1 & E2); [congruence|]. rewrite E1.
    apply smem_In in E2. rewrite E2. reflexivity.
  - destruct (stored s [u]) as [[ui|]|]; auto. destruct (smem c _); auto.
Qed.

Lemma smem_listing_neq x y i : y <> x -> smem y (si_sub (listing x i)) = smem y (si_sub i).
Proof.
  intros Hn. destruct (smem y (si_sub i)) eqn:E.
  - apply smem_In. apply listing_iff. right. apply smem_In. auto.
  - apply smem_false. rewrite listing_iff. apply smem_false in E. tauto.
Qed.
Lemma smem_listing x i : smem x (si_sub (listing x i)) = true.
Proof. apply smem_In, in_listing. Qed.

Lemma prefix_hd p q u r : is_prefix p q -> q = u :: r -> p <> [] -> exists r', p = u :: r'.
Proof. intros (x & ->) E Hp. destruct p as [|a p]; [congruence|]. inv E. eauto. Qed.

(** views of paths of other users only depend on what is stored for these users *)
Lemma view_other_user s s' u q : good_path q -> hd "" q <> u ->
  (forall p, good_path p -> hd "" p <> u -> stored s' p = stored s p) -> view s' q = view s q.
Proof.
  intros Hq Hh H. apply view_ext; auto. intros p Hp (r & E). apply H; auto.
  destruct p as [|a p]; [destruct Hp as [_ Hp]; cbn in Hp; lia|]. rewrite E in Hh. exact Hh.
Qed.

Lemma store3_view s u c g v : kinds_ok s -> linked s -> good u -> good c -> good g ->
  let s' := snd (db_store [u; c; g] (EGrant v) s) in
  view s' [u; c; g] = Some (EGrant v) /\
  view s' [u; c] = Some (EInfo (listing g (info_or (ClientSessionInfo None) (view s [u; c])))) /\
  view s' [u] = Some (EInfo (listing c (info_or (UserSessionInfo None) (view s [u])))) /\
  (forall q, good_path q -> q <> [u; c; g] -> q <> [u; c] -> q <> [u] -> view s' q = view s q).
Proof.
  intros Hk Hl Hu Hc Hg s'.
  pose proof (fun q Hq => stored_store3 s u c g v q Hk Hu Hc Hg Hq) as Hst. fold s' in Hst.
  assert (H1 : stored s' [u] = Some (EInfo (listing c (uopt s u)))) by (rewrite Hst by auto with gp; pdec; auto).
  assert (H2 : stored s' [u; c] = Some (EInfo (listing g (copt s u c)))) by (rewrite Hst by auto with gp; pdec; auto).
  assert (H3 : stored s' [u; c; g] = Some (EGrant v)) by (rewrite Hst by auto with gp; pdec; auto).
  assert (V2 : view s' [u; c] = Some (EInfo (listing g (copt s u c)))).
  { rewrite view2, H1, smem_listing. exact H2. }
  split; [|split; [|split]].
  - rewrite view3, V2, smem_listing. exact H3.
  - rewrite V2, linked_view2 by auto. reflexivity.
  - rewrite !view1, H1. reflexivity.
  - intros q Hq N3 N2 N1.
    destruct (good_path_cases q Hq) as [(u' & -> & Hu')|[(u' & c' & -> & Hu' & Hc')|(u' & c' & g' & -> & Hu' & Hc' & Hg')]].
    + rewrite !view1, Hst by auto. pdec. auto.
    + destruct (string_dec u' u) as [->|Hn].
      * assert (c' <> c) by congruence.
        rewrite !view2, H1, smem_listing_neq by auto. rewrite Hst by auto. pdec.
        unfold uopt, info_or. destruct (stored s [u]) as [e|] eqn:E; [|reflexivity].
        destruct (kinds_info s [u] e Hk (gp1 u Hu) ltac:(cbn; lia) E) as [i ->]. reflexivity.
      * rewrite !view2, !Hst by auto with gp. pdec. reflexivity.
    + destruct (string_dec u' u) as [->|Hn].
      * destruct (string_dec c' c) as [->|Hcn].
        -- assert (g' <> g) by congruence.
           rewrite !view3, V2, smem_listing_neq by auto. rewrite Hst by auto. pdec.
           rewrite linked_view2 by auto. unfold copt, info_or.
           destruct (stored s [u; c]) as [e|] eqn:E; [|reflexivity].
           destruct (kinds_info s [u; c] e Hk (gp2 u c Hu Hc) ltac:(cbn; lia) E) as [i ->]. reflexivity.
        -- rewrite !view3, !view2, H1, smem_listing_neq by auto. rewrite !Hst by auto with gp. pdec.
           unfold uopt, info_or. destruct (stored s [u]) as [e|] eqn:E; [|reflexivity].
           destruct (kinds_info s [u] e Hk (gp1 u Hu) ltac:(cbn; lia) E) as [i ->]. reflexivity.
      * rewrite !view3, !view2, !Hst by auto with gp. pdec. reflexivity.
Qed.

Lemma store2_view s u c v : kinds_ok s -> linked s -> good u -> good c ->
  let s' := snd (db_store [u; c] (EInfo v) s) in
  view s' [u; c] = Some (EInfo v) /\
  view s' [u] = Some (EInfo (listing c (info_or (UserSessionInfo None) (view s [u])))) /\
  (forall g, good g -> view s' [u; c; g] = if smem g (si_sub v) then stored s [u; c; g] else None) /\
  (forall q, good_path q -> ~ is_prefix [u; c] q -> q <> [u] -> view s' q = view s q).
Proof.
  intros Hk Hl Hu Hc s'.
  pose proof (fun q Hq => stored_store2 s u c v q Hk Hu Hc Hq) as Hst. fold s' in Hst.
  assert (H1 : stored s' [u] = Some (EInfo (listing c (uopt s u)))) by (rewrite Hst by auto with gp; pdec; auto).
  assert (H2 : stored s' [u; c] = Some (EInfo v)) by (rewrite Hst by auto with gp; pdec; auto).
  assert (V2 : view s' [u; c] = Some (EInfo v)).
  { rewrite view2, H1, smem_listing. exact H2. }
  split; [|split; [|split]]; auto.
  - rewrite !view1, H1. reflexivity.
  - intros g Hg. rewrite view3, V2. rewrite Hst by auto with gp. pdec. reflexivity.
  - intros q Hq Np N1.
    destruct (good_path_cases q Hq) as [(u' & -> & Hu')|[(u' & c' & -> & Hu' & Hc')|(u' & c' & g' & -> & Hu' & Hc' & Hg')]].
    + rewrite !view1, Hst by auto. pdec. auto.
    + destruct (string_dec u' u) as [->|Hn].
      * assert (c' <> c) by (intros ->; apply Np; exists []; auto).
        rewrite !view2, H1, smem_listing_neq by auto. rewrite Hst by auto. pdec.
        unfold uopt, info_or. destruct (stored s [u]) as [e|] eqn:E; [|reflexivity].
        destruct (kinds_info s [u] e Hk (gp1 u Hu) ltac:(cbn; lia) E) as [i ->]. reflexivity.
      * rewrite !view2, !Hst by auto with gp. pdec. reflexivity.
    + destruct (string_dec u' u) as [->|Hn].
      * assert (c' <> c) by (intros ->; apply Np; exists [g']; auto).
        rewrite !view3, !view2, H1, smem_listing_neq by auto. rewrite !Hst by auto with gp. pdec.
        unfold uopt, info_or. destruct (stored s [u]) as [e|] eqn:E; [|reflexivity].
        destruct (kinds_info s [u] e Hk (gp1 u Hu) ltac:(cbn; lia) E) as [i ->]. reflexivity.
      * rewrite !view3, !view2, !Hst by auto with gp. pdec. reflexivity.
Qed.

Lemma store1_view s u v : kinds_ok s -> good u ->
  let s' := snd (db_store [u] (EInfo v) s) in
  view s' [u] = Some (EInfo v) /\
  (forall c, good c -> view s' [u; c] = if smem c (si_sub v) then stored s [u; c] else None) /\
  (forall q, good_path q -> ~ is_prefix [u] q -> view s' q = view s q).
Proof.
  intros Hk Hu s'.
  pose proof (fun q Hq => stored_store1 s u (EInfo v) q Hu Hq) as Hst. fold s' in Hst.
  assert (H1 : stored s' [u] = Some (EInfo v)) by (rewrite Hst by auto with gp; pdec; auto).
  split; [|split].
  - rewrite view1. auto.
  - intros c Hc. rewrite view2, H1, Hst by auto with gp. pdec. reflexivity.
  - intros q Hq Np. apply (view_other_user s s' u); auto.
    + destruct q as [|a q]; [destruct Hq as [_ Hq]; cbn in Hq; lia|]. cbn. intros ->. apply Np. exists q. reflexivity.
    + intros p Hp Hh. rewrite Hst by auto. destruct (path_dec p [u]) as [->|]; [cbn in Hh; congruence|auto].
Qed.

(** ** db_delete *)
Lemma db_del_ok k s : dget k s <> None -> db_del k s = (Ok tt, ddel k s).
Proof. unfold db_del, dmem. destruct (dget k s); congruence. Qed.

Lemma set_sub_with l i : set_subordinate l (EInfo i) = EInfo (with_sub l i).
Proof. reflexivity. Qed.

(** Explicit final store of [db_delete [u; c; g]] in the regular case, as contents *)
Definition del3_client (sharing : bool) (ci : sinfo) (g : string) : option entry :=
  let l := sremove g (si_sub ci) in
  if is_nil l then None else Some (EInfo (if sharing then with_sub l ci else ci)).

Lemma sremove_notin x l : smem x l = false -> sremove x l = l.
Proof.
  induction l as [|y l IH]; cbn; auto. intros H. apply orb_false_iff in H as [H1 H2].
  rewrite H1. f_equal; auto.
Qed.

Lemma with_sub_id i : with_sub (si_sub i) i = i.
Proof. destruct i; reflexivity. Qed.

Lemma delete_tail s (ui' : sinfo) u : good u ->
  dget u s <> None ->
  (usub <-- lift (subordinate (EInfo ui')) ;;
   if is_nil usub then db_del u else db_set u (EInfo ui')) s =
  (Ok tt, if is_nil (si_sub ui') then ddel u s else dset u (EInfo ui') s).
Proof.
  intros Hu H. cbn. unfold bind, lift. destruct (is_nil (si_sub ui')); [|reflexivity].
  apply db_del_ok; auto.
Qed.

Lemma stored_poke sh p v s q : good_path p -> good_path q -> stored s p <> None ->
  stored (snd (poke sh (session_key p) v s)) q =
  if path_dec q p then (if sh then Some v else stored s p) else stored s q.
Proof.
  intros Hp Hq Hs. unfold poke, modify. cbn [snd].
  assert (Hm : dmem (session_key p) s = true).
  { unfold dmem. unfold stored in Hs. destruct (dget (session_key p) s); congruence. }
  rewrite Hm, andb_true_r. destruct sh.
  - apply stored_dset; auto.
  - destruct (path_dec q p) as [->|]; auto.
Qed.

Lemma delete3_noop sh s u c g : good u -> good c -> good g -> kinds_ok s ->
  view s [u; c] = None ->
  exists s', db_delete sh [u; c; g] s = (Ok tt, s') /\ forall q, good_path q -> stored s' q = stored s q.
Proof.
  intros Hu Hc Hg Hk Hv. rewrite view2 in Hv.
  unfold db_delete. unfold bind at 1, lift at 1. cbn [eval_path tr str_or_empty].
  rewrite (good_tr c Hc), (good_tr g Hg).
  unfold bind at 1, db_get at 1, gets at 1. change (dget u s) with (stored s [u]).
  destruct (stored s [u]) as [e|] eqn:Eu; [|exists s; split; auto].
  destruct (kinds_info s [u] e Hk (gp1 u Hu) ltac:(cbn; lia) Eu) as [ui ->].
  cbn [subordinate]. unfold bind at 1, lift at 1.
  destruct (smem c (si_sub ui)) eqn:Em; [|exists s; split; auto].
  unfold bind at 1, db_get at 1, gets at 1. change (dget (session_key [u; c]) s) with (stored s [u; c]).
  rewrite Hv. unfold bind at 1, ret at 1. cbn [subordinate]. unfold bind at 1, lift at 1.
  destruct (is_nil (si_sub ui)) eqn:En; [destruct (si_sub ui); discriminate|].
  exists (dset u (EInfo ui) s). split; [reflexivity|]. intros q Hq.
  rewrite (stored_dset1 u q) by auto. destruct (path_dec q [u]) as [->|]; auto.
Qed.

Lemma delete3_spec sh s u c g ui ci : good u -> good c -> good g -> kinds_ok s ->
  stored s [u] = Some (EInfo ui) -> smem c (si_sub ui) = true -> stored s [u; c] = Some (EInfo ci) ->
  exists s', db_delete sh [u; c; g] s = (Ok tt, s') /\ forall q, good_path q -> stored s' q =
    (let l := sremove g (si_sub ci) in
     let ul := sremove c (si_sub ui) in
     if path_dec q [u] then
       (if is_nil l then (if is_nil ul then None else Some (EInfo (with_sub ul ui))) else Some (EInfo ui))
     else if path_dec q [u; c] then del3_client sh ci g
     else if path_dec q [u; c; g] then (if smem g (si_sub ci) then None else stored s q)
     else if path_dec q [c] then (if is_nil l then stored s q else Some (EInfo (with_sub l ci)))
     else stored s q).
Proof.
  intros Hu Hc Hg Hk Eu Em Ec.
  unfold db_delete. unfold bind at 1, lift at 1. cbn [eval_path tr str_or_empty].
  rewrite (good_tr c Hc), (good_tr g Hg).
  unfold bind at 1, db_get at 1, gets at 1. change (dget u s) with (stored s [u]). rewrite Eu.
  cbn [subordinate]. unfold bind at 1, lift at 1. rewrite Em.
  unfold bind at 1, db_get at 1, gets at 1. change (dget (session_key [u; c]) s) with (stored s [u; c]).
  rewrite Ec. cbn [subordinate]. unfold bind at 1, bind at 1, lift at 1, bind at 1.
  (* the grant *)
  set (l := sremove g (si_sub ci)). set (ul := sremove c (si_sub ui)). cbv zeta.
  assert (Hcl : exists s1,
    (if smem g (si_sub ci)
      then bind (catch (db_del (session_key [u; c; g])) is_key_error (ret tt))
             (fun _ => bind (poke sh (session_key [u; c]) (set_subordinate l (EInfo ci))) (fun _ => ret l))
      else ret (si_sub ci)) s = (Ok l, s1) /\
    (forall q, good_path q -> stored s1 q =
       if path_dec q [u; c] then Some (EInfo (if sh then with_sub l ci else ci))
       else if path_dec q [u; c; g] then (if smem g (si_sub ci) then None else stored s q)
       else stored s q)).
  { destruct (smem g (si_sub ci)) eqn:Eg.
    - set (s0 := ddel (session_key [u; c; g]) s).
      assert (Hcatch : exists s0', catch (db_del (session_key [u; c; g])) is_key_error (ret tt) s = (Ok tt, s0') /\
                forall q, good_path q -> stored s0' q = if path_dec q [u; c; g] then None else stored s q).
      { unfold catch, db_del, dmem. destruct (dget (session_key [u; c; g]) s) eqn:Ed.
        - exists s0. split; [reflexivity|]. intros q Hq. apply stored_ddel; auto with gp.
        - exists s. split; [reflexivity|]. intros q Hq. destruct (path_dec q [u; c; g]) as [->|]; auto. }
      destruct Hcatch as (s0' & Ecatch & Hs0). unfold bind at 1. rewrite Ecatch.
      exists (snd (poke sh (session_key [u; c]) (set_subordinate l (EInfo ci)) s0')). split; [reflexivity|].
      intros q Hq. rewrite stored_poke; auto with gp.
      + rewrite !Hs0 by auto with gp. rewrite (path_dec_neq [u; c] [u; c; g]) by discriminate.
        destruct (path_dec q [u; c]); [|auto]. rewrite Ec. destruct sh; reflexivity.
      + rewrite Hs0 by auto with gp. pdec. rewrite Ec. discriminate.
    - exists s. assert (El : l = si_sub ci) by (apply sremove_notin; auto). rewrite El, with_sub_id.
      split; [reflexivity|]. intros q Hq. destruct (path_dec q [u; c]) as [->|].
      + destruct sh; auto.
      + destruct (path_dec q [u; c; g]); auto. }
  destruct Hcl as (s1 & Hrun & Hs1). rewrite Hrun. clear Hrun.
  assert (Hs1u : stored s1 [u] = Some (EInfo ui)) by (rewrite Hs1 by auto with gp; pdec; auto).
  assert (Hs1c : stored s1 [u; c] <> None) by (rewrite Hs1 by auto with gp; pdec; discriminate).
  unfold del3_client. fold l.
  destruct (is_nil l) eqn:En.
  - (* last grant: the client session goes *)
    unfold bind at 1. rewrite db_del_ok by exact Hs1c.
    unfold bind at 1. set (s2 := ddel (session_key [u; c]) s1).
    assert (Hs2 : forall q, good_path q -> stored s2 q = if path_dec q [u; c] then None else stored s1 q)
      by (intros; apply stored_ddel; auto with gp).
    destruct (poke sh u (set_subordinate ul (EInfo ui)) s2) as [r s3] eqn:Ep.
    assert (Er : r = Ok tt) by (unfold poke, modify in Ep; inv Ep; auto). subst r. unfold ret at 1.
    assert (Hs3 : forall q, good_path q -> stored s3 q =
        if path_dec q [u] then (if sh then Some (EInfo (with_sub ul ui)) else Some (EInfo ui)) else stored s2 q).
    { intros q Hq. pose proof (stored_poke sh [u] (set_subordinate ul (EInfo ui)) s2 q (gp1 u Hu) Hq) as H.
      change (session_key [u]) with u in H. rewrite Ep in H. cbn [snd] in H. rewrite H.
      - destruct (path_dec q [u]); [|auto]. rewrite Hs2 by auto with gp. pdec. rewrite Hs1u. destruct sh; auto.
      - rewrite Hs2 by auto with gp. pdec. rewrite Hs1u. discriminate. }
    rewrite (set_sub_with ul ui).
    rewrite delete_tail; auto.
    2:{ change (stored s3 [u] <> None). rewrite Hs3 by auto with gp. pdec. destruct sh; discriminate. }
    eexists. split; [reflexivity|]. intros q Hq. cbn [si_sub with_sub].
    destruct (is_nil ul).
    + rewrite (stored_ddel1 u q) by auto. destruct (path_dec q [u]) as [->|]; [auto|].
      rewrite Hs3, path_dec_neq, Hs2, Hs1 by auto.
      destruct (path_dec q [u; c]); [auto|]. destruct (path_dec q [u; c; g]) as [->|]; [auto|].
      destruct (path_dec q [c]); auto.
    + rewrite (stored_dset1 u q) by auto. destruct (path_dec q [u]) as [->|]; [auto|].
      rewrite Hs3, path_dec_neq, Hs2, Hs1 by auto.
      destruct (path_dec q [u; c]); [auto|]. destruct (path_dec q [u; c; g]) as [->|]; [auto|].
      destruct (path_dec q [c]); auto.
  - (* other grants remain: line 132 *)
    unfold bind at 1, db_set at 1, modify at 1, ret at 1.
    set (s2 := dset c (set_subordinate l (EInfo ci)) s1).
    assert (Hs2 : forall q, good_path q -> stored s2 q = if path_dec q [c] then Some (EInfo (with_sub l ci)) else stored s1 q).
    { intros q Hq. exact (stored_dset [c] q _ s1 (gp1 c Hc) Hq). }
    rewrite delete_tail; auto.
    2:{ change (stored s2 [u] <> None). rewrite Hs2 by auto with gp. destruct (path_dec [u] [c]); [discriminate|].
        rewrite Hs1u. discriminate. }
    destruct (is_nil (si_sub ui)) eqn:Eui; [destruct (si_sub ui); discriminate|].
    eexists. split; [reflexivity|]. intros q Hq.
    rewrite (stored_dset1 u q) by auto. destruct (path_dec q [u]) as [->|]; [auto|].
    rewrite Hs2 by auto. destruct (path_dec q [c]) as [->|]; [pdec; auto|].
    rewrite Hs1 by auto. reflexivity.
Qed.

Lemma smem_sremove_neq x y l : x <> y -> smem x (sremove y l) = smem x l.
Proof.
  intros Hn. destruct (smem x l) eqn:E.
  - apply smem_In. apply In_sremove_neq; auto. apply smem_In; auto.
  - apply smem_false. intros H. apply In_sremove in H. apply smem_In in H. congruence.
Qed.

Lemma is_nil_smem (l : list string) x : is_nil l = true -> smem x l = false.
Proof. destruct l; [reflexivity|discriminate]. Qed.

Lemma view_user_case s u c : view s [u; c] <> None -> exists ui, stored s [u] = Some (EInfo ui) /\
   smem c (si_sub ui) = true /\ stored s [u; c] = view s [u; c].
Proof.
  rewrite view2. destruct (stored s [u]) as [[ui|]|]; try congruence.
  destruct (smem c (si_sub ui)) eqn:E; [|congruence]. eauto.
Qed.

Lemma view_stored_ext s s' : (forall q, good_path q -> stored s' q = stored s q) ->
  forall q, good_path q -> view s' q = view s q.
Proof. intros H q Hq. apply view_ext; auto. Qed.

Lemma kinds_stored_ext s s' : (forall q, good_path q -> stored s' q = stored s q) -> kinds_ok s -> kinds_ok s'.
Proof. intros H Hk q e Hq E. rewrite H in E by auto. apply Hk; auto. Qed.
Lemma linked_stored_ext s s' : (forall q, good_path q -> stored s' q = stored s q) -> linked s -> linked s'.
Proof. intros H Hl u c Hu Hc. rewrite !H by auto with gp. auto. Qed.

Lemma delete3_view sh s u c g : kinds_ok s -> linked s -> good u -> good c -> good g ->
  exists s', db_delete sh [u; c; g] s = (Ok tt, s') /\
  kinds_ok s' /\
  view s' [u; c; g] = None /\
  view s' [u; c] = match view s [u; c] with
                   | Some (EInfo ci) => del3_client sh ci g
                   | o => o
                   end /\
  view s' [u] = match view s [u; c], view s [u] with
                | Some (EInfo ci), Some (EInfo ui) =>
                    if is_nil (sremove g (si_sub ci)) then
                      let ul := sremove c (si_sub ui) in
                      if is_nil ul then None else Some (EInfo (with_sub ul ui))
                    else Some (EInfo ui)
                | _, o => o
                end /\
  (forall q, good_path q -> q <> [u; c; g] -> q <> [u; c] -> q <> [u] ->
     (hd "" q <> c \/ c = u) -> view s' q = view s q) /\
  (((forall x, good x -> stored s [c; x] = None) \/ c = u) -> linked s').
Proof.
  intros Hk Hl Hu Hc Hg.
  destruct (view s [u; c]) as [e|] eqn:Ev.
  2:{ destruct (delete3_noop sh s u c g Hu Hc Hg Hk Ev) as (s' & E & H). exists s'. split; [auto|].
      pose proof (view_stored_ext s s' H) as HV.
      split; [eapply kinds_stored_ext; eauto|]. split.
      { rewrite HV by auto with gp. rewrite view3, Ev. reflexivity. }
      split; [rewrite HV by auto with gp; auto|]. split; [apply HV; auto with gp|].
      split; [auto|]. intros _. eapply linked_stored_ext; eauto. }
  destruct (view_user_case s u c) as (ui & Eu & Em & Es); [congruence|].
  rewrite Ev in Es. destruct (kinds_info s [u; c] e Hk (gp2 u c Hu Hc) ltac:(cbn; lia) Es) as [ci ->].
  destruct (delete3_spec sh s u c g ui ci Hu Hc Hg Hk Eu Em Es) as (s' & E & H).
  exists s'. split; [auto|]. cbv zeta in H.
  set (l := sremove g (si_sub ci)) in *. set (ul := sremove c (si_sub ui)) in *.
  assert (H1 := H [u] (gp1 u Hu)). assert (H2 := H [u; c] (gp2 u c Hu Hc)).
  assert (H3 := H [u; c; g] (gp3 u c g Hu Hc Hg)).
  rewrite path_dec_refl in H1.
  rewrite path_dec_neq, path_dec_refl in H2 by discriminate.
  rewrite path_dec_neq, path_dec_neq, path_dec_refl in H3 by discriminate.
  assert (Hcin : smem c (si_sub ui) = true) by exact Em.
  (* the user entry lists c whenever the client session is kept *)
  assert (V2 : view s' [u; c] = del3_client sh ci g).
  { rewrite view2, H1, H2. unfold del3_client. fold l. destruct (is_nil l).
    - destruct (is_nil ul); auto. destruct (smem c (si_sub (with_sub ul ui))); auto.
    - rewrite Em. reflexivity. }
  split; [|split; [|split; [exact V2|split; [|split]]]].
  - intros q e Hq. rewrite H by auto. unfold del3_client. fold l.
    destruct (path_dec q [u]) as [->|]; [destruct (is_nil l), (is_nil ul); intros X; inv X; cbn; lia|].
    destruct (path_dec q [u; c]) as [->|]; [destruct (is_nil l); intros X; inv X; cbn; lia|].
    destruct (path_dec q [u; c; g]) as [->|]; [destruct (smem g _); [discriminate|apply Hk; auto]|].
    destruct (path_dec q [c]) as [->|]; [destruct (is_nil l); [apply Hk; auto|intros X; inv X; cbn; lia]|].
    apply Hk; auto.
  - rewrite view3, V2. unfold del3_client. fold l. destruct (is_nil l) eqn:En; [reflexivity|].
    destruct (smem g (si_sub ci)) eqn:Eg.
    + rewrite H3. match goal with |- (if ?b then _ else _) = _ => destruct b end; reflexivity.
    + assert (El : l = si_sub ci) by (apply sremove_notin; auto).
      replace (smem g (si_sub (if sh then with_sub l ci else ci))) with false; [reflexivity|].
      destruct sh; cbn [si_sub with_sub]; congruence.
  - rewrite !view1, H1, Eu. reflexivity.
  - intros q Hq N3 N2 N1 Hh.
    assert (Hst : forall p, good_path p -> p <> [u] -> p <> [u; c] -> p <> [u; c; g] -> p <> [c] -> stored s' p = stored s p).
    { intros p Hp P1 P2 P3 P4. rewrite H, !path_dec_neq by auto. reflexivity. }
    destruct (string_dec (hd "" q) u) as [Eh|Nh].
    + (* same user, other client or grant *)
      destruct (good_path_cases q Hq) as [(u' & -> & Hu')|[(u' & c' & -> & Hu' & Hc')|(u' & c' & g' & -> & Hu' & Hc' & Hg')]];
        cbn in Eh; subst u'; [congruence| |].
      * assert (c' <> c) by congruence.
        assert (Hs : stored s' [u; c'] = stored s [u; c']) by (apply Hst; auto with gp; congruence).
        rewrite !view2, H1, Eu, Hs.
        destruct (is_nil l); [|reflexivity].
        assert (Hsm : smem c' ul = smem c' (si_sub ui)) by (apply smem_sremove_neq; auto).
        destruct (is_nil ul) eqn:Eul.
        -- rewrite (is_nil_smem _ c' Eul) in Hsm. rewrite <- Hsm. reflexivity.
        -- cbn [si_sub with_sub]. rewrite Hsm. reflexivity.
      * destruct (string_dec c' c) as [->|Hcn].
        -- assert (g' <> g) by congruence.
           assert (Hs : stored s' [u; c; g'] = stored s [u; c; g']) by (apply Hst; auto with gp; congruence).
           rewrite !view3, V2, Ev, Hs. unfold del3_client. fold l.
           assert (Hsm : smem g' l = smem g' (si_sub ci)) by (apply smem_sremove_neq; auto).
           destruct (is_nil l) eqn:En.
           ++ rewrite (is_nil_smem _ g' En) in Hsm. rewrite <- Hsm. reflexivity.
           ++ destruct sh; [cbn [si_sub with_sub]; rewrite Hsm|]; reflexivity.
        -- assert (Hs : stored s' [u; c'; g'] = stored s [u; c'; g']) by (apply Hst; auto with gp; congruence).
           assert (Hs2 : stored s' [u; c'] = stored s [u; c']) by (apply Hst; auto with gp; congruence).
           rewrite !view3, Hs. replace (view s' [u; c']) with (view s [u; c']); [reflexivity|].
           rewrite !view2, H1, Eu, Hs2.
           destruct (is_nil l); [|reflexivity].
           assert (Hsm : smem c' ul = smem c' (si_sub ui)) by (apply smem_sremove_neq; auto).
           destruct (is_nil ul) eqn:Eul.
           ++ rewrite (is_nil_smem _ c' Eul) in Hsm. rewrite <- Hsm. reflexivity.
           ++ cbn [si_sub with_sub]. rewrite Hsm. reflexivity.
    + destruct Hh as [Hh|Hh]; [|subst c].
      * apply view_ext; auto. intros p Hp (r & ->).
        assert (Hhp : hd "" p = hd "" (p ++ r)) by (destruct p; [destruct Hp as [_ Hp]; cbn in Hp; lia|reflexivity]).
        apply Hst; auto; intros ->; cbn in Nh, Hh; congruence.
      * apply view_ext; auto. intros p Hp (r & ->).
        assert (Hhp : hd "" p = hd "" (p ++ r)) by (destruct p; [destruct Hp as [_ Hp]; cbn in Hp; lia|reflexivity]).
        apply Hst; auto; intros ->; cbn in Nh; congruence.
  - intros Hsep u' c' Hu' Hc' Hne. rewrite H in Hne by auto with gp.
    rewrite (path_dec_neq [u'; c'] [u]), (path_dec_neq [u'; c'] [u; c; g]), (path_dec_neq [u'; c'] [c]) in Hne by discriminate.
    rewrite H by auto with gp. rewrite (path_dec_neq [u'] [u; c]), (path_dec_neq [u'] [u; c; g]) by discriminate.
    destruct (path_dec [u'; c'] [u; c]) as [E2|N2].
    + inv E2. unfold del3_client in Hne. fold l in Hne. rewrite path_dec_refl.
      destruct (is_nil l); [congruence|]. exists ui. split; [auto|]. apply smem_In; auto.
    + destruct (Hl u' c' Hu' Hc' Hne) as (ui' & E1 & E2).
      destruct (path_dec [u'] [u]) as [Eq|Nq].
      * inv Eq. assert (ui' = ui) by congruence. subst ui'. assert (c' <> c) by congruence.
        apply smem_In in E2.
        assert (Hsm : smem c' ul = smem c' (si_sub ui)) by (apply smem_sremove_neq; auto).
        destruct (is_nil l).
        -- destruct (is_nil ul) eqn:Eul; [rewrite (is_nil_smem _ c' Eul) in Hsm; congruence|].
           exists (with_sub ul ui). split; [auto|]. cbn. apply smem_In. congruence.
        -- exists ui. split; auto. apply smem_In; auto.
      * destruct (path_dec [u'] [c]) as [Eq|Nc]; [|eauto].
        inv Eq. destruct Hsep as [Hsep| ->]; [|congruence]. rewrite Hsep in Hne by auto. congruence.
Qed.

(** ** Deleting a client session *)
Definition under (u c : string) (l : list string) (q : list string) : bool :=
  existsb (fun g => if path_dec q [u; c; g] then true else false) l.

Lemma under_true u c l q : under u c l q = true <-> exists g, In g l /\ q = [u; c; g].
Proof.
  unfold under. rewrite existsb_exists. split; intros (g & H1 & H2); exists g; split; auto.
  - destruct (path_dec q [u; c; g]); [auto|discriminate].
  - subst. rewrite path_dec_refl. reflexivity.
Qed.

Lemma iter_del u c l : good u -> good c -> Forall good l -> NoDup l -> forall s,
  (forall g, In g l -> stored s [u; c; g] <> None) ->
  exists s', iterM (fun g => db_del (session_key [u; c; g])) l s = (Ok tt, s') /\
    forall q, good_path q -> stored s' q = if under u c l q then None else stored s q.
Proof.
  intros Hu Hc HF Hnd. induction Hnd as [|g l Hn Hnd IH]; intros s Hs.
  - exists s. split; [reflexivity|]. auto.
  - inv HF. cbn [iterM]. unfold bind. rewrite db_del_ok by (apply Hs; left; auto).
    destruct (IH H2 (ddel (session_key [u; c; g]) s)) as (s' & E & H).
    { intros g' Hg'. rewrite stored_ddel; auto with gp.
      - destruct (path_dec [u; c; g'] [u; c; g]) as [E|]; [inv E; contradiction|]. apply Hs. right; auto.
      - apply gp3; auto. rewrite Forall_forall in H2. auto. }
    exists s'. split; [exact E|]. intros q Hq. rewrite H, stored_ddel by auto with gp. cbn [under existsb].
    destruct (path_dec q [u; c; g]); cbn [orb]; [destruct (under u c l q); auto|]. reflexivity.
Qed.

Lemma delete2_spec sh s u c ui ci : good u -> good c -> kinds_ok s ->
  stored s [u] = Some (EInfo ui) -> smem c (si_sub ui) = true -> stored s [u; c] = Some (EInfo ci) ->
  NoDup (si_sub ci) -> Forall good (si_sub ci) ->
  (forall g, In g (si_sub ci) -> stored s [u; c; g] <> None) ->
  exists s', db_delete sh [u; c] s = (Ok tt, s') /\ forall q, good_path q -> stored s' q =
    (let ul := sremove c (si_sub ui) in
     if path_dec q [u] then (if is_nil ul then None else Some (EInfo (with_sub ul ui)))
     else if path_dec q [u; c] then None
     else if under u c (si_sub ci) q then None
     else stored s q).
Proof.
  intros Hu Hc Hk Eu Em Ec Hnd HF Hall.
  unfold db_delete. unfold bind at 1, lift at 1. cbn [eval_path tr str_or_empty].
  rewrite (good_tr c Hc).
  unfold bind at 1, db_get at 1, gets at 1. change (dget u s) with (stored s [u]). rewrite Eu.
  cbn [subordinate]. unfold bind at 1, lift at 1. rewrite Em.
  unfold bind at 1, db_get at 1, gets at 1. change (dget (session_key [u; c]) s) with (stored s [u; c]).
  rewrite Ec. cbn [subordinate]. unfold bind at 1, bind at 1, lift at 1, bind at 1.
  set (ul := sremove c (si_sub ui)). cbv zeta.
  destruct (iter_del u c (si_sub ci) Hu Hc HF Hnd s Hall) as (s0 & E0 & H0).
  unfold bind at 1. rewrite E0. unfold bind at 1.
  assert (Hs0c : stored s0 [u; c] = Some (EInfo ci)).
  { rewrite H0 by auto with gp. destruct (under u c (si_sub ci) [u; c]) eqn:E; [|auto].
    apply under_true in E as (g & _ & E). discriminate. }
  assert (Hs0u : stored s0 [u] = Some (EInfo ui)).
  { rewrite H0 by auto with gp. destruct (under u c (si_sub ci) [u]) eqn:E; [|auto].
    apply under_true in E as (g & _ & E). discriminate. }
  destruct (poke sh (session_key [u; c]) (set_subordinate [] (EInfo ci)) s0) as [r s1] eqn:Ep.
  assert (Er : r = Ok tt) by (unfold poke, modify in Ep; inv Ep; auto). subst r. unfold ret at 1.
  assert (H1 : forall q, good_path q -> q <> [u; c] -> stored s1 q = stored s0 q).
  { intros q Hq Hn. pose proof (stored_poke sh [u; c] (set_subordinate [] (EInfo ci)) s0 q (gp2 u c Hu Hc) Hq) as H.
    rewrite Ep in H. cbn [snd] in H. rewrite H by congruence. apply path_dec_neq; auto. }
  assert (H1c : stored s1 [u; c] <> None).
  { pose proof (stored_poke sh [u; c] (set_subordinate [] (EInfo ci)) s0 [u; c] (gp2 u c Hu Hc) (gp2 u c Hu Hc)) as H.
    rewrite Ep in H. cbn [snd] in H. rewrite H by congruence. rewrite path_dec_refl. destruct sh; [discriminate|congruence]. }
  cbn [is_nil]. unfold bind at 1. rewrite db_del_ok by exact H1c.
  unfold bind at 1. set (s2 := ddel (session_key [u; c]) s1).
  assert (Hs2 : forall q, good_path q -> stored s2 q = if path_dec q [u; c] then None else stored s0 q).
  { intros q Hq. unfold s2. rewrite stored_ddel by auto with gp. destruct (path_dec q [u; c]); auto. }
  destruct (poke sh u (set_subordinate ul (EInfo ui)) s2) as [r s3] eqn:Ep3.
  assert (Er : r = Ok tt) by (unfold poke, modify in Ep3; inv Ep3; auto). subst r. unfold ret at 1.
  assert (Hs3 : forall q, good_path q -> q <> [u] -> stored s3 q = stored s2 q).
  { intros q Hq Hn. pose proof (stored_poke sh [u] (set_subordinate ul (EInfo ui)) s2 q (gp1 u Hu) Hq) as H.
    change (session_key [u]) with u in H. rewrite Ep3 in H. cbn [snd] in H. rewrite H.
    - apply path_dec_neq; auto.
    - rewrite Hs2 by auto with gp. pdec. congruence. }
  assert (Hs3u : stored s3 [u] <> None).
  { pose proof (stored_poke sh [u] (set_subordinate ul (EInfo ui)) s2 [u] (gp1 u Hu) (gp1 u Hu)) as H.
    change (session_key [u]) with u in H. rewrite Ep3 in H. cbn [snd] in H.
    assert (stored s2 [u] <> None) by (rewrite Hs2 by auto with gp; pdec; congruence).
    rewrite H by auto. rewrite path_dec_refl. destruct sh; [discriminate|auto]. }
  rewrite (set_sub_with ul ui).
  rewrite delete_tail; auto.
  eexists. split; [reflexivity|]. intros q Hq. cbn [si_sub with_sub].
  destruct (is_nil ul).
  - rewrite (stored_ddel1 u q) by auto. destruct (path_dec q [u]) as [->|]; [auto|].
    rewrite Hs3, Hs2 by auto. destruct (path_dec q [u; c]); auto.
  - rewrite (stored_dset1 u q) by auto. destruct (path_dec q [u]) as [->|]; [auto|].
    rewrite Hs3, Hs2 by auto. destruct (path_dec q [u; c]); auto.
Qed.

Lemma delete2_noop sh s u c : good u -> good c -> kinds_ok s -> view s [u; c] = None ->
  exists s', db_delete sh [u; c] s = (Ok tt, s') /\ forall q, good_path q -> stored s' q = stored s q.
Proof.
  intros Hu Hc Hk Hv. rewrite view2 in Hv.
  unfold db_delete. unfold bind at 1, lift at 1. cbn [eval_path tr str_or_empty].
  rewrite (good_tr c Hc).
  unfold bind at 1, db_get at 1, gets at 1. change (dget u s) with (stored s [u]).
  destruct (stored s [u]) as [e|] eqn:Eu; [|exists s; split; auto].
  destruct (kinds_info s [u] e Hk (gp1 u Hu) ltac:(cbn; lia) Eu) as [ui ->].
  cbn [subordinate]. unfold bind at 1, lift at 1.
  destruct (smem c (si_sub ui)) eqn:Em; [|exists s; split; auto].
  unfold bind at 1, db_get at 1, gets at 1. change (dget (session_key [u; c]) s) with (stored s [u; c]).
  rewrite Hv. unfold bind at 1, ret at 1. cbn [subordinate]. unfold bind at 1, lift at 1.
  destruct (is_nil (si_sub ui)) eqn:En; [destruct (si_sub ui); discriminate|].
  exists (dset u (EInfo ui) s). split; [reflexivity|]. intros q Hq.
  rewrite (stored_dset1 u q) by auto. destruct (path_dec q [u]) as [->|]; auto.
Qed.

(** everything listed by the client session is really there *)
Definition complete (s : store) (u c : string) : Prop :=
  forall ci, view s [u; c] = Some (EInfo ci) ->
    NoDup (si_sub ci) /\ Forall good (si_sub ci) /\
    forall g, In g (si_sub ci) -> stored s [u; c; g] <> None.

Lemma delete2_view sh s u c : kinds_ok s -> linked s -> good u -> good c -> complete s u c ->
  exists s', db_delete sh [u; c] s = (Ok tt, s') /\
  kinds_ok s' /\ linked s' /\
  (forall q, good_path q -> is_prefix [u; c] q -> view s' q = None) /\
  view s' [u] = match view s [u; c], view s [u] with
                | Some _, Some (EInfo ui) =>
                    let ul := sremove c (si_sub ui) in
                    if is_nil ul then None else Some (EInfo (with_sub ul ui))
                | _, o => o
                end /\
  (forall q, good_path q -> ~ is_prefix [u; c] q -> q <> [u] -> view s' q = view s q).
Proof.
  intros Hk Hl Hu Hc Hco.
  assert (Hnone : forall s', view s' [u; c] = None -> forall q, good_path q -> is_prefix [u; c] q -> view s' q = None).
  { intros s' E q Hq (r & ->). destruct r as [|g [|x r]]; cbn [app] in *; auto.
    - rewrite view3, E. reflexivity.
    - destruct Hq as [_ Hq]. cbn in Hq. lia. }
  destruct (view s [u; c]) as [e|] eqn:Ev.
  2:{ destruct (delete2_noop sh s u c Hu Hc Hk Ev) as (s' & E & H). exists s'. split; [auto|].
      pose proof (view_stored_ext s s' H) as HV.
      split; [eapply kinds_stored_ext; eauto|]. split; [eapply linked_stored_ext; eauto|].
      split; [apply Hnone; rewrite HV by auto with gp; auto|]. split; [apply HV; auto with gp|]. auto. }
  destruct (view_user_case s u c) as (ui & Eu & Em & Es); [congruence|].
  rewrite Ev in Es. destruct (kinds_info s [u; c] e Hk (gp2 u c Hu Hc) ltac:(cbn; lia) Es) as [ci ->].
  destruct (Hco ci Ev) as (Hnd & HF & Hall).
  destruct (delete2_spec sh s u c ui ci Hu Hc Hk Eu Em Es Hnd HF Hall) as (s' & E & H).
  exists s'. split; [auto|]. cbv zeta in H. set (ul := sremove c (si_sub ui)) in *.
  assert (H1 := H [u] (gp1 u Hu)). assert (H2 := H [u; c] (gp2 u c Hu Hc)).
  rewrite path_dec_refl in H1. rewrite path_dec_neq, path_dec_refl in H2 by discriminate.
  assert (V2 : view s' [u; c] = None).
  { rewrite view2, H2. destruct (stored s' [u]) as [[i|g]|]; auto; destruct (smem c (si_sub i)); auto. }
  assert (Hst : forall p, good_path p -> p <> [u] -> ~ is_prefix [u; c] p -> stored s' p = stored s p).
  { intros p Hp P1 P2. rewrite H by auto. rewrite path_dec_neq by auto.
    rewrite path_dec_neq by (intros ->; apply P2; exists []; auto).
    destruct (under u c (si_sub ci) p) eqn:Eun; [|auto].
    apply under_true in Eun as (g & _ & ->). exfalso. apply P2. exists [g]. auto. }
  split; [|split; [|split; [|split]]].
  - intros q e Hq. rewrite H by auto.
    destruct (path_dec q [u]) as [->|]; [destruct (is_nil ul); intros X; inv X; cbn; lia|].
    destruct (path_dec q [u; c]) as [->|]; [discriminate|].
    destruct (under u c (si_sub ci) q); [discriminate|]. apply Hk; auto.
  - intros u' c' Hu' Hc' Hne. rewrite H in Hne by auto with gp.
    rewrite (path_dec_neq [u'; c'] [u]) in Hne by discriminate.
    destruct (path_dec [u'; c'] [u; c]) as [|N2]; [congruence|].
    destruct (under u c (si_sub ci) [u'; c']); [congruence|].
    destruct (Hl u' c' Hu' Hc' Hne) as (ui' & E1 & E2).
    rewrite H by auto with gp. rewrite (path_dec_neq [u'] [u; c]) by discriminate.
    destruct (path_dec [u'] [u]) as [Eq|Nq].
    + inv Eq. assert (ui' = ui) by congruence. subst ui'. assert (c' <> c) by congruence.
      apply smem_In in E2. assert (Hsm : smem c' ul = smem c' (si_sub ui)) by (apply smem_sremove_neq; auto).
      destruct (is_nil ul) eqn:Eul; [rewrite (is_nil_smem _ c' Eul) in Hsm; congruence|].
      exists (with_sub ul ui). split; [auto|]. cbn. apply smem_In. congruence.
    + destruct (under u c (si_sub ci) [u']) eqn:Eun; [apply under_true in Eun as (? & _ & ?); discriminate|]. eauto.
  - apply Hnone; auto.
  - rewrite !view1, H1, Eu. reflexivity.
  - intros q Hq Np N1.
    destruct (string_dec (hd "" q) u) as [Eh|Nh].
    + destruct (good_path_cases q Hq) as [(u' & -> & Hu')|[(u' & c' & -> & Hu' & Hc')|(u' & c' & g' & -> & Hu' & Hc' & Hg')]];
        cbn in Eh; subst u'; [congruence| |].
      * assert (c' <> c) by (intros ->; apply Np; exists []; auto).
        assert (Hs : stored s' [u; c'] = stored s [u; c']) by (apply Hst; auto with gp; congruence).
        rewrite !view2, H1, Eu, Hs.
        assert (Hsm : smem c' ul = smem c' (si_sub ui)) by (apply smem_sremove_neq; auto).
        destruct (is_nil ul) eqn:Eul.
        -- rewrite (is_nil_smem _ c' Eul) in Hsm. rewrite <- Hsm. reflexivity.
        -- cbn [si_sub with_sub]. rewrite Hsm. reflexivity.
      * assert (c' <> c) by (intros ->; apply Np; exists [g']; auto).
        assert (Hs : stored s' [u; c'; g'] = stored s [u; c'; g']) by (apply Hst; auto with gp; congruence).
        assert (Hs2 : stored s' [u; c'] = stored s [u; c']).
        { apply Hst; auto with gp; [congruence|]. intros (r & Er). inv Er. congruence. }
        rewrite !view3, Hs. replace (view s' [u; c']) with (view s [u; c']); [reflexivity|].
        rewrite !view2, H1, Eu, Hs2.
        assert (Hsm : smem c' ul = smem c' (si_sub ui)) by (apply smem_sremove_neq; auto).
        destruct (is_nil ul) eqn:Eul.
        -- rewrite (is_nil_smem _ c' Eul) in Hsm. rewrite <- Hsm. reflexivity.
        -- cbn [si_sub with_sub]. rewrite Hsm. reflexivity.
    + apply view_ext; auto. intros p Hp (r & ->).
      destruct p as [|a p]; [destruct Hp as [_ Hp]; cbn in Hp; lia|]. cbn in Nh.
      apply Hst; auto; [congruence|]. intros (r' & Er). inv Er. congruence.
Qed.

(** ** Deleting a user session *)
Lemma delete1_view sh s u : good u ->
  exists r s', db_delete sh [u] s = (r, s') /\ r = Ok tt /\
  (forall q, good_path q -> stored s' q = if path_dec q [u] then None else stored s q) /\
  (forall q, good_path q -> is_prefix [u] q -> view s' q = None) /\
  (forall q, good_path q -> ~ is_prefix [u] q -> view s' q = view s q).
Proof.
  intros Hu.
  assert (H : exists s', db_delete sh [u] s = (Ok tt, s') /\
     forall q, good_path q -> stored s' q = if path_dec q [u] then None else stored s q).
  { unfold db_delete, bind, lift, db_get, gets. cbn [eval_path tr].
    destruct (dget u s) as [e|] eqn:E.
    - rewrite db_del_ok by congruence. eexists. split; [reflexivity|]. intros. apply stored_ddel1; auto.
    - exists s. split; [reflexivity|]. intros q Hq. destruct (path_dec q [u]) as [->|]; auto. }
  destruct H as (s' & E & H). exists (Ok tt), s'. split; [auto|]. split; [auto|]. split; [auto|]. split.
  - intros q Hq (r & ->). assert (E1 : stored s' [u] = None) by (rewrite H by auto with gp; apply path_dec_refl).
    destruct r as [|c [|g [|x r]]]; cbn [app] in *.
    + rewrite view1; auto.
    + rewrite view2, E1. reflexivity.
    + rewrite view3, view2, E1. reflexivity.
    + destruct Hq as [_ Hq]. cbn in Hq. lia.
  - intros q Hq Hn. apply view_ext; auto. intros p Hp (r & ->). rewrite H by auto.
    apply path_dec_neq. intros ->. apply Hn. exists r. reflexivity.
Qed.

Lemma listing_idem x i : listing x (listing x i) = listing x i.
Proof. unfold listing at 1. rewrite smem_listing. reflexivity. Qed.

(** ** Histories of grant stores *)
Definition put (s : store) (x : string * string * string * grant) : store :=
  let '(u, c, g, v) := x in snd (db_store [u; c; g] (EGrant v) s).
Definition puts (h : list (string * string * string * grant)) : store := fold_left put h [].
(** the value last put at a grant path *)
Fixpoint last_put (h : list (string * string * string * grant)) (q : list string) (acc : option grant) : option grant :=
  match h with
  | [] => acc
  | (u, c, g, v) :: h' => last_put h' q (if path_dec q [u; c; g] then Some v else acc)
  end.
Definition put_ok (x : string * string * string * grant) : Prop :=
  let '(u, c, g, _) := x in good u /\ good c /\ good g.

Lemma kinds_empty : kinds_ok [].
Proof. intros q e _ H. discriminate. Qed.
Lemma linked_empty : linked [].
Proof. intros u c _ _ H. contradiction. Qed.

Lemma puts_from h : Forall put_ok h -> forall s, kinds_ok s -> linked s -> forall u c g, good u -> good c -> good g ->
  forall acc, view s [u; c; g] = option_map EGrant acc ->
  view (fold_left put h s) [u; c; g] = option_map EGrant (last_put h [u; c; g] acc).
Proof.
  intros HF. induction HF as [|[[[u' c'] g'] v] h Hx HF IH]; intros s Hk Hl u c g Hu Hc Hg acc E; [exact E|].
  destruct Hx as (Hu' & Hc' & Hg'). cbn [fold_left put last_put].
  destruct (store3_view s u' c' g' v Hk Hl Hu' Hc' Hg') as (V3 & _ & _ & Vo).
  apply IH; auto; [apply kinds_store3; auto|apply linked_store3; auto|].
  destruct (path_dec [u; c; g] [u'; c'; g']) as [Eq|Nq]; [rewrite Eq; exact V3|].
  rewrite Vo; auto with gp; discriminate.
Qed.

Lemma puts_refine h : Forall put_ok h -> forall u c g, good u -> good c -> good g ->
  view (puts h) [u; c; g] = option_map EGrant (last_put h [u; c; g] None).
Proof. intros. apply puts_from; auto; [exact kinds_empty|exact linked_empty]. Qed.

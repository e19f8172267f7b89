(** CrashProofs.v *)
From Verif Require Import Base BaseProofs Monad MonadProofs Types SessionKey Token Grant GrantSpec GrantProofs Database DatabaseSpec DatabaseProofs
  Manager ManagerSpec ManagerProofs Ctx Claims World Minting UserInfo TokenEndpoint WorldSpec WorldProofs Prog ProgProofs CrashSpec.

(** ** Stopping *)
Lemma stops_refl {A} (p : prog A) w : stops p w w.
Proof. now exists 0%nat. Qed.
Lemma stops_done {A} (r : result A) w w' : stops (Done r) w w' -> w' = w.
Proof. intros [[|n] <-]; reflexivity. Qed.
Lemma stops_step {A} (p : prog A) w w' : stops p w w' -> w' = w \/ exists p1 w1, pstep p w = Some (p1, w1) /\ stops p1 w1 w'.
Proof.
  intros [[|n] <-]; cbn [after]; [auto|]. destruct (pstep p w) as [[p1 w1]|]; [|auto]. right. exists p1, w1. split; [reflexivity|]. now exists n.
Qed.
Lemma stops_more {A} (p : prog A) w p1 w1 w' : pstep p w = Some (p1, w1) -> stops p1 w1 w' -> stops p w w'.
Proof. intros E [n <-]. exists (S n). cbn [after]. now rewrite E. Qed.
Lemma stops_put {A} k v (p : prog A) w w' : stops (Put k v p) w w' -> w' = w \/ stops p (mkW (dset k v (w_db w)) (w_cdb w)) w'.
Proof. intros H. apply stops_step in H. destruct H as [->|(p1 & w1 & E & H)]; [auto|]. injection E as <- <-. auto. Qed.
Lemma stops_del {A} k (f : bool -> prog A) w w' : stops (Del k f) w w' ->
  w' = w \/ stops (f (dmem k (w_db w))) (mkW (ddel k (w_db w)) (w_cdb w)) w'.
Proof. intros H. apply stops_step in H. destruct H as [->|(p1 & w1 & E & H)]; [auto|]. injection E as <- <-. auto. Qed.
Lemma stops_get {A} k (f : option entry -> prog A) w w' : stops (Get k f) w w' -> w' = w \/ stops (f (dget k (w_db w))) w w'.
Proof. intros H. apply stops_step in H. destruct H as [->|(p1 & w1 & E & H)]; [auto|]. injection E as <- <-. auto. Qed.
Lemma stops_act {A} B m (f : result B -> prog A) w w' : stops (Act B m f) w w' ->
  w' = w \/ stops (f (fst (m (w_db w) (w_cdb w)))) (mkW (w_db w) (snd (m (w_db w) (w_cdb w)))) w'.
Proof.
  intros H. apply stops_step in H. destruct H as [->|(p1 & w1 & E & H)]; [auto|]. cbn [pstep] in E.
  destruct (m (w_db w) (w_cdb w)) as [r c]. injection E as <- <-. auto.
Qed.
Lemma stops_end {A} (p : prog A) : forall w, stops p w (snd (exec p w)).
Proof.
  induction p as [r|k f IH|k v p IH|k f IH|B m f IH]; intros w; cbn [exec].
  - apply stops_refl.
  - eapply stops_more; [reflexivity|apply IH].
  - eapply stops_more; [reflexivity|apply IH].
  - eapply stops_more; [reflexivity|apply IH].
  - destruct (m (w_db w) (w_cdb w)) as [r c] eqn:E. eapply stops_more; [cbn [pstep]; rewrite E; reflexivity|apply IH].
Qed.
Lemma stops_bind {A B} (p : prog A) (k : A -> prog B) : forall w w', stops (pbind p k) w w' ->
  stops p w w' \/ exists a w1, exec p w = (Ok a, w1) /\ stops (k a) w1 w'.
Proof.
  induction p as [r|x f IH|x v p IH|x f IH|C m f IH]; intros w w' H; cbn [pbind exec] in *.
  - destruct r as [a|e]; [right; exists a, w; auto|left; apply stops_done in H; subst; apply stops_refl].
  - apply stops_get in H. destruct H as [->|H]; [left; apply stops_refl|].
    apply IH in H. destruct H as [H|H]; [left|right; exact H]. eapply stops_more; [reflexivity|exact H].
  - apply stops_put in H. destruct H as [->|H]; [left; apply stops_refl|].
    apply IH in H. destruct H as [H|H]; [left|right; exact H]. eapply stops_more; [reflexivity|exact H].
  - apply stops_del in H. destruct H as [->|H]; [left; apply stops_refl|].
    apply IH in H. destruct H as [H|H]; [left|right; exact H]. eapply stops_more; [reflexivity|exact H].
  - apply stops_act in H. destruct H as [->|H]; [left; apply stops_refl|]. destruct (m (w_db w) (w_cdb w)) as [r c] eqn:E. cbn [fst snd] in H.
    apply IH in H. destruct H as [H|H]; [left|right; exact H]. eapply stops_more; [cbn [pstep]; rewrite E; reflexivity|exact H].
Qed.
Lemma stops_catch {A} (p : prog A) c h : forall w w', stops (pcatch p c h) w w' ->
  stops p w w' \/ exists e w1, exec p w = (Raise e, w1) /\ stops h w1 w'.
Proof.
  induction p as [r|x f IH|x v p IH|x f IH|C m f IH]; intros w w' H; cbn [pcatch exec] in *.
  - destruct r as [a|e]; [left; exact H|]. destruct (c e); [right; exists e, w; auto|left; exact H].
  - apply stops_get in H. destruct H as [->|H]; [left; apply stops_refl|].
    apply IH in H. destruct H as [H|H]; [left|right; exact H]. eapply stops_more; [reflexivity|exact H].
  - apply stops_put in H. destruct H as [->|H]; [left; apply stops_refl|].
    apply IH in H. destruct H as [H|H]; [left|right; exact H]. eapply stops_more; [reflexivity|exact H].
  - apply stops_del in H. destruct H as [->|H]; [left; apply stops_refl|].
    apply IH in H. destruct H as [H|H]; [left|right; exact H]. eapply stops_more; [reflexivity|exact H].
  - apply stops_act in H. destruct H as [->|H]; [left; apply stops_refl|]. destruct (m (w_db w) (w_cdb w)) as [r c'] eqn:E. cbn [fst snd] in H.
    apply IH in H. destruct H as [H|H]; [left|right; exact H]. eapply stops_more; [cbn [pstep]; rewrite E; reflexivity|exact H].
Qed.
(** the other way: stopping inside the second part *)
Lemma stops_then {A B} (p : prog A) (k : A -> prog B) : forall w a w1 w', exec p w = (Ok a, w1) -> stops (k a) w1 w' -> stops (pbind p k) w w'.
Proof.
  induction p as [r|x f IH|x v p IH|x f IH|C m f IH]; intros w a w1 w' E H; cbn [pbind exec] in *.
  - injection E as -> ->. exact H.
  - eapply stops_more; [reflexivity|]. eapply IH; eauto.
  - eapply stops_more; [reflexivity|]. eapply IH; eauto.
  - eapply stops_more; [reflexivity|]. eapply IH; eauto.
  - destruct (m (w_db w) (w_cdb w)) as [r c] eqn:Em. eapply stops_more; [cbn [pstep]; rewrite Em; reflexivity|]. eapply IH; eauto.
Qed.
Lemma stops_first {A B} (p : prog A) (k : A -> prog B) : forall w w', stops p w w' -> stops (pbind p k) w w'.
Proof.
  induction p as [r|x f IH|x v p IH|x f IH|C m f IH]; intros w w' H; cbn [pbind] in *.
  - apply stops_done in H. subst. apply stops_refl.
  - apply stops_get in H. destruct H as [->|H]; [apply stops_refl|]. eapply stops_more; [reflexivity|]. auto.
  - apply stops_put in H. destruct H as [->|H]; [apply stops_refl|]. eapply stops_more; [reflexivity|]. auto.
  - apply stops_del in H. destruct H as [->|H]; [apply stops_refl|]. eapply stops_more; [reflexivity|]. auto.
  - apply stops_act in H. destruct H as [->|H]; [apply stops_refl|]. destruct (m (w_db w) (w_cdb w)) as [r c] eqn:E.
    eapply stops_more; [cbn [pstep]; rewrite E; reflexivity|]. auto.
Qed.

(** ** Relations kept at every point of a program *)
Section Along.
  Variable R : store -> store -> Prop.
  Hypothesis Rr : forall s, R s s.
  Hypothesis Rt : forall a b c, R a b -> R b c -> R a c.
  Definition along {A} (p : prog A) : Prop := forall w w', stops p w w' -> R (w_db w) (w_db w').
  Lemma along_done {A} (r : result A) : along (Done r).
  Proof. intros w w' H. apply stops_done in H. subst. apply Rr. Qed.
  Lemma along_bind {A B} (p : prog A) (k : A -> prog B) : along p -> (forall a, along (k a)) -> along (pbind p k).
  Proof.
    intros Hp Hk w w' H. apply stops_bind in H. destruct H as [H|(a & w1 & E & H)]; [auto|].
    eapply Rt; [|apply (Hk a), H]. apply Hp. assert (X := stops_end p w). now rewrite E in X.
  Qed.
  Lemma along_catch {A} (p : prog A) c h : along p -> along h -> along (pcatch p c h).
  Proof.
    intros Hp Hk w w' H. apply stops_catch in H. destruct H as [H|(e & w1 & E & H)]; [auto|].
    eapply Rt; [|apply Hk, H]. apply Hp. assert (X := stops_end p w). now rewrite E in X.
  Qed.
  Lemma along_iter {A} (f : A -> prog unit) l : (forall x, along (f x)) -> along (p_iter f l).
  Proof. intros H. induction l as [|x l IH]; cbn; [apply along_done|]. apply along_bind; auto. Qed.
  Lemma along_get k : along (p_get k).
  Proof. intros w w' H. apply stops_get in H. destruct H as [->|H]; [apply Rr|]. apply stops_done in H. subst. apply Rr. Qed.
  Lemma along_sub k : along (p_sub k).
  Proof. intros w w' H. apply stops_get in H. destruct H as [->|H]; [apply Rr|]. apply stops_done in H. subst. apply Rr. Qed.
  Lemma along_set k v : (forall s, R s (dset k v s)) -> along (p_set k v).
  Proof. intros X w w' H. apply stops_put in H. destruct H as [->|H]; [apply Rr|]. apply stops_done in H. subst. apply X. Qed.
  Lemma along_del k : (forall s, R s (ddel k s)) -> along (p_del k).
  Proof.
    intros X w w' H. apply stops_del in H. destruct H as [->|H]; [apply Rr|].
    destruct (dmem k (w_db w)); apply stops_done in H; subst; apply X.
  Qed.
  Lemma along_act {A} (m : store -> ST cdb A) : along (p_act m).
  Proof.
    intros w w' H. apply stops_act in H. destruct H as [->|H]; [apply Rr|]. apply stops_done in H. subst. apply Rr.
  Qed.
  Lemma along_read q : along (p_read q).
  Proof.
    unfold p_read. apply along_bind; [apply along_done|]. intros [[u c] g]. apply along_bind; [apply along_sub|]. intros e.
    destruct c as [c|]; [|apply along_done]. apply along_bind; [apply along_done|]. intros l. destruct (negb _); [apply along_done|].
    apply along_bind; [apply along_catch; [apply along_sub|apply along_done]|]. intros ci. destruct g as [g|]; [|apply along_done].
    apply along_bind; [apply along_done|]. intros l2. destruct (negb _); [apply along_done|].
    apply along_catch; [apply along_sub|apply along_done].
  Qed.
End Along.

(** reading leaves the store alone *)
Lemma read_same q w w' : stops (p_read q) w w' -> w_db w' = w_db w.
Proof.
  intros H. symmetry. revert w w' H. apply (along_read eq); [reflexivity|congruence].
Qed.

(** ** Programs with one write *)
Definition single {A} (p : prog A) : Prop := forall w w', stops p w w' -> w' = w \/ w' = snd (exec p w).
Lemma single_done {A} (r : result A) : single (Done r).
Proof. intros w w' H. left. now apply stops_done in H. Qed.
Lemma single_get {A} k (f : option entry -> prog A) : (forall o, single (f o)) -> single (Get k f).
Proof. intros X w w' H. apply stops_get in H. destruct H as [->|H]; [auto|]. exact (X _ _ _ H). Qed.
Lemma single_set {A} k v (r : result A) : single (Put k v (Done r)).
Proof. intros w w' H. apply stops_put in H. destruct H as [->|H]; [auto|]. apply stops_done in H. subst. auto. Qed.
Definition p_client_block (u c g : string) : prog unit :=
  (o <~ p_get (session_key [u; c]) ;;
   let cid_info := match o with Some e => e | None => EInfo (ClientSessionInfo None) end in
   sub <~ Done (subordinate cid_info) ;;
   if negb (smem g sub) then p_set (session_key [u; c]) (set_subordinate (sub ++ [g]) cid_info) else pret tt)%prog.
Definition p_user_block (u c : string) : prog unit :=
  (o <~ p_get u ;;
   let userinfo := match o with Some e => e | None => EInfo (UserSessionInfo None) end in
   pret tt ;~
   sub <~ Done (subordinate userinfo) ;;
   if negb (smem c sub) then p_set u (set_subordinate (sub ++ [c]) userinfo) else pret tt)%prog.
Lemma does_client_block u c g : does (p_client_block u c g) (client_block u c g).
Proof. unfold p_client_block, client_block. does_tac. Qed.
Lemma does_user_block u c : does (p_user_block u c) (user_block u c).
Proof. unfold p_user_block, user_block. does_tac. Qed.
Lemma single_client_block u c g : single (p_client_block u c g).
Proof.
  unfold p_client_block, p_get, pret. cbn [pbind]. apply single_get. intros o. cbv zeta.
  destruct (subordinate _) as [l|]; cbn [pbind]; [|apply single_done]. destruct (negb _); [apply single_set|apply single_done].
Qed.
Lemma single_user_block u c : single (p_user_block u c).
Proof.
  unfold p_user_block, p_get, pret. cbn [pbind]. apply single_get. intros o. cbv zeta.
  destruct (subordinate _) as [l|]; cbn [pbind]; [|apply single_done]. destruct (negb _); [apply single_set|apply single_done].
Qed.

Lemma p_store3_eq u c g v : good c -> good g ->
  p_store [u; c; g] v = Put (session_key [u; c; g]) v (pbind (p_client_block u c g) (fun _ => p_user_block u c)).
Proof.
  intros Hc Hg. unfold p_store. cbn [eval_path pbind tr str_or_empty]. rewrite (good_tr c Hc), (good_tr g Hg). reflexivity.
Qed.
Lemma p_store2_eq u c v : good c ->
  p_store [u; c] v = Get (session_key [u; c]) (fun _ => Put (session_key [u; c]) v (p_user_block u c)).
Proof.
  intros Hc. unfold p_store. cbn [eval_path pbind tr str_or_empty]. rewrite (good_tr c Hc). reflexivity.
Qed.

(** the states of setting a grant *)
Lemma stops_store3 w w' u c g v : kinds_ok (w_db w) -> good u -> good c -> good g ->
  stops (p_store [u; c; g] (EGrant v)) w w' ->
  let s1 := dset (session_key [u; c; g]) (EGrant v) (w_db w) in
  w_cdb w' = w_cdb w /\
  (w_db w' = w_db w \/ w_db w' = s1 \/ w_db w' = store_client s1 u c g \/ w_db w' = store_user (store_client s1 u c g) u c).
Proof.
  intros Hk Hu Hc Hg H s1. rewrite p_store3_eq in H by assumption. apply stops_put in H. destruct H as [->|H]; [auto|].
  fold s1 in H. assert (Hk1 : kinds_ok s1) by (apply kinds_dset; auto with gp).
  apply stops_bind in H. destruct H as [H|(x & w1 & E & H)].
  - apply single_client_block in H. destruct H as [-> | ->]; [auto|]. rewrite does_client_block. unfold in_db. cbn [w_db w_cdb].
    rewrite client_block_spec by assumption. cbn. auto.
  - rewrite does_client_block in E. unfold in_db in E. cbn [w_db w_cdb] in E. rewrite client_block_spec in E by assumption. injection E as <- <-.
    apply single_user_block in H. destruct H as [-> | ->]; [cbn; auto|]. rewrite does_user_block. unfold in_db. cbn [w_db w_cdb].
    rewrite user_block_spec by auto using kinds_store_client. cbn. auto.
Qed.
Lemma stops_store2 w w' u c v : kinds_ok (w_db w) -> good u -> good c ->
  stops (p_store [u; c] (EInfo v)) w w' ->
  let s1 := dset (session_key [u; c]) (EInfo v) (w_db w) in
  w_cdb w' = w_cdb w /\
  (w_db w' = w_db w \/ w_db w' = s1 \/ w_db w' = store_user s1 u c).
Proof.
  intros Hk Hu Hc H s1. rewrite p_store2_eq in H by assumption. apply stops_get in H. destruct H as [->|H]; [auto|].
  apply stops_put in H. destruct H as [->|H]; [auto|].
  fold s1 in H. assert (Hk1 : kinds_ok s1) by (apply kinds_dset; cbn; auto with gp).
  apply single_user_block in H. destruct H as [-> | ->]; [auto|]. rewrite does_user_block. unfold in_db. cbn [w_db w_cdb].
  rewrite user_block_spec by assumption. cbn. auto.
Qed.
Lemma exec_store3 w u c g v : kinds_ok (w_db w) -> good u -> good c -> good g ->
  exec (p_store [u; c; g] (EGrant v)) w =
  (Ok tt, mkW (store_user (store_client (dset (session_key [u; c; g]) (EGrant v) (w_db w)) u c g) u c) (w_cdb w)).
Proof. intros. rewrite does_store. unfold in_db. rewrite db_store3 by assumption. reflexivity. Qed.
Lemma exec_store2 w u c v : kinds_ok (w_db w) -> good u -> good c ->
  exec (p_store [u; c] v) w = (Ok tt, mkW (store_user (dset (session_key [u; c]) v (w_db w)) u c) (w_cdb w)).
Proof. intros. rewrite does_store. unfold in_db. rewrite db_store2 by assumption. reflexivity. Qed.

(** *** What readers see of them *)
(** a client record its user does not list is not seen, nor is anything below *)
Lemma hidden_client s s' u c : good u -> good c ->
  (forall q, good_path q -> ~ is_prefix [u; c] q -> stored s' q = stored s q) ->
  view s [u; c] = None -> view s' [u; c] = None -> same_views s s'.
Proof.
  intros Hu Hc E V V' q Hq. destruct (good_path_cases q Hq) as [(a & -> & Ha)|[(a & b & -> & Ha & Hb)|(a & b & d & -> & Ha & Hb & Hd)]].
  - rewrite !view1. apply E; auto with gp. intros [r X]. discriminate.
  - destruct (path_dec [a; b] [u; c]) as [X|N]; [injection X as -> ->; congruence|].
    apply view_ext; [auto with gp|]. intros p Hp P. apply E; [assumption|]. intros [r ->]. destruct P as [r' X]. injection X as -> -> _. now apply N.
  - destruct (path_dec [a; b] [u; c]) as [X|N]; [injection X as -> ->; rewrite !view3, V, V'; reflexivity|].
    apply view_ext; [auto with gp|]. intros p Hp P. apply E; [assumption|]. intros [r ->]. destruct P as [r' X]. injection X as -> -> _. now apply N.
Qed.
(** a grant its client record does not list is not seen *)
Lemma hidden_grant s s' u c g : good u -> good c -> good g ->
  (forall q, good_path q -> q <> [u; c; g] -> stored s' q = stored s q) ->
  view s [u; c; g] = None -> view s' [u; c; g] = None -> same_views s s'.
Proof.
  intros Hu Hc Hg E V V' q Hq. destruct (path_dec q [u; c; g]) as [->|N]; [congruence|].
  apply view_ext; [assumption|]. intros p Hp [r X]. apply E; [assumption|]. intros ->. apply N.
  destruct (good_path_cases q Hq) as [(a & -> & Ha)|[(a & b & -> & Ha & Hb)|(a & b & d & -> & Ha & Hb & Hd)]]; try discriminate.
  injection X as -> -> -> _. reflexivity.
Qed.
Lemma same_views_stored s s' : (forall q, good_path q -> stored s' q = stored s q) -> same_views s s'.
Proof. intros H q Hq. apply view_ext; auto. Qed.
Lemma same_views_refl s : same_views s s.
Proof. intros q Hq. reflexivity. Qed.
Lemma same_views_trans a b c : same_views a b -> same_views b c -> same_views a c.
Proof. intros H1 H2 q Hq. rewrite H2, H1; auto. Qed.
Lemma same_views_sym a b : same_views a b -> same_views b a.
Proof. intros H q Hq. symmetry. auto. Qed.

Lemma copt_lists s u c g : smem g (si_sub (copt s u c)) = true -> exists ci, stored s [u; c] = Some (EInfo ci) /\ smem g (si_sub ci) = true.
Proof. unfold copt, info_or. destruct (stored s [u; c]) as [[ci|]|]; try discriminate. eauto. Qed.
Lemma uopt_lists s u c : smem c (si_sub (uopt s u)) = true -> exists ui, stored s [u] = Some (EInfo ui) /\ smem c (si_sub ui) = true.
Proof. unfold uopt, info_or. destruct (stored s [u]) as [[ui|]|]; try discriminate. eauto. Qed.
Lemma unlisted_client s u c : smem c (si_sub (uopt s u)) = false -> view s [u; c] = None.
Proof. rewrite view2. unfold uopt, info_or. destruct (stored s [u]) as [[ui|]|]; auto. now intros ->. Qed.
Lemma unlisted_grant s u c g : smem g (si_sub (copt s u c)) = false -> view s [u; c; g] = None.
Proof.
  rewrite view3, view2. unfold copt, info_or. destruct (stored s [u]) as [[ui|]|]; auto. destruct (smem c _); auto.
  destruct (stored s [u; c]) as [[ci|]|]; auto. now intros ->.
Qed.

Lemma atomic_store3 w u c g v : kinds_ok (w_db w) -> good u -> good c -> good g -> all_or_nothing (p_store [u; c; g] (EGrant v)) w.
Proof.
  intros Hk Hu Hc Hg w' H. rewrite exec_store3 by assumption. cbn [snd w_db].
  set (s := w_db w) in *. set (s1 := dset (session_key [u; c; g]) (EGrant v) s).
  assert (Hk1 : kinds_ok s1) by (apply kinds_dset; auto with gp).
  assert (Hk2 := kinds_store_client s1 u c g Hk1 Hu Hc).
  assert (E1 : forall q, good_path q -> stored s1 q = if path_dec q [u; c; g] then Some (EGrant v) else stored s q).
  { intros q Hq. unfold s1. apply stored_dset; auto with gp. }
  assert (Uo : forall x, x = s1 \/ x = store_client s1 u c g -> uopt x u = uopt s u).
  { intros x [-> | ->]; unfold uopt; [|rewrite stored_store_client by auto with gp]; repeat destruct (path_dec _ _); try discriminate;
      rewrite ?E1 by auto with gp; destruct (path_dec _ _); try discriminate; reflexivity. }
  assert (Co : copt s1 u c = copt s u c).
  { unfold copt. rewrite E1 by auto with gp. destruct (path_dec _ _); [discriminate|reflexivity]. }
  destruct (stops_store3 w w' u c g v Hk Hu Hc Hg H) as [_ [-> | [-> | [-> | ->]]]]; fold s; fold s1; auto using same_views_refl.
  - (* the grant is written *)
    unfold store_client, store_user. destruct (smem g (si_sub (copt s1 u c))) eqn:Lg.
    + destruct (smem c (si_sub (uopt s1 u))) eqn:Lc; [auto using same_views_refl|]. left.
      rewrite Uo in Lc by auto. apply (hidden_client s s1 u c); auto.
      * intros q Hq N. rewrite E1 by assumption. destruct (path_dec q [u; c; g]) as [->|]; [|reflexivity]. destruct N. now exists [g].
      * now apply unlisted_client.
      * apply unlisted_client. now rewrite Uo by auto.
    + left. apply (hidden_grant s s1 u c g); auto.
      * intros q Hq N. rewrite E1 by assumption. destruct (path_dec q [u; c; g]); [contradiction|reflexivity].
      * apply unlisted_grant. now rewrite <- Co.
      * now apply unlisted_grant.
  - (* and listed by the client record *)
    unfold store_user. destruct (smem c (si_sub (uopt (store_client s1 u c g) u))) eqn:Lc; [auto using same_views_refl|]. left.
    apply (hidden_client s (store_client s1 u c g) u c); auto.
    + intros q Hq N. rewrite stored_store_client by assumption. destruct (path_dec q [u; c]) as [->|]; [destruct N; now exists []|].
      rewrite E1 by assumption. destruct (path_dec q [u; c; g]) as [->|]; [|reflexivity]. destruct N. now exists [g].
    + apply unlisted_client. now rewrite <- (Uo (store_client s1 u c g)) by auto.
    + now apply unlisted_client.
Qed.
Lemma atomic_store2 w u c v : kinds_ok (w_db w) -> good u -> good c -> all_or_nothing (p_store [u; c] (EInfo v)) w.
Proof.
  intros Hk Hu Hc w' H. rewrite exec_store2 by assumption. cbn [snd w_db].
  set (s := w_db w) in *. set (s1 := dset (session_key [u; c]) (EInfo v) s).
  assert (E1 : forall q, good_path q -> stored s1 q = if path_dec q [u; c] then Some (EInfo v) else stored s q).
  { intros q Hq. unfold s1. apply stored_dset; auto with gp. }
  assert (Uo : uopt s1 u = uopt s u).
  { unfold uopt. rewrite E1 by auto with gp. destruct (path_dec _ _); [discriminate|reflexivity]. }
  destruct (stops_store2 w w' u c v Hk Hu Hc H) as [_ [-> | [-> | ->]]]; fold s; fold s1; auto using same_views_refl.
  unfold store_user. destruct (smem c (si_sub (uopt s1 u))) eqn:Lc; [auto using same_views_refl|]. left.
  apply (hidden_client s s1 u c); auto.
  - intros q Hq N. rewrite E1 by assumption. destruct (path_dec q [u; c]) as [->|]; [|reflexivity]. destruct N. now exists [].
  - apply unlisted_client. now rewrite <- Uo.
  - now apply unlisted_client.
Qed.
Lemma atomic_store1 w u v : all_or_nothing (p_store [u] v) w.
Proof.
  intros w' H. assert (X : single (p_store [u] v)).
  { unfold p_store. cbn [eval_path pbind tr str_or_empty p_get]. unfold p_get, pret. cbn [pbind]. apply single_get. intros o. apply single_set. }
  apply X in H. destruct H as [-> | ->]; auto using same_views_refl.
Qed.

(** *** Reading first *)
Lemma atomic_read {B} q (k : entry -> prog B) w :
  (forall e, view (w_db w) q = Some e -> all_or_nothing (k e) w) -> all_or_nothing (pbind (p_read q) k) w.
Proof.
  intros X w' H. assert (Y := does_read q w). unfold in_db in Y. assert (Z := db_read_state q (w_db w)).
  unfold view in X. destruct (db_read q (w_db w)) as [r s]. cbn [snd fst] in *. subst s. rewrite eta in Y.
  rewrite exec_bind, Y. apply stops_bind in H. destruct H as [H|(a & w1 & E & H)].
  - left. assert (Q := read_same q w w' H). rewrite Q. apply same_views_refl.
  - rewrite Y in E. injection E as -> <-. destruct (X a eq_refl w' H) as [R|R]; auto.
Qed.
Lemma atomic_done {A} (r : result A) w : all_or_nothing (Done r) w.
Proof. intros w' H. apply stops_done in H. subst. left. apply same_views_refl. Qed.
Lemma atomic_then {A B} (p : prog A) (k : A -> result B) w : all_or_nothing p w -> all_or_nothing (pbind p (fun a => Done (k a))) w.
Proof.
  intros X w' H. rewrite exec_bind. apply stops_bind in H. destruct H as [H|(a & w1 & E & H)].
  - destruct (X w' H) as [R|R]; [auto|right]. destruct (exec p w) as [[a|e] w1]; exact R.
  - apply stops_done in H. subst w'. assert (Y := X w1). assert (Z := stops_end p w). rewrite E in *. exact (Y Z).
Qed.

(** *** Calls with one [set] *)
Lemma atomic_revoke_grant u c g w : kinds_ok (w_db w) -> good u -> good c -> good g -> all_or_nothing (p_revoke_grant (session_key [u; c; g])) w.
Proof.
  intros Hk Hu Hc Hg. unfold p_revoke_grant. rewrite unpack_good by auto with gp. apply atomic_read. intros e V.
  apply view_stored in V; [|auto with gp]. specialize (Hk [u; c; g] e ltac:(auto with gp) V) as K. destruct e as [i|gr]; [cbn in K; lia|].
  now apply atomic_store3.
Qed.
Lemma atomic_revoke_client u c g w : kinds_ok (w_db w) -> good u -> good c -> good g ->
  all_or_nothing (p_revoke_client_session (session_key [u; c; g])) w.
Proof.
  intros Hk Hu Hc Hg. unfold p_revoke_client_session. rewrite unpack_good by auto with gp. cbn [pbind pret]. apply atomic_read. intros e V.
  apply view_stored in V; [|auto with gp]. specialize (Hk [u; c] e ltac:(auto with gp) V) as K. destruct e as [i|gr]; [|discriminate K].
  now apply atomic_store2.
Qed.
Lemma atomic_revoke_token depth u c g v r w : kinds_ok (w_db w) -> good u -> good c -> good g ->
  all_or_nothing (p_revoke_token depth (session_key [u; c; g]) v r) w.
Proof.
  intros Hk Hu Hc Hg. unfold p_revoke_token. rewrite unpack3_good by auto. cbn [pbind]. apply atomic_read. intros e V.
  destruct e as [i|gr]; cbn [pbind]; [apply atomic_done|]. destruct (get_token v gr); [|apply atomic_done].
  destruct r; [|apply atomic_done]. rewrite unpack_good by auto with gp. apply atomic_read. intros e2 V2.
  destruct e2; cbn [pbind]; apply atomic_done.
Qed.
(** a first part that leaves the sessions alone *)
Definition still {A} (p : prog A) : Prop := along (fun s s' => s' = s) p.
Lemma still_bind {A B} (p : prog A) (k : A -> prog B) : still p -> (forall a, still (k a)) -> still (pbind p k).
Proof. apply along_bind. congruence. Qed.
Lemma still_catch {A} (p : prog A) c h : still p -> still h -> still (pcatch p c h).
Proof. apply along_catch. congruence. Qed.
Lemma still_done {A} (r : result A) : still (Done r).
Proof. apply along_done. reflexivity. Qed.
Lemma still_read q : still (p_read q).
Proof. apply along_read; [reflexivity|congruence]. Qed.
Lemma still_act {A} (m : store -> ST cdb A) : still (p_act m).
Proof. apply along_act. reflexivity. Qed.
Lemma still_exec {A} (p : prog A) w r w' : still p -> exec p w = (r, w') -> w_db w' = w_db w.
Proof. intros S E. apply S. assert (X := stops_end p w). now rewrite E in X. Qed.
Lemma still_get_grant sid : still (p_get_grant sid).
Proof.
  unfold p_get_grant. apply still_bind; [apply still_done|]. intros [[u c] g]. apply still_bind; [apply still_read|]. intros e. apply still_done.
Qed.
Lemma still_payload cx u c g ttype : still (p_payload cx u c g ttype).
Proof.
  unfold p_payload. apply still_bind; [apply still_act|]. intros r. apply still_bind; [apply still_act|]. intros cl.
  apply still_bind; [apply still_done|]. intros ui. apply still_done.
Qed.
Lemma still_mint_in cx mt sid g ttype b rules : still (p_mint_in cx mt sid g ttype b rules).
Proof.
  unfold p_mint_in. apply still_bind; [apply still_done|]. intros [[t|] g1]; [|apply still_done].
  apply still_bind; [apply still_done|]. intros [[u c] x]. apply still_bind; [apply still_payload|]. intros pl. apply still_done.
Qed.
Lemma still_session_by sid_of v : still (p_session_by sid_of v).
Proof.
  unfold p_session_by. apply still_bind; [apply still_done|]. intros sid. apply still_bind; [apply still_done|]. intros [[u c] g].
  apply still_bind; [apply still_read|]. intros e. apply still_bind; [apply still_done|]. intros gr. apply still_done.
Qed.
Lemma still_id_token idt sid resp : still (p_id_token idt sid resp).
Proof.
  unfold p_id_token. apply still_bind; [apply still_catch; [apply still_bind; [apply still_act|]; intros; apply still_done|apply still_done]|].
  intros [t|]; apply still_done.
Qed.

Lemma atomic_still {A B} (p : prog A) (k : A -> prog B) w : still p ->
  (forall a w1, exec p w = (Ok a, w1) -> w_db w1 = w_db w -> all_or_nothing (k a) w1) -> all_or_nothing (pbind p k) w.
Proof.
  intros S X w' H. rewrite exec_bind. apply stops_bind in H. destruct H as [H|(a & w1 & E & H)].
  - left. rewrite (S _ _ H). apply same_views_refl.
  - assert (D := still_exec p w _ w1 S E). rewrite E. destruct (X a w1 E D w' H) as [R|R]; [left; now rewrite <- D|auto].
Qed.
Lemma atomic_write u c g f w : kinds_ok (w_db w) -> good u -> good c -> good g -> all_or_nothing (p_write (session_key [u; c; g]) f) w.
Proof.
  intros Hk Hu Hc Hg. unfold p_write. apply atomic_still; [apply still_get_grant|]. intros gr w1 _ D.
  unfold p_mset. rewrite unpack_good by auto with gp. apply atomic_store3; try assumption. now rewrite D.
Qed.
Lemma atomic_mint cx mt u c g gr ttype b w : kinds_ok (w_db w) -> good u -> good c -> good g ->
  all_or_nothing (p_mint cx mt (session_key [u; c; g]) gr ttype b) w.
Proof.
  intros Hk Hu Hc Hg. unfold p_mint. cbv zeta. apply atomic_still; [apply still_mint_in|]. intros [[t|] g1] w1 _ D; rewrite ?unpack_good by auto with gp.
  - apply (atomic_then _ (fun _ => Ok _)). apply atomic_store3; try assumption. now rewrite D.
  - destruct (negb _); [apply atomic_done|]. apply (atomic_then _ (fun _ => Ok _)). apply atomic_store3; try assumption. now rewrite D.
Qed.
Lemma atomic_authz_mint cx mt u c g ttype b w : kinds_ok (w_db w) -> good u -> good c -> good g ->
  all_or_nothing (p_authz_mint cx mt u c g ttype b) w.
Proof.
  intros Hk Hu Hc Hg. unfold p_authz_mint. apply atomic_still; [apply still_get_grant|]. intros gr w1 _ D.
  apply (atomic_then _ (fun _ => Ok _)). apply atomic_mint; try assumption. now rewrite D.
Qed.
Lemma atomic_create_grant clock newid authn ar u c sub rules scopes w : kinds_ok (w_db w) -> good u -> good c -> good newid ->
  all_or_nothing (p_create_grant clock newid authn ar u c sub rules scopes ;~ pret tt)%prog w.
Proof.
  intros Hk Hu Hc Hg. apply (atomic_then _ (fun _ => Ok _)). unfold p_create_grant. destruct sub as [x|e]; cbn [pbind]; [|apply atomic_done].
  apply (atomic_then _ (fun _ => Ok _)). now apply atomic_store3.
Qed.
Lemma atomic_update q new w : kinds_ok (w_db w) -> good_path q -> all_or_nothing (p_update q new) w.
Proof.
  intros Hk Hq. unfold p_update. apply atomic_read. intros e V. apply view_stored in V; [|assumption]. specialize (Hk q e Hq V) as K.
  destruct e as [i|gr]; cbn [pbind].
  - destruct (good_path_cases q Hq) as [(a & -> & Ha)|[(a & b & -> & Ha & Hb)|(a & b & d & -> & Ha & Hb & Hd)]]; [apply atomic_store1|now apply atomic_store2|cbn in K; lia].
  - destruct (is_nil new); cbn [pbind]; [|apply atomic_done].
    destruct (good_path_cases q Hq) as [(a & -> & Ha)|[(a & b & -> & Ha & Hb)|(a & b & d & -> & Ha & Hb & Hd)]]; try discriminate.
    now apply atomic_store3.
Qed.
Lemma atomic_mop op w : kinds_ok (w_db w) -> good (op_user op) -> good (op_client op) -> good (op_grant op) -> one_set op ->
  all_or_nothing (p_mop op) w.
Proof.
  intros Hk Hu Hc Hg O. destruct op; cbn [op_user op_client op_grant p_mop one_set] in *; try contradiction.
  - now apply atomic_create_grant.
  - now apply atomic_revoke_client.
  - now apply atomic_revoke_grant.
  - now apply atomic_revoke_token.
  - now apply atomic_write.
Qed.

(** ** Grants only come along, wherever a call is stopped *)
Notation keeps := (along quiet).
Lemma keeps_bind {A B} (p : prog A) (k : A -> prog B) : keeps p -> (forall a, keeps (k a)) -> keeps (pbind p k).
Proof. apply along_bind. exact quiet_trans. Qed.
Lemma keeps_catch {A} (p : prog A) c h : keeps p -> keeps h -> keeps (pcatch p c h).
Proof. apply along_catch. exact quiet_trans. Qed.
Lemma keeps_done {A} (r : result A) : keeps (Done r).
Proof. apply along_done. exact quiet_refl. Qed.
Lemma keeps_get k : keeps (p_get k).
Proof. apply along_get. exact quiet_refl. Qed.
Lemma keeps_read q : keeps (p_read q).
Proof. apply along_read; [exact quiet_refl|exact quiet_trans]. Qed.
Lemma keeps_set k i : keeps (p_set k (EInfo i)).
Proof. apply along_set; [exact quiet_refl|]. intros s. apply quiet_dset. Qed.
Lemma keeps_del k : keeps (p_del k).
Proof. apply along_del; [exact quiet_refl|]. intros s. apply quiet_ddel. Qed.
Lemma keeps_iter {A} (f : A -> prog unit) l : (forall x, keeps (f x)) -> keeps (p_iter f l).
Proof. apply along_iter; [exact quiet_refl|exact quiet_trans]. Qed.
Lemma keeps_still {A} (p : prog A) : still p -> keeps p.
Proof. intros S w w' H. rewrite (S _ _ H). apply quiet_refl. Qed.

Lemma keeps_listing k x d : keeps (o <~ p_get k ;;
   let info := match o with Some e => e | None => EInfo d end in
   sub <~ Done (subordinate info) ;;
   if negb (smem x sub) then p_set k (set_subordinate (sub ++ [x]) info) else pret tt)%prog.
Proof.
  apply keeps_bind; [apply keeps_get|]. intros o. cbv zeta. destruct o as [[i|g]|]; cbn [subordinate set_subordinate pbind].
  - destruct (negb _); [apply keeps_set|apply keeps_done].
  - apply keeps_done.
  - destruct (negb _); [apply keeps_set|apply keeps_done].
Qed.
Lemma keeps_client_block u c g : keeps (p_client_block u c g).
Proof. apply keeps_listing. Qed.
Lemma keeps_user_block u c : keeps (p_user_block u c).
Proof. exact (keeps_listing u c (UserSessionInfo None)). Qed.
Lemma keeps_store q i : good_path q -> keeps (p_store q (EInfo i)).
Proof.
  intros Hq. destruct (good_path_cases q Hq) as [(a & -> & Ha)|[(a & b & -> & Ha & Hb)|(a & b & d & -> & Ha & Hb & Hd)]].
  - unfold p_store. cbn [eval_path pbind tr str_or_empty]. apply keeps_bind; [apply keeps_done|]. intros _.
    apply keeps_bind; [apply keeps_done|]. intros _. apply keeps_bind; [apply keeps_get|]. intros o. cbv zeta.
    apply keeps_bind; [apply keeps_set|]. intros _. apply keeps_done.
  - rewrite p_store2_eq by assumption. intros w w' H. apply stops_get in H. destruct H as [->|H]; [apply quiet_refl|].
    apply stops_put in H. destruct H as [->|H]; [apply quiet_refl|]. apply keeps_user_block in H.
    eapply quiet_trans; [apply quiet_dset|exact H].
  - rewrite p_store3_eq by assumption. intros w w' H. apply stops_put in H. destruct H as [->|H]; [apply quiet_refl|].
    eapply quiet_trans; [apply (quiet_dset (session_key [a; b; d]) i)|].
    exact (keeps_bind _ _ (keeps_client_block a b d) (fun _ => keeps_user_block a b) _ _ H).
Qed.
Lemma keeps_delete q : keeps (p_delete q).
Proof.
  unfold p_delete. apply keeps_bind; [apply keeps_done|]. intros [[u c] g]. cbv zeta. apply keeps_bind; [apply keeps_get|].
  intros [ue|]; [|apply keeps_done]. destruct (tr c); [|apply keeps_del].
  destruct ue as [ui|]; cbn [subordinate pbind]; [|apply keeps_done]. destruct (smem _ _); [|apply keeps_done].
  apply keeps_bind; [apply keeps_get|]. intros o.
  assert (T : forall i, keeps (usub' <~ Done (subordinate (EInfo i)) ;; if is_nil usub' then p_del u else p_set u (EInfo i))%prog).
  { intros i. cbn [subordinate pbind]. destruct (is_nil _); [apply keeps_del|apply keeps_set]. }
  assert (K : forall p : prog entry, keeps p -> (forall w e w', exec p w = (Ok e, w') -> exists i, e = EInfo i) ->
     keeps (user_info' <~ p ;; usub' <~ Done (subordinate user_info') ;; if is_nil usub' then p_del u else p_set u user_info')%prog).
  { intros p Kp Xp w w' H. apply stops_bind in H. destruct H as [H|(e & w1 & E & H)]; [auto|].
    destruct (Xp w e w1 E) as [i ->]. eapply quiet_trans; [|exact (T i _ _ H)].
    apply Kp. assert (X := stops_end p w). now rewrite E in X. }
  apply K.
  - destruct o as [[ci|cg]|]; cbn [subordinate pbind]; [| |apply keeps_done].
    + apply keeps_bind.
      * destruct (tr g).
        -- destruct (smem _ _); [|apply keeps_done]. apply keeps_bind; [|intros _; apply keeps_done].
           apply keeps_catch; [apply keeps_del|apply keeps_done].
        -- apply keeps_bind; [|intros _; apply keeps_done]. apply keeps_iter. intros x. apply keeps_del.
      * intros l. destruct (is_nil l).
        -- apply keeps_bind; [apply keeps_del|]. intros _. apply keeps_done.
        -- apply keeps_bind; [apply keeps_set|]. intros _. apply keeps_done.
    + apply keeps_done.
  - intros w e w' E. destruct o as [[ci|cg]|]; cbn [subordinate pbind] in E.
    + rewrite exec_bind in E. destruct (exec _ w) as [[l|] w1]; [|discriminate]. destruct (is_nil l); rewrite exec_bind in E.
      * destruct (exec (p_del _) w1) as [[x|] w2]; [|discriminate]. injection E as <- _. eexists. reflexivity.
      * destruct (exec (p_set _ _) w1) as [[x|] w2]; [|discriminate]. injection E as <- _. eauto.
    + discriminate.
    + injection E as <- _. eauto.
Qed.

(** a grant set *)
Lemma stops_store_grant w w' u c g v : good c -> good g -> stops (p_store [u; c; g] (EGrant v)) w w' ->
  w' = w \/ regrants (session_key [u; c; g]) v (w_db w) (w_db w').
Proof.
  intros Hc Hg H. rewrite p_store3_eq in H by assumption. apply stops_put in H. destruct H as [->|H]; [auto|]. right.
  eapply regrants_quiet_r; [apply regrants_dset|].
  exact (keeps_bind _ _ (keeps_client_block u c g) (fun _ => keeps_user_block u c) _ _ H).
Qed.
Lemma stops_regrant made w w' u c g v v' : good c -> good g -> dget (session_key [u; c; g]) (w_db w) = Some (EGrant v) -> grows v v' ->
  stops (p_store [u; c; g] (EGrant v')) w w' -> advances made (w_db w) (w_db w').
Proof.
  intros Hc Hg V G H. apply stops_store_grant in H; [|assumption|assumption]. destruct H as [->|R]; [apply advances_refl|].
  eapply regrants_advances; eauto.
Qed.
Lemma stops_newgrant (made : string -> Prop) w w' u c g v : good c -> good g -> made (session_key [u; c; g]) -> Forall sound_token (g_issued v) ->
  stops (p_store [u; c; g] (EGrant v)) w w' -> advances made (w_db w) (w_db w').
Proof.
  intros Hc Hg V G H. apply stops_store_grant in H; [|assumption|assumption]. destruct H as [->|R]; [apply advances_refl|].
  eapply regrants_made; eauto.
Qed.
(** reading, then the rest *)
Lemma stops_read_bind {B} q (k : entry -> prog B) w w' : stops (pbind (p_read q) k) w w' ->
  w_db w' = w_db w \/ exists e, view (w_db w) q = Some e /\ stops (k e) w w'.
Proof.
  intros H. apply stops_bind in H. destruct H as [H|(e & w1 & E & H)]; [left; now apply (read_same q)|]. right. exists e.
  rewrite does_read in E. unfold in_db, view in *. assert (Z := db_read_state q (w_db w)).
  destruct (db_read q (w_db w)) as [r s]. cbn [snd fst] in *. subst s. rewrite eta in E. injection E as -> <-. auto.
Qed.
Lemma stops_grant_bind {B} u c g (k : grant -> prog B) w w' : good u -> good c -> good g -> stops (pbind (p_get_grant (session_key [u; c; g])) k) w w' ->
  w_db w' = w_db w \/ exists gr, view (w_db w) [u; c; g] = Some (EGrant gr) /\ stops (k gr) w w'.
Proof.
  intros Hu Hc Hg H. apply stops_bind in H. destruct H as [H|(gr & w1 & E & H)]; [left; now apply still_get_grant in H|]. right. exists gr.
  rewrite does_get_grant in E. unfold in_db, get_grant, bind, lift, ret, raise in E. rewrite unpack3_good in E by assumption.
  unfold view. assert (Z := db_read_state [u; c; g] (w_db w)).
  destruct (db_read [u; c; g] (w_db w)) as [[[i|gr']|e] s]; cbn [snd fst] in *; subst s; try discriminate.
  rewrite eta in E. injection E as -> <-. auto.
Qed.

Lemma stops_create_grant op clock newid authn ar u c sub rules scopes w w' :
  good u -> good c -> good newid -> makes op newid ->
  stops (p_create_grant clock newid authn ar u c sub rules scopes) w w' -> advances (made_by op) (w_db w) (w_db w').
Proof.
  intros Hu Hc Hg M H. unfold p_create_grant in H. destruct sub as [x|e]; cbn [pbind] in H; [|apply stops_done in H; subst; apply advances_refl].
  assert (X : forall w', stops (p_store [u; c; newid] (EGrant (new_grant clock newid x ar authn rules scopes))) w w' -> advances (made_by op) (w_db w) (w_db w')).
  { intros w1. apply stops_newgrant; [assumption|assumption| |cbn; constructor]. exists u, c, newid. auto. }
  apply stops_bind in H. destruct H as [H|(y & w1 & E & H)]; [auto|]. apply stops_done in H. subst w'.
  apply X. assert (Z := stops_end (p_store [u; c; newid] (EGrant (new_grant clock newid x ar authn rules scopes))) w). now rewrite E in Z.
Qed.
Lemma stops_mop gid op w w' : mop_ok gid op -> stops (p_mop op) w w' -> advances (made_by op) (w_db w) (w_db w').
Proof.
  intros (Hu & Hc & Hg & Hm & Hx) H. destruct op; cbn [op_user op_client op_grant p_mop] in *.
  - assert (X : along (advances (made_by (OCreate clock newid authn ar u c sub rules scopes))) (p_create_session clock newid authn ar u c sub rules scopes)).
    { unfold p_create_session. rewrite (good_tr c) by assumption. apply along_bind; [apply advances_trans| |intros _].
      - intros w1 w2 Y. apply quiet_advances. revert w1 w2 Y. apply keeps_catch; [|apply keeps_store; auto with gp].
        apply keeps_bind; [apply keeps_read|intros; apply keeps_done].
      - cbn [pbind pret]. apply along_bind; [apply advances_trans| |intros _].
        + intros w1 w2 Y. apply quiet_advances. revert w1 w2 Y. apply keeps_store. auto with gp.
        + intros w1 w2 Y. revert Y. apply stops_create_grant; auto. reflexivity. }
    revert w w' H. apply along_bind; [apply advances_trans|exact X|]. intros _. apply along_done, advances_refl.
  - apply stops_bind in H. destruct H as [H|(a & w1 & E & H)].
    + revert H. apply stops_create_grant; auto. reflexivity.
    + apply stops_done in H. subst w'. assert (Z := stops_end (p_create_grant clock newid authn ar u c sub rules scopes) w). rewrite E in Z. revert Z.
      apply stops_create_grant; auto. reflexivity.
  - revert w w' H. unfold p_add_grant. apply along_bind; [apply advances_trans| |intros _].
    + intros w1 w2 Y. revert Y. apply stops_newgrant; auto. exists u, c, (g_id gr). cbn. auto.
    + intros w1 w2 Y. apply quiet_advances. apply stops_read_bind in Y. destruct Y as [->|(e & V & Y)]; [apply quiet_refl|].
      destruct e as [i|g']; cbn [subordinate pbind set_subordinate] in Y; [|apply stops_done in Y; subst; apply quiet_refl].
      revert Y. apply keeps_store. auto with gp.
  - unfold p_revoke_client_session in H. rewrite unpack_good in H by auto with gp. cbn [pbind pret] in H.
    apply stops_read_bind in H. destruct H as [->|(e & V & H)]; [apply advances_refl|].
    destruct e as [i|gr]; cbn [revoke_entry] in H.
    + apply quiet_advances. revert H. apply keeps_store. auto with gp.
    + apply view_stored in V; [|auto with gp]. unfold stored in V. rewrite p_store2_eq in H by assumption.
      apply stops_get in H. destruct H as [->|H]; [apply advances_refl|]. apply stops_put in H. destruct H as [->|H]; [apply advances_refl|].
      eapply regrants_advances; [exact V|apply grows_revoked|]. eapply regrants_quiet_r; [apply regrants_dset|]. exact (keeps_user_block u c _ _ H).
  - unfold p_revoke_grant in H. rewrite unpack_good in H by auto with gp.
    apply stops_read_bind in H. destruct H as [->|(e & V & H)]; [apply advances_refl|].
    destruct e as [i|gr]; cbn [revoke_entry] in H.
    + apply quiet_advances. revert H. apply keeps_store. auto with gp.
    + revert H. eapply stops_regrant; [assumption|assumption|apply view_key, V|apply grows_revoked].
  - apply quiet_advances. revert H. apply keeps_still. unfold p_revoke_token. apply still_bind; [apply still_done|]. intros [[a b] d].
    apply still_bind; [apply still_read|]. intros e. apply still_bind; [apply still_done|]. intros gr.
    destruct (get_token value gr); [|apply still_done]. destruct recursive; [|apply still_done].
    apply still_bind; [apply still_read|]. intros e2. apply still_bind; [apply still_done|]. intros gr2. apply still_done.
  - apply quiet_advances. revert H. unfold p_remove_session. apply keeps_bind; [apply keeps_done|]. intros [[a b] d]. apply keeps_delete.
  - unfold p_write in H. apply stops_grant_bind in H; auto. destruct H as [->|(gr & V & H)]; [apply advances_refl|].
    unfold p_mset in H. rewrite unpack_good in H by auto with gp. revert H.
    eapply stops_regrant; [assumption|assumption|apply view_key, V|]. apply Hx.
Qed.

(** *** Minting *)
Lemma stops_mint cx mt u c gid g ttype base w w' : good u -> good c -> good gid -> mint_ok mt ->
  stops (p_mint cx mt (session_key [u; c; gid]) g ttype base) w w' ->
  w_db w' = w_db w \/ exists g2, grows g g2 /\ (exists new, g_issued g2 = g_issued g ++ new) /\ regrants (session_key [u; c; gid]) g2 (w_db w) (w_db w').
Proof.
  intros Hu Hc Hg M H. unfold p_mint in H. cbv zeta in H. apply stops_bind in H. destruct H as [H|([o g1] & w1 & E & H)].
  { left. now apply still_mint_in in H. }
  rewrite wdoes_mint_in in E. apply mint_in_cases in E. destruct E as [Ew E].
  rewrite unpack_good in H by auto with gp. destruct o as [t|].
  - destruct E as (_ & _ & Mi & ->). set (late := if (_ =? 0)%Z then _ else _) in *.
    set (g2 := upd_newest late _) in *. assert (I : g_issued g2 = g_issued g ++ [late t]) by (cbn; apply upd_last_app).
    assert (G : grows g g2).
    { apply (append_grows g g2 (late t) I); [split; reflexivity|].
      assert (Mi' : minted mt ttype base (late t)). { subst late. unfold minted in *. destruct (_ =? 0)%Z; [exact Mi|]. cbn. exact Mi. }
      eapply minted_sound; eauto. }
    assert (X : forall w2, stops (p_store [u; c; gid] (EGrant g2)) w1 w2 -> w_db w2 = w_db w \/
        exists g2, grows g g2 /\ (exists new, g_issued g2 = g_issued g ++ new) /\ regrants (session_key [u; c; gid]) g2 (w_db w) (w_db w2)).
    { intros w2 Y. apply stops_store_grant in Y; [|assumption|assumption]. rewrite Ew in Y. destruct Y as [->|Y]; [auto|]. right. exists g2. eauto. }
    apply stops_bind in H. destruct H as [H|(x & w2 & E2 & H)]; [auto|]. apply stops_done in H. subst w'. apply X.
    assert (Z := stops_end (p_store [u; c; gid] (EGrant g2)) w1). now rewrite E2 in Z.
  - destruct E as [-> _]. destruct (negb _); [apply stops_done in H; subst; auto|].
    assert (X : forall w2, stops (p_store [u; c; gid] (EGrant g)) w1 w2 -> w_db w2 = w_db w \/
        exists g2, grows g g2 /\ (exists new, g_issued g2 = g_issued g ++ new) /\ regrants (session_key [u; c; gid]) g2 (w_db w) (w_db w2)).
    { intros w2 Y. apply stops_store_grant in Y; [|assumption|assumption]. rewrite Ew in Y. destruct Y as [->|Y]; [auto|].
      right. exists g. split; [apply grows_refl|]. split; [exists []; now rewrite app_nil_r|exact Y]. }
    apply stops_bind in H. destruct H as [H|(x & w2 & E2 & H)]; [auto|]. apply stops_done in H. subst w'. apply X.
    assert (Z := stops_end (p_store [u; c; gid] (EGrant g)) w1). now rewrite E2 in Z.
Qed.
(** a token was minted *)
Lemma exec_mint cx mt u c gid g ttype base w o g2 w' : good u -> good c -> good gid -> mint_ok mt ->
  exec (p_mint cx mt (session_key [u; c; gid]) g ttype base) w = (Ok (o, g2), w') ->
  grows g g2 /\ (exists new, g_issued g2 = g_issued g ++ new) /\ regrants (session_key [u; c; gid]) g2 (w_db w) (w_db w').
Proof.
  intros Hu Hc Hg M E. rewrite wdoes_mint in E. apply endpoint_mint_cases in E; try assumption.
  destruct E as [[_ [e X]]|(g' & R & [(-> & _ & [X|[e X]])|(t & I & Mi & _ & A & _ & _ & [X|[e X]])])]; try discriminate; injection X as -> ->.
  - split; [apply grows_refl|]. split; [exists []; now rewrite app_nil_r|exact R].
  - split; [eapply append_grows; eauto using minted_sound|]. eauto.
Qed.

Section Exchange.
  Variable sid_of : string -> result string.
  Variable cx : ctx.
  Variable idt : store -> string -> ST cdb string.
  Hypothesis Hsid : sids_ok sid_of.

  Lemma stops_by_bind {B} v (k : string * grant -> prog B) w w' : stops (pbind (p_session_by sid_of v) k) w w' ->
    w_db w' = w_db w \/ exists u c gid g, leads sid_of (w_db w) v u c gid g /\ stops (k (session_key [u; c; gid], g)) w w'.
  Proof.
    intros H. apply stops_bind in H. destruct H as [H|(a & w1 & E & H)]; [left; now apply still_session_by in H|]. right.
    rewrite session_by_eq in E. destruct (in_db (session_by sid_of v) w) as [r w2] eqn:E2.
    apply (in_session_by sid_of Hsid) in E2. destruct E2 as [-> E2]. destruct r as [[i g]|]; [|discriminate]. injection E as <- <-.
    destruct E2 as (u & c & gid & L & ->). exists u, c, gid, g. split; [exact L|exact H].
  Qed.

  (** a stopped exchange: nothing has changed, or the grant of the code has come along *)
  Definition came (k : string) (g : grant) (s s' : store) : Prop := exists g', grows g g' /\ regrants k g' s s'.
  Lemma stops_code_process m1 m2 ir rq w w' : mint_ok m1 -> mint_ok m2 ->
    stops (p_code_process sid_of cx idt m1 m2 ir rq) w w' ->
    w_db w' = w_db w \/ exists v u c gid g, leads sid_of (w_db w) v u c gid g /\ came (session_key [u; c; gid]) g (w_db w) (w_db w').
  Proof.
    intros M1 M2 H. unfold p_code_process in H.
    destruct (msub_str "grant_type" rq) as [gt|]; cbn [pbind] in H; [|left; apply stops_done in H; now subst].
    destruct (negb _); [left; apply stops_done in H; now subst|]. destruct (negb _); [left; apply stops_done in H; now subst|].
    destruct (msub_str "code" rq) as [raw|]; cbn [pbind] in H; [|left; apply stops_done in H; now subst]. cbv zeta in H.
    apply stops_by_bind in H. destruct H as [H|(u & c & gid & g & L & H)]; [auto|].
    assert (Hu : good u) by apply L. assert (Hc : good c) by apply L. assert (Hg : good gid) by apply L.
    assert (V : dget (session_key [u; c; gid]) (w_db w) = Some (EGrant g)) by (apply view_key, L).
    destruct (g_authreq g) as [ar|]; cbn [of_option pbind] in H; [|left; apply stops_done in H; now subst].
    assert (St : forall o : option val, still (match o with Some x => u' <~ Done (dsub "redirect_uri" rq) ;; pret (negb (val_eqb u' x)) | None => pret false end)%prog).
    { intros [x|]; [|apply still_done]. apply still_bind; [apply still_done|]. intros y. apply still_done. }
    apply stops_bind in H. destruct H as [H|(mm & w1 & E1 & H)]; [left; now apply St in H|]. apply still_exec in E1; [|apply St].
    destruct mm; [left; apply stops_done in H; now subst|].
    right. exists (blank_to_plus raw), u, c, gid, g. split; [exact L|].
    assert (Same : forall w2, w_db w2 = w_db w -> came (session_key [u; c; gid]) g (w_db w) (w_db w2)).
    { intros w2 ->. exists g. split; [apply grows_refl|now apply regrants_same]. }
    apply stops_bind in H. destruct H as [H|([o g1] & w2 & E2 & H)].
    { apply stops_mint in H; auto. rewrite E1 in H. destruct H as [H|(g2 & G & _ & R)]; [auto|]. exists g2. auto. }
    apply exec_mint in E2; auto. rewrite E1 in E2. destruct E2 as (G1 & _ & R1).
    destruct o as [at_|]; cbn [of_option pbind] in H; [|apply stops_done in H; subst w'; exists g1; auto].
    (* the refresh token *)
    set (mid := if match ir with Some b => b | None => smem "offline_access" (g_scope g) end then _ else _) in H.
    assert (Mid : forall w3, stops mid w2 w3 -> came (session_key [u; c; gid]) g (w_db w) (w_db w3)).
    { intros w3 Y. subst mid. destruct (match ir with Some b => b | None => _ end); [|apply stops_done in Y; subst; exists g1; auto].
      apply stops_bind in Y. destruct Y as [Y|([o' g2] & w4 & E4 & Y)].
      - apply stops_mint in Y; auto. destruct Y as [->|(g2 & G & _ & R)]; [exists g1; auto|].
        exists g2. split; [eapply grows_trans; eauto|eapply regrants_trans; eauto].
      - apply exec_mint in E4; auto. destruct E4 as (G & _ & R).
        assert (C : came (session_key [u; c; gid]) g (w_db w) (w_db w4)) by (exists g2; split; [eapply grows_trans; eauto|eapply regrants_trans; eauto]).
        destruct o'; cbn [of_option pbind] in Y; apply stops_done in Y; subst w3; exact C. }
    apply stops_bind in H. destruct H as [H|([g2 resp] & w3 & E3 & H)]; [auto|].
    assert (C3 : grows g g2 /\ regrants (session_key [u; c; gid]) g2 (w_db w) (w_db w3)).
    { subst mid. destruct (match ir with Some b => b | None => _ end); [|injection E3 as <- _ <-; auto].
      rewrite exec_bind in E3. destruct (exec (p_mint _ _ _ _ _ _) w2) as [[[o' g2']|] w4] eqn:E4; [|discriminate].
      apply exec_mint in E4; auto. destruct E4 as (G & _ & R). destruct o' as [rt|]; cbn [of_option pbind exec pret] in E3; [|discriminate].
      injection E3 as <- _ <-. split; [eapply grows_trans; eauto|eapply regrants_trans; eauto]. }
    destruct C3 as [G3 R3].
    destruct (get_token (blank_to_plus raw) g) as [code|]; cbn [pbind pret praise] in H; [|apply stops_done in H; subst w'; exists g2; auto].
    unfold p_mset in H. rewrite unpack_good in H by auto with gp.
    assert (Fin : forall w4, stops (p_store [u; c; gid] (EGrant (upd_token (blank_to_plus raw) register_usage g2))) w3 w4 ->
        came (session_key [u; c; gid]) g (w_db w) (w_db w4)).
    { intros w4 Y. apply stops_store_grant in Y; [|assumption|assumption]. destruct Y as [->|Y]; [exists g2; auto|].
      eexists. split; [eapply grows_trans; [exact G3|]; apply upd_token_grows, register_usage_core|]. eapply regrants_trans; eauto. }
    apply stops_bind in H. destruct H as [H|(x & w4 & E4 & H)]; [auto|].
    assert (C4 : came (session_key [u; c; gid]) g (w_db w) (w_db w4)).
    { apply Fin. assert (Z := stops_end (p_store [u; c; gid] (EGrant (upd_token (blank_to_plus raw) register_usage g2))) w3). now rewrite E4 in Z. }
    destruct (dsub "scope" ar) as [sc|]; cbn [pbind] in H; [|apply stops_done in H; subst w'; exact C4].
    destruct (val_in (VStr "openid") sc) as [b|]; cbn [pbind] in H; [|apply stops_done in H; subst w'; exact C4].
    destruct b; [apply still_id_token in H; now rewrite H|apply stops_done in H; subst w'; exact C4].
  Qed.

  Lemma stops_refresh_process m1 m2 rq w w' : mint_ok m1 -> mint_ok m2 ->
    stops (p_refresh_process sid_of cx idt m1 m2 rq) w w' ->
    w_db w' = w_db w \/ exists v u c gid g, leads sid_of (w_db w) v u c gid g /\ came (session_key [u; c; gid]) g (w_db w) (w_db w').
  Proof.
    intros M1 M2 H. unfold p_refresh_process in H.
    destruct (msub_str "grant_type" rq) as [gt|]; cbn [pbind] in H; [|left; apply stops_done in H; now subst].
    destruct (negb _); [left; apply stops_done in H; now subst|].
    destruct (msub_str "refresh_token" rq) as [v|]; cbn [pbind] in H; [|left; apply stops_done in H; now subst]. cbv zeta in H.
    apply stops_by_bind in H. destruct H as [H|(u & c & gid & g & L & H)]; [auto|].
    assert (Hu : good u) by apply L. assert (Hc : good c) by apply L. assert (Hg : good gid) by apply L.
    assert (V : dget (session_key [u; c; gid]) (w_db w) = Some (EGrant g)) by (apply view_key, L).
    right. exists v, u, c, gid, g. split; [exact L|].
    assert (Same : forall w2, w_db w2 = w_db w -> came (session_key [u; c; gid]) g (w_db w) (w_db w2)).
    { intros w2 ->. exists g. split; [apply grows_refl|now apply regrants_same]. }
    apply stops_bind in H. destruct H as [H|([o g1] & w2 & E2 & H)].
    { apply stops_mint in H; auto. destruct H as [H|(g2 & G & _ & R)]; [auto|]. exists g2. auto. }
    apply exec_mint in E2; auto. destruct E2 as (G1 & _ & R1).
    destruct o as [at_|]; cbn [of_option pbind] in H; [|apply stops_done in H; subst w'; exists g1; auto].
    destruct (get_token v g) as [t|]; cbn [of_option pbind] in H; [|apply stops_done in H; subst w'; exists g1; auto].
    destruct (ur_mints (t_rules t)) as [mints|]; cbn [of_option pbind] in H; [|apply stops_done in H; subst w'; exists g1; auto].
    set (mid := if smem "refresh_token" mints then _ else _) in H.
    assert (Mid : forall w3, stops mid w2 w3 -> came (session_key [u; c; gid]) g (w_db w) (w_db w3)).
    { intros w3 Y. subst mid. destruct (smem "refresh_token" mints); [|apply stops_done in Y; subst; exists g1; auto].
      apply stops_bind in Y. destruct Y as [Y|([o' g2] & w4 & E4 & Y)].
      - apply stops_mint in Y; auto. destruct Y as [->|(g2 & G & _ & R)]; [exists g1; auto|].
        exists g2. split; [eapply grows_trans; eauto|eapply regrants_trans; eauto].
      - apply exec_mint in E4; auto. destruct E4 as (G & _ & R).
        assert (C : came (session_key [u; c; gid]) g (w_db w) (w_db w4)) by (exists g2; split; [eapply grows_trans; eauto|eapply regrants_trans; eauto]).
        destruct o'; cbn [of_option pbind] in Y; apply stops_done in Y; subst w3; exact C. }
    apply stops_bind in H. destruct H as [H|(resp & w3 & E3 & H)]; [auto|].
    assert (C3 : came (session_key [u; c; gid]) g (w_db w) (w_db w3)).
    { apply Mid. assert (Z := stops_end mid w2). now rewrite E3 in Z. }
    destruct (smem "id_token" mints); [apply still_id_token in H; now rewrite H|apply stops_done in H; subst w'; exact C3].
  Qed.

  Lemma stops_authz_mint mt u c g ttype b w w' : mint_ok mt -> good u -> good c -> good g ->
    stops (p_authz_mint cx mt u c g ttype b) w w' -> 
    w_db w' = w_db w \/ exists gr, view (w_db w) [u; c; g] = Some (EGrant gr) /\ came (session_key [u; c; g]) gr (w_db w) (w_db w').
  Proof.
    intros M Hu Hc Hg H. unfold p_authz_mint in H. apply stops_grant_bind in H; auto. destruct H as [H|(gr & V & H)]; [auto|]. right.
    exists gr. split; [exact V|]. apply stops_bind in H. destruct H as [H|([o g2] & w1 & E & H)].
    - apply stops_mint in H; auto. destruct H as [->|(g2 & G & _ & R)]; [|exists g2; auto].
      exists gr. split; [apply grows_refl|]. apply regrants_same, view_key, V.
    - apply stops_done in H. subst w'. apply exec_mint in E; auto. destruct E as (G & _ & R). exists g2. auto.
  Qed.

  Lemma came_along gid k g s s' : dget k s = Some (EGrant g) -> came k g s s' -> comes_along gid s s'.
  Proof.
    intros V (g' & G & R) k' g1 H. destruct (R k' g1 H) as [[-> ->]|[_ A]]; left; [eauto|exists g1; auto using grows_refl].
  Qed.
  Lemma same_along gid s : comes_along gid s s.
  Proof. intros k g H. left. exists g. auto using grows_refl. Qed.
  Lemma stops_call gid x w w' : ccall_ok gid x -> stops (p_call sid_of cx idt x) w w' -> comes_along gid (w_db w) (w_db w').
  Proof.
    intros O H. destruct x; cbn [ccall_ok p_call] in *.
    - apply (stops_mop gid) in H; [|exact O]. intros k g E. destruct (H k g E) as [A|[(u & c & g0 & Hu & Hc & Hg & M & ->) S]]; [auto|].
      right. split; [|exact S]. exists u, c, g0. repeat (split; [assumption|]). split; [|reflexivity]. intros ->. now destruct O as (_ & _ & _ & O & _).
    - assert (X : w_db w' = w_db w \/ exists v u c gid g, leads sid_of (w_db w) v u c gid g /\ came (session_key [u; c; gid]) g (w_db w) (w_db w')).
      { apply stops_bind in H. destruct H as [H|(a & w1 & E & H)]; [exact (stops_code_process _ _ _ _ _ _ (proj1 O) (proj2 O) H)|].
        apply stops_done in H. subst w'. assert (Z := stops_end (p_code_process sid_of cx idt m1 m2 issue_refresh rq) w). rewrite E in Z.
        exact (stops_code_process _ _ _ _ _ _ (proj1 O) (proj2 O) Z). }
      destruct X as [->|(v & u & c & g & gr & L & C)]; [apply same_along|]. eapply came_along; [|exact C]. apply view_key, L.
    - assert (X : w_db w' = w_db w \/ exists v u c gid g, leads sid_of (w_db w) v u c gid g /\ came (session_key [u; c; gid]) g (w_db w) (w_db w')).
      { apply stops_bind in H. destruct H as [H|(a & w1 & E & H)]; [exact (stops_refresh_process _ _ _ _ _ (proj1 O) (proj2 O) H)|].
        apply stops_done in H. subst w'. assert (Z := stops_end (p_refresh_process sid_of cx idt m1 m2 rq) w). rewrite E in Z.
        exact (stops_refresh_process _ _ _ _ _ (proj1 O) (proj2 O) Z). }
      destruct X as [->|(v & u & c & g & gr & L & C)]; [apply same_along|]. eapply came_along; [|exact C]. apply view_key, L.
    - destruct O as (M & Hu & Hc & Hg). apply stops_authz_mint in H; auto.
      destruct H as [->|(gr & V & C)]; [apply same_along|]. eapply came_along; [|exact C]. apply view_key, V.
  Qed.
  Lemma piece_wop gid x : piece_ok gid x -> wop_ok gid (piece_op sid_of cx idt x).
  Proof.
    destruct x as [op|n x]; cbn [piece_ok piece_op wop_ok]; [auto|]. intros O w. apply (stops_call gid x); [exact O|]. now exists n.
  Qed.
End Exchange.

(** ** A session that is there already *)
Lemma listed_by s u c g e : view s [u; c; g] = Some e -> exists ui ci, stored s [u] = Some (EInfo ui) /\ smem c (si_sub ui) = true /\
  stored s [u; c] = Some (EInfo ci) /\ smem g (si_sub ci) = true /\ stored s [u; c; g] = Some e.
Proof.
  rewrite view3, view2. destruct (stored s [u]) as [[ui|]|]; try discriminate. destruct (smem c (si_sub ui)) eqn:Lc; [|discriminate].
  destruct (stored s [u; c]) as [[ci|]|]; try discriminate. destruct (smem g (si_sub ci)) eqn:Lg; [|discriminate]. intros H. eauto 9.
Qed.
Lemma store_listed s u c g e v : kinds_ok s -> good u -> good c -> good g -> view s [u; c; g] = Some e ->
  store_user (store_client (dset (session_key [u; c; g]) (EGrant v) s) u c g) u c = dset (session_key [u; c; g]) (EGrant v) s /\
  store_client (dset (session_key [u; c; g]) (EGrant v) s) u c g = dset (session_key [u; c; g]) (EGrant v) s.
Proof.
  intros Hk Hu Hc Hg V. destruct (listed_by s u c g e V) as (ui & ci & Su & Lc & Sc & Lg & _).
  set (s1 := dset (session_key [u; c; g]) (EGrant v) s).
  assert (E : store_client s1 u c g = s1).
  { unfold store_client, copt, s1. rewrite stored_dset by auto with gp. destruct (path_dec _ _); [discriminate|]. rewrite Sc. cbn [info_or]. now rewrite Lg. }
  rewrite E. split; [|reflexivity]. unfold store_user, uopt, s1. rewrite stored_dset by auto with gp. destruct (path_dec _ _); [discriminate|]. rewrite Su. cbn [info_or]. now rewrite Lc.
Qed.
Lemma stops_listed w w' u c g e v : kinds_ok (w_db w) -> good u -> good c -> good g -> view (w_db w) [u; c; g] = Some e ->
  stops (p_store [u; c; g] (EGrant v)) w w' -> w' = w \/ w' = mkW (dset (session_key [u; c; g]) (EGrant v) (w_db w)) (w_cdb w).
Proof.
  intros Hk Hu Hc Hg V H. destruct (stops_store3 w w' u c g v Hk Hu Hc Hg H) as [Ec D].
  destruct (store_listed _ u c g e v Hk Hu Hc Hg V) as [E1 E2]. cbv zeta in D. rewrite E1, E2 in D.
  destruct w as [s d], w' as [s' d']. cbn in *. subst d'. destruct D as [-> | [-> | [-> | ->]]]; auto.
Qed.
Lemma exec_listed w u c g e v : kinds_ok (w_db w) -> good u -> good c -> good g -> view (w_db w) [u; c; g] = Some e ->
  exec (p_store [u; c; g] (EGrant v)) w = (Ok tt, mkW (dset (session_key [u; c; g]) (EGrant v) (w_db w)) (w_cdb w)).
Proof.
  intros Hk Hu Hc Hg V. rewrite exec_store3 by assumption. now destruct (store_listed _ u c g e v Hk Hu Hc Hg V) as [-> _].
Qed.
(** [s'] is [s] with [v] as the session at this path *)
Definition set_at (u c g : string) (v : grant) (s s' : store) : Prop :=
  kinds_ok s' /\ view s' [u; c; g] = Some (EGrant v) /\ forall q, good_path q -> q <> [u; c; g] -> view s' q = view s q.
Lemma set_at_dset s0 s u c g v v' : good u -> good c -> good g -> set_at u c g v s0 s ->
  set_at u c g v' s0 (dset (session_key [u; c; g]) (EGrant v') s).
Proof.
  intros Hu Hc Hg (Hk & V & O). destruct (listed_by s u c g _ V) as (ui & ci & Su & Lc & Sc & Lg & _).
  assert (St : forall q, good_path q -> stored (dset (session_key [u; c; g]) (EGrant v') s) q = if path_dec q [u; c; g] then Some (EGrant v') else stored s q)
    by (intros q Hq; apply stored_dset; auto with gp).
  split; [apply kinds_dset; auto with gp|]. split.
  - rewrite view3, view2, !St by auto with gp. repeat (destruct (path_dec _ _); try discriminate; try contradiction). rewrite Su, Lc, Sc, Lg. reflexivity.
  - intros q Hq N. rewrite <- O by assumption. apply view_ext; [assumption|]. intros p Hp [r X]. rewrite St by assumption.
    destruct (path_dec p [u; c; g]) as [->|]; [|reflexivity]. destruct N.
    destruct (good_path_cases q Hq) as [(a & -> & _)|[(a & b & -> & _)|(a & b & d & -> & _)]]; try discriminate.
    injection X as -> -> -> _. reflexivity.
Qed.
Lemma set_at_same u c g v s : kinds_ok s -> view s [u; c; g] = Some (EGrant v) -> set_at u c g v s s.
Proof. intros Hk V. split; [exact Hk|]. split; [exact V|reflexivity]. Qed.
Lemma set_at_eq u c g v s0 s s' : set_at u c g v s0 s -> s' = s -> set_at u c g v s0 s'.
Proof. intros H ->. exact H. Qed.

(** minting for it *)
Definition with_more (g g' : grant) : Prop := exists new, g_issued g' = g_issued g ++ new.
Lemma with_more_token g g' v t : with_more g g' -> get_token v g = Some t -> get_token v g' = Some t.
Proof. intros [new E]. unfold get_token. rewrite E. apply find_app_l. Qed.
Lemma with_more_refl g : with_more g g.
Proof. exists []. now rewrite app_nil_r. Qed.
Lemma with_more_trans a b c : with_more a b -> with_more b c -> with_more a c.
Proof. intros [n1 E1] [n2 E2]. exists (n1 ++ n2). now rewrite E2, E1, app_assoc. Qed.
Lemma mint_at cx mt u c gid g ttype base s0 w : good u -> good c -> good gid -> set_at u c gid g s0 (w_db w) ->
  (forall w', stops (p_mint cx mt (session_key [u; c; gid]) g ttype base) w w' -> exists g', with_more g g' /\ set_at u c gid g' s0 (w_db w')) /\
  (forall o g' w', exec (p_mint cx mt (session_key [u; c; gid]) g ttype base) w = (Ok (o, g'), w') -> with_more g g' /\ set_at u c gid g' s0 (w_db w')).
Proof.
  intros Hu Hc Hg A. unfold p_mint. cbv zeta. rewrite unpack_good by auto with gp.
  assert (Q : forall w1 g', w_db w1 = w_db w -> forall w2, stops (p_store [u; c; gid] (EGrant g')) w1 w2 ->
     w_db w2 = w_db w \/ set_at u c gid g' s0 (w_db w2)).
  { intros w1 g' D w2 H. destruct A as (Hk & V & O). rewrite <- D in Hk, V. apply (stops_listed w1 w2 u c gid _ g' Hk Hu Hc Hg V) in H.
    destruct H as [-> | ->]; [auto|]. right. cbn [w_db]. rewrite D in *. eapply set_at_dset; eauto. split; [exact Hk|]. split; [exact V|exact O]. }
  assert (Qe : forall w1 g' r w2, w_db w1 = w_db w -> exec (p_store [u; c; gid] (EGrant g')) w1 = (r, w2) -> set_at u c gid g' s0 (w_db w2)).
  { intros w1 g' r w2 D E. destruct A as (Hk & V & O). rewrite <- D in Hk, V. rewrite (exec_listed w1 u c gid _ g' Hk Hu Hc Hg V) in E. injection E as <- <-.
    cbn [w_db]. rewrite D in *. eapply set_at_dset; eauto. split; [exact Hk|]. split; [exact V|exact O]. }
  split.
  - intros w' H. apply stops_bind in H. destruct H as [H|([o g1] & w1 & E & H)].
    { exists g. split; [apply with_more_refl|]. eapply set_at_eq; [exact A|]. now apply still_mint_in in H. }
    rewrite wdoes_mint_in in E. apply mint_in_cases in E. destruct E as [Ew E]. destruct o as [t|].
    + destruct E as (_ & _ & _ & ->). set (late := if (_ =? 0)%Z then _ else _) in *. set (g2 := upd_newest late _) in *.
      assert (I : with_more g g2) by (exists [late t]; cbn; apply upd_last_app).
      assert (X : exists g', with_more g g' /\ set_at u c gid g' s0 (w_db w')); [|exact X].
      apply stops_bind in H. destruct H as [H|(x & w2 & E2 & H)].
      * destruct (Q w1 g2 Ew w' H) as [->|S]; [exists g; auto using with_more_refl|exists g2; auto].
      * apply stops_done in H. subst w'. exists g2. split; [exact I|]. eapply Qe; eauto.
    + destruct E as [-> _]. exists g. split; [apply with_more_refl|].
      destruct (negb _); [apply stops_done in H; subst; eapply set_at_eq; eauto|].
      apply stops_bind in H. destruct H as [H|(x & w2 & E2 & H)].
      * destruct (Q w1 g Ew w' H) as [->|S]; auto.
      * apply stops_done in H. subst w'. eapply Qe; eauto.
  - intros o g' w' H. rewrite exec_bind in H. destruct (exec (p_mint_in _ _ _ _ _ _ _) w) as [[[o1 g1]|] w1] eqn:E; [|discriminate].
    rewrite wdoes_mint_in in E. apply mint_in_cases in E. destruct E as [Ew E]. destruct o1 as [t|].
    + destruct E as (_ & _ & _ & ->). set (late := if (_ =? 0)%Z then _ else _) in *. set (g2 := upd_newest late _) in *.
      assert (I : with_more g g2) by (exists [late t]; cbn; apply upd_last_app).
      rewrite exec_bind in H. destruct (exec (p_store _ _) w1) as [[x|] w2] eqn:E2; [|discriminate]. cbn [exec pret] in H. injection H as <- <- <-.
      split; [exact I|]. eapply Qe; eauto.
    + destruct E as [-> _]. destruct (negb _); [discriminate|].
      rewrite exec_bind in H. destruct (exec (p_store _ _) w1) as [[x|] w2] eqn:E2; [|discriminate]. cbn [exec pret] in H. injection H as <- <- <-.
      split; [apply with_more_refl|]. eapply Qe; eauto.
Qed.

Section Burnt.
  Variable sid_of : string -> result string.
  Variable cx : ctx.
  Variable idt : store -> string -> ST cdb string.
  Hypothesis Hsid : sids_ok sid_of.

  Lemma code_kept m1 m2 ir rq raw u c gid g t w w' :
    kinds_ok (w_db w) -> dget "code" rq = Some (VStr raw) -> leads sid_of (w_db w) (blank_to_plus raw) u c gid g ->
    get_token (blank_to_plus raw) g = Some t ->
    stops (p_code_process sid_of cx idt m1 m2 ir rq) w w' ->
    exists g', set_at u c gid g' (w_db w) (w_db w') /\ (forall v x, get_token v g = Some x -> v <> blank_to_plus raw -> get_token v g' = Some x) /\
      (get_token (blank_to_plus raw) g' = Some t \/ w_db w' = w_db (snd (exec (p_code_process sid_of cx idt m1 m2 ir rq) w))).
  Proof.
    intros Hk Er L T H. set (v := blank_to_plus raw) in *.
    assert (Hu : good u) by apply L. assert (Hc : good c) by apply L. assert (Hg : good gid) by apply L.
    assert (V : view (w_db w) [u; c; gid] = Some (EGrant g)) by apply L.
    assert (A0 := set_at_same u c gid g (w_db w) Hk V).
    assert (Start : forall w2, w_db w2 = w_db w -> forall P : Prop, exists g', set_at u c gid g' (w_db w) (w_db w2) /\
        (forall v0 x, get_token v0 g = Some x -> v0 <> v -> get_token v0 g' = Some x) /\ (get_token v g' = Some t \/ P)).
    { intros w2 D P. exists g. rewrite D. auto. }
    assert (More : forall g' s, with_more g g' -> set_at u c gid g' (w_db w) s -> forall P : Prop, exists g', set_at u c gid g' (w_db w) s /\
        (forall v0 x, get_token v0 g = Some x -> v0 <> v -> get_token v0 g' = Some x) /\ (get_token v g' = Some t \/ P)).
    { intros g' s M S P. exists g'. split; [exact S|]. split; [intros; eapply with_more_token; eauto|]. left. eapply with_more_token; eauto. }
    unfold p_code_process in *.
    destruct (msub_str "grant_type" rq) as [gt|]; cbn [pbind] in *; [|apply stops_done in H; subst; auto].
    destruct (negb _); [apply stops_done in H; subst; auto|]. destruct (negb _); [apply stops_done in H; subst; auto|].
    assert (Er' : msub_str "code" rq = Ok raw) by (unfold msub_str; now rewrite Er). rewrite Er' in *. cbn [pbind] in *. cbv zeta in *. fold v in H. fold v.
    apply stops_bind in H. destruct H as [H|(sg & w1 & E & H)]; [apply still_session_by in H; auto|].
    rewrite exec_bind, E. assert (X : sg = (session_key [u; c; gid], g) /\ w1 = w).
    { rewrite session_by_eq in E. destruct (in_db (session_by sid_of v) w) as [r w2] eqn:E2.
      apply (in_session_by sid_of Hsid) in E2. destruct E2 as [-> E2]. destruct r as [[i g0]|]; [|discriminate]. injection E as <- <-.
      destruct E2 as (a & b & d & (Ha & Hb & Hd & S & V2) & ->). destruct L as (_ & _ & _ & S' & _). rewrite S in S'. injection S' as S'.
      apply key_eq in S'; [|auto with gp|auto with gp]. injection S' as -> -> ->. cbn [in_sid]. split; congruence. }
    destruct X as [-> ->]. clear E. rewrite T in *.
    destruct (g_authreq g) as [ar|]; cbn [of_option pbind] in *; [|apply stops_done in H; subst; auto].
    assert (St : forall o : option val, still (match o with Some x => u' <~ Done (dsub "redirect_uri" rq) ;; pret (negb (val_eqb u' x)) | None => pret false end)%prog).
    { intros [x|]; [|apply still_done]. apply still_bind; [apply still_done|]. intros y. apply still_done. }
    apply stops_bind in H. destruct H as [H|(mm & w1 & E1 & H)]; [apply St in H; auto|]. rewrite exec_bind, E1. apply still_exec in E1; [|apply St].
    destruct mm; [apply stops_done in H; subst; auto|].
    assert (A1 : set_at u c gid g (w_db w) (w_db w1)) by (now rewrite E1).
    destruct (mint_at cx m1 u c gid g "access_token" (Some t) (w_db w) w1 Hu Hc Hg A1) as [P1 X1].
    apply stops_bind in H. destruct H as [H|([o g1] & w2 & E2 & H)]; [destruct (P1 _ H) as (g' & M & S); eauto|].
    rewrite exec_bind, E2. destruct (X1 _ _ _ E2) as [M1' A2]. clear P1 X1 E2.
    destruct o as [at_|]; cbn [of_option pbind] in *; [|apply stops_done in H; subst; eauto].
    set (mid := if match ir with Some b => b | None => smem "offline_access" (g_scope g) end then _ else _) in H.
    match goal with |- context [exec (pbind ?m ?k) w2] => change (exec (pbind m k) w2) with (exec (pbind mid k) w2) end.
    assert (Mid : forall w3, stops mid w2 w3 -> exists g', with_more g g' /\ set_at u c gid g' (w_db w) (w_db w3)).
    { intros w3 Y. subst mid. destruct (match ir with Some b => b | None => _ end); [|apply stops_done in Y; subst; eauto].
      destruct (mint_at cx m2 u c gid g1 "refresh_token" (Some t) (w_db w) w2 Hu Hc Hg A2) as [P2 X2].
      apply stops_bind in Y. destruct Y as [Y|([o' g2] & w4 & E4 & Y)].
      - destruct (P2 _ Y) as (g' & M & S). exists g'. split; [eapply with_more_trans; eauto|exact S].
      - destruct (X2 _ _ _ E4) as [M S]. exists g2. split; [eapply with_more_trans; eauto|].
        destruct o'; cbn [of_option pbind] in Y; apply stops_done in Y; now subst w3. }
    apply stops_bind in H. destruct H as [H|([g2 resp] & w3 & E3 & H)]; [destruct (Mid _ H) as (g' & M & S); eauto|].
    rewrite exec_bind, E3.
    assert (C3 : with_more g g2 /\ set_at u c gid g2 (w_db w) (w_db w3)).
    { subst mid. destruct (match ir with Some b => b | None => _ end); [|injection E3 as <- _ <-; auto].
      destruct (mint_at cx m2 u c gid g1 "refresh_token" (Some t) (w_db w) w2 Hu Hc Hg A2) as [P2 X2].
      rewrite exec_bind in E3. destruct (exec (p_mint _ _ _ _ _ _) w2) as [[[o' g2']|] w4] eqn:E4; [|discriminate].
      destruct (X2 _ _ _ eq_refl) as [M S]. destruct o' as [rt|]; cbn [of_option pbind exec pret] in E3; [|discriminate].
      injection E3 as <- _ <-. split; [eapply with_more_trans; eauto|exact S]. }
    destruct C3 as [M3 A3]. clear Mid E3. cbn [pbind pret] in *.
    unfold p_mset in *. rewrite unpack_good in * by auto with gp.
    assert (Hk3 : kinds_ok (w_db w3)) by apply A3. assert (V3 : view (w_db w3) [u; c; gid] = Some (EGrant g2)) by apply A3.
    set (g3 := upd_token v register_usage g2) in *.
    assert (A4 := set_at_dset _ _ u c gid g2 g3 Hu Hc Hg A3).
    assert (Fin : (forall v0 x, get_token v0 g = Some x -> v0 <> v -> get_token v0 g3 = Some x)).
    { intros v0 x E N. subst g3. apply (with_more_token g g2) in E; [|exact M3]. unfold get_token, upd_token in *. cbn [g_issued g_set_issued].
      revert E. generalize (g_issued g2). induction l as [|a l IH]; cbn -[String.eqb]; [discriminate|].
      destruct (String.eqb_spec (t_value a) v) as [Ev|Ev].
      - cbn -[String.eqb]. destruct (String.eqb_spec (t_value a) v0); [congruence|]. auto.
      - cbn -[String.eqb]. destruct (String.eqb (t_value a) v0); auto. }
    apply stops_bind in H. rewrite exec_bind. rewrite (exec_listed w3 u c gid _ g3 Hk3 Hu Hc Hg V3). destruct H as [H|(x & w4 & E4 & H)].
    { apply (stops_listed w3 w' u c gid _ g3 Hk3 Hu Hc Hg V3) in H. destruct H as [-> | ->]; [eauto|]. cbn [w_db].
      exists g3. split; [exact A4|]. split; [exact Fin|]. right.
      match goal with |- _ = w_db (snd (exec ?p ?w4)) => change (w_db w4 = w_db (snd (exec p w4))); assert (Z : still p); [|symmetry; eapply (still_exec p w4 (fst (exec p w4))); [exact Z|now destruct (exec p w4)]] end.
      destruct (dsub "scope" ar); cbn [pbind]; [|apply still_done]. destruct (val_in _ _) as [[|]|]; cbn [pbind]; [apply still_id_token|apply still_done|apply still_done]. }
    rewrite (exec_listed w3 u c gid _ g3 Hk3 Hu Hc Hg V3) in E4. injection E4 as _ <-.
    match type of H with stops ?p ?w4 _ => assert (Z : still p) end.
    { destruct (dsub "scope" ar); cbn [pbind]; [|apply still_done]. destruct (val_in _ _) as [[|]|]; cbn [pbind]; [apply still_id_token|apply still_done|apply still_done]. }
    assert (D := Z _ _ H). exists g3. rewrite D. split; [exact A4|]. split; [exact Fin|]. right.
    match goal with |- _ = w_db (snd (exec ?p ?w4)) => symmetry; eapply (still_exec p w4 (fst (exec p w4))); [exact Z|now destruct (exec p w4)] end.
  Qed.
End Burnt.

(** ** Logging in *)
Lemma same_views_sessions s s' : same_views s s' -> same_sessions s s'.
Proof. intros H u c g Hu Hc Hg. apply H. auto with gp. Qed.
Lemma same_sessions_trans a b c : same_sessions a b -> same_sessions b c -> same_sessions a c.
Proof. intros H1 H2 x y z Hx Hy Hz. rewrite H2, H1; auto. Qed.
Lemma same_sessions_refl s : same_sessions s s.
Proof. intros x y z _ _ _. reflexivity. Qed.

Definition p_have_user (u : string) : prog unit :=
  pcatch (p_read [u] ;~ pret tt)%prog is_key_error (p_store [u] (EInfo (UserSessionInfo (Some u)))).
Lemma stops_have_user u w w' : stops (p_have_user u) w w' ->
  w' = w \/ (dget u (w_db w) = None /\ w' = mkW (dset u (EInfo (UserSessionInfo (Some u))) (w_db w)) (w_cdb w)).
Proof.
  unfold p_have_user, p_read, p_sub. cbn [eval_path pbind pcatch]. intros H. apply stops_get in H. destruct H as [->|H]; [auto|].
  destruct (dget u (w_db w)) as [e|] eqn:E; cbn [of_option pbind pcatch is_key_error] in H; [apply stops_done in H; auto|].
  unfold p_store, p_get, pret in H. cbn [eval_path pbind tr str_or_empty] in H. apply stops_get in H. destruct H as [->|H]; [auto|].
  apply stops_put in H. destruct H as [->|H]; [auto|]. apply stops_done in H. auto.
Qed.
Lemma exec_have_user u w : exec (p_have_user u) w =
  (Ok tt, match dget u (w_db w) with Some _ => w | None => mkW (dset u (EInfo (UserSessionInfo (Some u))) (w_db w)) (w_cdb w) end).
Proof.
  unfold p_have_user, p_read, p_sub. cbn [eval_path pbind pcatch exec].
  destruct (dget u (w_db w)) as [e|] eqn:E; cbn [of_option pbind pcatch is_key_error exec pret]; [reflexivity|]. reflexivity.
Qed.
Lemma new_user_sessions s u : kinds_ok s -> good u -> stored s [u] = None ->
  let s' := dset u (EInfo (UserSessionInfo (Some u))) s in
  kinds_ok s' /\ (forall c, good c -> view s' [u; c] = None) /\ same_sessions s s'.
Proof.
  intros Hk Hu N s'. assert (St : forall q, good_path q -> stored s' q = if path_dec q [u] then Some (EInfo (UserSessionInfo (Some u))) else stored s q).
  { intros q Hq. apply (stored_dset1 u q _ s Hu Hq). }
  split; [apply (kinds_dset s [u]); cbn; auto with gp|]. split.
  - intros c Hc. rewrite view2, St by auto with gp. rewrite path_dec_refl. reflexivity.
  - intros a b d Ha Hb Hd. destruct (string_dec a u) as [->|Na].
    + rewrite !view3, !view2, St by auto with gp. rewrite path_dec_refl, N. reflexivity.
    + apply view_ext; [auto with gp|]. intros p Hp [r X]. rewrite St by assumption. destruct (path_dec p [u]) as [->|]; [|reflexivity].
      injection X as -> _. contradiction.
Qed.
(** putting an empty client record where none was seen *)
Definition lists (s : store) (u c : string) : bool := match stored s [u] with Some (EInfo ui) => smem c (si_sub ui) | _ => false end.
Lemma view2_lists s u c : view s [u; c] = if lists s u c then stored s [u; c] else None.
Proof. rewrite view2. unfold lists. destruct (stored s [u]) as [[ui|]|]; reflexivity. Qed.
Lemma fresh_client_sessions s s' u c : good u -> good c -> 
  (forall q, good_path q -> q <> [u] -> ~ is_prefix [u; c] q -> stored s' q = stored s q) ->
  (forall b, b <> c -> lists s' u b = lists s u b) ->
  view s [u; c] = None ->
  (view s' [u; c] = None \/ exists ci, view s' [u; c] = Some (EInfo ci) /\ si_sub ci = []) -> same_sessions s s'.
Proof.
  intros Hu Hc St Su V V' a b d Ha Hb Hd. destruct (path_dec [a; b] [u; c]) as [X|N].
  - injection X as -> ->. rewrite !view3, V. destruct V' as [->|(ci & -> & E)]; [reflexivity|]. now rewrite E.
  - destruct (string_dec a u) as [->|Na].
    + assert (Nb : b <> c) by congruence. rewrite !view3, !view2_lists.
      rewrite (St [u; b]), (St [u; b; d]), Su; auto with gp; try discriminate; intros [r X]; injection X as -> _; contradiction.
    + apply view_ext; [auto with gp|]. intros p Hp [r X]. apply St; [assumption| |].
      * intros ->. injection X as -> _. contradiction.
      * intros [r' ->]. injection X as -> _ _. contradiction.
Qed.
Lemma lists_listing s s' u c : kinds_ok s -> good u -> stored s' [u] = Some (EInfo (listing c (uopt s u))) -> forall b, b <> c -> lists s' u b = lists s u b.
Proof.
  intros Hk Hu E b N. unfold lists. rewrite E, smem_listing_neq by assumption. unfold uopt.
  destruct (stored s [u]) as [[ui|gr]|] eqn:S; [reflexivity| |reflexivity].
  specialize (Hk [u] _ (gp1 u Hu) S). discriminate.
Qed.
Lemma stops_new_client w w' u c : kinds_ok (w_db w) -> good u -> good c -> view (w_db w) [u; c] = None ->
  stops (p_store [u; c] (EInfo (ClientSessionInfo (Some c)))) w w' -> same_sessions (w_db w) (w_db w') /\ kinds_ok (w_db w').
Proof.
  intros Hk Hu Hc V H. destruct (stops_store2 w w' u c _ Hk Hu Hc H) as [_ D]. cbv zeta in D. set (s := w_db w) in *.
  set (i := ClientSessionInfo (Some c)) in *. set (s1 := dset (session_key [u; c]) (EInfo i) s) in *.
  assert (E1 : forall q, good_path q -> stored s1 q = if path_dec q [u; c] then Some (EInfo i) else stored s q).
  { intros q Hq. unfold s1. apply stored_dset; auto with gp. }
  assert (Hk1 : kinds_ok s1) by (apply kinds_dset; cbn; auto with gp).
  assert (E2 : forall q, good_path q -> stored (store_user s1 u c) q = if path_dec q [u] then Some (EInfo (listing c (uopt s1 u))) else stored s1 q).
  { intros q Hq. now apply stored_store_user. }
  assert (Uo : uopt s1 u = uopt s u).
  { unfold uopt. rewrite E1 by auto with gp. destruct (path_dec _ _); [discriminate|reflexivity]. }
  destruct D as [-> | [-> | ->]]; [auto using same_sessions_refl| |]; (split; [|auto using kinds_store_user]).
  - apply (fresh_client_sessions s s1 u c); auto.
    + intros q Hq N P. rewrite E1 by assumption. destruct (path_dec q [u; c]) as [->|]; [destruct P; now exists []|reflexivity].
    + intros b N. unfold lists. rewrite E1 by auto with gp. destruct (path_dec [u] [u; c]); [discriminate|reflexivity].
    + rewrite view2, !E1 by auto with gp. rewrite path_dec_refl. destruct (path_dec _ _); [discriminate|].
      destruct (stored s [u]) as [[ui|]|]; auto. destruct (smem c _); auto. right. exists i. auto.
  - apply (fresh_client_sessions s (store_user s1 u c) u c); auto.
    + intros q Hq N P. rewrite E2 by assumption. destruct (path_dec q [u]); [contradiction|]. rewrite E1 by assumption.
      destruct (path_dec q [u; c]) as [->|]; [destruct P; now exists []|reflexivity].
    + apply lists_listing; auto. rewrite E2 by auto with gp. now rewrite path_dec_refl, Uo.
    + right. exists i. split; [|reflexivity]. rewrite view2, !E2 by auto with gp. rewrite path_dec_refl. rewrite smem_listing.
      destruct (path_dec _ _); [discriminate|]. rewrite E1 by auto with gp. now rewrite path_dec_refl.
Qed.
Lemma exec_new_client w u c : kinds_ok (w_db w) -> good u -> good c -> 
  exists w1, exec (p_store [u; c] (EInfo (ClientSessionInfo (Some c)))) w = (Ok tt, w1).
Proof. intros Hk Hu Hc. rewrite exec_store2 by assumption. eauto. Qed.

Lemma create_session_eq clock newid authn ar u c sub rules scopes w : good c ->
  exec (p_create_session clock newid authn ar u c sub rules scopes) w =
  exec (p_have_user u ;~ p_store [u; c] (EInfo (ClientSessionInfo (Some c))) ;~ p_create_grant clock newid authn ar u c sub rules scopes)%prog w.
Proof. intros Hc. unfold p_create_session. rewrite (good_tr c Hc). reflexivity. Qed.
Lemma first_login clock newid authn ar u c sub rules scopes w :
  kinds_ok (w_db w) -> good u -> good c -> good newid -> view (w_db w) [u; c] = None ->
  sessions_all_or_nothing (p_create_session clock newid authn ar u c sub rules scopes) w.
Proof.
  intros Hk Hu Hc Hg V w' H. rewrite create_session_eq by assumption.
  unfold p_create_session in H. rewrite (good_tr c Hc) in H. cbn [pbind pret] in H. fold (p_have_user u) in H.
  assert (P1 : forall w1, stops (p_have_user u) w w1 -> kinds_ok (w_db w1) /\ view (w_db w1) [u; c] = None /\ same_sessions (w_db w) (w_db w1)).
  { intros w1 Y. apply stops_have_user in Y. destruct Y as [->|[N ->]]; [auto using same_sessions_refl|]. cbn [w_db].
    destruct (new_user_sessions (w_db w) u Hk Hu N) as (A & B & C). auto. }
  apply stops_bind in H. destruct H as [H|(x & w1 & E1 & H)]; [left; now apply P1|]. rewrite exec_bind, E1.
  destruct (P1 w1) as (Hk1 & V1 & S1); [assert (Z := stops_end (p_have_user u) w); now rewrite E1 in Z|].
  apply stops_bind in H. destruct H as [H|(y & w2 & E2 & H)].
  { left. apply stops_new_client in H; auto. eapply same_sessions_trans; [exact S1|apply H]. }
  rewrite exec_bind, E2. destruct (stops_new_client w1 w2 u c Hk1 Hu Hc V1) as [S2 Hk2].
  { assert (Z := stops_end (p_store [u; c] (EInfo (ClientSessionInfo (Some c)))) w1). now rewrite E2 in Z. }
  assert (A : all_or_nothing (p_create_grant clock newid authn ar u c sub rules scopes) w2).
  { unfold p_create_grant. destruct sub as [z|e]; cbn [pbind]; [|apply atomic_done]. apply (atomic_then _ (fun _ => Ok _)). now apply atomic_store3. }
  destruct (A w' H) as [R|R]; [left|right; now apply same_views_sessions].
  eapply same_sessions_trans; [exact S1|]. eapply same_sessions_trans; [exact S2|]. now apply same_views_sessions.
Qed.

(** again at the same client: the record of the client is emptied first *)
Lemma login_again clock newid authn ar u c x rules scopes w :
  kinds_ok (w_db w) -> good u -> good c -> good newid -> view (w_db w) [u; c] <> None ->
  let p := p_create_session clock newid authn ar u c (Ok x) rules scopes in
  (exists w', stops p w w' /\ forall g, good g -> view (w_db w') [u; c; g] = None) /\
  view (w_db (snd (exec p w))) [u; c; newid] <> None.
Proof.
  intros Hk Hu Hc Hg V p. subst p.
  assert (Vu : exists ui, stored (w_db w) [u] = Some (EInfo ui) /\ smem c (si_sub ui) = true).
  { rewrite view2 in V. destruct (stored (w_db w) [u]) as [[ui|]|]; try contradiction. destruct (smem c (si_sub ui)) eqn:L; [eauto|contradiction]. }
  destruct Vu as (ui & Su & Lc).
  assert (E1 : exec (p_have_user u) w = (Ok tt, w)).
  { rewrite exec_have_user. change (dget u (w_db w)) with (stored (w_db w) [u]). now rewrite Su. }
  set (i := ClientSessionInfo (Some c)). set (s1 := dset (session_key [u; c]) (EInfo i) (w_db w)).
  assert (St : forall q, good_path q -> stored s1 q = if path_dec q [u; c] then Some (EInfo i) else stored (w_db w) q).
  { intros q Hq. unfold s1. apply stored_dset; auto with gp. }
  assert (Hk1 : kinds_ok s1) by (apply kinds_dset; cbn; auto with gp).
  assert (E2 : exec (p_store [u; c] (EInfo i)) w = (Ok tt, mkW s1 (w_cdb w))).
  { rewrite exec_store2 by assumption. fold s1. unfold store_user, uopt. rewrite St by auto with gp. destruct (path_dec _ _); [discriminate|].
    rewrite Su. cbn [info_or]. now rewrite Lc. }
  assert (W : forall B (k : unit -> unit -> prog B) w', stops (k tt tt) (mkW s1 (w_cdb w)) w' ->
    stops (a <~ p_have_user u ;; b <~ p_store [u; c] (EInfo i) ;; k a b)%prog w w').
  { intros B k w' H. eapply stops_then; [exact E1|]. eapply stops_then; [exact E2|]. exact H. }
  split.
  - exists (mkW s1 (w_cdb w)). split.
    + unfold p_create_session. rewrite (good_tr c Hc). cbn [pbind pret]. fold (p_have_user u).
      apply (W _ (fun _ _ => p_create_grant clock newid authn ar u c (Ok x) rules scopes)). apply stops_refl.
    + intros g Hg'. cbn [w_db]. rewrite view3, view2, !St by auto with gp. rewrite path_dec_refl. destruct (path_dec _ _); [discriminate|]. rewrite Su, Lc. reflexivity.
  - rewrite create_session_eq by assumption. rewrite exec_bind, E1, exec_bind. fold i. rewrite E2. unfold p_create_grant. cbn [pbind].
    rewrite exec_bind, exec_store3 by assumption. cbn [exec pret snd w_db].
    set (gr := new_grant _ _ _ _ _ _ _). set (s2 := dset _ _ s1).
    assert (Hk2 : kinds_ok s2) by (apply kinds_dset; auto with gp).
    rewrite view3, view2. rewrite !stored_store_user by auto using kinds_store_client with gp. rewrite path_dec_refl, smem_listing.
    destruct (path_dec _ _); [discriminate|]. rewrite stored_store_client by auto with gp. rewrite path_dec_refl, smem_listing.
    destruct (path_dec _ _); [discriminate|]. rewrite stored_store_client by auto with gp. destruct (path_dec _ _); [discriminate|].
    unfold s2. rewrite stored_dset by auto with gp. rewrite path_dec_refl. discriminate.
Qed.

(** ** Removing *)
Section Removing.
  Variables (u c g : string) (s : store) (d : cdb) (ui ci : sinfo).
  Hypothesis Hu : good u.
  Hypothesis Hc : good c.
  Hypothesis Hg : good g.
  Hypothesis Su : stored s [u] = Some (EInfo ui).
  Hypothesis Lc : smem c (si_sub ui) = true.
  Hypothesis Sc : stored s [u; c] = Some (EInfo ci).
  Hypothesis Lg : smem g (si_sub ci) = true.

  Definition gone1 : store := ddel (session_key [u; c; g]) s.                  (* the grant is deleted *)
  Definition gone2 : store := ddel (session_key [u; c]) gone1.                 (* and the client record *)
  Definition gone2' : store := dset c (EInfo (with_sub (sremove g (si_sub ci)) ci)) gone1.   (* database.py:132 *)
  Definition gone3 : store :=
    if is_nil (sremove c (si_sub ui)) then ddel u gone2 else dset u (EInfo (with_sub (sremove c (si_sub ui)) ui)) gone2.
  Definition gone3' : store := dset u (EInfo ui) gone2'.

  Lemma st1 q : good_path q -> stored gone1 q = if path_dec q [u; c; g] then None else stored s q.
  Proof. intros Hq. apply stored_ddel; auto with gp. Qed.
  Lemma st2 q : good_path q -> stored gone2 q = if path_dec q [u; c] then None else stored gone1 q.
  Proof. intros Hq. apply stored_ddel; auto with gp. Qed.
  Lemma st2' q : good_path q -> stored gone2' q = if path_dec q [c] then Some (EInfo (with_sub (sremove g (si_sub ci)) ci)) else stored gone1 q.
  Proof. intros Hq. apply (stored_dset1 c q _ gone1 Hc Hq). Qed.
  Lemma st3 q : good_path q -> stored gone3 q =
    if path_dec q [u] then if is_nil (sremove c (si_sub ui)) then None else Some (EInfo (with_sub (sremove c (si_sub ui)) ui)) else stored gone2 q.
  Proof.
    intros Hq. unfold gone3. destruct (is_nil _); [exact (stored_ddel1 u q gone2 Hu Hq)|exact (stored_dset1 u q _ gone2 Hu Hq)].
  Qed.
  Lemma st3' q : good_path q -> stored gone3' q = if path_dec q [u] then Some (EInfo ui) else stored gone2' q.
  Proof. intros Hq. exact (stored_dset1 u q _ gone2' Hu Hq). Qed.

  Lemma dmem_stored s' q : stored s' q <> None -> dmem (session_key q) s' = true.
  Proof. unfold dmem, stored. destruct (dget (session_key q) s'); [reflexivity|contradiction]. Qed.
  Lemma dmem_u s' : stored s' [u] <> None -> dmem u s' = true.
  Proof. exact (dmem_stored s' [u]). Qed.

  (** what is left of the call once the grant is deleted *)
  Definition rest : prog unit :=
    if is_nil (sremove g (si_sub ci)) then
      Del (session_key [u; c]) (fun b => if b then
        (if is_nil (sremove c (si_sub ui)) then Del u (fun b => if b then pret tt else praise EKey)
         else Put u (EInfo (with_sub (sremove c (si_sub ui)) ui)) (pret tt)) else praise EKey)
    else Put c (EInfo (with_sub (sremove g (si_sub ci)) ci)) (if is_nil (si_sub ui) then Del u (fun b => if b then pret tt else praise EKey) else Put u (EInfo ui) (pret tt)).
  Lemma not_nil_ui : is_nil (si_sub ui) = false.
  Proof. destruct (si_sub ui); [discriminate Lc|reflexivity]. Qed.
  Lemma stops_rest w' : stops rest (mkW gone1 d) w' ->
    w_cdb w' = d /\ if is_nil (sremove g (si_sub ci)) then w_db w' = gone1 \/ w_db w' = gone2 \/ w_db w' = gone3
    else w_db w' = gone1 \/ w_db w' = gone2' \/ w_db w' = gone3'.
  Proof.
    unfold rest. rewrite not_nil_ui. destruct (is_nil (sremove g (si_sub ci))) eqn:N; intros H.
    - apply stops_del in H. destruct H as [->|H]; [cbn; auto|]. cbn [w_db w_cdb] in H.
      rewrite dmem_stored in H by (rewrite st1 by auto with gp; destruct (path_dec _ _); [discriminate|now rewrite Sc]). fold gone2 in H.
      unfold gone3. destruct (is_nil (sremove c (si_sub ui))).
      + apply stops_del in H. destruct H as [->|H]; [cbn; auto|]. cbn [w_db w_cdb] in H. destruct (dmem u gone2); apply stops_done in H; subst; cbn; auto.
      + apply stops_put in H. destruct H as [->|H]; [cbn; auto|]. cbn [w_db w_cdb] in H. apply stops_done in H; subst; cbn; auto.
    - apply stops_put in H. destruct H as [->|H]; [cbn; auto|]. cbn [w_db w_cdb] in H. fold gone2' in H.
      apply stops_put in H. destruct H as [->|H]; [cbn; auto|]. cbn [w_db w_cdb] in H. apply stops_done in H; subst; cbn; auto.
  Qed.
  Lemma exec_rest : exec rest (mkW gone1 d) = (Ok tt, mkW (if is_nil (sremove g (si_sub ci)) then gone3 else gone3') d).
  Proof.
    unfold rest. rewrite not_nil_ui. destruct (is_nil (sremove g (si_sub ci))) eqn:N; cbn [exec w_db w_cdb].
    - rewrite dmem_stored by (rewrite st1 by auto with gp; destruct (path_dec _ _); [discriminate|now rewrite Sc]). fold gone2.
      unfold gone3. destruct (is_nil (sremove c (si_sub ui))); cbn [exec pret w_db w_cdb]; [|reflexivity].
      rewrite dmem_u; [reflexivity|]. rewrite st2 by auto with gp. destruct (path_dec _ _); [discriminate|].
      rewrite st1 by auto with gp. destruct (path_dec _ _); [discriminate|]. now rewrite Su.
    - reflexivity.
  Qed.
  (** the call from any store with these records *)
  Lemma delete_shape s' w' : stored s' [u] = Some (EInfo ui) -> stored s' [u; c] = Some (EInfo ci) ->
    stops (p_remove_session (session_key [u; c; g])) (mkW s' d) w' ->
    w' = mkW s' d \/ stops rest (mkW (ddel (session_key [u; c; g]) s') d) w'.
  Proof.
    intros Su' Sc' H. unfold p_remove_session, p_delete in H. rewrite unpack3_good in H by assumption.
    cbn [pbind eval_path tr str_or_empty p_get] in H. rewrite (good_tr c Hc), (good_tr g Hg) in H. unfold p_get, pret in H. cbn [pbind] in H.
    apply stops_get in H. destruct H as [->|H]; [auto|]. cbn [w_db] in H.
    change (dget u s') with (stored s' [u]) in H. rewrite Su' in H. cbn [subordinate pbind] in H. rewrite Lc in H. cbn [pbind] in H.
    apply stops_get in H. destruct H as [->|H]; [auto|]. cbn [w_db] in H.
    change (dget (session_key [u; c]) s') with (stored s' [u; c]) in H. rewrite Sc' in H. cbn [subordinate pbind] in H. rewrite Lg in H.
    unfold p_del at 1 in H. cbn [pcatch pbind] in H. apply stops_del in H. destruct H as [->|H]; [auto|]. right. cbn [w_db w_cdb] in H. unfold rest.
    destruct (dmem (session_key [u; c; g]) s'); cbn [pret praise pcatch pbind is_key_error] in H;
      (destruct (is_nil (sremove g (si_sub ci))) eqn:N; cbn [pret pbind p_del p_set set_subordinate subordinate] in H;
        [unfold p_del in H at 1; cbn [pbind] in H|exact H]).
    - apply stops_del in H. destruct H as [->|H]; [apply stops_refl|]. cbn [w_db w_cdb] in H. eapply stops_more; [reflexivity|]. cbn [w_db w_cdb].
      destruct (dmem (session_key [u; c]) _); exact H.
    - apply stops_del in H. destruct H as [->|H]; [apply stops_refl|]. cbn [w_db w_cdb] in H. eapply stops_more; [reflexivity|]. cbn [w_db w_cdb].
      destruct (dmem (session_key [u; c]) _); exact H.
  Qed.
  Lemma delete_exec s' : stored s' [u] = Some (EInfo ui) -> stored s' [u; c] = Some (EInfo ci) ->
    exec (p_remove_session (session_key [u; c; g])) (mkW s' d) = exec rest (mkW (ddel (session_key [u; c; g]) s') d).
  Proof.
    intros Su' Sc'. unfold p_remove_session, p_delete. rewrite unpack3_good by assumption.
    cbn [pbind eval_path tr str_or_empty p_get]. rewrite (good_tr c Hc), (good_tr g Hg). unfold p_get, pret. cbn [pbind exec w_db].
    change (dget u s') with (stored s' [u]). rewrite Su'. cbn [subordinate pbind]. rewrite Lc. cbn [pbind exec w_db].
    change (dget (session_key [u; c]) s') with (stored s' [u; c]). rewrite Sc'. cbn [subordinate pbind]. rewrite Lg.
    unfold p_del at 1. cbn [pcatch pbind exec w_db w_cdb]. unfold rest.
    destruct (dmem (session_key [u; c; g]) s'); cbn [pret praise pcatch pbind is_key_error];
      (destruct (is_nil (sremove g (si_sub ci))) eqn:N; cbn [pret pbind p_set set_subordinate subordinate];
        [unfold p_del at 1; cbn [pbind exec w_db w_cdb]; destruct (dmem (session_key [u; c]) _); reflexivity|reflexivity]).
  Qed.

  (** sessions in the states of the call *)
  Lemma last_one x l : is_nil (sremove x l) = true -> smem x l = true -> l = [x].
  Proof.
    destruct l as [|y l]; [discriminate|]. cbn -[String.eqb]. destruct (String.eqb_spec x y) as [->|N]; [|discriminate].
    destruct l; [reflexivity|discriminate].
  Qed.
  Notation as_gone := (as_gone u c g s).
  Ltac paths := repeat (destruct (path_dec _ _) as [?|?]; try discriminate; try congruence).
  Lemma hidden_none s' : (exists g', stored s' [u; c; g] = g' /\ g' = None) -> view s' [u; c; g] = None.
  Proof. intros (g' & E & ->). rewrite view3. rewrite E. destruct (view s' [u; c]) as [[i|]|]; auto. now destruct (smem g (si_sub i)). Qed.
  Lemma gone1_sessions : as_gone gone1.
  Proof.
    split.
    - apply hidden_none. eexists. split; [reflexivity|]. rewrite st1 by auto with gp. now rewrite path_dec_refl.
    - intros a b x Ha Hb Hx N Nc. rewrite !view3, !view2, !st1 by auto with gp. paths; try reflexivity.
  Qed.
  Lemma stored_g : forall s', s' = gone2 \/ s' = gone3 \/ s' = gone2' \/ s' = gone3' -> stored s' [u; c; g] = None.
  Proof.
    intros s' [-> | [-> | [-> | ->]]]; rewrite ?st3, ?st3', ?st2, ?st2' by auto with gp; paths;
      rewrite ?st2, ?st2' by auto with gp; paths; rewrite st1 by auto with gp; now rewrite path_dec_refl.
  Qed.
  Lemma gone2_sessions : is_nil (sremove g (si_sub ci)) = true -> as_gone gone2.
  Proof.
    intros N. split; [apply hidden_none; eexists; split; [reflexivity|apply stored_g; auto]|]. apply last_one in N; [|exact Lg].
    intros a b x Ha Hb Hx Nq Nc. rewrite !view3, !view2. destruct (path_dec [a; b] [u; c]) as [E|Nab].
    - injection E as -> ->. rewrite st2 by auto with gp. paths. rewrite st1 by auto with gp. paths. rewrite Su, Lc.
      rewrite (st2 [u; c]) by auto with gp. rewrite path_dec_refl, Sc, N. cbn -[String.eqb smem].
      destruct (smem x [g]) eqn:X; [|reflexivity]. apply smem_In in X. destruct X as [<-|[]]. contradiction.
    - rewrite !st2 by auto with gp. paths. rewrite !st1 by auto with gp. paths; try reflexivity.
  Qed.
  Lemma gone3_sessions : is_nil (sremove g (si_sub ci)) = true -> as_gone gone3.
  Proof.
    intros N. split; [apply hidden_none; eexists; split; [reflexivity|apply stored_g; auto]|].
    intros a b x Ha Hb Hx Nq Nc. rewrite <- (proj2 (gone2_sessions N) a b x) by assumption.
    destruct (string_dec a u) as [->|Na].
    - rewrite !view3, !view2_lists. assert (L : b <> c -> lists gone3 u b = lists gone2 u b).
      { intros Nb. unfold lists. rewrite st3 by auto with gp. rewrite path_dec_refl. rewrite st2 by auto with gp. paths. rewrite st1 by auto with gp. paths. rewrite Su.
        destruct (is_nil (sremove c (si_sub ui))) eqn:Nu.
        - apply last_one in Nu; [|exact Lc]. rewrite Nu. symmetry. apply smem_false. intros [X|[]]. congruence.
        - cbn [si_sub with_sub]. symmetry. symmetry. now apply smem_sremove_neq. }
      rewrite !st3 by auto with gp. paths. destruct (string_dec b c) as [->|Nb].
      + rewrite !(st2 [u; c]) by auto with gp. rewrite path_dec_refl. destruct (lists gone3 u c), (lists gone2 u c); reflexivity.
      + rewrite L by assumption. reflexivity.
    - rewrite !view3, !view2, !st3 by auto with gp. paths; try reflexivity.
  Qed.
  Lemma gone2'_sessions : as_gone gone2'.
  Proof.
    split; [apply hidden_none; eexists; split; [reflexivity|apply stored_g; auto]|].
    intros a b x Ha Hb Hx Nq Nc. rewrite <- (proj2 gone1_sessions a b x) by assumption. rewrite !view3, !view2, !st2' by auto with gp. paths; try reflexivity.
  Qed.
  Lemma gone3'_sessions : as_gone gone3'.
  Proof.
    split; [apply hidden_none; eexists; split; [reflexivity|apply stored_g; auto]|].
    intros a b x Ha Hb Hx Nq Nc. rewrite <- (proj2 gone2'_sessions a b x) by assumption. destruct (string_dec a u) as [->|Na].
    - assert (E : stored gone3' [u] = stored gone2' [u]).
      { rewrite st3' by auto with gp. rewrite path_dec_refl. rewrite st2' by auto with gp. paths. rewrite st1 by auto with gp. paths. }
      rewrite !view3, !view2, E, !st3' by auto with gp. paths; try reflexivity.
    - rewrite !view3, !view2, !st3' by auto with gp. paths; try reflexivity.
  Qed.
  Lemma removing w' : stops (p_remove_session (session_key [u; c; g])) (mkW s d) w' -> w' = mkW s d \/ as_gone (w_db w').
  Proof.
    intros H. apply delete_shape in H; [|exact Su|exact Sc]. destruct H as [->|H]; [auto|]. right. apply stops_rest in H. destruct H as [_ H].
    destruct (is_nil (sremove g (si_sub ci))) eqn:N; destruct H as [-> | [-> | ->]];
      auto using gone1_sessions, gone2_sessions, gone3_sessions, gone2'_sessions, gone3'_sessions.
  Qed.
  Lemma removed : exists w', exec (p_remove_session (session_key [u; c; g])) (mkW s d) = (Ok tt, w') /\ as_gone (w_db w').
  Proof.
    rewrite (delete_exec s Su Sc). fold gone1. rewrite exec_rest. eexists. split; [reflexivity|]. cbn [w_db].
    destruct (is_nil _) eqn:N; auto using gone3_sessions, gone3'_sessions.
  Qed.
End Removing.

Lemma as_gone_trans u c g a b b' : as_gone u c g a b -> as_gone u c g b b' -> as_gone u c g a b'.
Proof. intros [_ H1] [V H2]. split; [exact V|]. intros x y z Hx Hy Hz N Nc. rewrite H2, H1; auto. Qed.
Lemma as_gone_stored u c g a b b' : good u -> good c -> good g -> as_gone u c g a b -> (forall q, good_path q -> stored b' q = stored b q) -> as_gone u c g a b'.
Proof.
  intros Hu Hc Hg [V H] E. assert (S := same_views_stored b b' E). split; [rewrite S by auto with gp; exact V|].
  intros x y z Hx Hy Hz N Nc. rewrite S by auto with gp. auto.
Qed.
(** doing it again where nothing is seen of the client *)
Lemma remove_noop u c g w : good u -> good c -> good g -> kinds_ok (w_db w) -> view (w_db w) [u; c] = None ->
  exists w', exec (p_remove_session (session_key [u; c; g])) w = (Ok tt, w') /\ forall q, good_path q -> stored (w_db w') q = stored (w_db w) q.
Proof.
  intros Hu Hc Hg Hk V. rewrite does_remove_session. unfold in_db, remove_session, bind, lift. rewrite unpack3_good by assumption.
  destruct (delete3_noop false (w_db w) u c g Hu Hc Hg Hk V) as (s' & -> & E). eexists. split; [reflexivity|]. exact E.
Qed.
Lemma remove_again u c g w w' e : good u -> good c -> good g -> u <> c -> kinds_ok (w_db w) -> view (w_db w) [u; c; g] = Some e ->
  stops (p_remove_session (session_key [u; c; g])) w w' ->
  exists w2, exec (p_remove_session (session_key [u; c; g])) w' = (Ok tt, w2) /\ as_gone u c g (w_db w) (w_db w2).
Proof.
  intros Hu Hc Hg Nuc Hk V H. destruct (listed_by _ u c g e V) as (ui & ci & Su & Lc & Sc & Lg & _).
  destruct w as [s d]. cbn [w_db] in *.
  assert (Again : forall s', stored s' [u] = Some (EInfo ui) -> stored s' [u; c] = Some (EInfo ci) -> (s' = s \/ as_gone u c g s s') ->
     exists w2, exec (p_remove_session (session_key [u; c; g])) (mkW s' d) = (Ok tt, w2) /\ as_gone u c g s (w_db w2)).
  { intros s' Su' Sc' A. destruct (removed u c g s' d ui ci Hu Hc Hg Su' Lc Sc' Lg) as (w2 & E & G). exists w2. split; [exact E|].
    destruct A as [->|A]; [exact G|eapply as_gone_trans; eauto]. }
  assert (Noop : forall s', kinds_ok s' -> view s' [u; c] = None -> as_gone u c g s s' ->
     exists w2, exec (p_remove_session (session_key [u; c; g])) (mkW s' d) = (Ok tt, w2) /\ as_gone u c g s (w_db w2)).
  { intros s' Hk' V' A. destruct (remove_noop u c g (mkW s' d) Hu Hc Hg Hk' V') as (w2 & E & St). exists w2. split; [exact E|].
    eapply as_gone_stored; eauto. }
  assert (N1 : forall q, (length q < 3)%nat -> q <> [u; c; g]) by (intros q L ->; cbn in L; lia).
  assert (S1u : stored (gone1 u c g s) [u] = Some (EInfo ui)) by (rewrite (st1 u c g s Hu Hc Hg) by auto with gp; destruct (path_dec _ _); [discriminate|exact Su]).
  assert (S1c : stored (gone1 u c g s) [u; c] = Some (EInfo ci)) by (rewrite (st1 u c g s Hu Hc Hg) by auto with gp; destruct (path_dec _ _); [discriminate|exact Sc]).
  assert (K1 : kinds_ok (gone1 u c g s)) by (apply kinds_ddel; auto with gp).
  assert (K2 : kinds_ok (gone2 u c g s)) by (apply kinds_ddel; auto with gp).
  apply (delete_shape u c g d ui ci Hu Hc Hg Lc Lg s w' Su Sc) in H. 
  destruct H as [->|H]; [auto|]. apply (stops_rest u c g s d ui ci Hu Hc Hg Lc Sc) in H. destruct H as [Ed H].
  destruct w' as [s' d']. cbn [w_db w_cdb] in *. subst d'.
  destruct (is_nil (sremove g (si_sub ci))) eqn:N; destruct H as [-> | [-> | ->]].
  - apply Again; auto. right. now apply gone1_sessions.
  - apply Noop; auto; [|eapply gone2_sessions; eauto].
    rewrite view2. rewrite (st2 u c g s Hu Hc) by auto with gp. destruct (path_dec _ _); [discriminate|]. rewrite S1u, Lc.
    rewrite (st2 u c g s Hu Hc) by auto with gp. now rewrite path_dec_refl.
  - apply Noop; [| |eapply gone3_sessions; eauto].
    + unfold gone3. destruct (is_nil (sremove c (si_sub ui))); [exact (kinds_ddel _ [u] K2 (gp1 u Hu))|]. apply (kinds_dset _ [u] _ K2 (gp1 u Hu)). cbn. lia.
    + rewrite view2_lists. rewrite (st3 u c g s ui Hu) by auto with gp. destruct (path_dec _ _); [discriminate|].
      rewrite (st2 u c g s Hu Hc) by auto with gp. rewrite path_dec_refl. destruct (lists _ _ _); reflexivity.
  - apply Again; auto. right. now apply gone1_sessions.
  - apply Again; [| |right; eapply gone2'_sessions; eauto]; rewrite (st2' u c g s ci Hc) by auto with gp; destruct (path_dec _ _); try congruence; assumption.
  - apply Again; [| |right; eapply gone3'_sessions; eauto]; rewrite (st3' u c g s ui ci Hu) by auto with gp; rewrite ?path_dec_refl; try reflexivity.
    destruct (path_dec _ _); [discriminate|]. rewrite (st2' u c g s ci Hc) by auto with gp. destruct (path_dec _ _); [discriminate|]. exact S1c.
Qed.

Lemma iter_inv {A} (P : A -> Prop) f x n : P x -> (forall y, P y -> P (f y)) -> P (Nat.iter n f x).
Proof. intros H S1. induction n as [|n IH]; [exact H|apply S1, IH]. Qed.
(** the only session of the only client: stopped before the user record is written, the removal never ends *)
Lemma left_user u c g w ui ci : good u -> good c -> good g -> kinds_ok (w_db w) ->
  stored (w_db w) [u] = Some (EInfo ui) -> stored (w_db w) [u; c] = Some (EInfo ci) -> si_sub ui = [c] -> si_sub ci = [g] ->
  let p := p_remove_session (session_key [u; c; g]) in
  view (w_db (snd (exec p w))) [u] = None /\
  exists w', stops p w w' /\ forall n, view (w_db (Nat.iter n (fun w => snd (exec p w)) w')) [u] = Some (EInfo ui).
Proof.
  intros Hu Hc Hg Hk Su Sc Lu Lc p. destruct w as [s d]. cbn [w_db] in *.
  assert (L1 : smem c (si_sub ui) = true) by (rewrite Lu; apply smem_In; left; reflexivity).
  assert (L2 : smem g (si_sub ci) = true) by (rewrite Lc; apply smem_In; left; reflexivity).
  assert (N1 : is_nil (sremove g (si_sub ci)) = true) by (rewrite Lc; cbn -[String.eqb]; now rewrite String.eqb_refl).
  assert (N2 : is_nil (sremove c (si_sub ui)) = true) by (rewrite Lu; cbn -[String.eqb]; now rewrite String.eqb_refl).
  subst p. split.
  - rewrite (delete_exec u c g d ui ci Hu Hc Hg L1 L2 s Su Sc). change (ddel (session_key [u; c; g]) s) with (gone1 u c g s).
    rewrite (exec_rest u c g s d ui ci Hu Hc Hg Su L1 Sc), N1. cbn [snd w_db]. rewrite view1, (st3 u c g s ui Hu) by auto with gp. now rewrite path_dec_refl, N2.
  - exists (mkW (gone2 u c g s) d). split.
    + unfold p_remove_session, p_delete. rewrite unpack3_good by assumption.
      cbn [pbind eval_path tr str_or_empty p_get]. rewrite (good_tr c Hc), (good_tr g Hg). unfold p_get, pret. cbn [pbind].
      eapply stops_more; [reflexivity|]. cbn [w_db]. change (dget u s) with (stored s [u]). rewrite Su. cbn [subordinate pbind]. rewrite L1. cbn [pbind].
      eapply stops_more; [reflexivity|]. cbn [w_db]. change (dget (session_key [u; c]) s) with (stored s [u; c]). rewrite Sc. cbn [subordinate pbind]. rewrite L2.
      unfold p_del at 1. cbn [pcatch pbind]. eapply stops_more; [reflexivity|]. cbn [w_db w_cdb].
      destruct (dmem (session_key [u; c; g]) s); cbn [pret praise pcatch pbind is_key_error]; rewrite N1; unfold p_del at 1; cbn [pbind];
        (eapply stops_more; [reflexivity|]; apply stops_refl).
    + intros n. rewrite view1.
      refine (proj1 (proj2 (iter_inv (fun w' => kinds_ok (w_db w') /\ stored (w_db w') [u] = Some (EInfo ui) /\ stored (w_db w') [u; c] = None) _ _ n _ _))).
      * cbn [w_db]. split; [apply kinds_ddel; [apply kinds_ddel; auto with gp|auto with gp]|]. 
        rewrite !(st2 u c g s Hu Hc) by auto with gp. rewrite path_dec_refl. destruct (path_dec _ _); [discriminate|]. 
        rewrite (st1 u c g s Hu Hc Hg) by auto with gp. destruct (path_dec _ _); [discriminate|]. auto.
      * intros w' (K & A & B).
        assert (V : view (w_db w') [u; c] = None) by (rewrite view2, A, L1; exact B).
        destruct (remove_noop u c g w' Hu Hc Hg K V) as (w2 & E & St). rewrite E. cbn [snd].
        split; [eapply kinds_stored_ext; eauto|]. rewrite !St by auto with gp. auto.
Qed.

(** ** Deleting all sessions at a client *)
Lemma delete_stuck u c g1 more w ui ci : good u -> good c -> good g1 ->
  stored (w_db w) [u] = Some (EInfo ui) -> smem c (si_sub ui) = true -> stored (w_db w) [u; c] = Some (EInfo ci) -> si_sub ci = g1 :: more ->
  stored (w_db w) [u; c; g1] <> None ->
  exists w', stops (p_delete [u; c]) w w' /\ exec (p_delete [u; c]) w' = (Raise EKey, w') /\
    forall g, good g -> g <> g1 -> view (w_db w') [u; c; g] = view (w_db w) [u; c; g].
Proof.
  intros Hu Hc Hg Su L1 Sc Lc Sg. destruct w as [s d]. cbn [w_db] in *. exists (mkW (gone1 u c g1 s) d).
  assert (S1u : stored (gone1 u c g1 s) [u] = Some (EInfo ui)) by (rewrite (st1 u c g1 s Hu Hc Hg) by auto with gp; destruct (path_dec _ _); [discriminate|exact Su]).
  assert (S1c : stored (gone1 u c g1 s) [u; c] = Some (EInfo ci)) by (rewrite (st1 u c g1 s Hu Hc Hg) by auto with gp; destruct (path_dec _ _); [discriminate|exact Sc]).
  assert (S1g : stored (gone1 u c g1 s) [u; c; g1] = None) by (rewrite (st1 u c g1 s Hu Hc Hg) by auto with gp; now rewrite path_dec_refl).
  split; [|split].
  - unfold p_delete. cbn [pbind eval_path tr str_or_empty p_get]. rewrite (good_tr c Hc). unfold p_get, pret. cbn [pbind].
    eapply stops_more; [reflexivity|]. cbn [w_db]. change (dget u s) with (stored s [u]). rewrite Su. cbn [subordinate pbind]. rewrite L1. cbn [pbind].
    eapply stops_more; [reflexivity|]. cbn [w_db]. change (dget (session_key [u; c]) s) with (stored s [u; c]). rewrite Sc. cbn [subordinate pbind]. rewrite Lc.
    cbn [p_iter]. unfold p_del at 1. cbn [pbind]. eapply stops_more; [reflexivity|]. apply stops_refl.
  - unfold p_delete. cbn [pbind eval_path tr str_or_empty p_get]. rewrite (good_tr c Hc). unfold p_get, pret. cbn [pbind exec w_db].
    change (dget u (gone1 u c g1 s)) with (stored (gone1 u c g1 s) [u]). rewrite S1u. cbn [subordinate pbind]. rewrite L1. cbn [pbind exec w_db].
    change (dget (session_key [u; c]) (gone1 u c g1 s)) with (stored (gone1 u c g1 s) [u; c]). rewrite S1c. cbn [subordinate pbind]. rewrite Lc.
    cbn [p_iter]. unfold p_del at 1. cbn [pbind exec w_db w_cdb].
    assert (D : dmem (session_key [u; c; g1]) (gone1 u c g1 s) = false) by (unfold dmem; unfold stored in S1g; now rewrite S1g).
    rewrite D, ddel_none by exact D. reflexivity.
  - intros g Hg' N. cbn [w_db]. rewrite !view3, !view2, S1u, L1, S1c, Su, L1, Sc. rewrite (st1 u c g1 s Hu Hc Hg) by auto with gp.
    destruct (path_dec _ _) as [X|]; [injection X as ->; contradiction|reflexivity].
Qed.

(** ** The programs do what the calls do *)
Lemma does_mop op : does (p_mop op) (mstep false op).
Proof.
  destruct op; cbn [p_mop mstep].
  - apply does_bind; [apply does_create_session|]. intros _. apply does_ret.
  - apply does_bind; [apply does_create_grant|]. intros _. apply does_ret.
  - apply does_add_grant.
  - apply does_revoke_client_session.
  - apply does_revoke_grant.
  - apply does_revoke_token.
  - apply does_remove_session.
  - apply does_write.
Qed.
Lemma wdoes_authz_mint cx mt u c g ttype b : wdoes (p_authz_mint cx mt u c g ttype b) (authz_mint cx mt u c g ttype b).
Proof.
  unfold p_authz_mint, authz_mint. apply wdoes_bind; [apply wdoes_db, does_get_grant|]. intros gr.
  apply wdoes_bind; [apply wdoes_mint|]. intros _. apply wdoes_done.
Qed.

(** ** Adding a grant *)
Lemma same_sessions_sym a b : same_sessions a b -> same_sessions b a.
Proof. intros H u c g Hu Hc Hg. symmetry. auto. Qed.
Definition p_list_again (u c g : string) : prog unit :=
  (csi <~ p_read [u; c] ;; sub <~ Done (subordinate csi) ;; p_store [u; c] (set_subordinate (sub ++ [g]) csi))%prog.
Lemma list_again u c g w ui ci : kinds_ok (w_db w) -> good u -> good c -> good g ->
  stored (w_db w) [u] = Some (EInfo ui) -> smem c (si_sub ui) = true -> stored (w_db w) [u; c] = Some (EInfo ci) -> smem g (si_sub ci) = true ->
  all_or_nothing (p_list_again u c g) w /\ same_sessions (w_db w) (w_db (snd (exec (p_list_again u c g) w))).
Proof.
  intros Hk Hu Hc Hg Su Lc Sc Lg.
  assert (V : view (w_db w) [u; c] = Some (EInfo ci)) by (now rewrite view2, Su, Lc).
  split.
  - unfold p_list_again. apply atomic_read. intros e E. assert (e = EInfo ci) by congruence. subst e. cbn [subordinate pbind set_subordinate].
    now apply atomic_store2.
  - unfold p_list_again. rewrite exec_bind. assert (Y := does_read [u; c] w). unfold in_db in Y.
    assert (Z := db_read_state [u; c] (w_db w)). unfold view in V.
    destruct (db_read [u; c] (w_db w)) as [r s]. cbn [fst snd] in V, Z. subst s. rewrite eta in Y. destruct r as [e|]; [|discriminate].
    assert (e = EInfo ci) by congruence. subst e. rewrite Y. cbn [subordinate pbind set_subordinate exec].
    rewrite does_store. unfold in_db.
    set (v := mkSInfo _ _ _ _ _).
    assert (St := stored_store2 (w_db w) u c v).
    destruct (db_store [u; c] (EInfo v) (w_db w)) as [r s'] eqn:D. cbn [snd w_db] in *.
    intros a b x Ha Hb Hx. rewrite !view3, !view2, !St by auto with gp.
    assert (Eu : uopt (w_db w) u = ui) by (unfold uopt; now rewrite Su). rewrite Eu.
    destruct (path_dec [a; b; x] [u]); [discriminate|]. destruct (path_dec [a; b; x] [u; c]); [discriminate|].
    destruct (path_dec [a; b] [u]); [discriminate|].
    destruct (path_dec [a] [u]) as [X|X].
    + injection X as ->. rewrite Su. assert (El : listing c ui = ui) by (unfold listing; now rewrite Lc). rewrite El.
      destruct (smem b (si_sub ui)); [|reflexivity]. destruct (path_dec [u; b] [u; c]) as [Y1|_]; [|reflexivity].
      injection Y1 as ->. rewrite Sc. subst v. cbn [si_sub]. 
      assert (Em : smem x (si_sub ci ++ [g]) = smem x (si_sub ci)).
      { destruct (smem x (si_sub ci)) eqn:E1.
        - apply smem_In. apply in_or_app. left. now apply smem_In.
        - apply smem_false. apply smem_false in E1. rewrite in_app_iff. intros [?|[<-|[]]]; [contradiction|]. apply smem_In in Lg. contradiction. }
      now rewrite Em.
    + destruct (path_dec [a] [u; c]); [discriminate|]. destruct (path_dec [a; b] [u; c]) as [Y1|_]; [injection Y1 as -> ->; congruence|reflexivity].
Qed.
Lemma add_grant_atomic u c gr w : kinds_ok (w_db w) -> good u -> good c -> good (g_id gr) ->
  sessions_all_or_nothing (p_add_grant u c gr) w.
Proof.
  intros Hk Hu Hc Hg w' H. unfold p_add_grant in *. change (stops (p_store [u; c; g_id gr] (EGrant gr) ;~ p_list_again u c (g_id gr))%prog w w') in H.
  change (same_sessions (w_db w) (w_db w') \/ same_sessions (w_db (snd (exec (p_store [u; c; g_id gr] (EGrant gr) ;~ p_list_again u c (g_id gr))%prog w))) (w_db w')).
  assert (A := atomic_store3 w u c (g_id gr) gr Hk Hu Hc Hg). assert (K3 := kinds_store3 (w_db w) u c (g_id gr) gr Hk Hu Hc Hg).
  assert (St := fun q => stored_store3 (w_db w) u c (g_id gr) gr q Hk Hu Hc Hg).
  assert (X3 := does_store [u; c; g_id gr] (EGrant gr) w). unfold in_db in X3.
  assert (Y3 := exec_store3 w u c (g_id gr) gr Hk Hu Hc Hg). rewrite Y3 in X3.
  destruct (db_store [u; c; g_id gr] (EGrant gr) (w_db w)) as [r s1] eqn:D. cbn [snd] in K3, St. injection X3 as <- E1.
  rewrite E1 in Y3. rewrite exec_bind, Y3. 
  assert (L : all_or_nothing (p_list_again u c (g_id gr)) (mkW s1 (w_cdb w)) /\
     same_sessions s1 (w_db (snd (exec (p_list_again u c (g_id gr)) (mkW s1 (w_cdb w)))))).
  { apply (list_again u c (g_id gr) (mkW s1 (w_cdb w)) (listing c (uopt (w_db w) u)) (listing (g_id gr) (copt (w_db w) u c)) K3 Hu Hc Hg);
    cbn [w_db]; rewrite ?St by auto with gp; rewrite ?path_dec_refl, ?smem_listing; try reflexivity.
    destruct (path_dec [u; c] [u]); [discriminate|reflexivity]. }
  destruct L as [L1 L2].
  apply stops_bind in H. destruct H as [H|(a & w1 & E & H)].
  - destruct (A w' H) as [R|R]; [left; now apply same_views_sessions|right]. rewrite Y3 in R. cbn [snd w_db] in R.
    eapply same_sessions_trans; [apply same_sessions_sym; exact L2|]. now apply same_views_sessions.
  - rewrite Y3 in E. injection E as <- <-. destruct (L1 w' H) as [R|R]; right; [|now apply same_views_sessions].
    eapply same_sessions_trans; [apply same_sessions_sym; exact L2|]. now apply same_views_sessions.
Qed.

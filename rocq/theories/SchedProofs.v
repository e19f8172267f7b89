(** SchedProofs.v: calls taking turns. *)
From Verif Require Import Base BaseProofs Monad Types SessionKey SplitProofs SessionKeyProofs Token Grant Database DatabaseSpec DatabaseProofs
  Manager ManagerSpec ManagerProofs Ctx Claims World Minting UserInfo TokenEndpoint WorldSpec WorldProofs Prog ProgProofs CrashSpec CrashProofs SchedSpec.
Local Open Scope prog_scope.

(** ** Programs that use certain keys only *)
Fixpoint uses {A} (d : cdb) (R W : string -> Prop) (p : prog A) : Prop :=
  match p with
  | Done _ => True
  | Get k f => R k /\ forall o, uses d R W (f o)
  | Put k _ p' => W k /\ uses d R W p'
  | Del k f => R k /\ W k /\ forall b, uses d R W (f b)
  | Act B m f => (forall s s', (forall k, R k -> dget k s' = dget k s) -> m s' d = m s d /\ snd (m s d) = d) /\ forall r, uses d R W (f r)
  end.

Lemma uses_step {A} d R W (p p' : prog A) w w' : uses d R W p -> w_cdb w = d -> pstep p w = Some (p', w') ->
  uses d R W p' /\ w_cdb w' = d /\ (forall k, ~ W k -> dget k (w_db w') = dget k (w_db w)) /\
  forall w1, w_cdb w1 = d -> (forall k, R k -> dget k (w_db w1) = dget k (w_db w)) ->
    exists w1', pstep p w1 = Some (p', w1') /\ forall k, dget k (w_db w1) = dget k (w_db w) -> dget k (w_db w1') = dget k (w_db w').
Proof.
  intros U D E. destruct p as [r|k f|k v q|k f|B m f]; cbn [pstep uses] in *.
  - discriminate.
  - injection E as <- <-. destruct U as [Rk U]. split; [auto|]. split; [auto|]. split; [auto|].
    intros w1 D1 Ag. rewrite (Ag k Rk). eauto.
  - injection E as <- <-. destruct U as [Wk U]. split; [auto|]. split; [auto|]. split.
    + intros k' N. cbn [w_db]. apply dget_dset_neq. intros ->. contradiction.
    + intros w1 D1 Ag. eexists. split; [reflexivity|]. cbn [w_db]. intros k' H. rewrite !dget_dset. now rewrite H.
  - injection E as <- <-. destruct U as (Rk & Wk & U). split; [auto|]. split; [auto|]. split.
    + intros k' N. cbn [w_db]. apply dget_ddel_neq. intros ->. contradiction.
    + intros w1 D1 Ag. unfold dmem. rewrite (Ag k Rk). eexists. split; [reflexivity|]. cbn [w_db]. intros k' H.
      rewrite !dget_ddel. now rewrite H.
  - destruct U as [Um U]. destruct (m (w_db w) (w_cdb w)) as [r c] eqn:Em. injection E as <- <-. cbn [w_db w_cdb].
    destruct (Um (w_db w) (w_db w) (fun _ _ => eq_refl)) as [_ S1]. rewrite D in Em. rewrite Em in S1. cbn [snd] in S1. subst c.
    split; [auto|]. split; [auto|]. split; [auto|]. intros w1 D1 Ag.
    destruct (Um (w_db w) (w_db w1) Ag) as [E1 _]. rewrite D1, E1, Em. eauto.
Qed.
Lemma uses_bind {A B} d R W (p : prog A) (k : A -> prog B) : uses d R W p -> (forall a, uses d R W (k a)) -> uses d R W (pbind p k).
Proof.
  intros U K. induction p as [[a|e]|x f IH|x v p IH|x f IH|C m f IH]; cbn [pbind uses] in *; auto.
  - destruct U; split; auto.
  - destruct U; split; auto.
  - destruct U as (? & ? & ?); split; [|split]; auto.
  - destruct U; split; auto.
Qed.
Lemma uses_catch {A} d R W (p : prog A) c h : uses d R W p -> uses d R W h -> uses d R W (pcatch p c h).
Proof.
  intros U K. induction p as [[a|e]|x f IH|x v p IH|x f IH|C m f IH]; cbn [pcatch uses] in *; auto.
  - destruct (c e); auto.
  - destruct U; split; auto.
  - destruct U; split; auto.
  - destruct U as (? & ? & ?); split; [|split]; auto.
  - destruct U; split; auto.
Qed.

(** ** One step of one worker *)
Fixpoint upd {A} (i : nat) (x : A) (l : list A) : list A :=
  match l, i with
  | [], _ => []
  | _ :: r, O => x :: r
  | y :: r, S i' => y :: upd i' x r
  end.
Lemma upd_same {A} i (x y : A) l : nth_error l i = Some y -> nth_error (upd i x l) i = Some x.
Proof. revert i. induction l as [|z l IH]; intros [|i] H; cbn in *; try discriminate; auto. Qed.
Lemma upd_other {A} i j (x : A) l : i <> j -> nth_error (upd i x l) j = nth_error l j.
Proof. revert i j. induction l as [|z l IH]; intros [|i] [|j] H; cbn; auto; try congruence. Qed.
Lemma turn_spec {A} i (ps : list (prog A)) w :
  turn i ps w = match nth_error ps i with
                | None => (ps, w)
                | Some p => match pstep p w with None => (ps, w) | Some (p', w') => (upd i p' ps, w') end
                end.
Proof.
  revert i. induction ps as [|p ps IH]; intros [|i]; cbn [turn nth_error]; [reflexivity|reflexivity|destruct (pstep p w) as [[p' w']|]; reflexivity|].
  rewrite IH. destruct (nth_error ps i) as [q|]; [|reflexivity]. destruct (pstep q w) as [[q' w']|]; reflexivity.
Qed.
Lemma after_S {A} n (p : prog A) w :
  after (S n) p w = match pstep (still_to_do n p w) (after n p w) with None => after n p w | Some (_, w') => w' end.
Proof.
  revert p w. induction n as [|n IH]; intros p w.
  - cbn [after still_to_do]. destruct (pstep p w) as [[p' w']|]; reflexivity.
  - cbn [after still_to_do] in *. destruct (pstep p w) as [[p' w']|] eqn:E; [apply IH|]. rewrite E. reflexivity.
Qed.
Lemma still_S {A} n (p : prog A) w :
  still_to_do (S n) p w = match pstep (still_to_do n p w) (after n p w) with None => still_to_do n p w | Some (p', _) => p' end.
Proof.
  revert p w. induction n as [|n IH]; intros p w.
  - cbn [after still_to_do]. destruct (pstep p w) as [[p' w']|]; reflexivity.
  - cbn [after still_to_do] in *. destruct (pstep p w) as [[p' w']|] eqn:E; [apply IH|]. rewrite E. reflexivity.
Qed.

(** ** Disjoint keys *)
Section Frame.
  Context {A : Type}.
  Variable d : cdb.
  Variables R W : nat -> string -> Prop.
  Variable ps0 : list (prog A).
  Variable w0 : world.
  Hypothesis Uses : forall i p, nth_error ps0 i = Some p -> uses d (R i) (W i) p.
  Hypothesis Apart : forall i j k, (i < length ps0)%nat -> (j < length ps0)%nat -> i <> j -> W j k -> ~ R i k.
  Hypothesis D0 : w_cdb w0 = d.

  Record inv (ns : nat -> nat) (ps : list (prog A)) (w : world) : Prop := {
    i_cdb : w_cdb w = d;
    i_out : forall k, (forall j, (j < length ps0)%nat -> ~ W j k) -> dget k (w_db w) = dget k (w_db w0);
    i_each : forall i p, nth_error ps0 i = Some p ->
      nth_error ps i = Some (still_to_do (ns i) p w0) /\ uses d (R i) (W i) (still_to_do (ns i) p w0) /\
      w_cdb (after (ns i) p w0) = d /\
      forall k, (forall j, (j < length ps0)%nat -> j <> i -> ~ W j k) -> dget k (w_db w) = dget k (w_db (after (ns i) p w0));
    i_len : length ps = length ps0 }.

  Lemma len_upd {B} i (x : B) l : length (upd i x l) = length l.
  Proof. revert i. induction l as [|y l IH]; intros [|i]; cbn; auto. Qed.

  Lemma inv_turn ns ps w i : inv ns ps w ->
    inv (fun j => if Nat.eq_dec i j then S (ns j) else ns j) (fst (turn i ps w)) (snd (turn i ps w)).
  Proof.
    intros [Hd Ho He Hl]. rewrite turn_spec. destruct (nth_error ps i) as [p1|] eqn:Ei.
    2:{ cbn [fst snd]. split; auto. intros j p Ej. destruct (He j p Ej) as (E1 & U & D & K). destruct (Nat.eq_dec i j) as [->|]; [congruence|auto]. }
    assert (Li : (i < length ps0)%nat) by (rewrite <- Hl; apply nth_error_Some; congruence).
    destruct (nth_error ps0 i) as [p|] eqn:E0; [|apply nth_error_None in E0; lia].
    destruct (He i p E0) as (E1 & U & D & K). assert (p1 = still_to_do (ns i) p w0) by congruence. subst p1.
    assert (AgR : forall k, R i k -> dget k (w_db w) = dget k (w_db (after (ns i) p w0))).
    { intros k Rk. apply K. intros j Lj Nj Wj. exact (Apart i j k Li Lj (fun e => Nj (eq_sym e)) Wj Rk). }
    destruct (pstep (still_to_do (ns i) p w0) (after (ns i) p w0)) as [[p' wa]|] eqn:Ep.
    - destruct (uses_step d (R i) (W i) _ _ _ _ U D Ep) as (U' & D' & F & G).
      destruct (G w Hd AgR) as (w' & Ew & G'). rewrite Ew. cbn [fst snd].
      destruct (uses_step d (R i) (W i) _ _ _ _ U Hd Ew) as (_ & Dw & Fw & _).
      split; [exact Dw| | |now rewrite len_upd].
      + intros k Nk. rewrite Fw by auto. auto.
      + intros j q Ej. destruct (Nat.eq_dec i j) as [<-|N].
        * assert (q = p) by congruence. subst q. rewrite still_S, after_S, Ep. split; [eapply upd_same; eauto|]. split; [auto|]. split; [auto|].
          intros k Hk. apply G'. auto.
        * destruct (He j q Ej) as (E1' & U1 & D1 & K1). split; [rewrite upd_other by assumption; exact E1'|]. split; [auto|]. split; [auto|].
          intros k Hk. rewrite Fw; [auto|]. apply Hk; auto.
    - assert (Ep' : pstep (still_to_do (ns i) p w0) w = None).
      { destruct (still_to_do (ns i) p w0) as [r|? ?|? ? ?|? ?|B m f]; cbn [pstep] in *; try discriminate; try reflexivity.
        destruct (m (w_db (after (ns i) p w0)) _). discriminate. }
      rewrite Ep'. cbn [fst snd]. split; auto. intros j q Ej. destruct (Nat.eq_dec i j) as [<-|N]; [|auto].
      assert (q = p) by congruence. subst q. rewrite still_S, after_S, Ep. auto.
  Qed.
  Lemma inv_turns l : forall ns ps w, inv ns ps w ->
    inv (fun j => (ns j + steps_of j l)%nat) (fst (turns l ps w)) (snd (turns l ps w)).
  Proof.
    induction l as [|i l IH]; intros ns ps w H; cbn [turns].
    - cbn [fst snd]. destruct H as [a b c e]. split; auto. intros i p E. unfold steps_of. cbn [count_occ]. rewrite Nat.add_0_r. auto.
    - assert (X := inv_turn ns ps w i H). destruct (turn i ps w) as [ps' w']. cbn [fst snd] in X. apply IH in X.
      destruct X as [a b c e]. split; auto. intros j p E. specialize (c j p E). unfold steps_of in *. cbn [count_occ].
      destruct (Nat.eq_dec i j) as [->|]; [|exact c]. replace (ns j + S (count_occ Nat.eq_dec l j))%nat with (S (ns j) + count_occ Nat.eq_dec l j)%nat by lia. exact c.
  Qed.
  Lemma frame l : inv (fun j => steps_of j l) (fst (turns l ps0 w0)) (snd (turns l ps0 w0)).
  Proof.
    apply (inv_turns l (fun _ => O)). split; auto.
  Qed.
End Frame.

(** A program that has come to its end *)
Lemma still_done {A} n (p : prog A) w r : still_to_do n p w = Done r -> exec p w = (r, after n p w).
Proof.
  revert p w. induction n as [|n IH]; intros p w H.
  - cbn in *. subst. reflexivity.
  - cbn [still_to_do after] in *. destruct (pstep p w) as [[p' w']|] eqn:E.
    + rewrite <- (IH p' w' H). destruct p as [x|k f|k v q|k f|B m f]; cbn [pstep exec] in *; try discriminate; try (injection E as <- <-; reflexivity).
      destruct (m (w_db w) (w_cdb w)) as [x c]. injection E as <- <-. reflexivity.
    + subst. reflexivity.
Qed.

(** ** The keys of a user *)
Definition owner (k : string) : string := hd "" (unpack_session_key k).
Lemma owner_key u r : good u -> owner (session_key (u :: r)) = u.
Proof.
  intros Hu. unfold owner, session_key, unpack_session_key, DIVIDER. destruct r as [|x r].
  - cbn [join]. rewrite (split_no_sep ";"); [reflexivity|]. destruct Hu as [_ Hu]. now apply id_ok_spec in Hu.
  - change (join ";;" (u :: x :: r)) with (u ++ ";;" ++ join ";;" (x :: r))%string. 
    destruct Hu as [_ Hu]. apply id_ok_spec in Hu. destruct Hu as [H1 H2]. change ";;" with (dsep ";") in *. rewrite split_app_sep by assumption. reflexivity.
Qed.

Section User.
  Variable d : cdb.
  Variables R W : string -> Prop.
  Variable u : string.
  Hypothesis HR : forall r, R (session_key (u :: r)).
  Hypothesis HW : forall r, W (session_key (u :: r)).
  Notation uses := (uses d R W).

  Lemma uses_done {A} (r : result A) : uses (Done r).
  Proof. exact I. Qed.
  Lemma uses_get r : uses (p_get (session_key (u :: r))).
  Proof. split; [auto|]. intros o. exact I. Qed.
  Lemma uses_sub r : uses (p_sub (session_key (u :: r))).
  Proof. unfold p_sub. split; [auto|]. intros [o|]; exact I. Qed.
  Lemma uses_set r v : uses (p_set (session_key (u :: r)) v).
  Proof. split; [auto|exact I]. Qed.
  Lemma uses_del r : uses (p_del (session_key (u :: r))).
  Proof. split; [auto|]. split; [auto|]. intros [|]; exact I. Qed.
  Lemma uses_iter {A} (f : A -> prog unit) l : (forall x, uses (f x)) -> uses (p_iter f l).
  Proof. intros H. induction l as [|x l IH]; cbn [p_iter]; [exact I|]. apply uses_bind; auto. Qed.
  (** the same for the key of the user record, which is the user id *)
  Lemma uses_get0 : uses (p_get u).
  Proof. exact (uses_get []). Qed.
  Lemma uses_sub0 : uses (p_sub u).
  Proof. exact (uses_sub []). Qed.
  Lemma uses_set0 v : uses (p_set u v).
  Proof. exact (uses_set [] v). Qed.
  Lemma uses_del0 : uses (p_del u).
  Proof. exact (uses_del []). Qed.
  Ltac ut :=
    repeat first [ exact I | apply uses_get0 | apply uses_sub0 | apply uses_set0 | apply uses_del0 | apply uses_get | apply uses_sub | apply uses_set | apply uses_del
      | solve [eauto] | apply uses_bind | apply uses_catch | apply uses_iter | intro
      | match goal with
        | |- context [match ?x with _ => _ end] => destruct x
        end ].
  Lemma uses_store r v : uses (p_store (u :: r) v).
  Proof.
    unfold p_store. destruct r as [|c [|g [|? ?]]]; cbn [eval_path pbind]; ut.
  Qed.
  Lemma uses_read r : uses (p_read (u :: r)).
  Proof.
    unfold p_read. destruct r as [|c [|g [|? ?]]]; cbn [eval_path pbind]; ut.
  Qed.
  Lemma uses_delete r : (forall c r', r = c :: r' -> W c) -> uses (p_delete (u :: r)).
  Proof.
    intros Hc. assert (Hset : forall c v, W c -> uses (p_set c v)) by (intros c v X; split; [exact X|exact I]).
    unfold p_delete. destruct r as [|c [|g r]]; cbn [eval_path pbind tr str_or_empty]; try assert (Wc := Hc _ _ eq_refl); ut.
  Qed.
  Lemma uses_update r new : uses (p_update (u :: r) new).
  Proof. unfold p_update. apply uses_bind; [apply uses_read|]. intros e. destruct e; cbn [pbind]; [apply uses_store|]. destruct (is_nil new); [apply uses_store|exact I]. Qed.

  Lemma uses_lift {A B} (r : result A) (k : A -> prog B) : (forall a, r = Ok a -> uses (k a)) -> uses (pbind (Done r) k).
  Proof. intros H. destruct r as [a|e]; cbn [pbind]; [auto|exact I]. Qed.
  Ltac kl := repeat match goal with |- uses (pbind (Done _) _) => apply uses_lift; intros ? ? end.

  Hypothesis Hu : good u.
  Lemma uses_get_grant c g : good c -> good g -> uses (p_get_grant (session_key [u; c; g])).
  Proof.
    intros Hc Hg. unfold p_get_grant. rewrite unpack3_good by assumption. cbn [pbind]. apply uses_bind; [apply uses_read|]. intros e. exact I.
  Qed.
  Lemma uses_mset c g v : good c -> good g -> uses (p_mset (session_key [u; c; g]) v).
  Proof. intros Hc Hg. unfold p_mset. rewrite unpack_good by auto with gp. apply uses_store. Qed.
  Lemma uses_mop op : op_user op = u -> good (op_client op) -> good (op_grant op) ->
    (forall c g, op = ORemove u c g -> W c) -> uses (p_mop op).
  Proof.
    intros Eu Hc Hg Hst. destruct op; cbn [op_user op_client op_grant p_mop] in *; subst u0.
    - apply uses_bind; [|intros; exact I]. unfold p_create_session. 
      apply uses_bind; [apply uses_catch; [apply uses_bind; [apply uses_read|intros; exact I]|apply uses_store]|]. intros _.
      apply uses_bind; [destruct (nonempty c); [exact I|destruct ar; exact I]|]. intros cid. apply uses_bind; [apply uses_store|]. intros _.
      unfold p_create_grant. kl. apply uses_bind; [apply uses_store|intros; exact I].
    - apply uses_bind; [|intros; exact I]. unfold p_create_grant. kl. apply uses_bind; [apply uses_store|intros; exact I].
    - unfold p_add_grant. apply uses_bind; [apply uses_store|]. intros _. apply uses_bind; [apply uses_read|]. intros csi. kl. apply uses_store.
    - unfold p_revoke_client_session. rewrite unpack_good by auto with gp. cbn [pbind pret]. apply uses_bind; [apply uses_read|]. intros e. apply uses_store.
    - unfold p_revoke_grant. rewrite unpack_good by auto with gp. apply uses_bind; [apply uses_read|]. intros e. apply uses_store.
    - unfold p_revoke_token. rewrite unpack3_good by auto. cbn [pbind]. apply uses_bind; [apply uses_read|]. intros e.
      destruct e as [i|gr]; cbn [pbind]; [exact I|].
      destruct (get_token value gr); [|exact I]. destruct recursive; [|exact I]. rewrite unpack_good by auto with gp.
      apply uses_bind; [apply uses_read|]. intros e2. destruct e2; cbn [pbind]; exact I.
    - unfold p_remove_session. rewrite unpack3_good by auto. cbn [pbind]. apply uses_delete. intros c0 r' E. injection E as <- <-. eapply Hst. reflexivity.
    - unfold p_write. apply uses_bind; [now apply uses_get_grant|]. intros gr. now apply uses_mset.
  Qed.

  Variable sid_of : string -> result string.
  Variable cx : ctx.
  Variable idt : store -> string -> ST cdb string.
  Hypothesis Still : undisturbed cx idt d u.

  Lemma uses_payload c g ttype : uses (p_payload cx u c g ttype).
  Proof.
    unfold p_payload. apply uses_bind.
    - split; [|intros; exact I]. intros s s' _. split; [reflexivity|]. apply (proj1 Still).
    - intros r. apply uses_bind; [split; [|intros; exact I]; intros; split; reflexivity|]. intros clients. kl. exact I.
  Qed.
  Lemma uses_mint mt c g gr ttype b : good c -> good g -> uses (p_mint cx mt (session_key [u; c; g]) gr ttype b).
  Proof.
    intros Hc Hg. unfold p_mint. cbv zeta. apply uses_bind.
    - unfold p_mint_in. kl. destruct a as [[t|] g']; [|exact I]. rewrite unpack3_good by assumption. cbn [pbind].
      apply uses_bind; [apply uses_payload|]. intros pl. exact I.
    - intros [[t|] g1]; rewrite unpack_good by auto with gp.
      + apply uses_bind; [apply uses_store|intros; exact I].
      + destruct (negb _); [exact I|]. apply uses_bind; [apply uses_store|intros; exact I].
  Qed.
  Lemma uses_session_by {A} v (k : string * grant -> prog A) :
    (forall sid, sid_of v = Ok sid -> exists c g, good c /\ good g /\ sid = session_key [u; c; g]) ->
    (forall c g gr, good c -> good g -> uses (k (session_key [u; c; g], gr))) -> uses (pbind (p_session_by sid_of v) k).
  Proof.
    intros L K. unfold p_session_by. destruct (sid_of v) as [sid|e]; cbn [pbind]; [|exact I].
    destruct (L sid eq_refl) as (c & g & Hc & Hg & ->). rewrite unpack3_good by assumption. cbn [pbind].
    assert (P : uses (p_read [u; c; g])) by apply uses_read. revert P. generalize (p_read [u; c; g]). intros p P.
    induction p as [[e|e]|x f IH|x w p IH|x f IH|C m f IH]; cbn [pbind SchedProofs.uses] in *; auto.
    - destruct e as [i|gr]; cbn [pbind]; [exact I|]. now apply K.
    - destruct P; split; auto.
    - destruct P; split; auto.
    - destruct P as (? & ? & ?); split; [|split]; auto.
    - destruct P; split; auto.
  Qed.
  Lemma uses_id_token c g resp : good c -> good g -> uses (p_id_token idt (session_key [u; c; g]) resp).
  Proof.
    intros Hc Hg. unfold p_id_token. apply uses_bind.
    - apply uses_catch; [|exact I]. apply uses_bind; [|intros; exact I]. split; [|intros; exact I].
      intros s s' Ag. destruct Still as [_ S2]. apply S2; [assumption|assumption|]. intros q Hq Eq. unfold stored. apply Ag.
      destruct q as [|a q]; [destruct Hq as [_ Hq]; cbn in Hq; lia|]. cbn in Eq. subst a. apply HR.
    - intros [t|]; exact I.
  Qed.
  Lemma uses_code_process m1 m2 ir rq :
    (forall raw, dget "code" rq = Some (VStr raw) -> forall sid, sid_of (blank_to_plus raw) = Ok sid -> exists c g, good c /\ good g /\ sid = session_key [u; c; g]) ->
    uses (p_code_process sid_of cx idt m1 m2 ir rq).
  Proof.
    intros L. unfold p_code_process. apply uses_lift. intros gt _. destruct (negb _); [exact I|]. destruct (negb _); [exact I|].
    apply uses_lift. intros raw Er. apply msub_str_ok in Er. apply uses_session_by; [now apply L|]. intros c g gr Hc Hg. cbv zeta.
    apply uses_lift. intros ar _. apply uses_bind; [destruct (dget "redirect_uri" ar); [apply uses_lift; intros; exact I|exact I]|].
    intros [|]; [exact I|]. apply uses_bind; [now apply uses_mint|]. intros [o g1]. apply uses_lift. intros at_ _. apply uses_bind.
    - destruct (match ir with Some b => b | None => _ end); [|exact I]. apply uses_bind; [now apply uses_mint|]. intros [o2 g2]. apply uses_lift. intros; exact I.
    - intros [g2 resp]. apply uses_bind; [destruct (get_token _ gr); exact I|]. intros _. apply uses_bind; [now apply uses_mset|]. intros _.
      apply uses_lift. intros scope _. apply uses_lift. intros [|] _; [now apply uses_id_token|exact I].
  Qed.
  Lemma uses_refresh_process m1 m2 rq :
    (forall raw, dget "refresh_token" rq = Some (VStr raw) -> forall sid, sid_of raw = Ok sid -> exists c g, good c /\ good g /\ sid = session_key [u; c; g]) ->
    uses (p_refresh_process sid_of cx idt m1 m2 rq).
  Proof.
    intros L. unfold p_refresh_process. apply uses_lift. intros gt _. destruct (negb _); [exact I|].
    apply uses_lift. intros raw Er. apply msub_str_ok in Er. apply uses_session_by; [now apply L|]. intros c g gr Hc Hg. cbv zeta.
    apply uses_bind; [now apply uses_mint|]. intros [o g1]. apply uses_lift. intros at_ _. apply uses_lift. intros t _. apply uses_lift. intros mints _.
    apply uses_bind.
    - destruct (smem "refresh_token" mints); [|exact I]. apply uses_bind; [now apply uses_mint|]. intros [o2 g2]. apply uses_lift. intros; exact I.
    - intros resp. destruct (smem "id_token" mints); [now apply uses_id_token|exact I].
  Qed.
  Lemma uses_answer x : about sid_of u x -> (forall c, stray x = Some c -> W c) -> uses (p_answer sid_of cx idt x).
  Proof.
    intros [_ B] S1. destruct x as [op|m1 m2 ir rq|m1 m2 rq|mt u' c g ttype b]; cbn [p_answer about stray] in *; cbv zeta in B.
    - apply uses_bind; [|intros; exact I]. destruct B as (B1 & B2 & B3). apply uses_mop; auto. intros c g ->. now apply S1.
    - apply uses_bind; [|intros; exact I]. now apply uses_code_process.
    - apply uses_bind; [|intros; exact I]. now apply uses_refresh_process.
    - destruct B as (-> & Hc & Hg). apply uses_bind; [|intros; exact I]. unfold p_authz_mint. apply uses_bind; [now apply uses_get_grant|].
      intros gr. apply uses_bind; [now apply uses_mint|]. intros; exact I.
  Qed.
End User.

(** ** Calls about different users *)
Lemma uses_try {A} d R W (p : prog A) : uses d R W p -> uses d R W (ptry p).
Proof.
  intros U. induction p as [r|x f IH|x v p IH|x f IH|C m f IH]; cbn [ptry uses] in *; auto.
  - destruct U; split; auto.
  - destruct U; split; auto.
  - destruct U as (? & ? & ?); split; [|split]; auto.
  - destruct U; split; auto.
Qed.
Lemma Forall2_nth {A B} (P : A -> B -> Prop) l l' i a b : Forall2 P l l' -> nth_error l i = Some a -> nth_error l' i = Some b -> P a b.
Proof. intros F. revert i. induction F as [|x y l l' H F IH]; intros [|i] E1 E2; cbn in *; try discriminate; [congruence|eauto]. Qed.
Lemma Forall2_some {A B} (P : A -> B -> Prop) l l' i b : Forall2 P l l' -> nth_error l' i = Some b -> exists a, nth_error l i = Some a.
Proof. intros F. revert i. induction F as [|x y l l' H F IH]; intros [|i] E; cbn in *; try discriminate; eauto. Qed.
Lemma view_owned s s' u q : good_path q -> hd "" q = u -> good u ->
  (forall k, owner k = u -> dget k s' = dget k s) -> view s' q = view s q.
Proof.
  intros Hq E Hu H. apply view_ext; [exact Hq|]. intros r Hr P. unfold stored. apply H.
  destruct q as [|a q]; [destruct Hq as [_ Hq]; cbn in Hq; lia|]. cbn in E. subst a.
  destruct r as [|b r]; [destruct Hr as [_ Hr]; cbn in Hr; lia|]. destruct P as [r' P]. cbn in P. injection P as <- _. now apply owner_key.
Qed.

Section Others.
  Variable sid_of : string -> result string.
  Variable cx : ctx.
  Variable idt : store -> string -> ST cdb string.
  Variable xs : list (list ccall).
  Variable us : list string.
  Variable w : world.
  Hypothesis Names : Forall good us.
  Hypothesis About : Forall2 (fun u l => Forall (about sid_of u) l) us xs.
  Hypothesis Diff : NoDup us.
  Hypothesis Stray : forall l x c, In l xs -> In x l -> stray x = Some c -> ~ In c us.
  Hypothesis Still : Forall (undisturbed cx idt (w_cdb w)) us.
  Notation call l := (p_answers sid_of cx idt l).

  Definition reads (i : nat) (k : string) : Prop := nth_error us i = Some (owner k).
  Definition writes (i : nat) (k : string) : Prop :=
    nth_error us i = Some (owner k) \/ exists l x, nth_error xs i = Some l /\ In x l /\ stray x = Some k.

  Lemma stray_owner l x k : In l xs -> In x l -> stray x = Some k -> owner k = k.
  Proof.
    intros I1 Ix E. apply In_nth_error in I1. destruct I1 as [i I1]. destruct (Forall2_some _ _ _ _ _ About I1) as [u Iu].
    assert (B := Forall2_nth _ _ _ _ _ _ About Iu I1). cbv beta in B. rewrite Forall_forall in B. apply B in Ix.
    destruct x as [[]| | |]; try discriminate. cbn in E. injection E as ->.
    destruct Ix as (_ & _ & Hc & _). cbn in Hc. exact (owner_key k [] Hc).
  Qed.
  Lemma name_good i u : nth_error us i = Some u -> good u.
  Proof. intros E. apply nth_error_In in E. rewrite Forall_forall in Names. auto. Qed.
  Lemma call_uses i p : nth_error (map (fun x => call x) xs) i = Some p -> uses (w_cdb w) (reads i) (writes i) p.
  Proof.
    rewrite nth_error_map. destruct (nth_error xs i) as [l|] eqn:Ex; [|discriminate]. cbn. intros E. injection E as <-.
    destruct (Forall2_some _ _ _ _ _ About Ex) as [u Iu]. assert (B := Forall2_nth _ _ _ _ _ _ About Iu Ex). cbv beta in B.
    assert (Hu := name_good i u Iu).
    assert (St : forall x, In x l -> forall c, stray x = Some c -> writes i c) by (intros x Ix c E; right; eauto).
    assert (X : forall l', (forall x, In x l' -> In x l) -> uses (w_cdb w) (reads i) (writes i) (call l')).
    { induction l' as [|x l' IH]; intros Sub; [exact I|]. cbn [p_answers].
      assert (Ix : In x l) by (apply Sub; now left).
      apply uses_bind.
      - apply uses_try. apply (uses_answer (w_cdb w) (reads i) (writes i) u).
        + intros r. unfold reads. now rewrite owner_key.
        + intros r. left. now rewrite owner_key.
        + exact Hu.
        + rewrite Forall_forall in Still. apply Still. eapply nth_error_In; eauto.
        + rewrite Forall_forall in B. auto.
        + apply St. exact Ix.
      - intros a. apply uses_bind; [apply IH; intros y Iy; apply Sub; now right|]. intros r. exact I. }
    apply X. auto.
  Qed.
  Lemma apart i j k : i <> j -> writes j k -> ~ reads i k.
  Proof.
    unfold reads. intros N [H|(l & x & Ex & Ix & E)] R.
    - apply N. rewrite NoDup_nth_error in Diff. apply Diff; [apply nth_error_Some; congruence|congruence].
    - apply nth_error_In in Ex. rewrite (stray_owner l x k Ex Ix E) in R. apply (Stray l x k Ex Ix E). eapply nth_error_In; eauto.
  Qed.
  Lemma others l ps w' : turns l (map (fun x => call x) xs) w = (ps, w') ->
    w_cdb w' = w_cdb w /\
    (forall i x u, nth_error xs i = Some x -> nth_error us i = Some u ->
       nth_error ps i = Some (still_to_do (steps_of i l) (call x) w) /\
       forall q, good_path q -> hd "" q = u -> view (w_db w') q = view (w_db (after (steps_of i l) (call x) w)) q) /\
    (forall q, good_path q -> ~ In (hd "" q) us -> (forall l x, In l xs -> In x l -> stray x <> Some (hd "" q)) -> view (w_db w') q = view (w_db w) q).
  Proof.
    intros E. assert (F := frame (w_cdb w) reads writes (map (fun x => call x) xs) w call_uses (fun i j k _ _ => apart i j k) eq_refl l).
    rewrite E in F. cbn [fst snd] in F. destruct F as [Fd Fo Fe _]. split; [exact Fd|]. split.
    - intros i x u Ex Eu. assert (Em : nth_error (map (fun x => call x) xs) i = Some (call x)) by (rewrite nth_error_map, Ex; reflexivity).
      destruct (Fe i _ Em) as (A & _ & _ & K). split; [exact A|]. intros q Hq Hh.
      assert (B := Forall2_nth _ _ _ _ _ _ About Eu Ex). apply (view_owned _ _ u q Hq Hh); [eapply name_good; eauto|].
      intros k Ok. apply K. intros j _ Nj Wj. apply (apart i j k (fun e => Nj (eq_sym e)) Wj). unfold reads. now rewrite Ok.
    - intros q Hq Nin Nst. destruct q as [|a q]; [destruct Hq as [_ Hq]; cbn in Hq; lia|].
      assert (Ha : good a) by (destruct Hq as [Hq _]; now inversion Hq).
      apply (view_owned _ _ a (a :: q) Hq eq_refl Ha). intros k Ok. apply Fo. intros j _ [H|(l0 & x & Ex & Ix & Es)].
      + apply Nin. cbn. rewrite <- Ok. eapply nth_error_In; eauto.
      + apply nth_error_In in Ex. apply (Nst l0 x Ex Ix). rewrite Es. f_equal. cbn. rewrite <- Ok. symmetry. eapply stray_owner; eauto.
  Qed.
End Others.

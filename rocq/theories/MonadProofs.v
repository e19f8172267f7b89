(** MonadProofs.v: reasoning about computations with state. *)
From Verif Require Import Base Monad.

Lemma bind_ok {S A B} (m : ST S A) (k : A -> ST S B) s b s' :
  bind m k s = (Ok b, s') -> exists a s1, m s = (Ok a, s1) /\ k a s1 = (Ok b, s').
Proof. unfold bind. destruct (m s) as [[a|e] s1]; [eauto|discriminate]. Qed.

Lemma bind_run {S A B} (m : ST S A) (k : A -> ST S B) s a s1 :
  m s = (Ok a, s1) -> bind m k s = k a s1.
Proof. unfold bind. now intros ->. Qed.
Lemma bind_raise {S A B} (m : ST S A) (k : A -> ST S B) s e s1 :
  m s = (Raise e, s1) -> bind m k s = (Raise e, s1).
Proof. unfold bind. now intros ->. Qed.

(** The change of state a computation may bring about, whatever its outcome *)
Definition moves {S A} (R : S -> S -> Prop) (m : ST S A) : Prop := forall s, R s (snd (m s)).

Section Moves.
  Context {S : Type} (R : S -> S -> Prop) (R_refl : forall s, R s s)
          (R_trans : forall a b c, R a b -> R b c -> R a c).

  Lemma moves_ret {A} (a : A) : moves R (ret a).
  Proof. intros s. apply R_refl. Qed.
  Lemma moves_raise {A} e : moves R (@raise S A e).
  Proof. intros s. apply R_refl. Qed.
  Lemma moves_lift {A} (r : result A) : moves R (lift r).
  Proof. intros s. apply R_refl. Qed.
  Lemma moves_gets {A} (f : S -> A) : moves R (gets f).
  Proof. intros s. apply R_refl. Qed.
  Lemma moves_modify f : (forall s, R s (f s)) -> moves R (modify f).
  Proof. intros H s. apply H. Qed.
  Lemma moves_bind {A B} (m : ST S A) (k : A -> ST S B) :
    moves R m -> (forall a, moves R (k a)) -> moves R (bind m k).
  Proof.
    intros Hm Hk s. unfold bind. specialize (Hm s). destruct (m s) as [[a|e] s1]; cbn in *; [|exact Hm].
    eapply R_trans; [exact Hm|]. apply Hk.
  Qed.
  (** the continuation may be run only from states and values that [m] reaches *)
  Lemma moves_bind' {A B} (m : ST S A) (k : A -> ST S B) :
    moves R m -> (forall s a s1, m s = (Ok a, s1) -> R s (snd (k a s1))) -> moves R (bind m k).
  Proof.
    intros Hm Hk s. unfold bind. specialize (Hm s). specialize (Hk s). destruct (m s) as [[a|e] s1]; cbn in *; [|exact Hm].
    now apply Hk.
  Qed.
  Lemma moves_catch {A} (m : ST S A) c h : moves R m -> moves R h -> moves R (catch m c h).
  Proof.
    intros Hm Hh s. unfold catch. specialize (Hm s). destruct (m s) as [[a|e] s1]; cbn in *; [exact Hm|].
    destruct (c e); [|exact Hm]. eapply R_trans; [exact Hm|]. apply Hh.
  Qed.
  Lemma moves_iterM {A} (f : A -> ST S unit) l : (forall x, In x l -> moves R (f x)) -> moves R (iterM f l).
  Proof.
    induction l as [|x l IH]; intros H; cbn; [apply moves_ret|].
    apply moves_bind; [apply H; now left|]. intros _. apply IH. intros y Hy. apply H. now right.
  Qed.
  Lemma moves_mapM {A B} (f : A -> ST S B) l : (forall x, In x l -> moves R (f x)) -> moves R (mapM f l).
  Proof.
    induction l as [|x l IH]; intros H; cbn; [apply moves_ret|].
    apply moves_bind; [apply H; now left|]. intros y.
    apply moves_bind; [apply IH; intros z Hz; apply H; now right|]. intros ys. apply moves_ret.
  Qed.
End Moves.

(** runs of histories *)
Lemma run_moves {S O} (R : S -> S -> Prop) (step : O -> S -> S) ops s :
  (forall s, R s s) -> (forall a b c, R a b -> R b c -> R a c) ->
  (forall o s, In o ops -> R s (step o s)) ->
  R s (fold_left (fun s o => step o s) ops s).
Proof.
  intros Hr Ht. revert s. induction ops as [|o ops IH]; intros s H; cbn; [apply Hr|].
  eapply Ht; [apply H; now left|]. apply IH. intros o' s' Ho. apply H. now right.
Qed.

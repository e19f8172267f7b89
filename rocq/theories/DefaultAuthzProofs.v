(** DefaultAuthzProofs.v: without a configured handler every grant stays [bare]. *)
From Verif Require Import Base BaseProofs Types Token Grant GrantSpec GrantProofs Database Authz World WorldSpec WorldProofs AuthzEndpoint System SystemSpec
  Preserve DefaultAuthzSpec.
From Verif Require Import SetupAuth.
Local Open Scope Z_scope.

Definition okg (k : string) (g : grant) : Prop := bare g.
Notation inv := (Preserve.inv okg).

Lemma bare_core k g l : okg k g -> Forall2 same_core (g_issued g) l -> okg k (g_set_issued l g).
Proof.
  intros (S & C & R & E & T) F. split; [exact S|]. split; [exact C|]. split; [exact R|]. split; [exact E|]. cbn [g_issued g_set_issued].
  clear S C R E. induction F as [|x y la lb H F IH]; intros t I; [destruct I|]. destruct I as [<-|I].
  - destruct H as (_ & _ & _ & _ & _ & _ & _ & _ & _ & -> & _ & -> & _). apply T. now left.
  - apply IH; [|exact I]. intros t' I'. apply T. now right.
Qed.
Lemma bare_revoked k g : okg k g -> okg k (g_set_revoked true g).
Proof. intros (S & C & R & E & T). do 4 (split; [assumption|]). exact T. Qed.
Lemma bare_takes mt sid ttype : takes okg mt sid ttype.
Proof.
  intros g t (S & C & R & E & T) (_ & _ & _ & _ & Ts & Tr & _). do 4 (split; [assumption|]). cbn. intros t' I.
  apply in_app_or in I. destruct I as [I|[<-|[]]]; auto.
Qed.
Lemma bare_allows o : unconfigured o -> allows okg o.
Proof.
  destruct o as [e az oidc [m|request]|clock request|m1 m2 ir n|clock request|clock un request|e sid alla|op|f]; cbn; auto.
  - intros (keys & Ha). split.
    + intros id u c _ _ _ clock authn rules. do 4 (split; [reflexivity|]). intros t [].
    + intros id sid _ _. split; [apply bare_takes|]. split; [apply bare_takes|]. unfold settles. now rewrite Ha.
  - intros _ sid. split; apply bare_takes.
Qed.

Lemma bare_run y l s p : sids_ok (sy_sid_of y) -> Forall call_ok l -> Forall unconfigured l -> inv (w_db (ss_world s)) ->
  inv (w_db (ss_world (fst (srun y l s p)))).
Proof.
  intros Hs F U. apply (inv_run okg bare_core bare_revoked y l Hs); [exact F|]. eapply Forall_impl; [|exact U]. apply bare_allows.
Qed.

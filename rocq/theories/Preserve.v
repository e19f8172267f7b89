(** Preserve.v: what holds of all the grants in the store, if no call makes it false. [okg k g] is said of the grant [g] at the key [k]; it
    must go on to hold when tokens are used or revoked, and when the grant is revoked. *)
From Verif Require Import Base BaseProofs SplitProofs SessionKey SessionKeyProofs Monad MonadProofs Types Token Grant GrantSpec GrantProofs Database DatabaseSpec DatabaseProofs
  Manager ManagerSpec ManagerProofs Ctx Claims Authz AuthzProofs UserInfo UserInfoSpec UserInfoProofs World Minting TokenEndpoint WorldSpec WorldProofs AuthzEndpoint Logout
  Uri Response SetupAuthSpec SetupAuthProofs System SystemSpec.
From Verif Require Import SetupAuth.
Local Open Scope Z_scope.

(** ** Reading and writing by key *)
Lemma unpack3_key sid u c g : unpack3 sid = Ok (u, c, g) -> unpack_session_key sid = [u; c; g] /\ sid = session_key [u; c; g].
Proof.
  unfold unpack3. destruct (unpack_session_key sid) as [|a [|b [|d [|]]]] eqn:E; try discriminate. intros H.
  assert (a = u /\ b = c /\ d = g) as (-> & -> & ->) by (repeat split; congruence). split; [reflexivity|].
  unfold unpack_session_key in E. unfold session_key. rewrite <- E. symmetry. apply join_split.
Qed.
Lemma read3_key u c g s e s' : db_read [u; c; g] s = (Ok e, s') -> dget (session_key [u; c; g]) s = Some e.
Proof.
  intros H. apply view_key. unfold view. now rewrite H.
Qed.
Lemma read2_key u c s e s' : db_read [u; c] s = (Ok e, s') -> dget (session_key [u; c]) s = Some e.
Proof.
  unfold db_read. cbn [eval_path]. unfold bind at 1, lift at 1. unfold bind at 1, db_sub at 1.
  destruct (dsub u s) as [x|]; [|discriminate]. unfold bind at 1, lift at 1. destruct (subordinate x) as [l|]; [|discriminate].
  destruct (negb (smem c l)); [discriminate|]. unfold bind, catch, db_sub. destruct (dsub (session_key [u; c]) s) as [y|x0] eqn:D.
  - unfold ret. intros H. apply dsub_ok in D. congruence.
  - destruct (is_key_error x0); discriminate.
Qed.

(** What a new token is like: made by [mt] for the session, unused, with no scope or audience of its own; codes can be used once. *)
Definition comes (mt : minting) (sid ttype : string) (t : token) : Prop :=
  TOKEN_MAP ttype = Some (t_class t) /\ (exists payload, mt_value mt sid payload = Ok (t_value t)) /\ t_revoked t = false /\ t_used t = 0 /\
  t_scope t = [] /\ t_resources t = [] /\ (t_class t = CCode -> ur_max_usage (t_rules t) = Some 1).
Definition with_token (t : token) (g : grant) : grant := g_set_used (g_used g + 1) (g_set_issued (g_issued g ++ [t]) g).

Lemma code_type ttype : TOKEN_MAP ttype = Some CCode -> (ttype =? "authorization_code")%string = true.
Proof. unfold TOKEN_MAP. destruct (String.eqb ttype "authorization_code"); [reflexivity|]. repeat (destruct (String.eqb ttype _); [discriminate|]). discriminate. Qed.
Lemma mint_plain clock newid g ttype base rules v t g' : mint_token clock newid g ttype base rules None no_kw v = Ok (Some t, g') ->
  t_scope t = [] /\ t_resources t = [] /\ g' = with_token t g.
Proof.
  unfold mint_token. destruct (negb _); [discriminate|]. destruct base as [b|]; cbn [rbind]; [destruct (supports_minting b ttype && t_active clock b); [|discriminate]|];
    cbn [rbind]; (destruct (TOKEN_MAP ttype); [|discriminate]); destruct v; cbn [rbind]; try discriminate; intros H; injection H as <- <-; auto.
Qed.
Lemma authz_call_untouched cx clock c request res st : untouched (snd st) (snd (snd (authz_call cx clock c request res st))).
Proof.
  set (R := fun a b : cdb * grant => untouched (snd a) (snd b)).
  assert (Rr : forall s, R s s) by (intros s; apply untouched_refl).
  assert (Rt : forall a b c, R a b -> R b c -> R a c) by (intros a b c0; apply untouched_trans).
  assert (G : forall f, (forall g, untouched g (f g)) -> moves R (on_grant f)) by (intros f Hf [cs g]; apply Hf).
  revert st. change (moves R (authz_call cx clock c request res)). unfold authz_call. cbv zeta.
  apply (moves_bind R Rt). { destruct (gc_rules _); [|apply (moves_ret R Rr)]. apply G. repeat split. }
  intros _. apply (moves_bind R Rt). { destruct (gc_expires_in _); [|apply (moves_ret R Rr)]. apply G. repeat split. }
  intros _. apply (moves_bind R Rt). { destruct (mget_list "scope" request) as [[|x l]|]; try apply (moves_ret R Rr). apply G. repeat split. }
  intros _. apply (moves_bind R Rt). { apply G. repeat split. }
  intros _. apply (moves_iterM R Rr Rt). intros i _. apply (moves_bind R Rt); [apply (moves_lift R Rr)|]. intros scopes.
  apply (moves_bind R Rt); [apply (moves_gets R Rr)|]. intros g. apply (moves_bind R Rt).
  { intros [cs g0]. unfold on_cdb. cbn [fst snd]. destruct (get_claims _ _ _ _ _ cs); apply untouched_refl. }
  intros r. apply G. repeat split.
Qed.


(** the session one goes on with *)
Definition goes_on (e : auth_env) (request id : msg) (sid : string) : Prop :=
  exists u c g, unpack3 sid = Ok (u, c, g) /\ dget "client_id" request = Some (VStr c) /\
    (dget "uid" id = Some (VStr u) /\ g = au_newid e \/ dget "sid" id = Some (VStr sid)).

(** the code exchange, once the grant has been found (oidc/token.py:106-166) *)
Definition code_rest (mk : store -> string -> ST cdb string) (cx : ctx) (m1 m2 : minting) (refresh : bool) (access_code sid : string) (g : grant)
    (code : option token) (ar resp : msg) : W UserInfo.answer :=
  '(o, g1) <-- endpoint_mint cx m1 sid g "access_token" code ;;
  at_ <-- the_token o ;;
  let resp := dset "expires_in" (VInt (t_expires_at at_ - mt_clock m1)) (dset "access_token" (VStr (t_value at_)) resp) in
  '(g2, resp) <-- (if refresh then
                     '(o, g2) <-- endpoint_mint cx m2 sid g1 "refresh_token" code ;;
                     rt <-- the_token o ;;
                     ret (g2, dset "refresh_token" (VStr (t_value rt)) resp)
                   else ret (g1, resp)) ;;
  (match code with Some _ => ret tt | None => raise EAttr end) ;;;
  in_db (mset sid (EGrant (upd_token access_code register_usage g2))) ;;;
  scope <-- lift (dsub "scope" ar) ;;
  openid <-- lift (val_in (VStr "openid") scope) ;;
  if openid : bool then add_id_token mk sid resp else ret (AOk resp None).


Lemma code_rest_none mk cx m1 m2 refresh ac sid g ar resp w a w' : code_rest mk cx m1 m2 refresh ac sid g None ar resp w = (Ok a, w') -> False.
Proof.
  unfold code_rest. intros H. destruct (bind_ok _ _ _ _ _ H) as ([o g1] & w1 & _ & H1). destruct (bind_ok _ _ _ _ _ H1) as (t & w2 & _ & H2).
  destruct (bind_ok _ _ _ _ _ H2) as ([g2 r2] & w3 & _ & H3). destruct (bind_ok _ _ _ _ _ H3) as (x & w4 & H4 & _). discriminate.
Qed.


(** the refresh, once the grant has been found (oidc/token.py:222-261) *)
Definition refresh_rest (mk : store -> string -> ST cdb string) (cx : ctx) (sharing : bool) (m1 m2 : minting) (sid : string) (g : grant)
    (token : option token) : W UserInfo.answer :=
  '(o, g1) <-- endpoint_mint cx m1 sid g "access_token" token ;;
  at_ <-- the_token o ;;
  let resp := [("access_token", VStr (t_value at_)); ("token_type", VStr "Bearer"); ("scope", vstrs (g_scope g1))] in
  let resp := if t_expires_at at_ =? 0 then resp else dset "expires_in" (VInt (t_expires_at at_ - mt_clock m1)) resp in
  t <-- the_token token ;;
  mints <-- lift (of_option EType (ur_mints (t_rules t))) ;;
  resp <-- (if smem "refresh_token" mints then
              '(o, g2) <-- endpoint_mint cx m2 sid g1 "refresh_token" token ;;
              rt <-- the_token o ;;
              in_db (poke sharing (session_key (unpack_session_key sid)) (EGrant (upd_newest (t_set_rules (t_rules t)) g2))) ;;;
              ret (dset "refresh_token" (VStr (t_value rt)) resp)
            else ret resp) ;;
  if smem "id_token" mints then add_id_token mk sid resp else ret (AOk resp None).

Lemma refresh_rest_none mk cx sh m1 m2 sid g w a w' : refresh_rest mk cx sh m1 m2 sid g None w = (Ok a, w') -> False.
Proof.
  unfold refresh_rest. intros H. destruct (bind_ok _ _ _ _ _ H) as ([o g1] & w1 & _ & H1). destruct (bind_ok _ _ _ _ _ H1) as (t & w2 & _ & H2).
  destruct (bind_ok _ _ _ _ _ H2) as (t2 & w3 & H3 & _). discriminate.
Qed.

Lemma in_db_same {A} (m : DB A) w : snd (m (w_db w)) = w_db w -> w_db (snd (in_db m w)) = w_db w.
Proof. unfold in_db. destruct (m (w_db w)) as [r s]. cbn. auto. Qed.

(** What being authorized does to the scope of a grant *)
Definition rescoped (request : msg) (g g' : grant) : Prop := g_scope g' = g_scope g \/ mget_list "scope" request = Some (g_scope g').
Lemma authz_call_rescoped cx clock c request res st : rescoped request (snd st) (snd (snd (authz_call cx clock c request res st))).
Proof.
  set (R := fun a b : cdb * grant => rescoped request (snd a) (snd b)).
  assert (Rr : forall s, R s s) by (intros s; left; reflexivity).
  assert (Rt : forall a b c, R a b -> R b c -> R a c).
  { intros a b c0 A [B|B]; [|right; exact B]. destruct A as [A|A]; [left; congruence|right; rewrite B; exact A]. }
  assert (G : forall f, (forall g, rescoped request g (f g)) -> moves R (on_grant f)) by (intros f Hf [cs g]; apply Hf).
  revert st. change (moves R (authz_call cx clock c request res)). unfold authz_call. cbv zeta.
  apply (moves_bind R Rt). { destruct (gc_rules _); [|apply (moves_ret R Rr)]. apply G. left. reflexivity. }
  intros _. apply (moves_bind R Rt). { destruct (gc_expires_in _); [|apply (moves_ret R Rr)]. apply G. left. reflexivity. }
  intros _. apply (moves_bind R Rt). { destruct (mget_list "scope" request) as [[|x l]|] eqn:Sc; try apply (moves_ret R Rr). apply G. right. exact Sc. }
  intros _. apply (moves_bind R Rt). { apply G. left. reflexivity. }
  intros _. apply (moves_iterM R Rr Rt). intros i _. apply (moves_bind R Rt); [apply (moves_lift R Rr)|]. intros scopes.
  apply (moves_bind R Rt); [apply (moves_gets R Rr)|]. intros g. apply (moves_bind R Rt).
  { intros [cs g0]. unfold on_cdb. cbn [fst snd]. destruct (get_claims _ _ _ _ _ cs); left; reflexivity. }
  intros r. apply G. left. reflexivity.
Qed.

(** ** What a call does to the store *)
Section Inv.
  Variable okg : string -> grant -> Prop.
  Definition inv (s : store) : Prop := forall k g, dget k s = Some (EGrant g) -> okg k g.
  Hypothesis okg_core : forall k g l, okg k g -> Forall2 same_core (g_issued g) l -> okg k (g_set_issued l g).
  Hypothesis okg_revoked : forall k g, okg k g -> okg k (g_set_revoked true g).

  (** ... and a token that has just been minted *)
  Definition takes (mt : minting) (sid ttype : string) : Prop := forall g t, okg sid g -> comes mt sid ttype t -> okg sid (with_token t g).
  (** ... and being authorized *)
  Definition settles (az : authz_env) (sid : string) (request : msg) : Prop :=
    match az_handler az with AImplicit _ => True | _ => forall g g', okg sid g -> untouched g g' -> rescoped request g g' -> okg sid g' end.

  Lemma inv_quiet s s' : quiet s s' -> inv s -> inv s'.
  Proof. intros Q I k g D. apply I. now apply Q. Qed.
  Lemma inv_regrants k g s s' : regrants k g s s' -> okg k g -> inv s -> inv s'.
  Proof. intros R O I k' g' D. destruct (R k' g' D) as [[-> ->]|[_ D']]; [exact O|now apply I]. Qed.

  (** Calls that keep this up, with what they return *)
  Definition trid {A} (m : DB A) (Q : A -> Prop) : Prop :=
    forall s, inv s -> inv (snd (m s)) /\ match fst (m s) with Ok a => Q a | Raise _ => True end.
  Definition tri {A} (m : W A) (Q : A -> Prop) : Prop :=
    forall w, inv (w_db w) -> inv (w_db (snd (m w))) /\ match fst (m w) with Ok a => Q a | Raise _ => True end.

  Lemma tri_in_db {A} (m : DB A) Q : trid m Q -> tri (in_db m) Q.
  Proof. intros H w I. unfold in_db. specialize (H (w_db w) I). destruct (m (w_db w)); exact H. Qed.
  Lemma tri_in_cdb {A} (m : ST cdb A) : tri (in_cdb m) (fun _ => True).
  Proof. intros w I. unfold in_cdb. destruct (m (w_cdb w)) as [[a|e] c]; cbn; auto. Qed.
  Lemma tri_bind {A B} (m : W A) (k : A -> W B) Q Q' : tri m Q -> (forall a, Q a -> tri (k a) Q') -> tri (bind m k) Q'.
  Proof.
    intros Hm Hk w I. unfold bind. specialize (Hm w I). destruct (m w) as [[a|e] w1]; cbn in *; [|tauto]. destruct Hm as [I1 Qa]. now apply Hk.
  Qed.
  Lemma trid_bind {A B} (m : DB A) (k : A -> DB B) Q Q' : trid m Q -> (forall a, Q a -> trid (k a) Q') -> trid (bind m k) Q'.
  Proof.
    intros Hm Hk w I. unfold bind. specialize (Hm w I). destruct (m w) as [[a|e] w1]; cbn in *; [|tauto]. destruct Hm as [I1 Qa]. now apply Hk.
  Qed.
  Lemma tri_ret {A} (a : A) (Q : A -> Prop) : Q a -> tri (ret a) Q.
  Proof. intros H w I. cbn. auto. Qed.
  Lemma trid_ret {A} (a : A) (Q : A -> Prop) : Q a -> trid (ret a) Q.
  Proof. intros H w I. cbn. auto. Qed.
  Lemma tri_raise {A} e (Q : A -> Prop) : tri (raise e) Q.
  Proof. intros w I. cbn. auto. Qed.
  Lemma trid_raise {A} e (Q : A -> Prop) : trid (raise e) Q.
  Proof. intros w I. cbn. auto. Qed.
  Lemma tri_lift {A} (r : result A) : tri (lift r) (fun a => r = Ok a).
  Proof. intros w I. cbn. split; [exact I|]. destruct r; auto. Qed.
  Lemma trid_lift {A} (r : result A) : trid (lift r) (fun a => r = Ok a).
  Proof. intros w I. cbn. split; [exact I|]. destruct r; auto. Qed.
  Lemma tri_gets {A} (f : world -> A) : tri (gets f) (fun _ => True).
  Proof. intros w I. cbn. auto. Qed.
  Lemma tri_attempt {A} (m : W A) Q : tri m Q -> tri (attempt m) (fun r => match r with Ok a => Q a | Raise _ => True end).
  Proof. intros H w I. unfold attempt. specialize (H w I). destruct (m w); exact H. Qed.
  Lemma tri_weaken {A} (m : W A) (Q Q' : A -> Prop) : (forall a, Q a -> Q' a) -> tri m Q -> tri m Q'.
  Proof. intros X H w I. destruct (H w I) as [I1 Q1]. split; [exact I1|]. destruct (fst (m w)); auto. Qed.
  Lemma trid_weaken {A} (m : DB A) (Q Q' : A -> Prop) : (forall a, Q a -> Q' a) -> trid m Q -> trid m Q'.
  Proof. intros X H w I. destruct (H w I) as [I1 Q1]. split; [exact I1|]. destruct (fst (m w)); auto. Qed.
  Lemma trid_mv {A} (m : DB A) : mv m -> trid m (fun _ => True).
  Proof. intros H s I. split; [eapply inv_quiet; [apply H|exact I]|]. destruct (fst (m s)); exact Logic.I. Qed.

  (** *** The store *)
  Definition ok_entry (k : string) (e : entry) : Prop := match e with EGrant g => okg k g | EInfo _ => True end.
  Lemma trid_read3 u c g : trid (db_read [u; c; g]) (ok_entry (session_key [u; c; g])).
  Proof.
    intros s I. split; [now rewrite db_read_state|]. destruct (db_read [u; c; g] s) as [[e|x] s'] eqn:E; cbn [fst]; [|exact Logic.I].
    apply read3_key in E. destruct e as [i|gr]; [exact Logic.I|]. now apply I.
  Qed.
  Lemma trid_read2 u c : trid (db_read [u; c]) (ok_entry (session_key [u; c])).
  Proof.
    intros s I. split; [now rewrite db_read_state|]. destruct (db_read [u; c] s) as [[e|x] s'] eqn:E; cbn [fst]; [|exact Logic.I].
    apply read2_key in E. destruct e as [i|gr]; [exact Logic.I|]. now apply I.
  Qed.
  Lemma trid_read q : trid (db_read q) (fun _ => True).
  Proof. apply trid_mv, mv_read. Qed.
  Lemma trid_mget sid u c g : unpack3 sid = Ok (u, c, g) -> trid (mget sid) (ok_entry sid).
  Proof. intros U. destruct (unpack3_key _ _ _ _ U) as [E K]. unfold mget. rewrite E. rewrite K. apply trid_read3. Qed.
  Lemma trid_store3 u c gid g : nonempty gid = true -> okg (session_key [u; c; gid]) g -> trid (db_store [u; c; gid] (EGrant g)) (fun _ => True).
  Proof.
    intros N O s I. split; [|destruct (fst _); exact Logic.I]. eapply inv_regrants; [apply store_regrants, N|exact O|exact I].
  Qed.
  Lemma trid_poke sh k g : okg k g -> trid (poke sh k (EGrant g)) (fun _ => True).
  Proof.
    intros O s I. split; [|exact Logic.I]. unfold poke, modify. cbn. destruct (sh && dmem k s); [|exact I].
    eapply inv_regrants; [apply regrants_dset|exact O|exact I].
  Qed.
  (** a grant kept at the key of a client session; with an empty name nothing is written *)
  Lemma trid_store2 u c e : ok_entry (session_key [u; c]) e -> trid (db_store [u; c] e) (fun _ => True).
  Proof.
    intros O. destruct e as [i|g]; [apply trid_mv, mv_store|]. intros s I. split; [|destruct (fst _); exact Logic.I].
    unfold db_store, lift, eval_path. unfold bind at 1. cbn [tr str_or_empty]. unfold ret at 1, bind at 1.
    assert (Y := mv_user_part u (Some c) (EGrant g)). cbn [tr str_or_empty] in Y.
    destruct (nonempty c) eqn:Nc; cbn [negb].
    - unfold bind at 2, db_get at 1, gets at 1. unfold bind at 1, db_set at 1, modify at 1.
      eapply inv_quiet; [|eapply inv_regrants; [apply (regrants_dset (session_key [u; c]) g s)|exact O|exact I]].
      apply Y. discriminate.
    - unfold bind at 1, ret at 1. eapply inv_quiet; [|exact I]. apply Y. discriminate.
  Qed.
  Lemma trid_as_grant k e : ok_entry k e -> trid (as_grant e) (okg k).
  Proof. destruct e as [i|g]; intros O; cbn [as_grant]; [apply trid_raise|now apply trid_ret]. Qed.

  Lemma trid_info sid us cs ae ar : trid (get_session_info sid us cs true ae ar)
    (fun i => in_sid i = sid /\ unpack3 sid = Ok (in_uid i, in_cid i, in_gid i) /\ exists e, in_grant i = Some e /\ ok_entry sid e).
  Proof.
    unfold get_session_info. eapply trid_bind; [apply trid_lift|]. intros [[u c] g] U. cbv beta iota.
    destruct (unpack3_key _ _ _ _ U) as [_ K].
    eapply trid_bind with (Q := fun _ => True).
    { destruct us; [|now apply trid_ret]. eapply trid_bind; [apply trid_read|]. intros. now apply trid_ret. }
    intros a1 _. eapply trid_bind with (Q := fun _ => True).
    { destruct cs; [|now apply trid_ret]. eapply trid_bind; [apply trid_read|]. intros. now apply trid_ret. }
    intros a2 _. eapply trid_bind with (Q := fun o => exists e, o = Some e /\ ok_entry sid e).
    { eapply trid_bind; [apply trid_read3|]. intros e O. apply trid_ret. exists e. split; [reflexivity|]. now rewrite K. }
    intros a3 (e & -> & O). eapply trid_bind with (Q := fun _ => True).
    { destruct ae; [|now apply trid_ret]. destruct e; apply trid_raise. }
    intros a4 _. eapply trid_bind with (Q := fun _ => True).
    { destruct ar; [|now apply trid_ret]. eapply trid_bind; [apply (trid_as_grant _ _ O)|]. intros. now apply trid_ret. }
    intros a5 _. apply trid_ret. cbn. split; [reflexivity|]. split; [exact U|]. eauto.
  Qed.
  Lemma trid_info0 sid us cs ae ar : trid (get_session_info sid us cs false ae ar) (fun _ => True).
  Proof.
    assert (Ag : forall e, trid (as_grant e) (fun _ => True)) by (intros [i|g]; [apply trid_raise|now apply trid_ret]).
    unfold get_session_info. eapply trid_bind; [apply trid_lift|]. intros [[u c] g] U. cbv beta iota.
    eapply trid_bind with (Q := fun _ => True).
    { destruct us; [|now apply trid_ret]. eapply trid_bind; [apply trid_read|]. intros. now apply trid_ret. }
    intros a1 _. eapply trid_bind with (Q := fun _ => True).
    { destruct cs; [|now apply trid_ret]. eapply trid_bind; [apply trid_read|]. intros. now apply trid_ret. }
    intros a2 _. eapply trid_bind; [now apply (trid_ret _ (fun o => o = @None entry))|]. intros a3 ->.
    eapply trid_bind with (Q := fun _ => True).
    { destruct ae; [|now apply trid_ret]. eapply trid_bind; [apply trid_read|]. intros e _. eapply trid_bind; [apply Ag|]. intros. now apply trid_ret. }
    intros a4 _. eapply trid_bind with (Q := fun _ => True).
    { destruct ar; [|now apply trid_ret]. eapply trid_bind; [apply trid_read|]. intros e _. eapply trid_bind; [apply Ag|]. intros. now apply trid_ret. }
    intros a5 _. now apply trid_ret.
  Qed.
  Lemma trid_grant_of sid i e : in_grant i = Some e -> ok_entry sid e -> trid (grant_of i) (okg sid).
  Proof. intros E O. unfold grant_of. rewrite E. now apply trid_as_grant. Qed.

  (** *** Minting *)
  Lemma tri_db_same {A} (m : W A) : (forall w r w', m w = (r, w') -> w_db w' = w_db w) -> tri m (fun _ => True).
  Proof. intros H w I. destruct (m w) as [r w'] eqn:E. cbn. rewrite (H _ _ _ E). split; [exact I|]. destruct r; exact Logic.I. Qed.

  Lemma tri_mint cx mt sid u c gid g ttype base : unpack3 sid = Ok (u, c, gid) -> nonempty gid = true -> okg sid g -> takes mt sid ttype ->
    tri (endpoint_mint cx mt sid g ttype base)
        (fun r => okg sid (snd r) /\ forall t, fst r = Some t -> comes mt sid ttype t /\ snd r = with_token t g).
  Proof.
    intros U N O HT. unfold endpoint_mint. destruct (unpack3_key _ _ _ _ U) as [Uk K].
    eapply tri_bind with (Q := fun r => match r with
       | (None, g1) => g1 = g
       | (Some t, g1) => comes mt sid ttype t /\ g1 = with_token t g
       end).
    { unfold mint_in. cbv zeta. eapply tri_bind; [apply tri_lift|]. intros [[t0|] g0] M; [|now apply tri_ret].
      eapply tri_bind; [apply tri_lift|]. intros [[u' c'] g'] U'. cbv beta iota.
      eapply tri_bind; [apply tri_db_same, payload_db|]. intros payload _.
      eapply tri_weaken; [|apply tri_lift]. intros r Er. cbv beta in Er.
      pose proof (mint_token_cases (mt_clock mt) (mt_id mt) g ttype base (dget ttype (gr_types (g_rules g))) None no_kw (mt_value mt sid payload)) as C.
      rewrite Er in C. destruct r as [[t|] g1]; [|apply C]. destruct (mint_plain _ _ _ _ _ _ _ _ _ Er) as (P1 & P2 & P3).
      destruct C as (_ & _ & C3 & C4 & C5 & _ & C7 & C8 & _ & _ & _ & _ & C9 & _ & _). split; [|exact P3].
      split; [exact C5|]. split; [eauto|]. repeat (split; [assumption|]). intros Cc. rewrite Cc in C5. rewrite C9.
      now rewrite (code_type _ C5). }
    intros [[t|] g1] H; cbv beta iota zeta.
    - destruct H as (Ct & ->). rewrite Uk.
      set (late := if _ =? 0 then fun t0 : token => t0 else _).
      assert (L : comes mt sid ttype (late t)) by (unfold late; destruct (_ =? 0); exact Ct).
      assert (G : upd_newest late (with_token t g) = with_token (late t) g) by (unfold upd_newest, with_token; cbn; now rewrite upd_last_app).
      rewrite G. assert (O2 : okg sid (with_token (late t) g)) by (apply HT; assumption).
      eapply tri_bind; [apply tri_in_db, trid_store3; [exact N|rewrite <- K; exact O2]|]. intros _ _. apply tri_ret. cbn [fst snd].
      split; [exact O2|]. intros t' E. assert (t' = late t) by congruence. subst t'. auto.
    - subst g1. destruct (negb _); [apply tri_raise|]. rewrite Uk.
      eapply tri_bind; [apply tri_in_db, trid_store3; [exact N|rewrite <- K; exact O]|]. intros _ _. apply tri_ret. cbn [fst snd].
      split; [exact O|]. discriminate.
  Qed.

  Lemma trid_update2 u c l : l <> [] -> trid (db_update [u; c] l) (fun _ => True).
  Proof.
    intros N. unfold db_update. eapply trid_bind; [apply trid_read|]. intros e0 _.
    eapply trid_bind with (Q := fun e => exists j, e = EInfo j).
    - destruct e0 as [i|g]; [apply trid_ret; eauto|]. destruct l; [congruence|]. apply trid_raise.
    - intros e (j & ->). apply trid_mv, mv_store.
  Qed.

  (** *** The authorization endpoint, once the session is known *)
  Lemma tri_code_part e sid u c gid g rt a : unpack3 sid = Ok (u, c, gid) -> nonempty gid = true -> okg sid g ->
    takes (az_code e) sid "authorization_code" ->
    tri (code_part e sid g rt a) (fun r => okg sid (snd (fst r))).
  Proof.
    intros U N O HT. unfold code_part. destruct (smem "code" rt); [|now apply tri_ret].
    eapply tri_bind; [eapply tri_mint; eauto|].
    intros [[t|] g2] [O2 _]; cbv beta iota; [now apply tri_ret|apply tri_raise].
  Qed.
  Lemma tri_token_part e sid u c gid g rt code a : unpack3 sid = Ok (u, c, gid) -> nonempty gid = true -> okg sid g ->
    takes (az_access e) sid "access_token" ->
    tri (token_part e sid g rt code a) (fun _ => True).
  Proof.
    intros U N O HT. unfold token_part. destruct (smem "token" rt); [|now apply tri_ret].
    eapply tri_bind; [eapply tri_mint; eauto|].
    intros [[t|] g2] [O2 _]; cbv beta iota; [now apply tri_ret|apply tri_raise].
  Qed.
  Lemma tri_id_part e i rt code access a : tri (id_part e i rt code access a) (fun _ => True).
  Proof.
    unfold id_part. destruct (smem "id_token" rt); [|now apply tri_ret].
    eapply tri_bind; [apply tri_gets|]. intros s _. eapply tri_bind; [apply tri_in_cdb|]. intros [x|] _; [|now apply tri_ret].
    eapply tri_bind; [apply tri_in_db, trid_update2; discriminate|]. intros. now apply tri_ret.
  Qed.

  Definition mints_here (az : authz_env) (sid : string) (request : msg) : Prop :=
    takes (az_code az) sid "authorization_code" /\ takes (az_access az) sid "access_token" /\ settles az sid request.

  Lemma tri_create e request sid u c gid : unpack3 sid = Ok (u, c, gid) -> nonempty gid = true -> mints_here e sid request ->
    tri (create_authn_response e request sid) (fun _ => True).
  Proof.
    intros U N (M1 & M2 & _). unfold create_authn_response. cbv zeta.
    destruct (match mget_list "response_type" request with Some l => only "none" l | None => false end); [now apply tri_ret|].
    eapply tri_bind; [apply tri_in_db, trid_info|]. intros i (Si & Ui & x & Gi & Oi).
    eapply tri_bind; [apply tri_lift|]. intros rt _. eapply tri_bind; [apply tri_in_db; eapply trid_grant_of; eauto|]. intros g O. rewrite Si.
    eapply tri_bind; [eapply tri_code_part; [exact U|exact N|exact O|exact M1]|]. intros [[code g2] a] O2. cbn [fst snd] in O2. cbv beta iota.
    eapply tri_bind; [eapply tri_token_part; [exact U|exact N|exact O2|exact M2]|]. intros [access a2] _. cbv beta iota.
    eapply tri_bind; [apply tri_id_part|]. intros [a3|] _; [|now apply tri_ret]. destruct (forallb _ rt); now apply tri_ret.
  Qed.

  Lemma tri_authorize e sid u c gid request : unpack3 sid = Ok (u, c, gid) -> settles e sid request -> tri (authorize e sid request) (okg sid).
  Proof.
    intros U St. unfold authorize, settles in *. destruct (az_handler e) as [|keys].
    2: { unfold implicit. eapply tri_bind; [apply tri_in_db; unfold get_grant; eapply trid_bind; [apply trid_lift|]|].
      - intros [[u' c'] g'] U'. cbv beta iota. destruct (unpack3_key _ _ _ _ U') as [_ K].
        eapply trid_bind; [apply trid_read3|]. intros en O. rewrite <- K in O.
        instantiate (1 := okg sid). destruct en as [x|g0]; [apply trid_raise|now apply trid_ret].
      - intros g O. destruct (forallb two_characters keys); [now apply tri_ret|apply tri_raise]. }
    unfold handling. eapply tri_bind; [apply tri_in_db, trid_info|]. intros i (Si & Ui & x & Gi & Oi).
    eapply tri_bind; [apply tri_in_db; eapply trid_grant_of; eauto|]. intros g O. intros w I.
    pose proof (authz_call_untouched (az_cx e) (az_clock e) (in_cid i) request None (w_cdb w, g)) as Un.
    pose proof (authz_call_rescoped (az_cx e) (az_clock e) (in_cid i) request None (w_cdb w, g)) as Rs.
    destruct (authz_call _ _ _ _ _ _) as [r [cl g']]. cbn [snd] in Un, Rs.
    assert (O' : okg sid g') by (eapply St; eauto).
    destruct (unpack3_key _ _ _ _ Ui) as [_ K].
    assert (X := trid_poke (az_sharing e) (session_key [in_uid i; in_cid i; in_gid i]) g'). rewrite <- K in X at 1.
    destruct (tri_in_db _ _ (X O') (mkW (w_db w) cl) I) as [I2 _].
    destruct r; cbn [fst snd]; auto.
  Qed.

  Lemma tri_post e request sid u c gid : unpack3 sid = Ok (u, c, gid) -> nonempty gid = true -> mints_here e sid request ->
    tri (post_authentication e request sid) (fun _ => True).
  Proof.
    intros U N M. unfold post_authentication.
    eapply tri_bind; [eapply tri_attempt, tri_authorize; [exact U|apply M]|]. intros [g|x] O; [|now apply tri_ret].
    eapply tri_bind; [apply tri_lift|]. intros [[u' c'] g'] U'. cbv beta iota.
    assert (u' = u /\ c' = c /\ g' = gid) as (-> & -> & ->) by (repeat split; congruence).
    destruct (unpack3_key _ _ _ _ U) as [_ K].
    eapply tri_bind; [eapply tri_attempt, tri_in_db, trid_store3; [exact N|rewrite <- K; exact O]|]. intros [?|x] _; [|now apply tri_ret].
    eapply tri_bind; [apply tri_lift|]. intros rt _. eapply tri_bind; [eapply tri_create; eauto|]. intros r _. cbv zeta.
    eapply tri_bind; [apply tri_gets|]. intros clients _.
    destruct (get_uri _ _ _ _) as [uri|x]; [|destruct x; first [now apply tri_ret|apply tri_raise]].
    eapply tri_bind; [apply tri_lift|]. intros ck _. destruct (dget "response_mode" request) as [mode|]; [|now apply tri_ret].
    destruct (response_mode _ _ _) as [r'|x]; [now apply tri_ret|]. destruct x; first [now apply tri_ret|apply tri_raise].
  Qed.

  Lemma tri_part2 e request sid u c gid : unpack3 sid = Ok (u, c, gid) -> nonempty gid = true -> mints_here e sid request ->
    tri (authz_part2 e request sid) (fun _ => True).
  Proof.
    intros U N M. unfold authz_part2. eapply tri_bind; [eapply tri_attempt, tri_post; eauto|]. intros [r|x] _; [|now apply tri_ret]. cbv zeta.
    assert (F : forall r0 : rinfo, tri (cid <-- lift (dsub "client_id" request) ;;
        ret (with_args (dset "client_id" cid (dset "iss" (VStr (cx_issuer (az_cx e))) (ri_args r0))) r0)) (fun _ => True)).
    { intros r0. eapply tri_bind; [apply tri_lift|]. intros. now apply tri_ret. }
    destruct (az_iframe e); [|apply F].
    eapply tri_bind.
    { eapply tri_attempt, tri_in_db. unfold get_authentication_event. eapply trid_bind; [apply trid_info0|]. intros i _.
      now apply (trid_ret _ (fun _ => True)). }
    intros [[ae|]|x] _; [| apply tri_raise | destruct x; first [now apply tri_ret|apply tri_raise]].
    destruct (negb _); [now apply tri_ret|]. eapply tri_bind; [apply tri_lift|]. intros o _. cbv zeta.
    eapply tri_bind; [apply tri_lift|]. intros cid _. eapply tri_bind; [apply tri_lift|]. intros uri _.
    eapply tri_bind; [apply tri_lift|]. intros origin _. apply F.
  Qed.

  (** *** Who the user is *)
  Lemma tri_identify e m request : tri (identify e m request) (fun r => match fst r with
    | None => True
    | Some id => exists limit id0 ts, age_limit request = Ok limit /\ me_auth m limit = Ok (Some id0, ts) /\
        (id = id0 \/ exists uid, dget "uid" id0 = Some uid /\ au_decode e uid = Ok (Some (VDict id)))
    end).
  Proof.
    intros w I. destruct (identify e m request w) as [[[o ts]|x] w'] eqn:E; cbn [fst snd].
    - destruct (identify_inv _ _ _ _ _ _ _ E) as (-> & limit & L & F). split; [exact I|]. destruct o as [id|]; [|exact Logic.I].
      destruct F as [[F _]|(id0 & uid & sid & g & F1 & F2 & F3 & _)].
      + exists limit, id, ts. auto.
      + exists limit, id0, ts. split; [exact L|]. split; [exact F1|]. right. eauto.
    - split; [|exact Logic.I]. revert E. unfold identify, bind, lift. destruct (age_limit request) as [limit|]; [|intros X; injection X as _ <-; exact I].
      destruct (me_auth m limit) as [[[id|] ts]|y].
      + destruct id as [|kv id]; [discriminate|]. destruct (dsub "uid" (kv :: id)) as [uid|]; [|intros X; injection X as _ <-; exact I].
        destruct (au_decode e uid) as [[v|]|]; [|discriminate|intros X; injection X as _ <-; exact I].
        destruct v as [| | | | |id2]; try (intros X; injection X as _ <-; exact I).
        destruct (dget "sid" id2) as [[]|]; try (intros X; injection X as _ <-; exact I).
        unfold in_db at 1. unfold mget. pose proof (db_read_state (unpack_session_key s) (w_db w)) as St.
        destruct (db_read _ (w_db w)) as [[en|] s']; cbn [snd] in St; subst s'; [|intros X; injection X as _ <-; exact I].
        unfold in_db. cbn [w_db]. destruct en; cbn; [intros X; injection X as _ <-; exact I|discriminate].
      + discriminate.
      + destruct y; try discriminate; intros X; injection X as _ <-; exact I.
  Qed.

  Lemma tri_valid_event e sid : tri (valid_event e sid) (fun _ => True).
  Proof.
    unfold valid_event. eapply tri_bind.
    { apply tri_in_db. unfold get_authentication_event. eapply trid_bind; [apply trid_info0|]. intros i _. now apply (trid_ret _ (fun _ => True)). }
    intros [ae|] _; [now apply tri_ret|apply tri_raise].
  Qed.

  (** new grants of [u] at [c] for [request] are allowed *)
  Definition opens_here (e : auth_env) (u c : string) (request : msg) : Prop := forall clock authn rules,
    okg (session_key [u; c; au_newid e]) (new_grant clock (au_newid e) (public_id (au_sha e) u (au_salt e)) (Some request) authn rules None).

  Lemma trid_create_grant clock newid authn ar u c sub rules scopes : nonempty newid = true ->
    (forall s, sub = Ok s -> okg (session_key [u; c; newid]) (new_grant clock newid s ar authn rules scopes)) ->
    trid (create_grant clock newid authn ar u c sub rules scopes) (fun sid => sid = session_key [u; c; newid]).
  Proof.
    intros N HP. unfold create_grant. eapply trid_bind; [apply trid_lift|]. intros s E. cbv zeta.
    eapply trid_bind; [|intros; now apply trid_ret]. apply trid_store3; [exact N|]. now apply HP.
  Qed.

  Lemma tri_first e m acr (request : msg) user : nonempty (au_newid e) = true ->
    (forall u c, user = VStr u -> dget "client_id" request = Some (VStr c) -> nonempty c = true /\ opens_here e u c request) ->
    tri (first_session e m acr request user) (fun sid => exists u c, user = VStr u /\ dget "client_id" request = Some (VStr c) /\
      sid = session_key [u; c; au_newid e]).
  Proof.
    intros N H. unfold first_session. eapply tri_bind; [apply tri_lift|]. intros u Eu. cbv zeta.
    eapply tri_bind; [apply tri_lift|]. intros c Ec. apply msub_str_ok in Ec.
    assert (user = VStr u) by (destruct user; try discriminate; cbn in Eu; congruence). subst user. destruct (H u c eq_refl Ec) as [Nc O].
    eapply tri_bind; [apply tri_gets|]. intros clients _. apply tri_in_db. unfold login_session. rewrite make_sub_public. unfold create_session.
    eapply trid_bind; [apply trid_mv, (moves_catch quiet quiet_trans); [mv_bind; auto with mv|auto with mv]|]. intros _ _.
    rewrite Nc. eapply trid_bind; [apply (trid_ret _ (fun x => x = c)); reflexivity|]. intros c' ->.
    eapply trid_bind; [apply trid_mv, mv_store|]. intros _ _.
    eapply trid_weaken; [|apply trid_create_grant; [exact N|]].
    - intros sid ->. eauto 6.
    - intros s E. assert (s = public_id (au_sha e) u (au_salt e)) by congruence. subst s. apply O.
  Qed.

  Lemma tri_known e (request : msg) user v : nonempty (au_newid e) = true ->
    (forall u c, user = VStr u -> dget "client_id" request = Some (VStr c) -> opens_here e u c request) ->
    tri (known_session e request user v) (fun o => match o with
      | None => True
      | Some sid => (v = VStr sid /\ exists u c g, unpack3 sid = Ok (u, c, g) /\ dget "client_id" request = Some (VStr c)) \/
                    exists u c, user = VStr u /\ dget "client_id" request = Some (VStr c) /\ sid = session_key [u; c; au_newid e]
      end).
  Proof.
    intros N H. unfold known_session. eapply tri_bind; [apply tri_lift|]. intros sid Ev.
    assert (v = VStr sid) by (destruct v; congruence). subst v. clear Ev.
    eapply tri_bind; [apply tri_lift|]. intros [[u c] g] U. cbv beta iota. eapply tri_bind; [apply tri_lift|]. intros cid C. apply dsub_ok in C.
    destruct (val_eqb cid (VStr c)) eqn:Ec; cbn [negb]; [|now apply tri_ret].
    assert (cid = VStr c) by (destruct cid; try discriminate; cbn in Ec; apply String.eqb_eq in Ec; congruence). subst cid.
    eapply tri_bind; [apply tri_in_db; eapply trid_mget, U|]. intros x Ox. eapply tri_bind; [apply tri_in_db, (trid_as_grant _ _ Ox)|]. intros gr _.
    destruct (negb _); [now apply tri_ret|].
    destruct (match g_authreq gr with Some r => au_same e request r | None => false end).
    { apply tri_ret. left. split; [reflexivity|]. eauto. }
    eapply tri_bind; [apply tri_valid_event|]. intros [ae|] _; [|now apply tri_ret].
    eapply tri_bind; [apply tri_lift|]. intros us Eu. eapply tri_bind; [apply tri_lift|]. intros c' Ec'.
    assert (c' = c) by (cbn in Ec'; congruence). subst c'.
    assert (user = VStr us) by (destruct user; try discriminate; cbn in Eu; congruence). subst user.
    eapply tri_bind; [apply tri_in_db, trid_create_grant; [exact N|]|].
    { intros s E. unfold sub_of in E. rewrite make_sub_public in E. assert (s = public_id (au_sha e) us (au_salt e)) by congruence. subst s. now apply H. }
    intros sid' ->. apply tri_ret. right. eauto.
  Qed.

  Lemma tri_setup e (request : msg) uri cinfo ru : good (au_newid e) ->
    (forall c, dget "client_id" request = Some (VStr c) -> good c) ->
    (forall id, recognises e request id -> (forall u, dget "uid" id = Some (VStr u) -> good u) /\ (forall v, dget "sid" id = Some v -> named_sid v)) ->
    (forall id u c, recognises e request id -> dget "uid" id = Some (VStr u) -> dget "client_id" request = Some (VStr c) -> opens_here e u c (changed e request)) ->
    tri (setup_auth e request uri cinfo ru) (fun s => match s with
      | SDone sid id _ => recognises e request id /\ goes_on e request id sid
      | _ => True
      end).
  Proof.
    intros Gn Gc Gi Ho. unfold setup_auth. eapply tri_bind; [apply tri_lift|]. intros [name acr] Pk. cbv beta iota zeta.
    eapply tri_bind; [apply tri_lift|]. intros m Em. apply dsub_ok in Em.
    assert (Mf : method_for e request name acr m) by (split; assumption).
    eapply tri_bind; [apply tri_identify|]. intros [o ts] Hi. cbn [fst] in Hi. cbv beta iota.
    eapply tri_bind; [apply tri_lift|]. intros args _. destruct o as [id|].
    2: { eapply tri_bind; [apply tri_lift|]. intros [|] _; [|now apply tri_ret]. eapply tri_bind; [apply tri_lift|]. intros. now apply tri_ret. }
    destruct (re_authenticate _); [now apply tri_ret|].
    destruct Hi as (limit & id0 & ts0 & L & A & D). rewrite age_limit_changed in L.
    assert (Rec : recognises e request id). { exists name, acr, m, limit, id0, ts0. auto. }
    destruct (Gi id Rec) as [Gu Gs].
    assert (Cg : forall c, dget "client_id" (changed e request) = Some (VStr c) -> dget "client_id" request = Some (VStr c)).
    { intros c. rewrite changed_get; [auto|discriminate]. }
    eapply tri_bind; [apply tri_lift|]. intros user Us. apply dsub_ok in Us.
    destruct (match ru with Some r => negb (val_eqb user r) | None => false end).
    { eapply tri_bind; [apply tri_lift|]. intros none _. destruct none; now apply tri_ret. }
    assert (Nn : nonempty (au_newid e) = true) by (now apply good_tr).
    assert (New : forall sid, (exists u c, user = VStr u /\ dget "client_id" (changed e request) = Some (VStr c) /\ sid = session_key [u; c; au_newid e]) ->
              goes_on e request id sid).
    { intros sid (u & c & -> & C & ->). exists u, c, (au_newid e). apply Cg in C. split; [apply unpack3_good; auto|]. split; [exact C|]. left. auto. }
    eapply tri_bind with (Q := fun o => match o with
       | Some sid => nonempty sid = true -> goes_on e request id sid
       | None => True
       end).
    { destruct (dget "sid" id) as [v|] eqn:Sd; [|apply tri_ret; discriminate].
      eapply tri_weaken; [|apply tri_known; [exact Nn|]].
      - intros [sid|]; [|auto]. intros [[-> (u & c & g & U & C)]|X] _.
        + exists u, c, g. split; [exact U|]. split; [now apply Cg|]. right. exact Sd.
        + now apply New.
      - intros u c -> C. eapply Ho; eauto. }
    intros [sid|] Hs; [|now apply tri_ret]. destruct (nonempty sid) eqn:Ns.
    - eapply tri_bind; [apply tri_valid_event|]. intros [v|] _; apply tri_ret; [|exact Logic.I]. auto.
    - eapply tri_bind; [apply tri_first; [exact Nn|]|].
      + intros u c -> C. apply Cg in C. split; [apply good_tr; auto|]. eapply Ho; eauto.
      + intros sid' X. apply tri_ret. split; [exact Rec|]. now apply New.
  Qed.

  Lemma tri_process e az oidc (request : msg) : call_ok (SAuthorize e az oidc (inr request)) ->
    (forall id u c, recognises e request id -> dget "uid" id = Some (VStr u) -> dget "client_id" request = Some (VStr c) -> opens_here e u c (changed e request)) ->
    (forall id sid, recognises e request id -> goes_on e request id sid -> mints_here az sid (changed e request)) ->
    tri (process_request e az oidc (inr request)) (fun _ => True).
  Proof.
    intros (Gn & Gc & Gi) Ho Hm. unfold process_request.
    eapply tri_bind; [apply tri_lift|]. intros cid C. eapply tri_bind; [apply tri_gets|]. intros clients _.
    eapply tri_bind; [apply tri_lift|]. intros cinfo _. eapply tri_bind with (Q := fun _ => True).
    { destruct (is_nil cinfo); [now apply tri_ret|]. eapply tri_bind; [apply tri_lift|]. intros sc _. eapply tri_weaken; [|apply tri_lift]. auto. }
    intros _ _. eapply tri_bind; [apply tri_lift|]. intros ru _. eapply tri_bind; [apply tri_lift|]. intros uri _.
    eapply tri_bind; [apply tri_setup; assumption|]. intros [info|name args|sid id user] H; [now apply tri_ret|now apply tri_ret|].
    destruct H as [Rec Go]. pose proof (Hm _ _ Rec Go) as M. destruct Go as (u & c & g & U & Cc & [[Eu ->]|Es]).
    - eapply tri_bind; [eapply tri_part2; [exact U|now apply good_tr|exact M]|]. intros. now apply tri_ret.
    - destruct (Gi id Rec) as [_ Gs]. destruct (Gs _ Es sid eq_refl) as (u' & c' & g' & Hu & Hc & Hg & ->).
      rewrite unpack3_good in U by assumption. assert (g' = g) by congruence. subst g'.
      eapply tri_bind; [eapply tri_part2; [apply unpack3_good; assumption|now apply good_tr|exact M]|]. intros. now apply tri_ret.
  Qed.

  (** *** The token endpoint *)
  Lemma tri_catch {A} (m : W A) (Q : A -> Prop) f h : tri m Q -> tri h Q -> tri (catch m f h) Q.
  Proof.
    intros Hm Hh w I. unfold catch. specialize (Hm w I). destruct (m w) as [[a|e] w1]; cbn in *; [exact Hm|]. destruct (f e); [|exact Hm].
    apply Hh, Hm.
  Qed.
  Lemma tri_add_id mk sid resp : tri (add_id_token mk sid resp) (fun _ => True).
  Proof.
    unfold add_id_token, id_token_for. eapply tri_bind with (Q := fun _ => True).
    - apply tri_catch; [|now apply tri_ret]. eapply tri_bind with (Q := fun _ => True); [|intros; now apply tri_ret].
      eapply tri_bind; [apply tri_gets|]. intros w _. apply tri_in_cdb.
    - intros [t|] _; now apply tri_ret.
  Qed.

  Definition mints_token (m1 m2 : minting) (sid : string) : Prop := takes m1 sid "access_token" /\ takes m2 sid "refresh_token".

  Lemma tri_the_token o : tri (the_token o) (fun t => o = Some t).
  Proof. unfold the_token. eapply tri_weaken; [|apply tri_lift]. intros t. destruct o; cbn; congruence. Qed.

  Lemma tri_code_rest mk cx m1 m2 refresh ac sid u c gid g code ar resp : unpack3 sid = Ok (u, c, gid) -> nonempty gid = true ->
    okg sid g -> mints_token m1 m2 sid -> tri (code_rest mk cx m1 m2 refresh ac sid g code ar resp) (fun _ => True).
  Proof.
    intros U N O [M1 M2]. unfold code_rest. destruct (unpack3_key _ _ _ _ U) as [Uk K].
    eapply tri_bind; [eapply tri_mint; [exact U|exact N|exact O|assumption]|].
    intros [o g1] [O1 _]. cbn [fst snd] in O1. cbv beta iota. eapply tri_bind; [apply tri_the_token|]. intros at_ _. cbv zeta.
    eapply tri_bind with (Q := fun r => okg sid (fst r)).
    { destruct refresh; [|now apply tri_ret]. eapply tri_bind; [eapply tri_mint; [exact U|exact N|exact O1|assumption]|].
        intros [o2 g2] [O2 _]. cbn [fst snd] in O2. cbv beta iota. eapply tri_bind; [apply tri_the_token|]. intros rt _. now apply tri_ret. }
    intros [g2 resp2] O2. cbn [fst] in O2. cbv beta iota. eapply tri_bind with (Q := fun _ => True).
    { destruct code; [now apply tri_ret|apply tri_raise]. }
    intros _ _. eapply tri_bind.
    { apply tri_in_db. unfold mset. rewrite Uk. apply trid_store3; [exact N|]. rewrite <- K. unfold upd_token. apply okg_core; [exact O2|].
      apply upd_first_core. apply register_usage_core. }
    intros _ _. eapply tri_bind; [apply tri_lift|]. intros sc _. eapply tri_bind; [apply tri_lift|]. intros [|] _; [apply tri_add_id|now apply tri_ret].
  Qed.
  Lemma tri_refresh_rest mk cx sh m1 m2 sid u c gid g tok : unpack3 sid = Ok (u, c, gid) -> nonempty gid = true ->
    okg sid g -> mints_token m1 m2 sid -> tri (refresh_rest mk cx sh m1 m2 sid g tok) (fun _ => True).
  Proof.
    intros U N O [M1 M2]. unfold refresh_rest. destruct (unpack3_key _ _ _ _ U) as [Uk K].
    eapply tri_bind; [eapply tri_mint; [exact U|exact N|exact O|assumption]|].
    intros [o g1] [O1 _]. cbn [fst snd] in O1. cbv beta iota. eapply tri_bind; [apply tri_the_token|]. intros at_ _. cbv zeta.
    eapply tri_bind; [apply tri_the_token|]. intros t _. eapply tri_bind; [apply tri_lift|]. intros mints _.
    eapply tri_bind with (Q := fun _ => True).
    { destruct (smem "refresh_token" mints); [|now apply tri_ret]. eapply tri_bind; [eapply tri_mint; [exact U|exact N|exact O1|assumption]|].
        intros [o2 g2] [O2 H2]. cbn [fst snd] in O2, H2. cbv beta iota. eapply tri_bind; [apply tri_the_token|]. intros rt Er.
      eapply tri_bind; [apply tri_in_db, trid_poke|intros; now apply tri_ret]. rewrite Uk, <- K.
      destruct (H2 rt Er) as [Cr ->]. unfold upd_newest. cbn [g_issued with_token g_set_used g_set_issued]. rewrite upd_last_app.
      apply (M2 g1 (t_set_rules (t_rules t) rt)); [exact O1|]. destruct Cr as (C1 & C2 & C3 & C4 & C5 & C6 & _). repeat (split; [assumption|]).
      cbn in C1. cbn [t_class t_set_rules]. congruence. }
    intros resp _. destruct (smem "id_token" mints); [apply tri_add_id|now apply tri_ret].
  Qed.
  (** *** Revocation and logout *)
  Lemma ok_revoked k e : ok_entry k e -> ok_entry k (revoke_entry e).
  Proof. destruct e as [i|g]; [auto|]. cbn. apply okg_revoked. Qed.
  Lemma trid_revoke_client sid : trid (revoke_client_session sid) (fun _ => True).
  Proof.
    unfold revoke_client_session. eapply trid_bind with (Q := fun _ => True).
    { destruct (unpack_session_key sid) as [|a [|b [|d [|]]]]; first [apply trid_raise|now apply trid_ret]. }
    intros [u c] _. cbv beta iota. eapply trid_bind; [apply trid_read2|]. intros x O. apply trid_store2. now apply ok_revoked.
  Qed.
  Lemma trid_revoke_grant u c g : good u -> good c -> good g -> trid (revoke_grant (session_key [u; c; g])) (fun _ => True).
  Proof.
    intros Hu Hc Hg. unfold revoke_grant. rewrite unpack_good by auto with gp. cbv zeta. eapply trid_bind; [apply trid_read3|].
    intros x O. apply ok_revoked in O. destruct x as [i|gr]; [apply trid_mv, mv_store|]. apply trid_store3; [now apply good_tr|exact O].
  Qed.
  Lemma trid_revoke_token sh d u c g v rc : good u -> good c -> good g -> trid (mgr_revoke_token sh d (session_key [u; c; g]) v rc) (fun _ => True).
  Proof.
    intros Hu Hc Hg. unfold mgr_revoke_token. rewrite unpack3_good by assumption. eapply trid_bind; [apply trid_lift|].
    intros [[u' c'] g'] E. assert (u' = u /\ c' = c /\ g' = g) as (-> & -> & ->) by (repeat split; congruence). clear E. cbv beta iota.
    eapply trid_bind; [apply trid_read3|]. intros x O. eapply trid_bind; [apply (trid_as_grant _ _ O)|]. intros gr Og.
    destruct (get_token v gr); [|apply trid_raise]. eapply trid_bind.
    { apply trid_poke. unfold upd_token. apply okg_core; [exact Og|]. apply upd_first_core. intros t0. unfold same_core; cbn; repeat split; auto; lia. }
    intros _ _. destruct rc; [|now apply trid_ret]. eapply trid_bind; [eapply trid_mget, unpack3_good; assumption|]. intros e2 O2.
    eapply trid_bind; [apply (trid_as_grant _ _ O2)|]. intros gr2 Og2. destruct (revoke_dependent d v (g_issued gr2)) as [l r] eqn:E.
    eapply trid_bind; [|intros _ _; eapply trid_weaken; [|apply trid_lift]; auto]. apply trid_poke. apply okg_core; [exact Og2|].
    replace l with (fst (revoke_dependent d v (g_issued gr2))) by (now rewrite E). apply dep_core.
  Qed.
  Lemma trid_remove sh sid : trid (remove_session sh sid) (fun _ => True).
  Proof.
    unfold remove_session. eapply trid_bind; [apply trid_lift|]. intros [[u c] g] _. apply trid_mv, mv_delete.
  Qed.
  Lemma trid_revocation sh op : call_ok (SRevoke op) -> trid (mstep sh op) (fun _ => True).
  Proof.
    destruct op; cbn [call_ok mstep]; intros H; try contradiction.
    - apply trid_revoke_client.
    - destruct H as (Hu & Hc & Hg). now apply trid_revoke_grant.
    - destruct H as (Hu & Hc & Hg). now apply trid_revoke_token.
    - apply trid_remove.
  Qed.
  Lemma tri_clean l : tri (clean_sessions l) (fun _ => True).
  Proof.
    induction l as [|sid l IH]; [now apply tri_ret|]. cbn [clean_sessions]. eapply tri_bind; [apply tri_in_db, trid_revoke_client|]. intros _ _. exact IH.
  Qed.
  Lemma tri_logout e sid (alla : bool) : tri (if alla then logout_all_clients e sid else logout_from_client e sid) (fun _ => True).
  Proof.
    destruct alla.
    - unfold logout_all_clients. eapply tri_bind; [apply tri_in_db, trid_info0|]. intros i _. eapply tri_bind; [apply tri_gets|]. intros cl _.
      eapply tri_bind; [apply tri_lift|]. intros subs _. eapply tri_bind; [apply tri_lift|]. intros [sids n] _. cbv beta iota.
      eapply tri_bind; [apply tri_clean|]. intros. now apply tri_ret.
    - unfold logout_from_client. eapply tri_bind with (Q := fun _ => True); [apply tri_in_db; eapply trid_weaken; [|apply trid_info]; exact (fun _ _ => Logic.I)|]. intros i _.
      eapply tri_bind; [apply tri_gets|]. intros cl _. eapply tri_bind; [apply tri_lift|]. intros [b n] _. cbv beta iota.
      eapply tri_bind; [apply tri_clean|]. intros. now apply tri_ret.
  Qed.
  Lemma inv_logout e sid alla w : inv (w_db w) -> inv (w_db (snd (do_verified_logout e sid alla w))).
  Proof.
    intros I. unfold do_verified_logout. pose proof (tri_logout e sid alla w I) as X.
    destruct ((if alla then logout_all_clients e sid else logout_from_client e sid) w) as [[n|x] w']; [|exact (proj1 X)].
    destruct (post_all e (no_back n)) as [sent r]. exact (proj1 X).
  Qed.
  Section Token.
  Variable sid_of : string -> result string.
  Hypothesis Hsid : sids_ok sid_of.
  Lemma inv_code mk cx m1 m2 ir rq w : (forall sid, mints_token m1 m2 sid) -> inv (w_db w) -> inv (w_db (snd (code_process sid_of cx mk m1 m2 ir rq w))).
  Proof.
    intros M I. destruct (code_process sid_of cx mk m1 m2 ir rq w) as [r w'] eqn:H. cbn [snd]. unfold code_process in H.
    head_bind H E0. unfold lift in E0. assert (r0 = msub_str "grant_type" rq /\ w0 = w) as [-> ->] by (split; congruence). clear E0.
    destruct (msub_str "grant_type" rq) as [gt|e]; [|injection H as <- <-; exact I].
    destruct (negb _); [injection H as <- <-; exact I|].
    destruct (dmem "code" rq); cbn [negb] in H; [|injection H as <- <-; exact I].
    head_bind H E0. unfold lift in E0. assert (r0 = msub_str "code" rq /\ w0 = w) as [-> ->] by (split; congruence). clear E0.
    destruct (msub_str "code" rq) as [raw|e]; [|injection H as <- <-; exact I]. cbv zeta in H.
    head_bind H Es. apply (in_session_by sid_of Hsid) in Es. destruct Es as [-> Es].
    destruct r0 as [[i g]|e]; [|injection H as <- <-; exact I]. destruct Es as (u & c & gid & L & ->). cbn [in_sid] in H.
    destruct L as (Hu & Hc & Hg & Sv & V). apply view_key in V.
    head_bind H E0. unfold the_request, lift in E0. assert (r0 = of_option EType (g_authreq g) /\ w0 = w) as [-> ->] by (split; congruence). clear E0.
    destruct (g_authreq g) as [ar|]; cbn [of_option] in H; [|injection H as <- <-; exact I].
    head_bind H E0. assert (w0 = w) as ->.
    { destruct (dget "redirect_uri" ar); unfold bind, lift, ret in E0; [destruct (dsub "redirect_uri" rq)|]; congruence. } clear E0.
    destruct r0 as [[|]|e]; [injection H as <- <-; exact I| |injection H as <- <-; exact I].
    set (refresh := match ir with Some b => b | None => smem "offline_access" (g_scope g) end) in H.
    set (resp := [("token_type", VStr "Bearer"); ("scope", vstrs (g_scope g))]) in H.
    change (code_rest mk cx m1 m2 refresh (blank_to_plus raw) (session_key [u; c; gid]) g (get_token (blank_to_plus raw) g) ar resp w = (r, w')) in H.
    assert (Y := tri_code_rest mk cx m1 m2 refresh (blank_to_plus raw) _ _ _ _ g (get_token (blank_to_plus raw) g) ar resp
      (unpack3_good _ _ _ Hu Hc Hg) (good_tr _ Hg) (I _ _ V) (M _) w I).
    rewrite H in Y. exact (proj1 Y).
  Qed.
  Lemma inv_refresh mk cx sh m1 m2 rq w : (forall sid, mints_token m1 m2 sid) -> inv (w_db w) -> inv (w_db (snd (refresh_process sid_of cx mk sh m1 m2 rq w))).
  Proof.
    intros M I. destruct (refresh_process sid_of cx mk sh m1 m2 rq w) as [r w'] eqn:H. cbn [snd]. unfold refresh_process in H.
    head_bind H E0. unfold lift in E0. assert (r0 = msub_str "grant_type" rq /\ w0 = w) as [-> ->] by (split; congruence). clear E0.
    destruct (msub_str "grant_type" rq) as [gt|e]; [|injection H as <- <-; exact I].
    destruct (negb _); [injection H as <- <-; exact I|].
    head_bind H E0. unfold lift in E0. assert (r0 = msub_str "refresh_token" rq /\ w0 = w) as [-> ->] by (split; congruence). clear E0.
    destruct (msub_str "refresh_token" rq) as [raw|e]; [|injection H as <- <-; exact I].
    head_bind H Es. apply (in_session_by sid_of Hsid) in Es. destruct Es as [-> Es].
    destruct r0 as [[i g]|e]; [|injection H as <- <-; exact I]. destruct Es as (u & c & gid & L & ->). cbn [in_sid] in H.
    destruct L as (Hu & Hc & Hg & Sv & V). apply view_key in V.
    change (refresh_rest mk cx sh m1 m2 (session_key [u; c; gid]) g (get_token raw g) w = (r, w')) in H.
    assert (Y := tri_refresh_rest mk cx sh m1 m2 _ _ _ _ g (get_token raw g) (unpack3_good _ _ _ Hu Hc Hg) (good_tr _ Hg) (I _ _ V) (M _) w I).
    rewrite H in Y. exact (proj1 Y).
  Qed.
  Lemma inv_token cx mk sh helpers m1 m2 ir rq w : (forall sid, mints_token m1 m2 sid) -> inv (w_db w) -> inv (w_db (snd (token_process sid_of cx mk sh helpers m1 m2 ir (PReq rq) w))).
  Proof.
    intros M I. destruct (token_process sid_of cx mk sh helpers m1 m2 ir (PReq rq) w) as [r w'] eqn:H. cbn [snd]. unfold token_process in H.
    head_bind H E0. unfold lift in E0. assert (r0 = msub_str "grant_type" rq /\ w0 = w) as [-> ->] by (split; congruence). clear E0.
    destruct (msub_str "grant_type" rq) as [gt|e] eqn:Eg; [|injection H as <- <-; exact I].
    destruct (dget gt helpers) as [h|]; [|injection H as <- <-; exact I].
    assert (Fin : forall r1 w1, inv (w_db w1) ->
      match r1 with Ok a => match a with
            | UserInfo.AError e d => ret (UserInfo.AError e d)
            | AOk args _ => v <-- lift (msub_str "access_token" args) ;; in_db (session_by sid_of v) ;;; ret (AOk args None)
            end w1 | Raise e => (Raise e, w1) end = (r, w') -> inv (w_db w')).
    { intros r1 w1 I1 H1. assert (w' = w1) as ->; [|exact I1]. destruct r1 as [a|e]; [|congruence].
      destruct a as [e d|args cl]; [unfold ret in H1; congruence|]. head_bind H1 E1. unfold lift in E1. assert (w0 = w1) by congruence. subst w0.
      destruct r0 as [v|e]; [|congruence]. head_bind H1 E2. apply (in_session_by sid_of Hsid) in E2. destruct E2 as [-> _].
      destruct r0; [unfold ret in H1|]; congruence. }
    destruct h; [| |injection H as <- <-; exact I]; head_bind H E0; (eapply Fin; [|exact H]).
    - pose proof (inv_code mk cx m1 m2 ir rq w M I) as X. rewrite E0 in X. exact X.
    - pose proof (inv_refresh mk cx sh m1 m2 rq w M I) as X. rewrite E0 in X. exact X.
  Qed.
  End Token.

  (** What the calls must be like: all they may do keeps it up. *)
  Definition allows (o : call) : Prop :=
    match o with
    | SAuthorize e az _ (inr request) =>
        (forall id u c, recognises e request id -> dget "uid" id = Some (VStr u) -> dget "client_id" request = Some (VStr c) -> opens_here e u c (changed e request)) /\
        (forall id sid, recognises e request id -> goes_on e request id sid -> mints_here az sid (changed e request))
    | SProcess m1 m2 _ _ => forall sid, mints_token m1 m2 sid
    | _ => True
    end.
  Lemma inv_call y o s : sids_ok (sy_sid_of y) -> call_ok o -> allows o -> inv (w_db (ss_world s)) -> inv (w_db (ss_world (fst (sstep y o s)))).
  Proof.
    intros Hs Ho Uc I. destruct o as [e az oidc request|clock request|m1 m2 ir n|clock request|clock un request|e sid alla|op|f]; cbn [sstep].
    - destruct request as [m|request]; [exact I|]. destruct Uc as [Uo Um].
      pose proof (proj1 (tri_process e az oidc request Ho Uo Um (ss_world s) I)) as X.
      destruct (process_request e az oidc (inr request) (ss_world s)) as [r w']. exact X.
    - assert (X : w_db (snd (in_db (token_parse (sy_sid_of y) (sy_b64hash y) (sy_helpers y) (sy_pkce y) clock request) (ss_world s))) = w_db (ss_world s)).
      { apply in_db_same. destruct (token_parse _ _ _ _ _ _ _) as [r1 s1] eqn:E1. apply (token_parse_cases _ _ Hs) in E1. apply E1. }
      destruct (in_db _ (ss_world s)) as [r w']. cbn [fst snd ss_world] in *. now rewrite X.
    - destruct (nth_error (ss_accepted s) n) as [rq|]; [|exact I].
      pose proof (inv_token (sy_sid_of y) Hs (sy_cx y) (sy_idtoken y) (sy_sharing y) (sy_helpers y) m1 m2 ir rq (ss_world s) Uc I) as X.
      destruct (token_process _ _ _ _ _ _ _ _ _ _) as [r w']. exact X.
    - assert (X : w_db (snd (in_db (userinfo_process (sy_sid_of y) (sy_cx y) (w_cdb (ss_world s)) clock request) (ss_world s))) = w_db (ss_world s)) by apply in_db_same, userinfo_state.
      destruct (in_db _ (ss_world s)) as [r w']. cbn [fst snd ss_world] in *. now rewrite X.
    - assert (X : w_db (snd (in_db (introspection_process (sy_sid_of y) (sy_cx y) (w_cdb (ss_world s)) clock un request) (ss_world s))) = w_db (ss_world s)) by apply in_db_same, introspection_state.
      destruct (in_db _ (ss_world s)) as [r w']. cbn [fst snd ss_world] in *. now rewrite X.
    - cbn [fst ss_world]. now apply inv_logout.
    - cbn [fst ss_world]. eapply tri_in_db; [apply trid_revocation, Ho|exact I].
    - exact I.
  Qed.
  Lemma inv_run y l : sids_ok (sy_sid_of y) -> forall s p, Forall call_ok l -> Forall allows l -> inv (w_db (ss_world s)) -> inv (w_db (ss_world (fst (srun y l s p)))).
  Proof.
    intros Hs. induction l as [|o l IH]; intros s p F U I; [exact I|]. inversion F as [|? ? Ho Fl]; subst. inversion U as [|? ? Uo Ul]; subst. cbn [srun].
    pose proof (inv_call y o s Hs Ho Uo I) as X. destruct (sstep y o s) as [s' r]. apply IH; assumption.
  Qed.
End Inv.

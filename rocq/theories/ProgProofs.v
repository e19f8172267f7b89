(** ProgProofs.v: run undisturbed, the programs of Prog.v do what the functions of the other files do. *)
From Verif Require Import Base BaseProofs Monad Types SessionKey Token Grant Database Manager Ctx Claims World Minting UserInfo TokenEndpoint Prog.

Lemma exec_bind {A B} (p : prog A) (k : A -> prog B) : forall w,
  exec (pbind p k) w = match exec p w with (Ok a, w') => exec (k a) w' | (Raise e, w') => (Raise e, w') end.
Proof.
  induction p as [[a|e]|x f IH|x v p IH|x f IH|C m f IH]; intros w; cbn [pbind exec]; auto.
  destruct (m (w_db w) (w_cdb w)) as [r c]. apply IH.
Qed.
Lemma exec_catch {A} (p : prog A) c h : forall w,
  exec (pcatch p c h) w = match exec p w with (Ok a, w') => (Ok a, w') | (Raise e, w') => if c e then exec h w' else (Raise e, w') end.
Proof.
  induction p as [[a|e]|x f IH|x v p IH|x f IH|C m f IH]; intros w; cbn [pcatch exec]; auto.
  - destruct (c e); reflexivity.
  - destruct (m (w_db w) (w_cdb w)) as [r c']. apply IH.
Qed.

(** ** Programs of the session store *)
Definition does {A} (p : prog A) (m : DB A) : Prop := forall w, exec p w = in_db m w.
Lemma eta w : mkW (w_db w) (w_cdb w) = w.
Proof. now destruct w. Qed.
Lemma does_done {A} (r : result A) : does (Done r) (lift r).
Proof. intros w. unfold in_db, lift. cbn. now rewrite eta. Qed.
Lemma does_ret {A} (a : A) : does (pret a) (ret a).
Proof. exact (does_done (Ok a)). Qed.
Lemma does_raise {A} e : does (@praise A e) (raise e).
Proof. exact (does_done (Raise e)). Qed.
Lemma does_bind {A B} (p : prog A) m (k : A -> prog B) h :
  does p m -> (forall a, does (k a) (h a)) -> does (pbind p k) (bind m h).
Proof.
  intros H K w. rewrite exec_bind, H. unfold in_db, bind. destruct (m (w_db w)) as [[a|e] s]; [|reflexivity].
  rewrite K. reflexivity.
Qed.
Lemma does_catch {A} (p : prog A) m c h h' : does p m -> does h h' -> does (pcatch p c h) (catch m c h').
Proof.
  intros H K w. rewrite exec_catch, H. unfold in_db, catch. destruct (m (w_db w)) as [[a|e] s]; [reflexivity|].
  destruct (c e); [|reflexivity]. rewrite K. reflexivity.
Qed.
Lemma does_sub k : does (p_sub k) (db_sub k).
Proof. intros w. unfold p_sub, db_sub, in_db, dsub, of_option. cbn. rewrite eta. destruct (dget k (w_db w)); reflexivity. Qed.
Lemma does_get k : does (p_get k) (db_get k).
Proof. intros w. unfold p_get, db_get, gets, in_db, pret. cbn. now rewrite eta. Qed.
Lemma does_set k v : does (p_set k v) (db_set k v).
Proof. intros w. reflexivity. Qed.
Lemma ddel_none {A} k (d : dict A) : dmem k d = false -> ddel k d = d.
Proof.
  unfold dmem. induction d as [|[k' v] d IH]; cbn -[String.eqb]; [reflexivity|].
  destruct (String.eqb k k'); [discriminate|]. intros H. now rewrite IH.
Qed.
Lemma does_del k : does (p_del k) (db_del k).
Proof.
  intros w. unfold p_del, db_del, in_db. cbn. destruct (dmem k (w_db w)) eqn:E; [reflexivity|].
  cbn. now rewrite ddel_none.
Qed.
Lemma does_poke k v : does (pret tt) (poke false k v).
Proof. intros w. unfold poke, modify, in_db. cbn. now rewrite eta. Qed.
Lemma does_iter {A} (f : A -> prog unit) g l : (forall x, does (f x) (g x)) -> does (p_iter f l) (iterM g l).
Proof. intros H. induction l as [|x l IH]; cbn; [apply does_ret|]. apply does_bind; auto. Qed.
Lemma does_eq {A} (p : prog A) m m' : (forall s, m s = m' s) -> does p m -> does p m'.
Proof. intros E H w. rewrite H. unfold in_db. now rewrite E. Qed.
(** a step that does nothing may be left out *)
Lemma does_skip {A} (p : prog A) k v m : does p m -> does p (poke false k v ;;; m).
Proof.
  intros H. apply (does_eq p m); [|exact H]. intros s. unfold poke, modify, bind. reflexivity.
Qed.

Create HintDb does.
#[export] Hint Resolve does_done does_ret does_raise does_sub does_get does_set does_del does_iter does_skip : does.
Ltac does_tac :=
  repeat first
    [ solve [eauto with does] | progress cbv zeta
    | apply does_bind; [|intros ?] | apply does_catch
    | match goal with
      | |- does (if ?b then _ else _) _ => destruct b
      | |- does (match ?x with _ => _ end) _ => destruct x
      end ].

Lemma does_store path v : does (p_store path v) (db_store path v).
Proof. unfold p_store, db_store. does_tac. Qed.
Lemma does_read path : does (p_read path) (db_read path).
Proof. unfold p_read, db_read. does_tac. Qed.
#[export] Hint Resolve does_store does_read : does.
Lemma does_delete path : does (p_delete path) (db_delete false path).
Proof. unfold p_delete, db_delete. does_tac. Qed.
#[export] Hint Resolve does_delete : does.
Lemma does_update path new : does (p_update path new) (db_update path new).
Proof.
  unfold p_update, db_update. apply does_bind; [apply does_read|]. intros e. apply does_bind; [|intros; apply does_store].
  destruct e as [i|g]; [apply does_ret|]. destruct (is_nil new); [apply does_ret|apply does_raise].
Qed.

Lemma does_create_grant clock newid authn ar u c sub rules scopes :
  does (p_create_grant clock newid authn ar u c sub rules scopes) (create_grant clock newid authn ar u c sub rules scopes).
Proof. unfold p_create_grant, create_grant. does_tac. Qed.
#[export] Hint Resolve does_create_grant : does.
Lemma does_create_session clock newid authn ar u c sub rules scopes :
  does (p_create_session clock newid authn ar u c sub rules scopes) (create_session clock newid authn ar u c sub rules scopes).
Proof. unfold p_create_session, create_session. does_tac. Qed.
Lemma does_add_grant u c gr : does (p_add_grant u c gr) (add_grant u c gr).
Proof. unfold p_add_grant, add_grant. does_tac. Qed.
Lemma does_revoke_client_session sid : does (p_revoke_client_session sid) (revoke_client_session sid).
Proof.
  unfold p_revoke_client_session, revoke_client_session. does_tac.
Qed.
Lemma does_revoke_grant sid : does (p_revoke_grant sid) (revoke_grant sid).
Proof. unfold p_revoke_grant, revoke_grant. does_tac. Qed.
Lemma does_as_grant e : does (Done (match e with EGrant g => Ok g | EInfo _ => Raise EAttr end)) (as_grant e).
Proof. destruct e; apply does_done. Qed.
#[export] Hint Resolve does_as_grant : does.
Lemma does_revoke_token depth sid value recursive :
  does (p_revoke_token depth sid value recursive) (mgr_revoke_token false depth sid value recursive).
Proof.
  unfold p_revoke_token, mgr_revoke_token. apply does_bind; [apply does_done|]. intros [[u c] g].
  apply does_bind; [apply does_read|]. intros e. apply does_bind; [apply does_as_grant|]. intros gr.
  destruct (get_token value gr); [|apply does_raise]. apply does_skip. destruct recursive; [|apply does_ret].
  apply does_bind; [apply does_read|]. intros e2. apply does_bind; [apply does_as_grant|]. intros gr2.
  destruct (revoke_dependent depth value (g_issued gr2)) as [l r]. apply does_skip. apply does_done.
Qed.
Lemma does_remove_session sid : does (p_remove_session sid) (remove_session false sid).
Proof. unfold p_remove_session, remove_session. does_tac. Qed.
Lemma does_get_grant sid : does (p_get_grant sid) (get_grant sid).
Proof.
  unfold p_get_grant, get_grant. apply does_bind; [apply does_done|]. intros [[u c] g].
  apply does_bind; [apply does_read|]. intros e. destruct e; apply does_done.
Qed.
Lemma does_write sid f : does (p_write sid f) (gr <-- get_grant sid ;; mset sid (EGrant (f gr))).
Proof. unfold p_write, mset, p_mset. apply does_bind; [apply does_get_grant|]. intros gr. apply does_store. Qed.

(** ** Programs that also use the client database *)
Definition wdoes {A} (p : prog A) (m : W A) : Prop := forall w, exec p w = m w.
Lemma wdoes_db {A} (p : prog A) m : does p m -> wdoes p (in_db m).
Proof. auto. Qed.
Lemma wdoes_done {A} (r : result A) : wdoes (Done r) (lift r).
Proof. intros w. reflexivity. Qed.
Lemma wdoes_bind {A B} (p : prog A) m (k : A -> prog B) h :
  wdoes p m -> (forall a, wdoes (k a) (h a)) -> wdoes (pbind p k) (bind m h).
Proof.
  intros H K w. rewrite exec_bind, H. unfold bind. destruct (m w) as [[a|e] s]; [|reflexivity]. apply K.
Qed.
Lemma wdoes_catch {A} (p : prog A) m c h h' : wdoes p m -> wdoes h h' -> wdoes (pcatch p c h) (catch m c h').
Proof.
  intros H K w. rewrite exec_catch, H. unfold catch. destruct (m w) as [[a|e] s]; [reflexivity|].
  destruct (c e); [|reflexivity]. apply K.
Qed.
Lemma wdoes_cdb {A} (m : ST cdb A) : wdoes (p_act (fun _ => m)) (in_cdb m).
Proof. intros w. unfold p_act, in_cdb. cbn. destruct (m (w_cdb w)); reflexivity. Qed.
Lemma wdoes_clients : wdoes (p_act (fun _ => gets id)) (gets w_cdb).
Proof. intros w. unfold p_act, gets, id. cbn. now rewrite eta. Qed.

Lemma wdoes_payload cx u c g ttype : wdoes (p_payload cx u c g ttype) (payload_arguments cx u c g ttype None).
Proof.
  unfold p_payload, payload_arguments. apply wdoes_bind; [apply wdoes_cdb|]. intros r.
  apply wdoes_bind; [apply wdoes_clients|]. intros cl. apply wdoes_bind; [apply wdoes_done|]. intros ui. apply wdoes_done.
Qed.
Lemma wdoes_mint_in cx mt sid g ttype based_on rules : wdoes (p_mint_in cx mt sid g ttype based_on rules) (mint_in cx mt sid g ttype based_on rules).
Proof.
  unfold p_mint_in, mint_in. apply wdoes_bind; [apply wdoes_done|]. intros [[t|] g1]; [|apply wdoes_done].
  apply wdoes_bind; [apply wdoes_done|]. intros [[u c] x]. apply wdoes_bind; [apply wdoes_payload|]. intros pl. apply wdoes_done.
Qed.
Lemma wdoes_mint cx mt sid g ttype based_on : wdoes (p_mint cx mt sid g ttype based_on) (endpoint_mint cx mt sid g ttype based_on).
Proof.
  unfold p_mint, endpoint_mint. apply wdoes_bind; [apply wdoes_mint_in|]. intros [[t|] g1].
  - apply wdoes_bind; [apply wdoes_db, does_store|]. intros []. apply wdoes_done.
  - destruct (negb _); [apply wdoes_done|]. apply wdoes_bind; [apply wdoes_db, does_store|]. intros []. apply wdoes_done.
Qed.

Section Exchange.
  Variable sid_of : string -> result string.
  Variable cx : ctx.
  Variable idt : store -> string -> ST cdb string.

  Lemma session_by_eq value w : exec (p_session_by sid_of value) w =
    match in_db (session_by sid_of value) w with
    | (Ok (i, g), w') => (Ok (in_sid i, g), w')
    | (Raise e, w') => (Raise e, w')
    end.
  Proof.
    unfold p_session_by, session_by, get_session_info_by_token, get_session_info. rewrite exec_bind.
    cbn [exec]. destruct (sid_of value) as [sid|e] eqn:E.
    2:{ unfold in_db, bind, lift. now rewrite eta. }
    rewrite exec_bind. cbn [exec]. destruct (unpack3 sid) as [[[u c] g]|e] eqn:E3.
    2:{ unfold in_db, bind, lift. rewrite E3. now rewrite eta. }
    rewrite exec_bind, does_read. unfold in_db, bind, lift, ret. rewrite E3.
    destruct (db_read [u; c; g] (w_db w)) as [[[i|gr]|e] s]; [| |reflexivity]; unfold grant_of; cbn [in_grant as_grant]; rewrite exec_bind; cbn;
      unfold raise, ret; reflexivity.
  Qed.

  Lemma wdoes_id_token sid resp : wdoes (p_id_token idt sid resp) (add_id_token idt sid resp).
  Proof.
    unfold p_id_token, add_id_token. apply wdoes_bind.
    - apply wdoes_catch; [|apply wdoes_done]. apply wdoes_bind; [|intros t; apply wdoes_done].
      intros w. unfold p_act, id_token_for, gets, bind, in_cdb, id. cbn. destruct (idt (w_db w) sid (w_cdb w)); reflexivity.
    - intros [t|]; apply wdoes_done.
  Qed.

  Lemma wdoes_code_parse clock rq : wdoes (p_code_parse sid_of clock rq) (in_db (code_parse sid_of clock rq)).
  Proof.
    intros w. unfold p_code_parse, code_parse, look, p_session_by, get_session_info_by_token, get_session_info.
    rewrite exec_bind, exec_catch, exec_bind. cbn [exec]. unfold in_db, bind, catch, lift, ret.
    destruct (msub_str "code" rq) as [v|e] eqn:E.
    2:{ destruct (is_key_or_unknown e); cbn; rewrite ?eta; reflexivity. }
    rewrite exec_bind, exec_bind. cbn [exec]. destruct (sid_of v) as [sid|e].
    2:{ destruct (is_key_or_unknown e); cbn; rewrite ?eta; reflexivity. }
    rewrite exec_bind. cbn [exec]. destruct (unpack3 sid) as [[[u c] g]|e].
    2:{ destruct (is_key_or_unknown e); cbn; rewrite ?eta; reflexivity. }
    rewrite exec_bind, does_read. unfold in_db. destruct (db_read [u; c; g] (w_db w)) as [[[i|gr]|e] s].
    3:{ destruct (is_key_or_unknown e); cbn; rewrite ?eta; reflexivity. }
    - reflexivity.
    - rewrite exec_bind. cbn [exec pret]. unfold grant_of. cbn [in_grant as_grant]. unfold ret.
      destruct (get_token v gr) as [t|]; [|reflexivity].
      destruct (negb _); [reflexivity|]. destruct (negb _); [reflexivity|]. destruct (dmem _ _); [reflexivity|].
      destruct (g_authreq gr) as [ar|]; [|reflexivity]. rewrite exec_bind. cbn [exec]. destruct (dsub "client_id" ar); reflexivity.
  Qed.

  Lemma wdoes_token o : wdoes (Done (of_option EAttr o)) (the_token o).
  Proof. destruct o; apply wdoes_done. Qed.
  Lemma wdoes_request o : wdoes (Done (of_option EType o)) (the_request o).
  Proof. destruct o; apply wdoes_done. Qed.
  (** the two give the same session, once as its key and once as more about it *)
  Lemma wdoes_by {B} value (k : string * grant -> prog B) h :
    (forall i g, wdoes (k (in_sid i, g)) (h (i, g))) ->
    wdoes (pbind (p_session_by sid_of value) k) (bind (in_db (session_by sid_of value)) h).
  Proof.
    intros K w. rewrite exec_bind, session_by_eq. unfold bind.
    destruct (in_db (session_by sid_of value) w) as [[[i g]|e] w']; [|reflexivity]. apply K.
  Qed.
  Lemma wdoes_code_process m1 m2 ir rq : wdoes (p_code_process sid_of cx idt m1 m2 ir rq) (code_process sid_of cx idt m1 m2 ir rq).
  Proof.
    unfold p_code_process, code_process.
    apply wdoes_bind; [apply wdoes_done|]. intros gt. destruct (negb _); [apply wdoes_done|].
    destruct (negb _); [apply wdoes_done|]. apply wdoes_bind; [apply wdoes_done|]. intros raw. cbv zeta.
    apply wdoes_by. intros i g. apply wdoes_bind; [apply wdoes_request|]. intros ar.
    apply wdoes_bind.
    { destruct (dget "redirect_uri" ar); [|apply wdoes_done]. apply wdoes_bind; [apply wdoes_done|]. intros u'. apply wdoes_done. }
    intros [|]; [apply wdoes_done|]. apply wdoes_bind; [apply wdoes_mint|]. intros [o g1].
    apply wdoes_bind; [apply wdoes_token|]. intros at_. apply wdoes_bind.
    { match goal with |- wdoes (if ?b then _ else _) _ => destruct b end; [|apply wdoes_done].
      apply wdoes_bind; [apply wdoes_mint|]. intros [o' g2]. apply wdoes_bind; [apply wdoes_token|]. intros rt. apply wdoes_done. }
    intros [g2 resp]. apply wdoes_bind; [destruct (get_token _ g); apply wdoes_done|]. intros [].
    apply wdoes_bind; [apply wdoes_db, does_store|]. intros []. apply wdoes_bind; [apply wdoes_done|]. intros sc.
    apply wdoes_bind; [apply wdoes_done|]. intros [|]; [apply wdoes_id_token|apply wdoes_done].
  Qed.
  Lemma wdoes_refresh_process m1 m2 rq : wdoes (p_refresh_process sid_of cx idt m1 m2 rq) (refresh_process sid_of cx idt false m1 m2 rq).
  Proof.
    unfold p_refresh_process, refresh_process.
    apply wdoes_bind; [apply wdoes_done|]. intros gt. destruct (negb _); [apply wdoes_done|].
    apply wdoes_bind; [apply wdoes_done|]. intros value. cbv zeta.
    apply wdoes_by. intros i g. apply wdoes_bind; [apply wdoes_mint|]. intros [o g1].
    apply wdoes_bind; [apply wdoes_token|]. intros at_. apply wdoes_bind; [apply wdoes_token|]. intros t.
    apply wdoes_bind; [apply wdoes_done|]. intros mints. apply wdoes_bind.
    { destruct (smem "refresh_token" mints); [|apply wdoes_done].
      apply wdoes_bind; [apply wdoes_mint|]. intros [o' g2]. apply wdoes_bind; [apply wdoes_token|]. intros rt.
      intros w. unfold bind, in_db, poke, modify. cbn. now rewrite eta. }
    intros resp. destruct (smem "id_token" mints); [apply wdoes_id_token|apply wdoes_done].
  Qed.
End Exchange.

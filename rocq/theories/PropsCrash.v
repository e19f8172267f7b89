(** PropsCrash.v: C89, the provider stops in the middle of a call and is started again on what is in its storage. *)
From Verif Require Import Base BaseProofs Monad Types SessionKey SessionKeyProofs Token Grant GrantSpec Database DatabaseSpec DatabaseProofs
  Manager ManagerSpec ManagerProofs Ctx World Minting UserInfo UserInfoSpec TokenEndpoint WorldSpec WorldProofs
  PropsClaims PropsIntrospection PropsTokenEndpoint Prog ProgProofs CrashSpec CrashProofs.
Local Open Scope Z_scope.

(** ** The programs *)
(** The calls written as sequences of single accesses to the storage give what the functions of the model give
    with a serialising storage, from every world: the same answer or exception, the same storage. *)
Theorem C89_same :
  (forall op w, exec (p_mop op) w = in_db (mstep false op) w) /\
  (forall q v w, exec (p_store q v) w = in_db (db_store q v) w) /\
  (forall q w, exec (p_delete q) w = in_db (db_delete false q) w) /\
  (forall q new w, exec (p_update q new) w = in_db (db_update q new) w) /\
  (forall sid_of cx idt m1 m2 ir rq w, exec (p_code_process sid_of cx idt m1 m2 ir rq) w = code_process sid_of cx idt m1 m2 ir rq w) /\
  (forall sid_of cx idt m1 m2 rq w, exec (p_refresh_process sid_of cx idt m1 m2 rq) w = refresh_process sid_of cx idt false m1 m2 rq w) /\
  (forall cx mt u c g ttype b w, exec (p_authz_mint cx mt u c g ttype b) w = authz_mint cx mt u c g ttype b w).
Proof.
  split; [exact does_mop|]. split; [exact does_store|]. split; [exact does_delete|]. split; [exact does_update|].
  split; [intros; apply wdoes_code_process|]. split; [intros; apply wdoes_refresh_process|]. intros. apply wdoes_authz_mint.
Qed.
Print Assumptions C89_same.

(** ** Writing *)
(** Of a [set] readers see nothing or all, wherever it is cut. *)
Theorem C89_set :
  forall w u c g i v, kinds_ok (w_db w) -> good u -> good c -> good g ->
  all_or_nothing (p_store [u; c; g] (EGrant v)) w /\ all_or_nothing (p_store [u; c] (EInfo i)) w /\ all_or_nothing (p_store [u] (EInfo i)) w.
Proof. intros w u c g i v Hk Hu Hc Hg. split; [now apply atomic_store3|]. split; [now apply atomic_store2|apply atomic_store1]. Qed.
Print Assumptions C89_set.

(** So it is with every call of the session manager but creating and removing sessions and adding grants, with
    [update], and with the authorization endpoint minting. *)
Theorem C89_calls :
  forall w, kinds_ok (w_db w) ->
  (forall op, good (op_user op) -> good (op_client op) -> good (op_grant op) -> one_set op -> all_or_nothing (p_mop op) w) /\
  (forall q new, good_path q -> all_or_nothing (p_update q new) w) /\
  (forall cx mt u c g ttype b, good u -> good c -> good g -> all_or_nothing (p_authz_mint cx mt u c g ttype b) w).
Proof.
  intros w Hk. split; [intros; now apply atomic_mop|]. split; [intros; now apply atomic_update|intros; now apply atomic_authz_mint].
Qed.
Print Assumptions C89_calls.
(** Adding a grant: sessions are there or not. *)
Theorem C89_add_grant :
  forall w u c gr, kinds_ok (w_db w) -> good u -> good c -> good (g_id gr) -> sessions_all_or_nothing (p_add_grant u c gr) w.
Proof. intros. now apply add_grant_atomic. Qed.
Print Assumptions C89_add_grant.

(** ** Logging in *)
(** The first log-in of a user at a client (or the first after all was removed) is all or nothing. *)
Theorem C89_first_login :
  forall clock newid authn ar u c sub rules scopes w,
  kinds_ok (w_db w) -> good u -> good c -> good newid -> view (w_db w) [u; c] = None ->
  sessions_all_or_nothing (p_create_session clock newid authn ar u c sub rules scopes) w.
Proof. intros. now apply first_login. Qed.
Print Assumptions C89_first_login.
(** Every later log-in is not: there is a point at which the user has no session at this client, neither the
    old ones nor the new one. *)
Theorem C89_login_again_refuted :
  forall clock newid authn ar u c x rules scopes w g,
  kinds_ok (w_db w) -> good u -> good c -> good newid -> good g -> readable (w_db w) u c g ->
  ~ sessions_all_or_nothing (p_create_session clock newid authn ar u c (Ok x) rules scopes) w.
Proof.
  intros clock newid authn ar u c x rules scopes w g Hk Hu Hc Hn Hg R A.
  assert (V : view (w_db w) [u; c] <> None). { intros V. apply R. rewrite view3, V. reflexivity. }
  destruct (login_again clock newid authn ar u c x rules scopes w Hk Hu Hc Hn V) as [(w' & S1 & N) F].
  destruct (A w' S1) as [E|E].
  - apply R. rewrite <- (E u c g Hu Hc Hg). auto.
  - apply F. rewrite <- (E u c newid Hu Hc Hn). auto.
Qed.
Print Assumptions C89_login_again_refuted.

(** ** Removing *)
(** Removing a session: it is there or it is gone, and no other session is touched (of users not called like the
    client, C04); and the removal can be asked for again, with that result. *)
Theorem C89_remove :
  forall w w' u c g, good u -> good c -> good g -> u <> c -> kinds_ok (w_db w) -> readable (w_db w) u c g ->
  stops (p_remove_session (session_key [u; c; g])) w w' ->
  (w' = w \/ as_gone u c g (w_db w) (w_db w')) /\
  exists w2, exec (p_remove_session (session_key [u; c; g])) w' = (Ok tt, w2) /\ as_gone u c g (w_db w) (w_db w2).
Proof.
  intros w w' u c g Hu Hc Hg N Hk R H. unfold readable in R. destruct (view (w_db w) [u; c; g]) as [e|] eqn:V; [|contradiction].
  split; [|eapply remove_again; eauto].
  destruct (listed_by _ u c g e V) as (ui & ci & Su & Lc & Sc & Lg & _). destruct w as [s d]. cbn [w_db] in *.
  eapply removing; eauto.
Qed.
Print Assumptions C89_remove.
(** What is left when it is cut is not always cleaned up: the record of a user whose only session is removed
    goes too, but when the call is cut before that, no number of further calls takes it away. *)
Theorem C89_remove_leftover_refuted :
  forall w u c g ui ci, good u -> good c -> good g -> kinds_ok (w_db w) ->
  stored (w_db w) [u] = Some (EInfo ui) -> stored (w_db w) [u; c] = Some (EInfo ci) -> si_sub ui = [c] -> si_sub ci = [g] ->
  let p := p_remove_session (session_key [u; c; g]) in
  view (w_db (snd (exec p w))) [u] = None /\
  exists w', stops p w w' /\ forall n, view (w_db (Nat.iter n (fun w => snd (exec p w)) w')) [u] = Some (EInfo ui).
Proof. intros w u c g ui ci Hu Hc Hg Hk Su Sc Lu Lc. now apply (left_user u c g w ui ci). Qed.
Print Assumptions C89_remove_leftover_refuted.
(** Deleting a client session with its grants (the database's [delete]): when it is cut after the first grant it
    fails from then on, with KeyError and without effect, and the other grants stay readable. *)
Theorem C89_delete_refuted :
  forall w u c g1 more ui ci, good u -> good c -> good g1 ->
  stored (w_db w) [u] = Some (EInfo ui) -> smem c (si_sub ui) = true -> stored (w_db w) [u; c] = Some (EInfo ci) -> si_sub ci = g1 :: more ->
  stored (w_db w) [u; c; g1] <> None ->
  exists w', stops (p_delete [u; c]) w w' /\ exec (p_delete [u; c]) w' = (Raise EKey, w') /\
    forall g, good g -> g <> g1 -> view (w_db w') [u; c; g] = view (w_db w) [u; c; g].
Proof. intros w u c g1 more ui ci Hu Hc Hg Su Lc Sc E N. now apply (delete_stuck u c g1 more w ui ci). Qed.
Print Assumptions C89_delete_refuted.

(** ** Exchanging a code *)
(** Wherever an exchange is cut: nothing but the session of the code has changed, its other tokens are as they
    were, and the code is as it was unless the exchange was complete. *)
Theorem C89_exchange :
  forall sid_of cx idt m1 m2 ir rq raw u c gid g t w w', sids_ok sid_of ->
  kinds_ok (w_db w) -> dget "code" rq = Some (VStr raw) -> good u -> good c -> good gid ->
  sid_of (blank_to_plus raw) = Ok (session_key [u; c; gid]) -> view (w_db w) [u; c; gid] = Some (EGrant g) ->
  get_token (blank_to_plus raw) g = Some t ->
  stops (p_code_process sid_of cx idt m1 m2 ir rq) w w' ->
  exists g', view (w_db w') [u; c; gid] = Some (EGrant g') /\
    (forall q, good_path q -> q <> [u; c; gid] -> view (w_db w') q = view (w_db w) q) /\
    (forall v x, get_token v g = Some x -> v <> blank_to_plus raw -> get_token v g' = Some x) /\
    (get_token (blank_to_plus raw) g' = Some t \/ w_db w' = w_db (snd (code_process sid_of cx idt m1 m2 ir rq w))).
Proof.
  intros sid_of cx idt m1 m2 ir rq raw u c gid g t w w' Hs Hk Er Hu Hc Hg Hv V0 T H.
  assert (L : leads sid_of (w_db w) (blank_to_plus raw) u c gid g) by (unfold leads; auto).
  destruct (code_kept sid_of cx idt Hs m1 m2 ir rq raw u c gid g t w w' Hk Er L T H) as (g' & (_ & V & O) & K & F).
  exists g'. rewrite (wdoes_code_process sid_of cx idt m1 m2 ir rq w) in F. auto.
Qed.
Print Assumptions C89_exchange.

(** ** Histories *)
(** At most one successful response for a code, with the provider stopped any number of times within any calls. *)
Theorem C89_code_once :
  forall sid_of b64hash cx idt helpers with_pkce code u c gid pieces w,
  sids_ok sid_of -> good u -> good c -> good gid -> sid_of code = Ok (session_key [u; c; gid]) ->
  Forall (piece_ok gid) pieces -> sound_store (w_db w) ->
  (length (filter (redeems code)
     (snd (hrun sid_of b64hash cx idt false helpers with_pkce (map (piece_op sid_of cx idt) pieces) (mkH w [])))) <= 1)%nat.
Proof.
  intros sid_of b64hash cx idt helpers with_pkce code u c gid pieces w Hs Hu Hc Hg Hv Hp Hso.
  apply (C06_code_once sid_of b64hash cx idt false helpers with_pkce code u c gid); try assumption.
  apply Forall_map. eapply Forall_impl; [|exact Hp]. intros x. now apply piece_wop.
Qed.
Print Assumptions C89_code_once.

(** A revoked grant serves no code and no refresh token any more, with the provider stopped any number of times
    within any calls. *)
Theorem C89_revoked :
  forall sid_of b64hash cx idt helpers with_pkce u c gid s clients s' pieces value h events accepted,
  sids_ok sid_of -> good u -> good c -> good gid -> sid_of value = Ok (session_key [u; c; gid]) ->
  kinds_ok s -> readable s u c gid -> revoke_grant (session_key [u; c; gid]) s = (Ok tt, s') ->
  Forall (piece_ok gid) pieces ->
  hrun sid_of b64hash cx idt false helpers with_pkce (map (piece_op sid_of cx idt) pieces) (mkH (mkW s' clients) accepted) = (h, events) ->
  forall e, In e events -> redeems value e = false /\ refreshes value e = false.
Proof.
  intros sid_of b64hash cx idt helpers with_pkce u c gid s clients s' pieces value h events accepted Hs Hu Hc Hg Hv Hk Hr Hrev Hp Hrun.
  assert (Q : Forall (wop_ok gid) (map (piece_op sid_of cx idt) pieces)).
  { apply Forall_map. eapply Forall_impl; [|exact Hp]. intros x. now apply piece_wop. }
  exact (C09_token_endpoint sid_of b64hash cx idt false helpers with_pkce u c gid s clients s' _ value h events accepted Hs Hu Hc Hg Hv Hk Hr Hrev Q Hrun).
Qed.
Print Assumptions C89_revoked.

(** ** The hypotheses are met *)
(** diana has a session at c1 with a code and a refresh token. *)
Definition w89 : world := mkW (snd (db_store ["diana"; "c1"; "g1"] (EGrant (gr2 ar2)) [])) clients1.
Lemma good_d : good "diana" /\ good "c1" /\ good "g1" /\ good "g7".
Proof. repeat split; discriminate || (apply good_by; reflexivity). Qed.
Example C89_ex_kinds : kinds_ok (w_db w89) /\ readable (w_db w89) "diana" "c1" "g1" /\ sound_store (w_db w89).
Proof.
  destruct good_d as (A & B & C & _). split; [apply kinds_store3; auto using kinds_empty|]. split; [vm_compute; discriminate|].
  intros k g H. assert (E : w_db w89 = [("diana;;c1;;g1", EGrant (gr2 ar2)); ("diana;;c1", EInfo (mkSInfo SClient None ["g1"] false []));
    ("diana", EInfo (mkSInfo SUser None ["c1"] false []))]) by (vm_compute; reflexivity).
  rewrite E in H. cbn -[String.eqb] in H.
  destruct (String.eqb k "diana;;c1;;g1"); [|destruct (String.eqb k "diana;;c1"); [discriminate|destruct (String.eqb k "diana"); discriminate]].
  injection H as <-. repeat constructor; cbn; try discriminate; lia.
Qed.
(** A second log-in of diana at c1, cut after each of its first steps: the session seen at each point. *)
Definition login89 : mop := OCreate 1700 "g7" None (Some ar2) "diana" "c1" (Ok "sub") None None.
Definition seen (w : world) (gids : list string) : list bool :=
  map (fun g => match view (w_db w) ["diana"; "c1"; g] with Some _ => true | None => false end) gids.
Example C89_ex_login :
  map (fun n => seen (after n (p_mop login89) w89) ["g1"; "g7"]) [0; 1; 2; 3; 4; 5; 6; 7; 8; 9; 10]%nat =
  [[true; false]; [true; false]; [true; false]; [false; false]; [false; false]; [false; false]; [false; false];
   [false; true]; [false; true]; [false; true]; [false; true]].
Proof. vm_compute. reflexivity. Qed.
(** A removal cut after each of its steps: what the storage has, and what it has after two more removals. *)
Definition kept (w : world) : list string := map fst (w_db w).
Example C89_ex_remove :
  let p := p_remove_session "diana;;c1;;g1" in
  map (fun n => kept (after n p w89)) [2; 3; 4; 5]%nat =
    [["diana;;c1;;g1"; "diana;;c1"; "diana"]; ["diana;;c1"; "diana"]; ["diana"]; []] /\
  map (fun n => kept (snd (exec p (snd (exec p (after n p w89)))))) [2; 3; 4; 5]%nat = [[]; []; ["diana"]; []].
Proof. vm_compute. auto. Qed.
(** The deletion of a client session with two grants, cut in the middle. *)
Definition w89' : world := mkW (snd (db_store ["diana"; "c1"; "g7"] (EGrant (gr2 ar2)) (w_db w89))) clients1.
Example C89_ex_delete :
  exists ui ci, stored (w_db w89') ["diana"] = Some (EInfo ui) /\ smem "c1" (si_sub ui) = true /\
    stored (w_db w89') ["diana"; "c1"] = Some (EInfo ci) /\ si_sub ci = ["g1"; "g7"] /\ stored (w_db w89') ["diana"; "c1"; "g1"] <> None /\
    seen w89' ["g1"; "g7"] = [true; true] /\
    seen (after 3 (p_delete ["diana"; "c1"]) w89') ["g1"; "g7"] = [false; true] /\
    seen (snd (exec (p_delete ["diana"; "c1"]) w89')) ["g1"; "g7"] = [false; false].
Proof.
  do 2 eexists. split; [vm_compute; reflexivity|]. split; [reflexivity|]. split; [vm_compute; reflexivity|]. split; [reflexivity|].
  split; [vm_compute; discriminate|]. split; [vm_compute; reflexivity|]. split; [vm_compute; reflexivity|vm_compute; reflexivity].
Qed.
(** An exchange of the code, cut after each step: the tokens in the storage and how often the code was used. The
    tokens are there before the code is used up: then the code can be exchanged again, and the tokens nobody
    was given stay. *)
Definition stock (w : world) : list (string * Z) :=
  match view (w_db w) ["diana"; "c1"; "g1"] with Some (EGrant g) => map (fun t => (t_value t, t_used t)) (g_issued g) | _ => [] end.
Definition ex89 (a r : string) : prog UserInfo.answer := p_code_process sid2 cx1 idt2 (mt2 a) (mt2 r) None (code_request "c1").
Fixpoint distinct (l : list (list (string * Z))) : list (list (string * Z)) :=
  match l with
  | x :: ((y :: _) as r) => if list_eq_dec (fun a b : string * Z => ltac:(decide equality; [apply Z.eq_dec|apply string_dec])) x y then distinct r else x :: distinct r
  | _ => l
  end.
Example C89_ex_exchange :
  sid2 "code1" = Ok (session_key ["diana"; "c1"; "g1"]) /\ view (w_db w89) ["diana"; "c1"; "g1"] = Some (EGrant (gr2 ar2)) /\
  distinct (map (fun n => stock (after n (ex89 "at8" "rt8") w89)) (seq 0 60)) =
    [[("code1", 0); ("rt1", 0)]; [("code1", 0); ("rt1", 0); ("at8", 0)]; [("code1", 0); ("rt1", 0); ("at8", 0); ("rt8", 0)];
     [("code1", 1); ("rt1", 0); ("at8", 0); ("rt8", 0)]].
Proof. split; [vm_compute; reflexivity|]. split; vm_compute; reflexivity. Qed.
(** cut before the use is recorded, and exchanged again *)
Definition pieces89 : list piece :=
  [Runs (WParse 1500 (code_request "c1")); Stops 12 (CExchange (mt2 "at8") (mt2 "rt8") None (code_request "c1"));
   Stops 3 (CManager (OCreateGrant 1700 "g7" None (Some ar2) "diana" "c1" (Ok "sub") None None));
   Runs (WProcess (mt2 "at9") (mt2 "rt9") None 0); Runs (WParse 1600 (code_request "c1")); Runs (WProcess (mt2 "at9") (mt2 "rt9") None 0)].
Example C89_ex_history :
  Forall (piece_ok "g1") pieces89 /\
  let r := hrun sid2 hash2 cx1 idt2 false both false (map (piece_op sid2 cx1 idt2) pieces89) (mkH w89 []) in
  map (redeems "code1") (snd r) = [true; false] /\ stock (h_world (fst r)) =
    [("code1", 1); ("rt1", 0); ("at8", 0); ("rt8", 0); ("at9", 0); ("rt9", 0)].
Proof.
  split; [|vm_compute; auto].
  assert (M : forall v, In v ["at8"; "at9"; "rt8"; "rt9"] -> mint_ok (mt2 v)).
  { intros v Hv. apply mt2_ok. cbn in Hv. decompose [or] Hv; subst; try reflexivity. contradiction. }
  destruct good_d as (G1 & G2 & G3 & G4).
  unfold pieces89. repeat (apply Forall_cons || apply Forall_nil); cbn [piece_ok wop_ok ccall_ok]; try exact I; try (split; apply M; cbn; tauto).
  unfold mop_ok. cbn [op_user op_client op_grant makes].
  repeat (split; [assumption|]). split; [discriminate|exact I].
Qed.

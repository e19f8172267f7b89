(** PropsSchedule.v: C90, calls of several workers at one storage, in every order of their single accesses.

    As in PropsCrash.v the storage hands out copies (a serialising storage): what workers share is the storage and
    the client database. Threads that share one in-memory dict share the objects in it, too; of that nothing is
    said here. *)
From Verif Require Import Base BaseProofs Monad Types SessionKey SessionKeyProofs Token Grant GrantSpec Database DatabaseSpec DatabaseProofs
  Manager ManagerSpec ManagerProofs Ctx Scopes Claims World Minting UserInfo UserInfoSpec TokenEndpoint WorldSpec WorldProofs
  PropsClaims PropsIntrospection PropsTokenEndpoint Prog ProgProofs CrashSpec CrashProofs PropsCrash
  SchedSpec SchedProofs SchedRead SchedLost.
From Verif Require IDToken PropsIDToken.
Local Open Scope Z_scope.

(** ** Different users *)
(** Workers, each with a list of calls about one user, no two about the same: in every order of their steps each
    is at every moment where it would be if it were alone, having made as many steps, and sees the sessions of its
    user as they would be then. The sessions of the other users stay as they were. *)
Theorem C90_others_partial :
  forall sid_of cx idt xs us w,
  Forall good us -> NoDup us -> Forall2 (fun u l => Forall (about sid_of u) l) us xs ->
  (forall l x c, In l xs -> In x l -> stray x = Some c -> ~ In c us) -> Forall (undisturbed cx idt (w_cdb w)) us ->
  forall l ps w', turns l (map (fun x => p_answers sid_of cx idt x) xs) w = (ps, w') ->
  w_cdb w' = w_cdb w /\
  (forall i x u, nth_error xs i = Some x -> nth_error us i = Some u ->
     nth_error ps i = Some (still_to_do (steps_of i l) (p_answers sid_of cx idt x) w) /\
     forall q, good_path q -> hd "" q = u -> view (w_db w') q = view (w_db (after (steps_of i l) (p_answers sid_of cx idt x) w)) q) /\
  (forall q, good_path q -> ~ In (hd "" q) us -> (forall l x, In l xs -> In x l -> stray x <> Some (hd "" q)) ->
     view (w_db w') q = view (w_db w) q).
Proof. intros sid_of cx idt xs us w G N F St U l ps w' E. now apply (others sid_of cx idt xs us w G F N St U l ps w'). Qed.
Print Assumptions C90_others_partial.
(** So when all have come to their ends each has got the answers it would have got alone, and the sessions of its
    user are as it alone would have left them. *)
Theorem C90_ended_partial :
  forall sid_of cx idt xs us w,
  Forall good us -> NoDup us -> Forall2 (fun u l => Forall (about sid_of u) l) us xs ->
  (forall l x c, In l xs -> In x l -> stray x = Some c -> ~ In c us) -> Forall (undisturbed cx idt (w_cdb w)) us ->
  forall l rs w', turns l (map (fun x => p_answers sid_of cx idt x) xs) w = (map Done rs, w') ->
  forall i x u, nth_error xs i = Some x -> nth_error us i = Some u ->
  nth_error rs i = Some (fst (exec (p_answers sid_of cx idt x) w)) /\
  forall q, good_path q -> hd "" q = u -> view (w_db w') q = view (w_db (snd (exec (p_answers sid_of cx idt x) w))) q.
Proof.
  intros sid_of cx idt xs us w G N F St U l rs w' E i x u Ex Eu.
  destruct (others sid_of cx idt xs us w G F N St U l _ w' E) as (_ & H & _). destruct (H i x u Ex Eu) as [A B].
  rewrite nth_error_map in A. destruct (nth_error rs i) as [r|]; [|discriminate]. cbn in A. injection A as A.
  symmetry in A. apply still_done in A. rewrite A. split; [reflexivity|exact B].
Qed.
Print Assumptions C90_ended_partial.
(** The hypothesis about the client database and ID Tokens is met by the provider's own ID Tokens, where no module
    adds the claims of single clients. *)
Theorem C90_undisturbed :
  forall ic cx d u, good u -> no_client_claims cx -> undisturbed cx (IDToken.make_for_token ic cx) d u.
Proof. intros. now apply undisturbed_real. Qed.
Print Assumptions C90_undisturbed.

(** ** Reading beside a writer *)
(** While a worker stores a record, or makes a call of the session manager that stores one, whoever reads sees what
    was there before or what is there after, never a mixture. *)
Theorem C90_read :
  forall w, kinds_ok (w_db w) ->
  (forall u c g v, good u -> good c -> good g -> read_entire (p_store [u; c; g] (EGrant v)) w) /\
  (forall u c i, good u -> good c -> read_entire (p_store [u; c] (EInfo i)) w) /\
  (forall u i, good u -> read_entire (p_store [u] (EInfo i)) w) /\
  (forall op, good (op_user op) -> good (op_client op) -> good (op_grant op) -> one_set op -> read_entire (p_mop op) w) /\
  (forall q new, good_path q -> read_entire (p_update q new) w) /\
  (forall cx mt u c g ttype b, good u -> good c -> good g -> read_entire (p_authz_mint cx mt u c g ttype b) w).
Proof.
  intros w Hk. split; [|split; [|split; [|split; [|split]]]]; intros; apply either_entire.
  - apply either_store; [exact Hk|auto with gp|exact I].
  - apply either_store; [exact Hk|auto with gp|exact I].
  - apply either_store; [exact Hk|auto with gp|exact I].
  - now apply either_mop.
  - now apply either_update.
  - now apply either_authz_mint.
Qed.
Print Assumptions C90_read.

(** ** Writers beside each other *)
(** One user logs in at two clients at once, where they had no sessions before. In some order both log-ins succeed,
    but the session of one is not there afterwards. *)
Theorem C90_logins_refuted :
  forall w u c1 c2 clock1 newid1 authn1 ar1 x1 rules1 scopes1 clock2 newid2 authn2 ar2 x2 rules2 scopes2,
  kinds_ok (w_db w) -> good u -> good c1 -> good c2 -> c1 <> c2 -> good newid1 -> good newid2 ->
  unlisted_by (w_db w) u c1 -> unlisted_by (w_db w) u c2 ->
  exists l w', turns l [p_create_session clock1 newid1 authn1 ar1 u c1 (Ok x1) rules1 scopes1;
                        p_create_session clock2 newid2 authn2 ar2 u c2 (Ok x2) rules2 scopes2] w =
      ([Done (Ok (session_key [u; c1; newid1])); Done (Ok (session_key [u; c2; newid2]))], w') /\
    view (w_db w') [u; c2; newid2] = None /\ view (w_db w') [u; c1; newid1] <> None.
Proof. intros. now apply login_lost. Qed.
Print Assumptions C90_logins_refuted.
(** A session is revoked while something else about it is written. In some order both calls succeed, and the session
    is afterwards what it would be without the revocation. *)
Theorem C90_revocation_refuted :
  forall w u c g gr f, kinds_ok (w_db w) -> good u -> good c -> good g -> view (w_db w) [u; c; g] = Some (EGrant gr) ->
  exists l w', turns l [p_mop (OWrite u c g f); p_mop (ORevokeGrant u c g)] w = ([Done (Ok tt); Done (Ok tt)], w') /\
    view (w_db w') [u; c; g] = Some (EGrant (f gr)).
Proof. intros. now apply revocation_lost. Qed.
Print Assumptions C90_revocation_refuted.
(** A code is presented twice at the same time. If either exchange succeeds alone, then in some order both do, with
    the answers they give alone, and the session afterwards knows of the tokens of one only. *)
Theorem C90_exchange_refuted :
  forall sid_of cx idt u c g m1 m2 m1' m2' ir ir' rq raw gr w args oc args' oc',
  good u -> good c -> good g -> kinds_ok (w_db w) -> no_client_claims cx -> of_session idt (w_cdb w) u c g ->
  dget "code" rq = Some (VStr raw) -> sid_of (blank_to_plus raw) = Ok (session_key [u; c; g]) ->
  view (w_db w) [u; c; g] = Some (EGrant gr) ->
  let A := p_code_process sid_of cx idt m1 m2 ir rq in
  let B := p_code_process sid_of cx idt m1' m2' ir' rq in
  fst (exec A w) = Ok (AOk args oc) -> fst (exec B w) = Ok (AOk args' oc') ->
  exists l w', turns l [A; B] w = ([Done (Ok (AOk args oc)); Done (Ok (AOk args' oc'))], w') /\
    view (w_db w') [u; c; g] = view (w_db (snd (exec A w))) [u; c; g].
Proof.
  intros sid_of cx idt u c g m1 m2 m1' m2' ir ir' rq raw gr w args oc args' oc' Hu Hc Hg Hk Nc [Same Calm] Er Hv V.
  apply (exchange_twice cx idt (w_cdb w) u c g Hu Hc Hg (fun c ar sc tt => claims_calm cx c ar sc tt _ Nc) Same Calm
    sid_of m1 m2 m1' m2' ir ir' rq raw gr w args oc args' oc'); auto.
Qed.
Print Assumptions C90_exchange_refuted.
Theorem C90_of_session :
  forall ic cx d u c g, good u -> good c -> good g -> of_session (IDToken.make_for_token ic cx) d u c g.
Proof. intros. now apply of_session_real. Qed.
Print Assumptions C90_of_session.

(** ** Examples *)
Definition cx90 : ctx :=
  mkCtx (cx_issuer cx1) (cx_provider_info cx1) None s2c [("userinfo", [("add_claims_by_scope", VBool true)]); ("introspection", [("enable_claims_per_client", VBool false)])]
    users (mkGConf None None).
Lemma calm90 : no_client_claims cx90.
Proof.
  intros usage kw. cbn [cx_modules cx90 dget]. destruct (String.eqb usage "userinfo").
  - intros E. injection E as <-. exact I.
  - destruct (String.eqb usage "introspection"); [|discriminate]. intros E. injection E as <-. reflexivity.
Qed.
Lemma good_e : good "carl" /\ good "c2" /\ good "g2".
Proof. repeat split; discriminate || (apply good_by; reflexivity). Qed.

(** diana's code is exchanged and her session at c1 revoked, while carl logs in at c2 and a code is minted for
    them: with every step of the one beside the steps of the other. *)
Definition xs90 : list (list ccall) :=
  [[CExchange (mt2 "at8") (mt2 "rt8") None (code_request "c1"); CManager (ORevokeGrant "diana" "c1" "g1")];
   [CManager (OCreate 1700 "g2" None (Some ar2) "carl" "c2" (Ok "sub-of-carl") None (Some ["openid"]));
    CMint (mt2 "code9") "carl" "c2" "g2" "authorization_code" None]].
Definition order90 : list nat := flat_map (fun _ => [0; 1; 1]%nat) (repeat tt 60).
Lemma idt2_undisturbed d u : undisturbed cx90 idt2 d u.
Proof. split; [intros; apply claims_calm, calm90|]. intros. split; reflexivity. Qed.
Definition values (s : store) (q : list string) : option (list (string * Z) * bool) :=
  match view s q with Some (EGrant g) => Some (map (fun t => (t_value t, t_used t)) (g_issued g), g_revoked g) | _ => None end.
Example C90_ex_others :
  Forall good ["diana"; "carl"] /\ NoDup ["diana"; "carl"] /\
  Forall2 (fun u l => Forall (about sid2 u) l) ["diana"; "carl"] xs90 /\ Forall (undisturbed cx90 idt2 (w_cdb w89)) ["diana"; "carl"] /\
  (forall l x c, In l xs90 -> In x l -> stray x = Some c -> ~ In c ["diana"; "carl"]) /\
  exists r1 r2 w', turns order90 (map (fun x => p_answers sid2 cx90 idt2 x) xs90) w89 = ([Done (Ok r1); Done (Ok r2)], w') /\
    map is_ok r1 = [true; true] /\ map is_ok r2 = [true; true] /\
    values (w_db w') ["diana"; "c1"; "g1"] = Some ([("code1", 1); ("rt1", 0); ("at8", 0); ("rt8", 0)], true) /\
    values (w_db w') ["carl"; "c2"; "g2"] = Some ([("code9", 0)], false).
Proof.
  destruct good_d as (G1 & G2 & G3 & _). destruct good_e as (G5 & G6 & G7).
  split; [auto|]. split; [repeat constructor; cbn; intuition discriminate|]. split.
  { assert (S2 : forall v sid, sid2 v = Ok sid -> exists c g, good c /\ good g /\ sid = session_key ["diana"; c; g]).
    { intros v sid. unfold sid2. destruct (smem v _); [|discriminate]. intros E. injection E as <-. exists "c1", "g1". auto. }
    constructor; [|constructor; [|constructor]].
    - constructor; [|constructor; [|constructor]].
      + split; [exact G1|]. intros raw _ sid. apply S2.
      + split; [exact G1|]. cbn. auto.
    - constructor; [|constructor; [|constructor]]; (split; [exact G5|]; cbn; auto). }
  split; [apply Forall_forall; intros; apply idt2_undisturbed|]. split.
  { intros l x c [<-|[<-|[]]] [<-|[<-|[]]]; discriminate. }
  do 3 eexists. split; [vm_compute; reflexivity|]. split; [reflexivity|]. split; [reflexivity|]. split; vm_compute; reflexivity.
Qed.

(** A reader of diana's session beside its revocation, in two orders: as it was, as it is after. *)
Definition read90 (l : list nat) : option bool :=
  match fst (turns l [(pbind (p_read ["diana"; "c1"; "g1"]) (fun e => pret (Some e))); (pbind (p_mop (ORevokeGrant "diana" "c1" "g1")) (fun _ => pret None))] w89) with
  | Done (Ok (Some (EGrant g))) :: _ => Some (g_revoked g)
  | _ => None
  end.
Example C90_ex_read :
  kinds_ok (w_db w89) /\ one_set (ORevokeGrant "diana" "c1" "g1") /\
  read90 [0; 1; 0; 1; 0; 1; 0; 1; 1; 1; 1; 1; 1; 1; 1]%nat = Some false /\
  read90 [1; 1; 1; 1; 0; 0; 0; 1; 1; 1; 1; 1; 1; 1; 1]%nat = Some true.
Proof. split; [apply C89_ex_kinds|]. split; [exact I|]. split; vm_compute; reflexivity. Qed.

(** carl, unknown so far, logs in at c1 and c2 at once. *)
Example C90_ex_logins :
  kinds_ok (w_db w89) /\ unlisted_by (w_db w89) "carl" "c1" /\ unlisted_by (w_db w89) "carl" "c2" /\ unlisted_by (w_db w89) "diana" "c2" /\
  good "carl" /\ good "c1" /\ good "c2" /\ "c1" <> "c2".
Proof.
  destruct good_d as (G1 & G2 & G3 & _). destruct good_e as (G5 & G6 & G7). split; [apply C89_ex_kinds|].
  split; [intros ui E; vm_compute in E; discriminate|]. split; [intros ui E; vm_compute in E; discriminate|].
  split; [intros ui E; vm_compute in E; injection E as <-; reflexivity|]. split; [assumption|]. split; [assumption|]. split; [assumption|]. discriminate.
Qed.

(** diana's code presented twice: both exchanges succeed alone; the session knows of the tokens of the one only. *)
Example C90_ex_exchange :
  no_client_claims cx90 /\ of_session idt2 (w_cdb w89) "diana" "c1" "g1" /\ sid2 (blank_to_plus "code1") = Ok (session_key ["diana"; "c1"; "g1"]) /\
  view (w_db w89) ["diana"; "c1"; "g1"] = Some (EGrant (gr2 ar2)) /\
  let A := p_code_process sid2 cx90 idt2 (mt2 "at8") (mt2 "rt8") None (code_request "c1") in
  let B := p_code_process sid2 cx90 idt2 (mt2 "at9") (mt2 "rt9") None (code_request "c1") in
  (exists args oc, fst (exec A w89) = Ok (AOk args oc) /\ dget "access_token" args = Some (VStr "at8")) /\
  (exists args oc, fst (exec B w89) = Ok (AOk args oc) /\ dget "access_token" args = Some (VStr "at9")) /\
  is_ok (fst (exec B (snd (exec A w89)))) = false /\
  values (w_db (snd (exec A w89))) ["diana"; "c1"; "g1"] = Some ([("code1", 1); ("rt1", 0); ("at8", 0); ("rt8", 0)], false).
Proof.
  split; [exact calm90|]. split; [split; reflexivity|]. split; [vm_compute; reflexivity|]. split; [vm_compute; reflexivity|]. cbv zeta.
  split; [do 2 eexists; split; [vm_compute; reflexivity|reflexivity]|]. split; [do 2 eexists; split; [vm_compute; reflexivity|reflexivity]|].
  split; vm_compute; reflexivity.
Qed.
(** The provider's own ID Tokens at work *)
Example C90_ex_id_token : undisturbed cx90 (IDToken.make_for_token (PropsIDToken.ic8 []) cx90) clients1 "diana".
Proof. apply C90_undisturbed; [apply good_d|exact calm90]. Qed.

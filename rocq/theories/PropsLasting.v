(** PropsLasting.v: what is over stays over, at all endpoints (C84): codes are used once, dead tokens stay dead, revoked grants stay
    revoked, whatever the endpoints are called with in between. *)
From Verif Require Import Base BaseProofs SessionKey SessionKeyProofs Monad MonadProofs Types Token Grant GrantSpec GrantProofs Database DatabaseSpec DatabaseProofs
  Manager ManagerSpec ManagerProofs Ctx UserInfo UserInfoSpec UserInfoProofs World Minting TokenEndpoint WorldSpec WorldProofs AuthnBroker
  AuthzEndpoint SetupAuth SetupAuthSpec System SystemSpec SystemProofs LastingSpec LastingProofs PropsClaims PropsTokenEndpoint PropsAuthzEndpoint PropsSetupAuth PropsSystem.
Local Open Scope Z_scope.

Lemma find_first v l t : find (fun t => String.eqb (t_value t) v) l = Some t -> exists l1 l2, l = l1 ++ t :: l2 /\ ~ In v (map t_value l1).
Proof.
  induction l as [|a l IH]; cbn [find]; [discriminate|]. destruct (String.eqb_spec (t_value a) v) as [E|E].
  - intros H. assert (a = t) by congruence. subst. exists [], l. split; [reflexivity|intros []].
  - intros H. destruct (IH H) as (l1 & l2 & -> & N). exists (a :: l1), l2. split; [reflexivity|]. intros [X|X]; contradiction.
Qed.

(** In the whole life of a provider at most one token request with this code is answered with tokens. *)
Theorem C84_code_once : forall y s p code,
  sids_ok (sy_sid_of y) -> life y s p -> (length (filter (redeemed code) p) <= 1)%nat.
Proof.
  intros y s p code Hs (clients & l & F & P & N & E). assert (Ep : p = snd (srun y l (fresh clients) [])) by now rewrite E. rewrite Ep. clear Ep E.
  destruct (sy_sid_of y code) as [sid|e] eqn:Ec.
  - destruct (Hs _ _ Ec) as (u & c & gid & Hu & Hc & Hg & ->). exact (code_once y Hs code u c gid Hu Hc Hg Ec l clients F P N).
  - destruct (unknown_none y code e l (fresh clients) [] Hs Ec P) as (q & -> & Fq). rewrite app_nil_r. clear -Fq.
    assert (X : filter (redeemed code) q = []); [|rewrite X; cbn; lia]. induction Fq as [|h q H F IH]; [reflexivity|]. cbn [filter].
    destruct (redeemed code h) eqn:E; [|exact IH]. exfalso. apply H. destruct (redeemed_true _ _ E) as (m1 & m2 & ir & n & rq & args & oc & X & Pr).
    do 8 eexists. split; [exact X|exact Pr].
Qed.
Print Assumptions C84_code_once.

(** What the token endpoint takes for a code is a code of a session that can still be used, and what it takes for a refresh token is a refresh token of one. *)
Theorem C84_kind : forall y s p m1 m2 ir n request args cid s' k v,
  sids_ok (sy_sid_of y) -> life y s p -> mint_ok m1 -> mint_ok m2 ->
  sstep y (SProcess m1 m2 ir n) s = (s', OProcess request (Ok (AOk args cid))) -> presents request k v ->
  exists u c gr t, names (sy_sid_of y) (w_db (ss_world s)) v u c gr t /\ t_class t = k /\
    token_usable (mt_clock m1) t /\ grant_usable (mt_clock m1) gr.
Proof.
  intros y s p m1 m2 ir n request args cid s' k v Hs (clients & l & F & P & N & E) M1 M2 H Pr.
  assert (X : snd (sstep y (SProcess m1 m2 ir n) s) = OProcess request (Ok (AOk args cid))) by now rewrite H.
  apply step_process in X. destruct X as [I (w' & X)].
  destruct (process_used _ _ _ _ _ _ _ _ _ _ _ _ _ _ _ Hs M1 M2 X Pr) as (u & c & gid & g & t & (Hu & Hc & Hg & L & V) & T & U & G & H1 & H2).
  destruct (checked_now y Hs v u c gid Hu Hc Hg L l clients s F P N) as [A B]; [now rewrite E|].
  assert (D := V). apply view_key in D. exists u, c, g, t. split; [|split; [|auto]].
  - exists (session_key [u; c; gid]), gid. split; [exact L|]. split; [now apply unpack3_good|]. split; [exact V|]. 
    destruct (get_token_value _ _ _ T) as [Tv _]. split; [exact Tv|]. now apply find_first.
  - destruct Pr as [(-> & P1 & raw & P2 & P3)|(-> & P1 & P2)].
    + destruct (A request raw I P1 P2 (eq_sym P3) (H1 eq_refl) g D) as (t' & T1 & T2). congruence.
    + destruct (B request I g D) as [B1 _]. destruct (B1 P1 P2 (H2 eq_refl)) as (t' & T1 & T2). congruence.
Qed.
Print Assumptions C84_kind.

(** With PKCE on: whoever redeems a code that was asked for with a challenge has shown the verifier. *)
Theorem C84_pkce : forall y s p m1 m2 ir n request args cid s' v u c gr t ar,
  sids_ok (sy_sid_of y) -> life y s p -> mint_ok m1 -> mint_ok m2 -> sy_pkce y = true ->
  sstep y (SProcess m1 m2 ir n) s = (s', OProcess request (Ok (AOk args cid))) -> presents request CCode v ->
  names (sy_sid_of y) (w_db (ss_world s)) v u c gr t -> g_authreq gr = Some ar -> dmem "code_challenge" ar = true ->
  exists verifier challenge m,
    dget "code_verifier" request = Some (VStr verifier) /\ dget "code_challenge" ar = Some (VStr challenge) /\
    dget "code_challenge_method" ar = Some (VStr m) /\
    ((m = "plain"%string /\ verifier = challenge) \/ (In m ["S256"; "S384"; "S512"]%string /\ sy_b64hash y m verifier = challenge)).
Proof.
  intros y s p m1 m2 ir n request args cid s' v u c gr t ar Hs (clients & l & F & P & N & E) M1 M2 Hpk H Pr Nm Ear Ech.
  assert (X : snd (sstep y (SProcess m1 m2 ir n) s) = OProcess request (Ok (AOk args cid))) by now rewrite H.
  apply step_process in X. destruct X as [I (w' & X)].
  destruct (process_used _ _ _ _ _ _ _ _ _ _ _ _ _ _ _ Hs M1 M2 X Pr) as (u1 & c1 & gid & g & t1 & (Hu & Hc & Hg & L & V) & T & U & G & H1 & H2).
  destruct (checked_now y Hs v u1 c1 gid Hu Hc Hg L l clients s F P N) as [A B]; [now rewrite E|].
  destruct (names_here y u1 c1 gid Hu Hc Hg v L (w_db (ss_world s)) v u c gr t eq_refl Nm) as (D & _). destruct (B request I gr D) as [_ B2].
  destruct Pr as [(_ & P1 & raw & P2 & P3)|(X1 & _)]; [|discriminate].
  destruct (B2 Hpk raw P2 (eq_sym P3) P1 (H1 eq_refl) ar Ear Ech) as (ve & ch & m & V1 & V2 & V3 & V4).
  exists ve, ch, m. repeat (split; [assumption|]). unfold cc_method in V4.
  destruct (String.eqb_spec m "plain") as [->|Nm']; [left; split; congruence|]. right.
  destruct (smem m ["S256"; "S384"; "S512"]) eqn:Em; [|discriminate]. apply smem_In in Em.
  destruct (is_ascii ve); [|discriminate]. split; [exact Em|congruence].
Qed.
Print Assumptions C84_pkce.

(** From any state on, whatever is called: the grant of a session only goes on. Its authorization request stays, its tokens stay with
    what they are, usage counts do not go down, and what is revoked stays revoked. *)
Theorem C84_lasting : forall y s l p u c gid gr',
  sids_ok (sy_sid_of y) -> later gid l -> good u -> good c -> good gid ->
  stored (w_db (ss_world (fst (srun y l s p)))) [u; c; gid] = Some (EGrant gr') ->
  exists gr, stored (w_db (ss_world s)) [u; c; gid] = Some (EGrant gr) /\ grows gr gr'.
Proof.
  intros y s l p u c gid gr' Hs (F & P & N) Hu Hc Hg V.
  destruct (run_here y Hs u c gid Hu Hc Hg l s p gr' (all_leave gid l F P N) V) as (g & D & G). exists g. split; [exact D|exact G].
Qed.
Print Assumptions C84_lasting.

(** A token that is revoked, expired or used up at [clock0] is of no use at any endpoint from then on. *)
Theorem C84_dead : forall y s l p value u c gr t clock0,
  sids_ok (sy_sid_of y) -> names (sy_sid_of y) (w_db (ss_world s)) value u c gr t -> dead clock0 t ->
  (forall gid, sy_sid_of y value = Ok (session_key [u; c; gid]) -> later gid l) -> Forall (call_after clock0) l ->
  exists q, snd (srun y l s p) = q ++ p /\ forall h, In h q -> ~ honours y value h.
Proof.
  intros y s l p value u c gr t clock0 Hs Nm Dt Hl Ha. assert (N := Nm). destruct N as (sid & gid & E & U & _).
  destruct (Hs _ _ E) as (u' & c' & g' & Hu & Hc & Hg & ->). rewrite unpack3_good in U by assumption. injection U as -> -> ->.
  destruct (Hl gid E) as (F & P & N). destruct (dead_later y Hs u c gid Hu Hc Hg value E clock0 l s p (all_leave gid l F P N) Ha) as (q & Eq & Fq).
  - intros g D. destruct (names_here y u c gid Hu Hc Hg value E _ _ _ _ _ _ eq_refl Nm) as (D' & T & _). assert (g = gr) by congruence. subst. exists t. auto.
  - exists q. split; [exact Eq|]. now apply Forall_forall.
Qed.
Print Assumptions C84_dead.

(** No tokens are given for anything that was issued under a grant that is revoked. *)
Theorem C84_revoked : forall y s l p value u c gid gr,
  sids_ok (sy_sid_of y) -> good u -> good c -> good gid -> sy_sid_of y value = Ok (session_key [u; c; gid]) ->
  holds s u c gid gr -> g_revoked gr = true -> later gid l ->
  exists q, snd (srun y l s p) = q ++ p /\ forall h, In h q -> ~ exchanged value h.
Proof.
  intros y s l p value u c gid gr Hs Hu Hc Hg E V R (F & P & N). apply view_key in V.
  destruct (revoked_later y Hs u c gid Hu Hc Hg value E l s p (all_leave gid l F P N)) as (q & Eq & Fq).
  - intros g D. assert (g = gr) by congruence. now subst.
  - exists q. split; [exact Eq|]. now apply Forall_forall.
Qed.
Print Assumptions C84_revoked.

(** ** A case: two token requests with the same code are accepted and both are processed, one of them twice; the grant is revoked. *)
Definition calls84 : list call :=
  [visit79; SParse 2000 token79; SParse 2001 token79; SProcess (mt2 "at8") (mt2 "rt8") None 1; SProcess (mt2 "at9") (mt2 "rt9") None 0;
   SProcess (mt2 "at9") (mt2 "rt9") None 1].
Example plain84 : Forall plain_values calls84.
Proof. repeat (constructor; [solve [exact Logic.I|split; apply mt2_ok; reflexivity]|]). constructor. Qed.
Example ok84 : Forall call_ok calls84.
Proof. pose proof calls79_ok as H. inversion H; subst. constructor; [assumption|]. repeat constructor. Qed.
Definition s84 : sys := fst (srun y79 calls84 (fresh clients7) []).
Definition p84 : past := snd (srun y79 calls84 (fresh clients7) []).
Example life84 : life y79 s84 p84.
Proof.
  exists clients7, calls84. split; [exact ok84|]. split; [exact plain84|]. split; [|apply surjective_pairing].
  cbn. constructor; [intros []|constructor].
Qed.
Example C84_ex_once : map (redeemed "code7") p84 = [false; false; true; false; false; false].
Proof. vm_compute. reflexivity. Qed.
Example C84_ex_dead : exists g t, names (sy_sid_of y79) (w_db (ss_world s84)) "code7" "diana" "c1" g t /\ dead 0 t /\ t_class t = CCode.
Proof.
  do 2 eexists. split; [|split].
  - exists "diana;;c1;;g9"%string, "g9"%string. split; [reflexivity|]. split; [vm_compute; reflexivity|]. split; [vm_compute; reflexivity|].
    split; [|exists []; eexists; split; [reflexivity|intros []]]. reflexivity.
  - right. right. exists 1. split; [reflexivity|]. cbn. lia.
  - reflexivity.
Qed.
(** A request that is answered with tokens *)
Example C84_ex_kind : exists args s', sstep y79 (SProcess (mt2 "at8") (mt2 "rt8") None 0) (fst (srun y79 [visit79; SParse 2000 token79] (fresh clients7) [])) =
  (s', OProcess token79 (Ok (AOk args None))) /\ presents token79 CCode "code7".
Proof.
  destruct (sstep y79 _ _) as [s' r] eqn:E. assert (X := f_equal snd E). vm_compute in X. cbn [snd] in X. subst r. do 2 eexists. split; [reflexivity|].
  left. split; [reflexivity|]. split; [reflexivity|]. exists "code7"%string. split; reflexivity.
Qed.

(** The access token is honoured, is revoked, and is honoured no more; and the grant is revoked between the acceptance of the token request and its processing. *)
Definition revoke84 : call := SRevoke (ORevokeToken 5 "diana" "c1" "g9" "at8" false).
Example C84_ex_revoked :
  honours y79 "at8" (info79, snd (sstep y79 info79 s84)) /\
  (let s := fst (sstep y79 revoke84 s84) in snd (sstep y79 info79 s) = OInfo (Ok (UserInfo.AError "invalid_token" "Invalid Token"))) /\
  (let s := fst (srun y79 [visit79; SParse 2000 token79; SRevoke (ORevokeGrant "diana" "c1" "g9")] (fresh clients7) []) in
   (exists gr, holds s "diana" "c1" "g9" gr /\ g_revoked gr = true) /\
   exists r, snd (sstep y79 (SProcess (mt2 "at8") (mt2 "rt8") None 0) s) = OProcess token79 r /\ forall args cid, r <> Ok (AOk args cid)) /\
  later "g9" [revoke84; info79; SProcess (mt2 "at8") (mt2 "rt8") None 0].
Proof.
  split; [vm_compute; reflexivity|]. split; [vm_compute; reflexivity|]. split.
  - split; [eexists; split; vm_compute; reflexivity|]. eexists. split; [vm_compute; reflexivity|]. discriminate.
  - split; [|split; [|intros []]].
    + constructor; [|repeat constructor]. split; [|split]; apply good_by; reflexivity.
    + repeat (constructor; [solve [exact Logic.I|split; apply mt2_ok; reflexivity]|]). constructor.
Qed.
(** With PKCE: a verifier that matches is needed. *)
Definition y84 : setup_of := mkSy sid79 hash2 cx7 idt2 true both true.
Definition pkce84 : call := SAuthorize (e9 (cookie9 "diana" "1900")) (az7 false) true
  (inr (rq79 ++ [("code_challenge", VStr "hashed"); ("code_challenge_method", VStr "plain")]%string)).
Example C84_ex_pkce :
  let first v := SParse 2000 (token79 ++ [("code_verifier", VStr v)]%string) in
  (exists args, snd (sstep y84 (SProcess (mt2 "at8") (mt2 "rt8") None 0) (fst (srun y84 [pkce84; first "hashed"%string] (fresh clients7) []))) =
     OProcess (token79 ++ [("code_verifier", VStr "hashed")]%string) (Ok (AOk args None))) /\
  ss_accepted (fst (srun y84 [pkce84; first "other"%string] (fresh clients7) [])) = [] /\
  exists gr ar, holds (fst (srun y84 [pkce84; first "hashed"%string] (fresh clients7) [])) "diana" "c1" "g9" gr /\ g_authreq gr = Some ar /\ dmem "code_challenge" ar = true.
Proof. split; [eexists; vm_compute; reflexivity|]. split; [vm_compute; reflexivity|]. do 2 eexists. vm_compute. repeat split. Qed.

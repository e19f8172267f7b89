(** PropsManager.v: C03, C05, C37, C38 and the manager part of C07 and C09. *)
From Verif Require Import Base BaseProofs Monad Types SessionKey Token Grant GrantSpec GrantDeep Database DatabaseSpec
  DatabaseProofs PropsDatabase Manager ManagerSpec ManagerProofs GrantProofs PropsGrant.

(** C03: the whole effect of create_session. Missing from the full claim: earlier grants of the
    same user at the same client (see [C03_same_client_refuted]). *)
Theorem C03_create_session_partial :
  forall is_user clock newid authn ar u c sub rules scopes s,
  well_formed is_user s -> good u -> good c -> good newid -> is_user u -> ~ is_user c ->
  exists s', create_session clock newid authn ar u c (Ok sub) rules scopes s = (Ok (session_key [u; c; newid]), s') /\
    view s' [u; c; newid] = Some (EGrant (new_grant clock newid sub ar authn rules scopes)) /\
    view s' [u; c] = Some (EInfo (mkSInfo SClient (Some c) [newid] false [])) /\
    (view s [u] = None -> view s' [u] = Some (EInfo (mkSInfo SUser (Some u) [c] false []))) /\
    (forall ui, view s [u] = Some (EInfo ui) ->
       view s' [u] = Some (EInfo (mkSInfo (si_kind ui) (si_id ui) (if smem c (si_sub ui) then si_sub ui else si_sub ui ++ [c]) (si_revoked ui) (si_extra ui)))) /\
    (forall g, good g -> g <> newid -> view s' [u; c; g] = None) /\
    (forall q, good_path q -> q <> [u] -> ~ is_prefix [u; c] q -> view s' q = view s q).
Proof.
  intros is_user clock newid authn ar u c sub rules scopes s W Hu Hc Hn Iu Ic.
  destruct (create_session_effect is_user clock newid authn ar u c sub rules scopes s W Hu Hc Hn Iu Ic) as (s' & E & V3 & V2 & V1 & Vg & Vo).
  exists s'. split; [exact E|]. split; [exact V3|]. split; [exact V2|].
  split; [intros N; rewrite V1, N; reflexivity|]. split; [|auto].
  intros ui U. rewrite V1, U. cbn [info_or]. unfold listing, with_sub. destruct ui as [a b l d e]. cbn [si_sub si_kind si_id si_revoked si_extra].
  destruct (smem c l); reflexivity.
Qed.
Print Assumptions C03_create_session_partial.

(** C03, over histories: whatever is done for other user/client pairs, the sessions of a pair stay
    exactly as they are. *)
Theorem C03_isolation :
  forall sharing is_user ops s, Forall (op_ok is_user) ops -> well_formed is_user s ->
  forall u c g, good u -> good c -> good g ->
  (forall op, In op ops -> (op_user op, op_client op) <> (u, c)) ->
  view (mrun sharing ops s) [u; c; g] = view s [u; c; g].
Proof. intros sh iu ops s HF W. exact (mrun_frame sh iu ops HF s W). Qed.
Print Assumptions C03_isolation.

Definition login (newid u c : string) : mop :=
  OCreate 1000 newid None (Some [("client_id", VStr c)]) u c (Ok "sub") None None.

(** C03 fails for the same user and client: the second login makes the first session unreadable,
    its tokens are lost. *)
Theorem C03_same_client_refuted :
  exists sharing u c g1 g2, g1 <> g2 /\
  readable (mrun sharing [login g1 u c] []) u c g1 /\
  ~ readable (mrun sharing [login g1 u c; login g2 u c] []) u c g1.
Proof.
  exists true, "diana", "client", "g1", "g2". split; [discriminate|]. split.
  - unfold readable. vm_compute. discriminate.
  - unfold readable. vm_compute. congruence.
Qed.
Print Assumptions C03_same_client_refuted.

(** All stores reached by session manager calls are well-formed. *)
Theorem C03_histories_well_formed :
  forall sharing is_user ops, Forall (op_ok is_user) ops -> well_formed is_user (mrun sharing ops []).
Proof. intros sh iu ops HF. exact (mrun_wf sh iu ops HF [] (wf_empty iu)). Qed.
Print Assumptions C03_histories_well_formed.

(** C05: over every history, before and after the removal, in both kinds of storage, as long as new
    grants get new ids. (A client id that is also a user id is excluded: see C04.) *)
Theorem C05_removed_stays_removed :
  forall sharing is_user h1 u c g h2,
  Forall (op_ok is_user) (h1 ++ ORemove u c g :: h2) ->
  (forall op, In op h2 -> ~ makes op g) ->
  ~ readable (mrun sharing (h1 ++ ORemove u c g :: h2) []) u c g.
Proof. exact removed_stays. Qed.
Print Assumptions C05_removed_stays_removed.

(** C05: more generally only creating a session makes its id readable. *)
Theorem C05_only_creation_creates :
  forall sharing is_user ops s, Forall (op_ok is_user) ops -> well_formed is_user s ->
  forall u c g, good u -> good c -> good g -> ~ readable s u c g ->
  (forall op, In op ops -> ~ makes op g) -> ~ readable (mrun sharing ops s) u c g.
Proof. intros sh iu ops s HF W. exact (mrun_new sh iu ops HF s W). Qed.
Print Assumptions C05_only_creation_creates.

(** C05 is false when a client may be named like a user: a session removed with
    [delete([user])], or lost through database.py:132, comes back. *)
Theorem C05_user_delete_refuted :
  exists u c g g2,
  let s1 := snd (db_delete true [u] (mrun true [login g u c] [])) in
  ~ readable s1 u c g /\ g2 <> g /\
  readable (mrun true [OCreateGrant 1001 g2 None None u c (Ok "sub") None None] s1) u c g.
Proof.
  exists "diana", "client", "g1", "g2". cbv zeta. split; [|split; [discriminate|]].
  - unfold readable. vm_compute. congruence.
  - unfold readable. vm_compute. discriminate.
Qed.
Print Assumptions C05_user_delete_refuted.

(** C07 at the session manager, in-memory store: exactly the named token and, if recursive, those
    derived from it; nothing else in the store. *)
Theorem C07_manager_revoke_token :
  forall s u c g gr value recursive depth,
  good u -> good c -> good g -> view s [u; c; g] = Some (EGrant gr) ->
  lineage_ok (g_issued gr) -> In value (map t_value (g_issued gr)) ->
  (length (g_issued gr) < depth)%nat ->
  exists l' s', mgr_revoke_token true depth (session_key [u; c; g]) value recursive s = (Ok tt, s') /\
    view s' [u; c; g] = Some (EGrant (g_set_issued l' gr)) /\
    revokes_exactly (fun t => t_value t = value \/ recursive = true /\ derived (g_issued gr) value (t_value t))
      (g_issued gr) l' /\
    forall q, good_path q -> q <> [u; c; g] -> view s' q = view s q.
Proof. exact mgr_revoke_exact. Qed.
Print Assumptions C07_manager_revoke_token.

(** C37: these changes are visible to the next reader, in both kinds of storage. Missing: revocation
    of a token, and the listing of removed grants (see below). *)
Theorem C37_revoke_grant_durable_partial :
  forall s u c g gr, kinds_ok s -> linked s -> good u -> good c -> good g ->
  view s [u; c; g] = Some (EGrant gr) ->
  exists s', revoke_grant (session_key [u; c; g]) s = (Ok tt, s') /\
    view s' [u; c; g] = Some (EGrant (g_set_revoked true gr)) /\
    forall q, good_path q -> q <> [u; c; g] -> view s' q = view s q.
Proof. exact revoke_grant_effect. Qed.
Print Assumptions C37_revoke_grant_durable_partial.

Theorem C37_revoke_client_durable_partial :
  forall s u c g ci, kinds_ok s -> linked s -> good u -> good c -> good g ->
  view s [u; c] = Some (EInfo ci) ->
  exists s', revoke_client_session (session_key [u; c; g]) s = (Ok tt, s') /\
    view s' [u; c] = Some (EInfo (mkSInfo (si_kind ci) (si_id ci) (si_sub ci) true (si_extra ci))) /\
    forall q, good_path q -> q <> [u; c] -> view s' q = view s q.
Proof. exact revoke_client_effect. Qed.
Print Assumptions C37_revoke_client_durable_partial.

(** Removing a session removes that grant and nothing else: every other path reads as before, apart from the
    listings above it ([u; c] and [u]). *)
Theorem C37_remove_durable_partial :
  forall sharing is_user s u c g, well_formed is_user s -> op_ok is_user (ORemove u c g) ->
  let (r, s') := remove_session sharing (session_key [u; c; g]) s in
  r = Ok tt /\ view s' [u; c; g] = None /\
  view s' [u; c] = match view s [u; c] with
                   | Some (EInfo ci) =>
                       let l := sremove g (si_sub ci) in
                       if is_nil l then None else Some (EInfo (if sharing then with_sub l ci else ci))
                   | o => o
                   end /\
  (forall q, good_path q -> q <> [u] -> q <> [u; c] -> q <> [u; c; g] -> hd "" q <> c -> view s' q = view s q).
Proof.
  intros sh iu s u c g (Hk & Hl & _) (Hu & Hc & Hg & _). cbn [op_user op_client op_grant] in *.
  unfold remove_session. rewrite unpack3_good by auto. unfold bind, lift.
  destruct (delete3_view sh s u c g Hk Hl Hu Hc Hg) as (s' & E & _ & V & V2 & _ & Vo & _). rewrite E.
  split; [reflexivity|]. split; [exact V|]. split; [exact V2|]. intros. apply Vo; auto.
Qed.
Print Assumptions C37_remove_durable_partial.

(** C37 fails for token revocation: with a serialising store it has no effect at all, whatever the
    arguments, although it reports success. *)
Theorem C37_revoke_token_never_durable :
  forall depth sid value recursive s, snd (mgr_revoke_token false depth sid value recursive s) = s.
Proof. exact mgr_revoke_false. Qed.
Print Assumptions C37_revoke_token_never_durable.

Definition tok_ex : token := chain_tok 3.
Definition sess_ex : list mop :=
  [login "g1" "diana" "client";
   OWrite "diana" "client" "g1" (g_set_issued [tok_ex])].
Theorem C37_revoke_token_durable_refuted :
  exists ops u c g value s' gr, s' = snd (mgr_revoke_token false 1000 (session_key [u; c; g]) value true (mrun false ops [])) /\
  fst (mgr_revoke_token false 1000 (session_key [u; c; g]) value true (mrun false ops [])) = Ok tt /\
  view s' [u; c; g] = Some (EGrant gr) /\ option_map t_revoked (get_token value gr) = Some false.
Proof.
  exists sess_ex, "diana", "client", "g1", (t_value tok_ex). eexists. eexists.
  split; [reflexivity|]. split; [vm_compute; reflexivity|]. split; [vm_compute; reflexivity|vm_compute; reflexivity].
Qed.
Print Assumptions C37_revoke_token_durable_refuted.

(** C09, the manager part: revoking a client session sets the flag of that record and changes no
    grant and no token; what the endpoints make of it is in PropsEndpoints. *)
Theorem C09_revoke_client_tokens_unchanged :
  forall s u c g ci, kinds_ok s -> linked s -> good u -> good c -> good g ->
  view s [u; c] = Some (EInfo ci) ->
  exists s', revoke_client_session (session_key [u; c; g]) s = (Ok tt, s') /\
    forall g', good g' -> view s' [u; c; g'] = view s [u; c; g'].
Proof.
  intros s u c g ci Hk Hl Hu Hc Hg Ev.
  destruct (revoke_client_effect s u c g ci Hk Hl Hu Hc Hg Ev) as (s' & E & _ & Vo).
  exists s'. split; [exact E|]. intros g' Hg'. apply Vo; auto with gp; discriminate.
Qed.
Print Assumptions C09_revoke_client_tokens_unchanged.

(** ** C38 *)
(** A real hash is not injective, so the theorems say: or here are two texts with the same hash. *)
Definition collide (h : string -> string) (a b : string) : Prop := a <> b /\ h a = h b.

(** C38, public: one identifier per user, the same at every client. *)
Theorem C38_public :
  forall sha salt u1 u2 sec1 sec2 r1 r2,
  (u1 = u2 -> make_sub sha "public" u1 sec1 salt r1 = make_sub sha "public" u2 sec2 salt r2) /\
  (make_sub sha "public" u1 sec1 salt r1 = make_sub sha "public" u2 sec2 salt r2 ->
   u1 = u2 \/ collide sha (u1 ++ salt)%string (u2 ++ salt)%string).
Proof.
  intros sha salt u1 u2 sec1 sec2 r1 r2. unfold make_sub. cbn [String.eqb Ascii.eqb Bool.eqb].
  unfold public_id. split; [intros ->; reflexivity|].
  intros H. injection H as H. destruct (string_dec u1 u2) as [|Hn]; [left; assumption|right].
  split; [|exact H]. intros E. apply str_app_cancel_r in E. congruence.
Qed.
Print Assumptions C38_public.

(** C38, ephemeral: the identifier is the random value, whoever the user, the sector and the salt are. *)
Theorem C38_ephemeral :
  forall sha salt uid sector r, make_sub sha "ephemeral" uid sector salt r = Ok r.
Proof. reflexivity. Qed.
Print Assumptions C38_ephemeral.

(** C38, pairwise: within a sector different users get different identifiers, and one user gets
    different identifiers in different sectors. Missing: different users in different sectors. *)
Theorem C38_pairwise_partial :
  forall sha salt u1 u2 sec1 sec2 r1 r2,
  (u1 = u2 \/ sec1 = sec2) ->
  (u1 = u2 /\ sec1 = sec2 ->
   make_sub sha "pairwise" u1 (Some sec1) salt r1 = make_sub sha "pairwise" u2 (Some sec2) salt r2) /\
  (make_sub sha "pairwise" u1 (Some sec1) salt r1 = make_sub sha "pairwise" u2 (Some sec2) salt r2 ->
   u1 = u2 /\ sec1 = sec2 \/ collide sha (u1 ++ sec1 ++ salt)%string (u2 ++ sec2 ++ salt)%string).
Proof.
  intros sha salt u1 u2 sec1 sec2 r1 r2 Hor. unfold make_sub. cbn [String.eqb Ascii.eqb Bool.eqb].
  unfold pairwise_id. split; [intros [-> ->]; reflexivity|].
  intros H. injection H as H.
  destruct (string_dec (u1 ++ sec1 ++ salt) (u2 ++ sec2 ++ salt)) as [E|Hn]; [left|right; split; assumption].
  rewrite <- !str_app_assoc in E. apply str_app_cancel_r in E.
  destruct Hor as [-> | ->]; [apply str_app_cancel_l in E|apply str_app_cancel_r in E]; auto.
Qed.
Print Assumptions C38_pairwise_partial.

(** Two users, two sectors, one pairwise identifier: user id and sector are just concatenated. *)
Theorem C38_pairwise_refuted :
  forall sha salt r, exists u1 u2 sec1 sec2, u1 <> u2 /\ sec1 <> sec2 /\
  make_sub sha "pairwise" u1 (Some sec1) salt r = make_sub sha "pairwise" u2 (Some sec2) salt r.
Proof. intros sha salt r. exists "diana", "dianaw", "ww.example.com", "w.example.com".
  split; [discriminate|]. split; [discriminate|]. reflexivity. Qed.
Print Assumptions C38_pairwise_refuted.

(** A login never looks at the registered subject type: a client registered as pairwise gets the
    public identifier, the same as every other client. *)
Theorem C38_registered_pairwise_refuted :
  forall sha salt r clock newid authn request u c rules, good u -> good c -> good newid -> u <> c ->
  exists client_info s',
    dget "subject_type" client_info = Some (VStr "pairwise") /\
    login_session sha salt r clock newid authn request client_info u c rules [] =
      (Ok (session_key [u; c; newid]), s') /\
    exists gr, view s' [u; c; newid] = Some (EGrant gr) /\ g_sub gr = public_id sha u salt.
Proof.
  intros sha salt r clock newid authn request u c rules Hu Hc Hn Huc.
  exists [("subject_type", VStr "pairwise")].
  destruct (create_session_effect (eq u) clock newid (Some authn) (Some request) u c (public_id sha u salt) rules None []
              (wf_empty _) Hu Hc Hn eq_refl Huc) as (s' & E & V & _).
  exists s'. split; [reflexivity|]. split; [exact E|]. eexists. split; [exact V|reflexivity].
Qed.
Print Assumptions C38_registered_pairwise_refuted.

(** Even the pairwise function gets no sector when the request carries none: "None" is hashed. *)
Theorem C38_no_sector_refuted :
  forall sha salt r u ar, dget "sector_identifier_uri" ar = None ->
  make_sub sha "pairwise" u (sector_of (Some ar)) salt r = Ok (sha (u ++ "None" ++ salt)%string).
Proof. intros sha salt r u ar H. unfold sector_of, mget_str. rewrite H. reflexivity. Qed.
Print Assumptions C38_no_sector_refuted.

(** ** The hypotheses are met *)
Definition ops_ex : list mop :=
  [login "g1" "diana" "c1"; login "g2" "bob" "c1"; login "g3" "diana" "c2";
   OAddGrant "diana" "c1" (gr "g4"); ORevokeGrant "bob" "c1" "g2"; ORevokeClient "diana" "c2" "g3"].
Definition usr (x : string) : Prop := x = "diana" \/ x = "bob".
Ltac opok := match goal with |- op_ok _ _ =>
  do 3 (split; [apply good_b_sound; reflexivity|]); split;
  [cbn; unfold usr; auto | cbn; unfold usr; intros [X|X]; discriminate] end.
Example C05_ex_ok : Forall (op_ok usr) (ops_ex ++ ORemove "diana" "c1" "g1" :: [login "g5" "diana" "c1"]).
Proof. unfold ops_ex, login. repeat (constructor; [opok|]). constructor. Qed.
Example C05_ex_before : readable (mrun false ops_ex []) "diana" "c1" "g1".
Proof. unfold readable. vm_compute. discriminate. Qed.
Example C05_ex_fresh : forall op, In op [login "g5" "diana" "c1"] -> ~ makes op "g1".
Proof. intros op [<-|[]]. cbn. discriminate. Qed.
Example C03_ex : readable (mrun true (ops_ex ++ [login "g5" "diana" "c1"]) []) "bob" "c1" "g2" /\
  readable (mrun true (ops_ex ++ [login "g5" "diana" "c1"]) []) "diana" "c2" "g3".
Proof. unfold readable. split; vm_compute; discriminate. Qed.
Example C07_manager_ex :
  let s := mrun true [login "g1" "diana" "client";
                      OWrite "diana" "client" "g1" (fun _ => grun chain_grant hist_ex)] [] in
  let s' := snd (mgr_revoke_token true 1000 (session_key ["diana"; "client"; "g1"]) "rt1" true s) in
  match view s' ["diana"; "client"; "g1"] with
  | Some (EGrant g) => map t_revoked (g_issued g) = [false; false; true; true]
  | _ => False
  end.
Proof. vm_compute. reflexivity. Qed.
Example C38_ex : make_sub (fun x => x) "pairwise" "diana" (Some "a.example") "s" "" <>
                 make_sub (fun x => x) "pairwise" "bob" (Some "a.example") "s" "".
Proof. vm_compute. discriminate. Qed.

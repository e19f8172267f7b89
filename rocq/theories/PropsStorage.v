(** PropsStorage.v: property C36 (session objects as JSON texts). *)
From Verif Require Import Base BaseProofs Types Token Grant Ctx Claims Storage StorageSpec StorageProofs.
From Coq Require Import Lia.
Local Open Scope Z_scope.

(** ** Tokens *)
(** A token read back into an object of its class is the token it was, in every attribute. *)
Theorem C36_token : forall co t t0, json_works co -> t_class t0 = t_class t -> token_from_json co t0 (token_json co t) = Ok t.
Proof. exact token_dict_read. Qed.
Print Assumptions C36_token.

(** The store's converter cannot read any token back: the answer is None. *)
Theorem C36_token_refuted : forall co clients t, json_works co ->
  ~ In (t_type t) ["UserSessionInfo"; "ClientSessionInfo"; "grant"; "exchange_grant"]%string ->
  deserialize co (serialize co clients (IToken t)) = Ok None.
Proof.
  intros co clients t J N. cbn [serialize]. unfold deserialize, token_json. rewrite J. cbn [rbind as_dict].
  assert (dsub "type" (token_dict t) = Ok (VStr (t_type t))) as -> by reflexivity. cbn [rbind val_eqb].
  destruct (String.eqb_spec (t_type t) "UserSessionInfo"); [elim N; cbn; auto|].
  destruct (String.eqb_spec (t_type t) "ClientSessionInfo"); [elim N; cbn; auto|].
  destruct (String.eqb_spec (t_type t) "grant"); [elim N; cbn; auto|].
  destruct (String.eqb_spec (t_type t) "exchange_grant"); [elim N; cbn; auto|]. reflexivity.
Qed.
Print Assumptions C36_token_refuted.

(** ** Session information *)
(** User and client sessions come back as they were, whether revoked or not. *)
Theorem C36_info : forall co clients i, json_works co -> info_works co -> proper_info i ->
  deserialize co (serialize co clients (IInfo i)) = Ok (Some (IInfo i)).
Proof. exact info_roundtrip. Qed.
Print Assumptions C36_info.

(** ** Grants *)
(** A grant comes back with everything it had (its tokens and its map of token classes included), but with an empty count of
    uses, and with copies of claims that were the client's. What is missing: the count; the users of an ExchangeGrant. *)
Theorem C36_grant_partial : forall co clients g map, json_works co -> messages_work co -> import_works co ->
  proper_grant g -> Forall (fits map) (g_issued g) ->
  deserialize co (serialize co clients (IGrant (mkSG g map None))) = Ok (Some (IGrant (mkSG (uncounted (own_claims clients g)) map None))).
Proof. intros co clients g map J M W P F. exact (grant_roundtrip co clients (mkSG g map None) J M W P F). Qed.
Print Assumptions C36_grant_partial.

(** Whatever is done to a grant, the tokens it has are ones that can be written and read. *)
Theorem C36_reachable : forall clock newid sub authreq authn rules scope ops,
  Forall real_op ops -> Forall (fits TOKEN_MAP_DICT) (g_issued (snd (grun ops (new_grant clock newid sub authreq authn rules scope)))).
Proof. intros. apply run_fits; [assumption|constructor]. Qed.
Print Assumptions C36_reachable.

(** Without a limit on the number of its uses, the copy answers all later calls like the original would have, in any order. *)
Theorem C36_behaves : forall clients g ops, gr_max_usage (g_rules g) = None -> (forall cs, In (GRead cs) ops -> cs = clients) ->
  fst (grun ops (uncounted (own_claims clients g))) = fst (grun ops g).
Proof.
  intros clients g ops F R. symmetry. apply (run_twin clients ops R). constructor; [now left|exact F].
Qed.
Print Assumptions C36_behaves.

(** With such a limit: a grant that may not be used any more can be used again once it has been stored. *)
Theorem C36_count_refuted : forall co clients g map m clock, json_works co -> messages_work co -> import_works co ->
  proper_grant g -> Forall (fits map) (g_issued g) ->
  gr_max_usage (g_rules g) = Some m -> 0 < m <= g_used g ->
  g_revoked g = false -> (g_not_before g = 0 \/ g_not_before g <= clock) -> (g_expires_at g = 0 \/ clock <= g_expires_at g) ->
  g_active clock g = false /\
  exists g', deserialize co (serialize co clients (IGrant (mkSG g map None))) = Ok (Some (IGrant (mkSG g' map None))) /\ g_active clock g' = true.
Proof.
  intros co clients g map m clock J M W P F Mx U R B E. split.
  - unfold g_active, item_is_active, max_usage_reached. rewrite Mx. now rewrite (proj2 (Z.leb_le _ _) (proj2 U)).
  - eexists. split; [apply C36_grant_partial; assumption|]. unfold g_active, item_is_active, max_usage_reached.
    cbn [uncounted own_claims g_set_used g_set_claims g_rules g_used g_revoked g_not_before g_expires_at]. rewrite Mx, R.
    assert ((m <=? 0) = false) as -> by (apply Z.leb_gt; lia). change (0 =? 0) with true. cbv iota.
    assert ((negb (g_not_before g =? 0) && (clock <? g_not_before g))%bool = false) as ->.
    { destruct B as [-> |B]; [reflexivity|]. rewrite (proj2 (Z.ltb_ge _ _) B). apply andb_false_r. }
    assert ((negb (g_expires_at g =? 0) && (g_expires_at g <? clock))%bool = false) as ->.
    { destruct E as [-> |E]; [reflexivity|]. rewrite (proj2 (Z.ltb_ge _ _) E). apply andb_false_r. }
    reflexivity.
Qed.
Print Assumptions C36_count_refuted.

(** An ExchangeGrant comes back without its users. *)
Theorem C36_users_refuted : forall co clients g map users, json_works co -> messages_work co -> import_works co ->
  proper_grant g -> Forall (fits map) (g_issued g) ->
  deserialize co (serialize co clients (IGrant (mkSG g map (Some users)))) =
    Ok (Some (IGrant (mkSG (uncounted (own_claims clients g)) map (Some [])))).
Proof. intros co clients g map users J M W P F. exact (grant_roundtrip co clients (mkSG g map (Some users)) J M W P F). Qed.
Print Assumptions C36_users_refuted.

(** Where claims of the grant are the client's own, the original follows later changes of the client's, the copy does not. *)
Theorem C36_claims_refuted : forall cs cs' g use c u, dget use (g_claims g) = Some (CClient c u) ->
  resolve cs (CClient c u) <> resolve cs' (CClient c u) ->
  option_map (resolve cs') (dget use (g_claims (own_claims cs g))) <> option_map (resolve cs') (dget use (g_claims g)).
Proof.
  intros cs cs' g use c u D N. cbn [own_claims g_set_claims g_claims]. rewrite (dget_map (fun c => CVal (resolve cs c))), D.
  cbn [option_map]. change (resolve cs' (CVal ?x)) with x. intros E. apply N. injection E as E. exact E.
Qed.
Print Assumptions C36_claims_refuted.

(** ** Examples *)
Definition co11 : codec := text_codec 1600000000.
Definition rq11 : msg := [("client_id", VStr "c1"); ("scope", vstrs ["openid"; "profile"])]%string.
Definition rules11 (m : option Z) : grules := mkGRules m [("authorization_code", mkURules (Some 1) None (Some 300)); ("access_token", mkURules None None (Some 3600))]%string.
Definition ops11 : list gop :=
            [GMint 1599999000 "i1" "authorization_code" None None (Some ["openid"]) no_kw (Ok "code");
             GUse "code";
             GMint 1599999100 "i2" "access_token" None None None (mkKw 0 1600003600 0 ["c1"]) (Ok "at");
             GMint 1599999100 "i3" "refresh_token" None (Some (mkURules (Some 2) None None)) None no_kw (Ok "rt");
             GRevokeToken 10 "at" "" true]%string.
Definition g11 (m : option Z) : grant :=
  snd (grun ops11 (new_grant 1599999000 "g1" "sub" (Some rq11) (Some (mkAE "diana" (Some "loa1") 1599998000 1600003600 None)) (Some (rules11 m)) (Some ["openid"; "profile"])%string)).
Definition sg11 (m : option Z) : grant := g_set_claims [("userinfo", CVal [("email", VNone)]); ("id_token", CClient "c1" "id_token")]%string (g11 m).
Lemma fits11 m : Forall (fits TOKEN_MAP_DICT) (g_issued (sg11 m)).
Proof.
  unfold sg11. cbn [g_set_claims g_issued]. unfold g11. apply C36_reachable. unfold ops11.
  repeat (constructor; [first [exact I|split; discriminate]|]). constructor.
Qed.
Definition clients11 (v : val) : cdb := [("c1", [("id_token_claims", VDict [("given_name", v)])])]%string.

(** Three tokens, one used, one revoked. *)
Example C36_ex : proper_grant (sg11 None) /\ Forall (fits TOKEN_MAP_DICT) (g_issued (sg11 None)) /\
  map t_used (g_issued (sg11 None)) = [1; 0; 0] /\ map t_revoked (g_issued (sg11 None)) = [false; true; false] /\ g_used (sg11 None) = 3 /\
  deserialize co11 (serialize co11 (clients11 VNone) (IGrant (mkSG (sg11 None) TOKEN_MAP_DICT None))) =
    Ok (Some (IGrant (mkSG (uncounted (own_claims (clients11 VNone) (sg11 None))) TOKEN_MAP_DICT None))).
Proof.
  assert (P : proper_grant (sg11 None)) by (split; [reflexivity|discriminate]).
  split; [exact P|]. split; [exact (fits11 None)|]. do 3 (split; [vm_compute; reflexivity|]).
  destruct (text_codec_works 1600000000) as (J & M & _ & W). apply C36_grant_partial; auto using fits11.
Qed.
(** At most three uses, three made. *)
Example C36_count_ex : g_active 1600000000 (sg11 (Some 3)) = false /\
  exists g', deserialize co11 (serialize co11 (clients11 VNone) (IGrant (mkSG (sg11 (Some 3)) TOKEN_MAP_DICT None))) = Ok (Some (IGrant (mkSG g' TOKEN_MAP_DICT None))) /\
    g_active 1600000000 g' = true.
Proof.
  destruct (text_codec_works 1600000000) as (J & M & _ & W).
  apply (C36_count_refuted co11 (clients11 VNone) (sg11 (Some 3)) TOKEN_MAP_DICT 3 1600000000); try assumption.
  - split; [vm_compute; reflexivity|vm_compute; discriminate].
  - apply fits11.
  - vm_compute. reflexivity.
  - vm_compute. split; [reflexivity|discriminate].
  - vm_compute. reflexivity.
  - left. vm_compute. reflexivity.
  - left. vm_compute. reflexivity.
Qed.
Example C36_info_ex : let i := mkSInfo SClient (Some "c1"%string) ["g1"; "g2"]%string true [("note"%string, VInt 1)] in
  proper_info i /\ deserialize co11 (serialize co11 [] (IInfo i)) = Ok (Some (IInfo i)).
Proof.
  cbv zeta. split; [|vm_compute; reflexivity]. split; [repeat constructor; intros []|]. cbn. intros k I [<-|[]].
  repeat (destruct I as [I|I]; [discriminate|]). exact I.
Qed.
(** The client's claims change. *)
Example C36_claims_ex : dget "id_token" (g_claims (sg11 None)) = Some (CClient "c1" "id_token") /\
  resolve (clients11 VNone) (CClient "c1" "id_token") <> resolve (clients11 (VDict [])) (CClient "c1" "id_token").
Proof. split; [reflexivity|]. vm_compute. discriminate. Qed.
Example C36_token_ex : match g_issued (sg11 None) with
  | t :: _ => token_from_json co11 (t_set_used 7 t) (token_json co11 t) = Ok t /\ deserialize co11 (serialize co11 [] (IToken t)) = Ok None
  | [] => False end.
Proof. vm_compute. auto. Qed.
(** The copy's answers: the code has been used up, the refresh token works, the access token stays revoked. *)
Example C36_behaves_ex : gr_max_usage (g_rules (sg11 None)) = None /\
  let ops := [GActive 1600000000; GFind "code"; GUse "rt"; GFind "rt"; GFind "at"; GRead (clients11 VNone)]%string in
  fst (grun ops (uncounted (own_claims (clients11 VNone) (sg11 None)))) = fst (grun ops (sg11 None)) /\
  map (fun a => match a with AFound (Some t) => Some (t_used t, t_revoked t, max_usage_reached (ur_max_usage (t_rules t)) (t_used t)) | _ => None end)
    (fst (grun ops (uncounted (own_claims (clients11 VNone) (sg11 None))))) =
    [None; Some (1, false, true); None; Some (1, false, false); Some (0, true, false); None].
Proof. vm_compute. auto. Qed.

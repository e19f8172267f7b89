(** ResponseProofs.v: see ResponseSpec.v *)
From Verif Require Import Base BaseProofs Monad Types SessionKey Token Grant GrantSpec GrantProofs Database DatabaseSpec DatabaseProofs
  Manager ManagerSpec ManagerProofs Ctx UserInfo UserInfoProofs World Minting TokenEndpoint WorldSpec WorldProofs ResponseSpec.
Local Open Scope Z_scope.

Definition fine (s : store) : Prop := kinds_ok s /\ linked s.

Lemma listing_noop x i : smem x (si_sub i) = true -> listing x i = i.
Proof. unfold listing. now intros ->. Qed.

Lemma put_step s u c gid g0 g : fine s -> good u -> good c -> good gid ->
  view s [u; c; gid] = Some (EGrant g0) ->
  only_grant s u c gid g (snd (db_store [u; c; gid] (EGrant g) s)) /\ fine (snd (db_store [u; c; gid] (EGrant g) s)).
Proof.
  intros [Hk Hl] Hu Hc Hg V.
  destruct (store3_view s u c gid g Hk Hl Hu Hc Hg) as (A & B & C & D).
  assert (Q := V). rewrite view3, view2 in Q.
  destruct (stored s [u]) as [[ui|]|] eqn:E1; try discriminate.
  destruct (smem c (si_sub ui)) eqn:E2; [|discriminate].
  destruct (stored s [u; c]) as [[ci|]|] eqn:E3; try discriminate.
  destruct (smem gid (si_sub ci)) eqn:E4; [|discriminate].
  assert (V1 : view s [u] = Some (EInfo ui)) by (rewrite view1; exact E1).
  assert (V2 : view s [u; c] = Some (EInfo ci)) by (rewrite view2, E1, E2; exact E3).
  rewrite V1 in C. rewrite V2 in B. cbn [info_or] in B, C. rewrite listing_noop in B, C by assumption.
  split; [split; [exact A|]|].
  - intros q Hq N. destruct (path_dec q [u]) as [->|N1]; [congruence|]. destruct (path_dec q [u; c]) as [->|N2]; [congruence|]. auto.
  - split; [now apply kinds_store3|now apply linked_store3].
Qed.

Lemma only_trans s1 s2 s3 u c gid g g' : only_grant s1 u c gid g s2 -> only_grant s2 u c gid g' s3 -> only_grant s1 u c gid g' s3.
Proof. intros [A B] [C D]. split; [exact C|]. intros q Hq N. rewrite D, B; auto. Qed.

Lemma token_map_of_type ty c : TOKEN_MAP ty = Some c <-> of_type ty c.
Proof.
  unfold TOKEN_MAP, of_type. split.
  - destruct (String.eqb_spec ty "authorization_code"); [intros X; injection X; auto|].
    destruct (String.eqb_spec ty "access_token"); [intros X; injection X; auto|].
    destruct (String.eqb_spec ty "refresh_token"); [intros X; injection X; auto|discriminate].
  - intros [(-> & ->)|[(-> & ->)|(-> & ->)]]; reflexivity.
Qed.

Lemma endpoint_mint_ok cx mt u c gid g g0 ttype base w t g' w' :
  fine (w_db w) -> good u -> good c -> good gid -> view (w_db w) [u; c; gid] = Some (EGrant g0) ->
  endpoint_mint cx mt (session_key [u; c; gid]) g ttype (Some base) w = (Ok (Some t, g'), w') ->
  only_grant (w_db w) u c gid g' (w_db w') /\ fine (w_db w') /\
  g' = g_set_used (g_used g + 1) (g_set_issued (g_issued g ++ [t]) g) /\ fresh_token (mt_clock mt) g ttype base t /\
  token_usable (mt_clock mt) base.
Proof.
  intros Hf Hu Hc Hg V H. unfold endpoint_mint in H. head_bind H E0.
  unfold mint_in in E0. unfold bind, lift, ret in E0.
  set (rules := dget ttype (gr_types (g_rules g))) in *.
  destruct (mint_token _ _ _ _ _ _ _ _ (Ok "")) as [[[t0|] g1]|e] in E0.
  2: { injection E0 as <- <-. destruct (negb _); [discriminate|]. unfold bind, ret in H. destruct (in_db _ _) as [[[]|] ?]; discriminate. }
  2: { injection E0 as <- <-. discriminate. }
  destruct (unpack3 (session_key [u; c; gid])) as [[[u1 c1] gid1]|]; [|injection E0 as <- <-; discriminate].
  destruct (payload_arguments _ _ _ _ _ _ w) as [[p|e] w1] eqn:Ep; [|injection E0 as <- <-; discriminate].
  apply payload_db in Ep. injection E0 as E0 <-.
  assert (C := mint_token_cases (mt_clock mt) (mt_id mt) g ttype (Some base) rules None no_kw (mt_value mt (session_key [u; c; gid]) p)).
  rewrite E0 in C. destruct r as [[[t2|] g2]|e]; [| |discriminate].
  2: { destruct (negb _); [discriminate|]. unfold bind, ret in H. destruct (in_db _ _) as [[[]|] ?]; discriminate. }
  destruct C as (C1 & C2 & C3 & C4 & C5 & C6 & C7 & C8 & C9 & C10 & C11 & C12 & _ & _ & C15).
  rewrite unpack_good in H by auto with gp.
  set (late := if lifetime rules =? 0 then fun t : token => t else t_set_expires_at (mt_clock mt + lifetime rules)) in *. cbv zeta in H.
  unfold bind, in_db, ret in H. rewrite Ep in H.
  assert (P := put_step (w_db w) u c gid g0 (upd_newest late g2) Hf Hu Hc Hg V).
  destruct (db_store [u; c; gid] _ (w_db w)) as [[[]|e] s1]; [|discriminate]. cbn [snd] in P. injection H as <- <- <-. cbn [w_db].
  destruct P as [P1 P2].
  assert (G : upd_newest late g2 = g_set_used (g_used g + 1) (g_set_issued (g_issued g ++ [late t2]) g)).
  { rewrite C15. unfold upd_newest. cbn. rewrite upd_last_app. reflexivity. }
  split; [exact P1|]. split; [exact P2|]. split; [exact G|]. split; [|apply (C2 base eq_refl)].
  unfold fresh_token. fold rules. 
  match goal with X : TOKEN_MAP _ = Some _ |- _ => apply token_map_of_type in X end.
  replace (t_type (late t2)) with (t_type t2) by (unfold late; destruct (lifetime rules =? 0); reflexivity).
  replace (t_class (late t2)) with (t_class t2) by (unfold late; destruct (lifetime rules =? 0); reflexivity).
  replace (t_based_on (late t2)) with (t_based_on t2) by (unfold late; destruct (lifetime rules =? 0); reflexivity).
  replace (t_revoked (late t2)) with (t_revoked t2) by (unfold late; destruct (lifetime rules =? 0); reflexivity).
  replace (t_used (late t2)) with (t_used t2) by (unfold late; destruct (lifetime rules =? 0); reflexivity).
  replace (t_issued_at (late t2)) with (t_issued_at t2) by (unfold late; destruct (lifetime rules =? 0); reflexivity).
  replace (t_not_before (late t2)) with (t_not_before t2) by (unfold late; destruct (lifetime rules =? 0); reflexivity).
  cbn in C11, C12. repeat (split; [assumption|]).
  subst late. unfold lifetime. destruct rules as [[a b [n|]]|]; cbn in *; try assumption. destruct (n =? 0); [assumption|reflexivity].
Qed.

Lemma upd_first_counted code f l1 t l2 : t_value t = code -> ~ In code (map t_value l1) ->
  upd_first code f (l1 ++ t :: l2) = l1 ++ f t :: l2.
Proof.
  intros E. induction l1 as [|a l1 IH]; intros N; cbn.
  - now rewrite E, String.eqb_refl.
  - destruct (String.eqb_spec (t_value a) code) as [X|X]; [exfalso; apply N; now left|]. rewrite IH; [reflexivity|]. intros Y. apply N. now right.
Qed.
Lemma get_token_split v g t : get_token v g = Some t ->
  exists l1 l2, g_issued g = l1 ++ t :: l2 /\ t_value t = v /\ ~ In v (map t_value l1).
Proof.
  unfold get_token. induction (g_issued g) as [|a l IH]; cbn; [discriminate|].
  destruct (String.eqb_spec (t_value a) v) as [X|X].
  - intros E. injection E as <-. exists [], l. auto.
  - intros E. destruct (IH E) as (l1 & l2 & -> & A & B). exists (a :: l1), l2. split; [reflexivity|]. split; [exact A|].
    intros [Y|Y]; auto.
Qed.

Section Token.
  Variable sid_of : string -> result string.
  Variable cx : ctx.
  Variable make_id_token : store -> string -> ST cdb string.
  Hypothesis Hsid : sids_ok sid_of.

  Lemma add_id_fine sid resp w args oc w' : add_id_token make_id_token sid resp w = (Ok (AOk args oc), w') ->
    w_db w' = w_db w /\ exists x, args = dset "id_token" (VStr x) resp /\
      exists cs cs', make_id_token (w_db w') sid cs = (Ok x, cs').
  Proof.
    intros H. assert (W := H). apply add_id_token_db in W. split; [exact W|]. rewrite W.
    unfold add_id_token, id_token_for, catch, bind, ret, id, gets, in_cdb in H.
    destruct (make_id_token (w_db w) sid (w_cdb w)) as [[x|e] c] eqn:E; cbv beta iota zeta in H.
    - exists x. split; [congruence|]. eauto.
    - destruct e; discriminate.
  Qed.

  Lemma code_success m1 m2 ir rq w args oc w' : fine (w_db w) ->
    code_process sid_of cx make_id_token m1 m2 ir rq w = (Ok (AOk args oc), w') ->
    exists raw u c gid g t at_ rest issued g' ar,
      dget "code" rq = Some (VStr raw) /\ leads sid_of (w_db w) (blank_to_plus raw) u c gid g /\
      get_token (blank_to_plus raw) g = Some t /\ g_authreq g = Some ar /\
      only_grant (w_db w) u c gid g' (w_db w') /\
      counted (blank_to_plus raw) (g_issued g) issued /\ same_but_issued g g' (issued ++ at_ :: rest) /\
      fresh_token (mt_clock m1) g "access_token" t at_ /\
      exists idt,
        args = [("token_type", VStr "Bearer"); ("scope", vstrs (g_scope g)); ("access_token", VStr (t_value at_));
                ("expires_in", VInt (t_expires_at at_ - mt_clock m1))]
               ++ map (fun rt => ("refresh_token", VStr (t_value rt))) rest ++ map (fun x => ("id_token", VStr x)) idt /\
        (exists scope b, dget "scope" ar = Some scope /\ val_in (VStr "openid") scope = Ok b /\ length idt = if b : bool then 1%nat else 0%nat) /\
        (forall x, In x idt -> exists cs cs', make_id_token (w_db w') (session_key [u; c; gid]) cs = (Ok x, cs')) /\
        if match ir with Some b => b | None => smem "offline_access" (g_scope g) end
        then exists rt, rest = [rt] /\ fresh_token (mt_clock m2) g "refresh_token" t rt
        else rest = [].
  Proof.
    intros Hf H. unfold code_process in H. head_bind H E0.
    assert (r = msub_str "grant_type" rq /\ w0 = w) as [-> ->] by (injection E0 as <- <-; auto). clear E0.
    destruct (msub_str "grant_type" rq) as [gt|e] eqn:Eg; [|discriminate].
    destruct (negb _); [discriminate|]. destruct (negb _); [discriminate|].
    head_bind H E0. assert (r = msub_str "code" rq /\ w0 = w) as [-> ->] by (injection E0 as <- <-; auto). clear E0.
    destruct (msub_str "code" rq) as [raw|e] eqn:Er; [|discriminate]. cbv zeta in H. apply msub_str_ok in Er.
    head_bind H Es. apply (in_session_by sid_of Hsid) in Es. destruct Es as [-> Es].
    destruct r as [[i g]|e]; [|discriminate]. destruct Es as (u & c & gid & L & ->). cbn [in_sid] in H.
    assert (L' := L). destruct L' as (Hu & Hc & Hg & _ & V).
    head_bind H E0. unfold the_request, lift in E0. injection E0 as E0 <-.
    destruct (g_authreq g) as [ar|] eqn:Ear; cbn in E0; subst r; [|discriminate].
    head_bind H E0.
    assert (w0 = w). { destruct (dget "redirect_uri" ar); unfold bind, lift, ret in E0; [destruct (dsub _ _)|]; injection E0 as <- <-; reflexivity. }
    subst w0. clear E0. destruct r as [[|]|e]; try discriminate.
    head_bind H E1. destruct r as [[[at_|] g1]|e]; [|unfold bind, the_token, lift in H; discriminate|discriminate].
    head_bind H E0. unfold the_token, lift in E0. cbn in E0. injection E0 as <- <-. cbv zeta in H.
    set (code := blank_to_plus raw) in *.
    head_bind H E2.
    destruct r as [[g2 resp2]|e]; [|discriminate].
    head_bind H E3. destruct (get_token code g) as [t|] eqn:Et; [|injection E3 as <- <-; discriminate].
    injection E3 as <- <-.
    destruct (endpoint_mint_ok _ _ _ _ _ _ _ _ _ _ _ _ _ Hf Hu Hc Hg V E1) as (O1 & F1 & G1 & Fr1 & _).
    assert (Mid : exists rest, g2 = g_set_used (g_used g2) (g_set_issued (g_issued g ++ at_ :: rest) g) /\
      only_grant (w_db w) u c gid g2 (w_db w1) /\ fine (w_db w1) /\
      resp2 = [("token_type", VStr "Bearer"); ("scope", vstrs (g_scope g)); ("access_token", VStr (t_value at_));
                ("expires_in", VInt (t_expires_at at_ - mt_clock m1))]
               ++ map (fun rt => ("refresh_token", VStr (t_value rt))) rest /\
        if match ir with Some b => b | None => smem "offline_access" (g_scope g) end
        then exists rt, rest = [rt] /\ fresh_token (mt_clock m2) g "refresh_token" t rt
        else rest = []).
    { destruct (match ir with Some b => b | None => smem "offline_access" (g_scope g) end).
      - head_bind E2 E4. destruct r as [[[rt|] g3]|e]; [|unfold bind, the_token, lift in E2; discriminate|discriminate].
        head_bind E2 E0. unfold the_token, lift in E0. cbn in E0. injection E0 as <- <-.
        destruct O1 as [O1 O1'].
        destruct (endpoint_mint_ok _ _ _ _ _ _ _ _ _ _ _ _ _ F1 Hu Hc Hg O1 E4) as (O2 & F2 & G2 & Fr2 & _).
        unfold ret in E2. injection E2 as <- <- <-. exists [rt].
        split. { rewrite G2. rewrite G1. cbn. rewrite <- app_assoc. reflexivity. }
        split; [exact (only_trans _ _ _ _ _ _ _ _ (conj O1 O1') O2)|]. split; [exact F2|]. split; [reflexivity|].
        exists rt. split; [reflexivity|]. unfold fresh_token in *. rewrite G1 in Fr2. exact Fr2.
      - unfold ret in E2. injection E2 as <- <- <-. exists []. split; [rewrite G1; reflexivity|]. auto. }
    clear E2 E1. destruct Mid as (rest & G2 & O2 & F2 & -> & R).
    set (g' := upd_token code register_usage g2) in *.
    head_bind H E4. unfold in_db, mset in E4. rewrite unpack_good in E4 by auto with gp.
    assert (P := put_step (w_db w1) u c gid g2 g' F2 Hu Hc Hg (proj1 O2)).
    destruct (db_store [u; c; gid] (EGrant g') (w_db w1)) as [r4 s4]. cbn [snd] in P. injection E4 as <- <-.
    destruct r4 as [[]|]; [|discriminate]. destruct P as [P1 P2].
    destruct (get_token_split _ _ _ Et) as (l1 & l2 & I1 & I2 & I3).
    exists raw, u, c, gid, g, t, at_, rest, (l1 ++ t_set_used (t_used t + 1) t :: l2), g', ar.
    split; [exact Er|]. split; [exact L|]. split; [exact Et|]. split; [exact Ear|].
    assert (Tail : w_db w' = s4 /\ exists idt,
        args = [("token_type", VStr "Bearer"); ("scope", vstrs (g_scope g)); ("access_token", VStr (t_value at_));
                ("expires_in", VInt (t_expires_at at_ - mt_clock m1))]
               ++ map (fun rt => ("refresh_token", VStr (t_value rt))) rest ++ map (fun x => ("id_token", VStr x)) idt /\
        (exists scope b, dget "scope" ar = Some scope /\ val_in (VStr "openid") scope = Ok b /\ length idt = if b : bool then 1%nat else 0%nat) /\
        (forall x, In x idt -> exists cs cs', make_id_token (w_db w') (session_key [u; c; gid]) cs = (Ok x, cs'))).
    { head_bind H E5. unfold lift, dsub in E5. injection E5 as E5 <-. destruct r as [scope|]; [|discriminate].
      assert (Es : dget "scope" ar = Some scope) by (destruct (dget "scope" ar); cbn in E5; congruence).
      head_bind H E6. unfold lift in E6. injection E6 as E6 <-. destruct r as [b|]; [|discriminate].
      destruct b.
      - apply add_id_fine in H. destruct H as [X (x & -> & Mk)]. split; [exact X|]. exists [x]. split; [|split].
        + destruct (match ir with Some b => b | None => _ end); [destruct R as (rt & -> & _)|subst rest]; reflexivity.
        + exists scope, true. auto.
        + intros y [<-|[]]. exact Mk.
      - unfold ret in H. injection H as <- <- <-. split; [reflexivity|]. exists []. split; [|split].
        + cbn [map]. rewrite app_nil_r. reflexivity.
        + exists scope, false. auto.
        + intros y []. }
    destruct Tail as (Ew & idt & T1 & T2 & T3). rewrite Ew in *.
    split; [exact (only_trans _ _ _ _ _ _ _ _ O2 P1)|].
    split. { exists l1, t, l2. auto. }
    split. { assert (Gi : g_issued g2 = g_issued g ++ at_ :: rest) by (rewrite G2; reflexivity).
             assert (Iu : upd_first code register_usage (g_issued g2) = (l1 ++ t_set_used (t_used t + 1) t :: l2) ++ at_ :: rest).
             { rewrite Gi, I1, <- !app_assoc. cbn [app]. rewrite upd_first_counted by assumption. reflexivity. }
             unfold same_but_issued, g', upd_token. rewrite Iu, G2. reflexivity. }
    split; [exact Fr1|]. exists idt. auto.
  Qed.

  Lemma refresh_success sh m1 m2 rq w args oc w' : fine (w_db w) ->
    refresh_process sid_of cx make_id_token sh m1 m2 rq w = (Ok (AOk args oc), w') ->
    exists value u c gid g t at_ rest g' mints,
      dget "refresh_token" rq = Some (VStr value) /\ leads sid_of (w_db w) value u c gid g /\
      get_token value g = Some t /\ ur_mints (t_rules t) = Some mints /\
      only_grant (w_db w) u c gid g' (w_db w') /\
      same_but_issued g g' (g_issued g ++ at_ :: rest) /\
      fresh_token (mt_clock m1) g "access_token" t at_ /\
      exists idt,
        args = [("access_token", VStr (t_value at_)); ("token_type", VStr "Bearer"); ("scope", vstrs (g_scope g))]
               ++ (if t_expires_at at_ =? 0 then [] else [("expires_in", VInt (t_expires_at at_ - mt_clock m1))])
               ++ map (fun rt => ("refresh_token", VStr (t_value rt))) rest ++ map (fun x => ("id_token", VStr x)) idt /\
        (length idt = if smem "id_token" mints then 1%nat else 0%nat) /\
        (forall x, In x idt -> exists cs cs', make_id_token (w_db w') (session_key [u; c; gid]) cs = (Ok x, cs')) /\
        if smem "refresh_token" mints
        then exists rt, rest = [rt] /\ fresh_token (mt_clock m2) g "refresh_token" t rt /\ (sh = true -> t_rules rt = t_rules t)
        else rest = [].
  Proof.
    intros Hf H. unfold refresh_process in H. head_bind H E0.
    assert (r = msub_str "grant_type" rq /\ w0 = w) as [-> ->] by (injection E0 as <- <-; auto). clear E0.
    destruct (msub_str "grant_type" rq) as [gt|e] eqn:Eg; [|discriminate].
    destruct (negb _); [discriminate|].
    head_bind H E0. assert (r = msub_str "refresh_token" rq /\ w0 = w) as [-> ->] by (injection E0 as <- <-; auto). clear E0.
    destruct (msub_str "refresh_token" rq) as [value|e] eqn:Er; [|discriminate]. apply msub_str_ok in Er.
    head_bind H Es. apply (in_session_by sid_of Hsid) in Es. destruct Es as [-> Es].
    destruct r as [[i g]|e]; [|discriminate]. destruct Es as (u & c & gid & L & ->). cbn [in_sid] in H. cbv zeta in H.
    assert (L' := L). destruct L' as (Hu & Hc & Hg & _ & V).
    head_bind H E1. destruct r as [[[at_|] g1]|e]; [|unfold bind, the_token, lift in H; discriminate|discriminate].
    head_bind H E0. unfold the_token, lift in E0. cbn in E0. injection E0 as <- <-.
    head_bind H E0. unfold the_token, lift in E0. injection E0 as <- <-.
    destruct (get_token value g) as [t|] eqn:Et; cbn [of_option] in H; [|discriminate].
    head_bind H E0. unfold lift in E0. injection E0 as <- <-.
    destruct (ur_mints (t_rules t)) as [mints|] eqn:Em; cbn [of_option] in H; [|discriminate].
    destruct (endpoint_mint_ok _ _ _ _ _ _ _ _ _ _ _ _ _ Hf Hu Hc Hg V E1) as (O1 & F1 & G1 & Fr1 & _).
    assert (Sc : g_scope g1 = g_scope g) by (rewrite G1; reflexivity). rewrite Sc in H.
    set (resp1 := if t_expires_at at_ =? 0 then _ else _) in H.
    assert (R1 : resp1 = [("access_token", VStr (t_value at_)); ("token_type", VStr "Bearer"); ("scope", vstrs (g_scope g))]
               ++ (if t_expires_at at_ =? 0 then [] else [("expires_in", VInt (t_expires_at at_ - mt_clock m1))])).
    { subst resp1. destruct (t_expires_at at_ =? 0); reflexivity. }
    head_bind H E2. destruct r as [resp2|e]; [|discriminate].
    exists value, u, c, gid, g, t, at_.
    assert (Mid : exists rest g', same_but_issued g g' (g_issued g ++ at_ :: rest) /\
      only_grant (w_db w) u c gid g' (w_db w1) /\
      resp2 = resp1 ++ map (fun rt => ("refresh_token", VStr (t_value rt))) rest /\
      if smem "refresh_token" mints
        then exists rt, rest = [rt] /\ fresh_token (mt_clock m2) g "refresh_token" t rt /\ (sh = true -> t_rules rt = t_rules t)
        else rest = []).
    { destruct (smem "refresh_token" mints).
      - head_bind E2 E4. destruct r as [[[rt|] g3]|e]; [|unfold bind, the_token, lift in E2; discriminate|discriminate].
        head_bind E2 E0. unfold the_token, lift in E0. cbn in E0. injection E0 as <- <-.
        destruct O1 as [O1 O1'].
        destruct (endpoint_mint_ok _ _ _ _ _ _ _ _ _ _ _ _ _ F1 Hu Hc Hg O1 E4) as (O2 & F2 & G2 & Fr2 & _).
        head_bind E2 E5. unfold in_db in E5. rewrite unpack_good in E5 by auto with gp.
        unfold poke, modify in E5. injection E5 as <- <-. unfold ret in E2. injection E2 as <- <-. cbn [w_db].
        assert (Iss : g_issued g3 = g_issued g ++ at_ :: [rt]).
        { rewrite G2, G1. cbn. rewrite <- app_assoc. reflexivity. }
        assert (Resp : dset "refresh_token" (VStr (t_value rt)) resp1 = resp1 ++ [("refresh_token", VStr (t_value rt))]).
        { rewrite R1. destruct (t_expires_at at_ =? 0); reflexivity. }
        assert (Fr : fresh_token (mt_clock m2) g "refresh_token" t rt) by (unfold fresh_token in *; rewrite G1 in Fr2; exact Fr2).
        assert (O3 := only_trans _ _ _ _ _ _ _ _ (conj O1 O1') O2).
        destruct sh.
        + assert (D : dmem (session_key [u; c; gid]) (w_db w2) = true).
          { destruct O2 as [O2 _]. apply view_key in O2. unfold dmem. now rewrite O2. }
          cbn [andb]. rewrite D. exists [t_set_rules (t_rules t) rt], (upd_newest (t_set_rules (t_rules t)) g3).
          split. { unfold same_but_issued, upd_newest. cbn. rewrite Iss.
            replace (g_issued g ++ [at_; rt]) with ((g_issued g ++ [at_]) ++ [rt]) by (rewrite <- app_assoc; reflexivity).
            rewrite upd_last_app, <- app_assoc. rewrite G2, G1. reflexivity. }
          split; [|split; [rewrite Resp; reflexivity|]].
          * destruct O3 as [O3 O3']. destruct F2 as [K2 L2]. assert (Q := O3). apply view_key in Q.
            set (g4 := upd_newest _ g3).
            assert (St : forall q, good_path q -> stored (dset (session_key [u; c; gid]) (EGrant g4) (w_db w2)) q =
               if path_dec q [u; c; gid] then Some (EGrant g4) else stored (w_db w2) q).
            { intros q Hq. apply stored_dset; auto with gp. }
            split.
            -- rewrite view3, view2 in O3 |- *. rewrite !St by auto with gp. rewrite !path_dec_neq by discriminate. rewrite path_dec_refl.
               destruct (stored (w_db w2) [u]) as [[ui|]|]; try discriminate. destruct (smem c _); [|discriminate].
               destruct (stored (w_db w2) [u; c]) as [[ci|]|]; try discriminate. destruct (smem gid _); [reflexivity|discriminate].
            -- intros q Hq N. rewrite <- O3' by assumption. 
               destruct (good_path_cases q Hq) as [(a & -> & A1)|[(a & b & -> & A1 & A2)|(a & b & d & -> & A1 & A2 & A3)]].
               ++ rewrite !view1, !St by auto with gp. now rewrite path_dec_neq by discriminate.
               ++ rewrite !view2, !St by auto with gp. now rewrite !path_dec_neq by discriminate.
               ++ rewrite !view3, !view2, !St by auto with gp. now rewrite !path_dec_neq by (discriminate || assumption).
          * exists (t_set_rules (t_rules t) rt). split; [reflexivity|]. split; [exact Fr|reflexivity].
        + cbn [andb]. exists [rt], g3. split; [unfold same_but_issued; rewrite Iss || idtac; rewrite G2, G1; cbn; rewrite <- app_assoc; reflexivity|].
          split; [destruct w2; exact O3|]. split; [rewrite Resp; reflexivity|]. exists rt. split; [reflexivity|]. split; [exact Fr|discriminate].
      - unfold ret in E2. injection E2 as <- <-. exists [], g1. split; [unfold same_but_issued; rewrite G1; reflexivity|].
        split; [exact O1|]. split; [cbn [map]; now rewrite app_nil_r|reflexivity]. }
    clear E2 E1. destruct Mid as (rest & g' & S & O2 & -> & R).
    exists rest, g', mints. split; [exact Er|]. split; [exact L|]. split; [exact Et|]. split; [exact Em|].
    destruct (smem "id_token" mints).
    - apply add_id_fine in H. destruct H as [X (x & -> & Mk)]. rewrite X in *. split; [exact O2|]. split; [exact S|]. split; [exact Fr1|].
      exists [x]. split; [|split; [reflexivity|split; [intros y [<-|[]]; exact Mk|exact R]]]. rewrite R1.
      destruct (smem "refresh_token" mints); [destruct R as (rt & -> & _)|subst rest]; destruct (t_expires_at at_ =? 0); reflexivity.
    - unfold ret in H. injection H as <- <- <-. split; [exact O2|]. split; [exact S|]. split; [exact Fr1|].
      exists []. split; [|split; [reflexivity|split; [intros y []|exact R]]]. rewrite R1. cbn [map]. rewrite app_nil_r, <- app_assoc. reflexivity.
  Qed.
  Lemma process_success sh helpers m1 m2 ir rq w args oc w' :
    token_process sid_of cx make_id_token sh helpers m1 m2 ir (PReq rq) w = (Ok (AOk args oc), w') ->
    exists oc1 w1, w_db w' = w_db w1 /\
 ((dget "grant_type" rq = Some (VStr "authorization_code") /\ code_process sid_of cx make_id_token m1 m2 ir rq w = (Ok (AOk args oc1), w1)) \/
      (dget "grant_type" rq = Some (VStr "refresh_token") /\ refresh_process sid_of cx make_id_token sh m1 m2 rq w = (Ok (AOk args oc1), w1))).
  Proof.
    intros H. unfold token_process in H. head_bind H E0.
    assert (r = msub_str "grant_type" rq /\ w0 = w) as [-> ->] by (injection E0 as <- <-; auto). clear E0.
    destruct (msub_str "grant_type" rq) as [gt|e] eqn:Eg; [|discriminate]. 
    destruct (dget gt helpers) as [h|]; [|discriminate].
    assert (Tail : forall a w1, (match a with
            | AError e d => ret (AError e d)
            | AOk args _ => v <-- lift (msub_str "access_token" args) ;; in_db (session_by sid_of v) ;;; ret (AOk args None)
            end) w1 = (Ok (AOk args oc), w') -> w' = w1 /\ exists oc1, a = AOk args oc1).
    { intros a w1 Ha. destruct a as [e d|args1 oc1]; [discriminate|].
      head_bind Ha E0. unfold lift in E0. injection E0 as E0 <-.
      destruct r; [|discriminate]. head_bind Ha E1. apply (session_by_db sid_of Hsid) in E1. subst.
      destruct r as [[? ?]|]; [|discriminate]. injection Ha as <- <- <-. eauto. }
    destruct h; [| |discriminate].
    - head_bind H E1. destruct r as [a|]; [|discriminate]. apply Tail in H. destruct H as [-> [oc1 ->]].
      exists oc1, w0. split; [reflexivity|]. left. split; [|reflexivity].
      unfold code_process in E1. unfold bind at 1, lift at 1 in E1. rewrite Eg in E1.
      destruct (String.eqb_spec gt "authorization_code") as [->|N]; [|discriminate]. now apply msub_str_ok.
    - head_bind H E1. destruct r as [a|]; [|discriminate]. apply Tail in H. destruct H as [-> [oc1 ->]].
      exists oc1, w0. split; [reflexivity|]. right. split; [|reflexivity].
      unfold refresh_process in E1. unfold bind at 1, lift at 1 in E1. rewrite Eg in E1.
      destruct (String.eqb_spec gt "refresh_token") as [->|N]; [|discriminate]. now apply msub_str_ok.
  Qed.
End Token.

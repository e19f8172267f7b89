(** ClaimsProofs.v *)
From Verif Require Import Base BaseProofs Types Monad MonadProofs Ctx Scopes ScopesSpec ScopesProofs Claims ClaimsSpec.

(** ** Matching *)
Lemma existsb_val x l : existsb (val_eqb x) l = true <-> exists v, In v l /\ val_eqb x v = true.
Proof. apply existsb_exists. Qed.

Lemma match_items_spec x items :
  (forall v, In ("values", v) items -> exists l, v = VList l) ->
  exists b, match_items x items = Ok b /\
    (b = true <-> (exists v, In ("value", v) items /\ val_eqb x v = true) \/
                  (exists l v, In ("values", VList l) items /\ In v l /\ val_eqb x v = true)).
Proof.
  induction items as [|[k v] items IH]; intros H.
  - exists false. cbn. split; [reflexivity|]. split; [discriminate|]. intros [(v & [] & _)|(l & v & [] & _)].
  - destruct IH as (b & Hb & Hiff). { intros w Hw. apply H. now right. }
    cbn [match_items]. destruct (String.eqb_spec k "value") as [->|Hkv].
    + cbn [rbind]. destruct (val_eqb x v) eqn:E.
      * exists true. split; [reflexivity|]. split; [|reflexivity]. intros _. left. exists v. split; [now left|exact E].
      * exists b. split; [exact Hb|]. rewrite Hiff. split.
        -- intros [(w & A & B)|(l & w & A & B)]; [left|right]; [exists w|exists l, w]; split; auto; now right.
        -- intros [(w & [A|A] & B)|(l & w & [A|A] & B)]; try congruence; [left|right]; eauto.
    + destruct (String.eqb_spec k "values") as [->|Hks].
      * destruct (H v (or_introl eq_refl)) as (l & ->). cbn [val_in rbind].
        destruct (existsb (val_eqb x) l) eqn:E.
        -- exists true. split; [reflexivity|]. split; [|reflexivity]. intros _. right.
           apply existsb_val in E. destruct E as (w & A & B). exists l, w. split; [now left|auto].
        -- exists b. split; [exact Hb|]. rewrite Hiff. split.
           ++ intros [(w & A & B)|(l' & w & A & B)]; [left|right]; [exists w|exists l', w]; split; auto; now right.
           ++ intros [(w & [A|A] & B)|(l' & w & [A|A] & B)]; try congruence; [left|right|right]; eauto.
              injection A as ->. exfalso. apply Bool.not_true_iff_false in E. apply E. apply existsb_val. eauto.
      * cbn [rbind]. exists b. split; [exact Hb|]. rewrite Hiff. split.
        -- intros [(w & A & B)|(l' & w & A & B)]; [left|right]; [exists w|exists l', w]; split; auto; now right.
        -- intros [(w & [A|A] & B)|(l' & w & [A|A] & B)]; try congruence; [left|right]; eauto.
Qed.

Lemma claims_match_spec o spec : claim_request spec ->
  exists b, claims_match o spec = Ok b /\ (b = true <-> exists x, o = Some x /\ x <> VNone /\ admits spec x).
Proof.
  intros Hs. destruct o as [x|].
  2: { exists false. split; [reflexivity|]. split; [discriminate|]. intros (x & H & _). discriminate. }
  assert (Dx : x = VNone \/ x <> VNone) by (destruct x; [left; reflexivity|right; discriminate..]).
  destruct Dx as [->|Dx].
  { exists false. split; [reflexivity|]. split; [discriminate|]. intros (x & H & N & _). congruence. }
  assert (E : claims_match (Some x) spec =
          match spec with
          | VNone => Ok true
          | VDict items => let* m := match_items x items in
                           if m then Ok true else Ok (match items with [(k, _)] => String.eqb k "essential" | _ => false end)
          | _ => Raise EAttr end).
  { destruct x; try reflexivity. congruence. }
  rewrite E. clear E. destruct Hs as [->|(items & -> & Hv)].
  - exists true. split; [reflexivity|]. split; [|reflexivity]. intros _. exists x. split; [reflexivity|]. split; [exact Dx|constructor].
  - destruct (match_items_spec x items Hv) as (b & -> & Hb). cbn [rbind]. destruct b.
    + exists true. split; [reflexivity|]. split; [|reflexivity]. intros _. exists x. split; [reflexivity|]. split; [exact Dx|].
      destruct (proj1 Hb eq_refl) as [(v & A & B)|(l & v & A & B & C)]; [eapply admits_value|eapply admits_values]; eauto.
    + eexists. split; [reflexivity|]. split.
      * intros H. exists x. split; [reflexivity|]. split; [exact Dx|].
        destruct items as [|[k v] [|? ?]]; try discriminate. apply String.eqb_eq in H. subst. constructor.
      * intros (y & Hy & _ & Ha). injection Hy as <-. inversion Ha; subst; [reflexivity| |].
        -- exfalso. assert (false = true) by (apply Hb; left; eauto). discriminate.
        -- exfalso. assert (false = true) by (apply Hb; right; eauto). discriminate.
Qed.

(** ** Releasing user claims *)
Lemma release_spec info restriction :
  (forall k spec, In (k, spec) restriction -> claim_request spec) ->
  exists out, release info restriction = Ok out /\
    (forall k x, In (k, x) out <->
       exists spec, In (k, spec) restriction /\ dget k info = Some x /\ x <> VNone /\ admits spec x).
Proof.
  induction restriction as [|[k spec] r IH]; intros H.
  - exists []. split; [reflexivity|]. intros k x. split; [intros []|intros (? & [] & _)].
  - destruct IH as (out & Ho & Hin). { intros k' s' Hi. eapply H. right. exact Hi. }
    destruct (claims_match_spec (dget k info) spec (H _ _ (or_introl eq_refl))) as (b & Hb & Hbi).
    cbn [release]. rewrite Hb, Ho. cbn [rbind]. eexists. split; [reflexivity|]. intros k' x'. destruct b.
    + destruct (proj1 Hbi eq_refl) as (x & Hx & Hn & Ha). rewrite Hx. cbn. rewrite Hin. split.
      * intros [E|(s' & A & B)]; [injection E as <- <-; exists spec; auto|exists s'; auto].
      * intros (s' & [E|A] & B & C & D); [injection E as <- <-; left; congruence|right; eauto].
    + rewrite Hin. split.
      * intros (s' & A & B). exists s'. split; [now right|exact B].
      * intros (s' & [E|A] & B & C & D); [|eauto]. injection E as <- <-. exfalso.
        assert (false = true) by (apply Hbi; eauto). discriminate.
Qed.

Lemma release_keys info restriction out : release info restriction = Ok out -> proper restriction -> proper out.
Proof.
  unfold proper. revert out. induction restriction as [|[k spec] r IH]; intros out H Hp.
  - cbn in H. injection H as <-. constructor.
  - inversion Hp; subst. cbn in H. destruct (claims_match (dget k info) spec) as [m|]; [|discriminate]. cbn in H.
    destruct (release info r) as [rest|] eqn:E; [|discriminate]. cbn in H. injection H as <-.
    specialize (IH _ eq_refl H3). destruct m; [|exact IH]. destruct (dget k info); [|exact IH].
    cbn. constructor; [|exact IH]. intros Hi. apply H2. clear - E Hi. revert rest E Hi.
    induction r as [|[k' s'] r IHr]; intros rest E Hi; cbn in E; [injection E as <-; exact Hi|].
    destruct (claims_match (dget k' info) s') as [m|]; [|discriminate]. cbn in E.
    destruct (release info r) as [rest'|]; [|discriminate]. cbn in E. injection E as <-.
    destruct m; [|right; eapply IHr; eauto]. destruct (dget k' info); [|right; eapply IHr; eauto].
    cbn in Hi. destruct Hi as [->|Hi]; [now left|right; eapply IHr; eauto].
Qed.

(** ** Working out the claims *)
(** what a call may do to the client database *)
Definition claims_frame (c usage : string) (s s' : cdb) : Prop :=
  (forall c', c' <> c -> dget c' s' = dget c' s) /\
  match dget c s with
  | None => dget c s' = None
  | Some info => exists info', dget c s' = Some info' /\
      (forall k, k <> claims_key usage -> dget k info' = dget k info) /\
      (dget (claims_key usage) info' = dget (claims_key usage) info \/
       exists d d', dget (claims_key usage) info = Some (VDict d) /\ dget (claims_key usage) info' = Some (VDict d') /\
                    forall k, dmem k d = true -> dmem k d' = true)
  end.

Lemma frame_refl c u s : claims_frame c u s s.
Proof. split; [reflexivity|]. destruct (dget c s) as [i|]; [|reflexivity]. exists i. split; [reflexivity|]. split; [reflexivity|]. now left. Qed.

Lemma frame_trans c u a b d : claims_frame c u a b -> claims_frame c u b d -> claims_frame c u a d.
Proof.
  intros [A1 A2] [B1 B2]. split. { intros c' H. rewrite B1, A1 by assumption. reflexivity. }
  destruct (dget c a) as [i|].
  - destruct A2 as (i1 & E1 & K1 & V1). rewrite E1 in B2. destruct B2 as (i2 & E2 & K2 & V2).
    exists i2. split; [exact E2|]. split. { intros k Hk. rewrite K2, K1 by assumption. reflexivity. }
    destruct V1 as [V1|(d1 & d1' & X1 & Y1 & Z1)], V2 as [V2|(d2 & d2' & X2 & Y2 & Z2)].
    + left. congruence.
    + right. exists d2, d2'. split; [congruence|]. auto.
    + right. exists d1, d1'. split; [assumption|]. split; [congruence|assumption].
    + right. exists d1, d2'. split; [assumption|]. split; [assumption|]. intros k Hk.
      assert (d2 = d1') by congruence. subst. auto.
  - rewrite A2 in B2. exact B2.
Qed.

Lemma dmem_dupdate k (d e : msg) : dmem k d = true -> dmem k (dupdate d e) = true.
Proof. unfold dmem. rewrite dget_dupdate. destruct (dget k (rev e)); auto. Qed.

(** the references that a call for this client and usage deals with *)
Definition ref_ok (clients : cdb) (c usage : string) (r : cref) : Prop :=
  match r with
  | CVal _ => True
  | CClient c' u' => c' = c /\ u' = usage /\
      exists info d, dget c clients = Some info /\ dget (claims_key usage) info = Some (VDict d)
  end.

Lemma cupdate_frame c usage r d s : ref_ok s c usage r ->
  claims_frame c usage s (snd (cupdate r d s)).
Proof.
  intros Hr. destruct r as [m|c' u']; [apply frame_refl|]. destruct Hr as (-> & -> & info & d0 & E1 & E2).
  unfold cupdate, bind, gets, id, modify, ret. rewrite E1. cbn [snd]. split.
  - intros c' H. now rewrite dget_dset_neq.
  - rewrite E1. eexists. rewrite dget_dset_eq. split; [reflexivity|]. split.
    + intros k Hk. now rewrite dget_dset_neq.
    + right. exists d0, (dupdate d0 d). split; [exact E2|]. split.
      * unfold resolve. rewrite E1, E2. now rewrite dget_dset_eq.
      * intros k. apply dmem_dupdate.
Qed.

Lemma cupdate_ok c usage r d s : ref_ok s c usage r ->
  exists r', fst (cupdate r d s) = Ok r' /\ ref_ok (snd (cupdate r d s)) c usage r' /\
             resolve (snd (cupdate r d s)) r' = dupdate (resolve s r) d.
Proof.
  intros Hr. destruct r as [m|c' u'].
  - exists (CVal (dupdate m d)). cbn. auto.
  - destruct Hr as (-> & -> & info & d0 & E1 & E2). exists (CClient c usage).
    unfold cupdate, bind, gets, id, modify, ret. rewrite E1. cbn [fst snd]. split; [reflexivity|]. split.
    + split; [reflexivity|]. split; [reflexivity|]. eexists _, _. rewrite dget_dset_eq. split; [reflexivity|].
      rewrite dget_dset_eq. reflexivity.
    + unfold resolve at 1. rewrite dget_dset_eq. rewrite dget_dset_eq. reflexivity.
Qed.

Lemma client_claims_ref s c usage r : get_client_claims s c usage = Ok r -> ref_ok s c usage r.
Proof.
  unfold get_client_claims. destruct (dget c s) as [info|] eqn:E; [|intros H; injection H as <-; exact I].
  destruct (dget (claims_key usage) info) as [v|] eqn:E2; [|intros H; injection H as <-; exact I].
  destruct v; try discriminate; intros H; injection H as <-; [exact I|]. cbn. split; [reflexivity|]. split; [reflexivity|]. eauto.
Qed.

Lemma claims_key_other usage : claims_key usage <> "allowed_scopes".
Proof.
  unfold claims_key. intros H.
  repeat (destruct usage as [|? usage]; cbn in H; try discriminate H; injection H as _ H).
Qed.

(** the parts of a call *)
Definition kwarg_of (cx : ctx) (usage k : string) : option val :=
  match (if smem usage usages then dget usage (cx_modules cx) else None) with Some kw => dget k kw | None => None end.
Definition on (cx : ctx) (usage k : string) : bool :=
  match kwarg_of cx usage k with Some v => truthy v | None => false end.
Definition start_ref (cx : ctx) (s : cdb) (c usage : string) : result cref :=
  if on cx usage "enable_claims_per_client" then get_client_claims s c usage else Ok (CVal []).
Definition base_of (cx : ctx) (usage : string) : result msg :=
  match kwarg_of cx usage "base_claims" with Some v => as_dict v | None => Ok [] end.
Definition scoped (cx : ctx) (s : cdb) (c : string) (scopes : list string) (usage : string) : result msg :=
  if on cx usage "add_claims_by_scope" && negb (is_nil scopes) then
    let* sc := filter_scopes cx s c scopes in convert_scopes2claims sc None (cx_scope2claims cx) []
  else Ok [].
Definition requested (ar : option msg) (usage : string) : result msg :=
  let* rq := authorization_request_claims ar usage in
  match rq with Some v => if truthy v then as_dict v else Ok [] | None => Ok [] end.

Lemma filter_scopes_local cx (s s' : cdb) c scopes :
  (forall i, dget c s = Some i -> exists i', dget c s' = Some i' /\ dget "allowed_scopes" i' = dget "allowed_scopes" i) ->
  (dget c s = None -> dget c s' = None) ->
  filter_scopes cx s' c scopes = filter_scopes cx s c scopes.
Proof.
  intros H1 H2. unfold filter_scopes, allowed_scopes, truthy_get. destruct (dget c s) as [i|] eqn:E.
  - destruct (H1 i eq_refl) as (i' & E' & E''). rewrite E', E''. reflexivity.
  - rewrite (H2 eq_refl). reflexivity.
Qed.

Lemma frame_filter cx (s s' : cdb) c usage scopes : claims_frame c usage s s' ->
  filter_scopes cx s' c scopes = filter_scopes cx s c scopes.
Proof.
  intros [_ H]. apply filter_scopes_local.
  - intros i E. rewrite E in H. destruct H as (i' & E' & K & _). exists i'. split; [exact E'|].
    apply K. intros X. symmetry in X. now apply claims_key_other in X.
  - intros E. now rewrite E in H.
Qed.

Lemma get_claims_main cx c ar scopes usage s :
  claims_frame c usage s (snd (get_claims cx c ar scopes usage s)) /\
  (forall r, fst (get_claims cx c ar scopes usage s) = Ok r ->
     exists r0 base scl rq,
       start_ref cx s c usage = Ok r0 /\ base_of cx usage = Ok base /\
       scoped cx s c scopes usage = Ok scl /\ requested ar usage = Ok rq /\
       resolve (snd (get_claims cx c ar scopes usage s)) r =
         dupdate (dupdate (dupdate (resolve s r0) base) scl) rq /\
       (forall m, r0 = CVal m -> snd (get_claims cx c ar scopes usage s) = s /\
          r = CVal (dupdate (dupdate (dupdate m base) scl) rq)) /\
       ref_ok (snd (get_claims cx c ar scopes usage s)) c usage r) /\
  (forall r0 base scl rq,
       start_ref cx s c usage = Ok r0 -> base_of cx usage = Ok base ->
       scoped cx s c scopes usage = Ok scl -> requested ar usage = Ok rq ->
       exists r, fst (get_claims cx c ar scopes usage s) = Ok r) /\
  (forall m, start_ref cx s c usage = Ok (CVal m) -> snd (get_claims cx c ar scopes usage s) = s) /\
  (forall e, start_ref cx s c usage = Raise e -> get_claims cx c ar scopes usage s = (Raise e, s)).
Proof.
  set (G := get_claims cx c ar scopes usage s).
  assert (EG : G = bind (lift (start_ref cx s c usage)) (fun claims =>
            bind (lift (base_of cx usage)) (fun base =>
            bind (cupdate claims base) (fun claims =>
            bind (if on cx usage "add_claims_by_scope" && negb (is_nil scopes) then
                clients <-- gets id ;;
                sc <-- lift (filter_scopes cx clients c scopes) ;;
                cl <-- lift (convert_scopes2claims sc None (cx_scope2claims cx) []) ;;
                cupdate claims cl
              else ret claims) (fun claims =>
            bind (lift (authorization_request_claims ar usage)) (fun rq =>
            match rq with
            | Some v => if truthy v then d <-- lift (as_dict v) ;; cupdate claims d else ret claims
            | None => ret claims
            end))))) s).
  { unfold G, get_claims, start_ref. change (smem usage ["userinfo"; "id_token"; "introspection"; "access_token"]) with (smem usage usages).
    fold (kwarg_of cx usage "enable_claims_per_client") (kwarg_of cx usage "base_claims") (kwarg_of cx usage "add_claims_by_scope").
    fold (on cx usage "enable_claims_per_client") (on cx usage "add_claims_by_scope").
    unfold bind at 1. unfold gets at 1. unfold id at 1.
    destruct (on cx usage "enable_claims_per_client"); reflexivity. }
  clearbody G.
  destruct (start_ref cx s c usage) as [r0|e0] eqn:E0.
  2: { cbn in EG. rewrite EG. cbn. split; [apply frame_refl|]. split; [discriminate|]. split; [intros ? ? ? ? H; discriminate|]. split; [intros ? H; discriminate|]. intros e H; injection H as <-; reflexivity. }
  assert (R0 : ref_ok s c usage r0).
  { unfold start_ref in E0. destruct (on cx usage "enable_claims_per_client"); [now apply client_claims_ref|]. injection E0 as <-. exact I. }
  unfold bind at 1 in EG. unfold lift at 1 in EG.
  destruct (base_of cx usage) as [base|e1] eqn:E1.
  2: { cbn in EG. rewrite EG. cbn. split; [apply frame_refl|]. split; [discriminate|]. split; [intros ? ? ? ? ? H; discriminate|]. split; [reflexivity|intros e H; discriminate]. }
  unfold bind at 1 in EG. unfold lift at 1 in EG.
  destruct (cupdate_ok c usage r0 base s R0) as (r1 & F1 & R1 & V1).
  assert (Fr1 := cupdate_frame c usage r0 base s R0).
  assert (P1 : forall m, r0 = CVal m -> snd (cupdate r0 base s) = s /\ r1 = CVal (dupdate m base)).
  { intros m ->. cbn in F1 |- *. split; [reflexivity|congruence]. }
  unfold bind at 1 in EG.
  destruct (cupdate r0 base s) as [o1 s1] eqn:U1. cbn [fst snd] in *. subst o1.
  assert (ES : scoped cx s1 c scopes usage = scoped cx s c scopes usage).
  { unfold scoped. now rewrite (frame_filter cx s s1 c usage scopes Fr1). }
  (* scopes *)
  assert (STEP : exists o2 s2, (if on cx usage "add_claims_by_scope" && negb (is_nil scopes) then
                clients <-- gets id ;;
                sc <-- lift (filter_scopes cx clients c scopes) ;;
                cl <-- lift (convert_scopes2claims sc None (cx_scope2claims cx) []) ;;
                cupdate r1 cl
              else ret r1) s1 = (o2, s2) /\ claims_frame c usage s s2 /\
     match scoped cx s c scopes usage with
     | Ok scl => exists r2, o2 = Ok r2 /\ ref_ok s2 c usage r2 /\ resolve s2 r2 = dupdate (resolve s1 r1) scl /\
                   (forall m, r1 = CVal m -> s2 = s1 /\ r2 = CVal (dupdate m scl))
     | Raise e => o2 = Raise e /\ s2 = s1
     end).
  { rewrite <- ES. unfold scoped. destruct (on cx usage "add_claims_by_scope" && negb (is_nil scopes)).
    - unfold bind, gets, id, lift. destruct (filter_scopes cx s1 c scopes) as [sc|e]; cbn [rbind].
      2: { exists (Raise e), s1. auto. }
      destruct (convert_scopes2claims sc None (cx_scope2claims cx) []) as [cl|e].
      2: { exists (Raise e), s1. auto. }
      destruct (cupdate_ok c usage r1 cl s1 R1) as (r2 & F2 & R2 & V2).
      assert (Fr2 := cupdate_frame c usage r1 cl s1 R1).
      assert (P2 : forall m, r1 = CVal m -> snd (cupdate r1 cl s1) = s1 /\ r2 = CVal (dupdate m cl)).
      { intros m ->. cbn in F2 |- *. split; [reflexivity|congruence]. }
      destruct (cupdate r1 cl s1) as [o2 s2]. cbn [fst snd] in *. subst o2. exists (Ok r2), s2.
      split; [reflexivity|]. split; [eapply frame_trans; eauto|]. exists r2. auto.
    - exists (Ok r1), s1. split; [reflexivity|]. split; [exact Fr1|]. exists r1. split; [reflexivity|]. split; [exact R1|].
      split; [reflexivity|]. intros m ->. auto. }
  destruct STEP as (o2 & s2 & U2 & Fr2 & H2). unfold bind at 1 in EG. rewrite U2 in EG. clear U2.
  destruct (scoped cx s c scopes usage) as [scl|e2] eqn:E2.
  2: { destruct H2 as [-> ->]. cbn in EG. rewrite EG. cbn. split; [exact Fr1|]. split; [discriminate|]. split; [intros ? ? ? ? _ _ H; discriminate|].
       split; [|intros e H; discriminate]. intros m Hm. injection Hm as ->. now apply P1 with m. }
  destruct H2 as (r2 & -> & R2 & V2 & P2).
  unfold requested. unfold bind at 1 in EG. unfold lift at 1 in EG.
  assert (PP : forall m, r0 = CVal m -> s2 = s /\ r2 = CVal (dupdate (dupdate m base) scl)).
  { intros m ->. destruct (P1 m eq_refl) as [-> ->]. now apply P2. }
  assert (VV : resolve s2 r2 = dupdate (dupdate (resolve s r0) base) scl) by congruence.
  assert (FIN : forall (out : result cref * cdb) rqr,
     match rqr with
     | Ok rq => exists r3, fst out = Ok r3 /\ ref_ok (snd out) c usage r3 /\ claims_frame c usage s (snd out) /\
                  resolve (snd out) r3 = dupdate (resolve s2 r2) rq /\
                  (forall m, r2 = CVal m -> snd out = s2 /\ r3 = CVal (dupdate m rq))
     | Raise e => out = (Raise e, s2)
     end ->
     claims_frame c usage s (snd out) /\
     (forall r, fst out = Ok r -> exists r0' base' scl' rq, Ok r0 = Ok r0' /\ Ok base = Ok base' /\ Ok scl = Ok scl' /\
         rqr = Ok rq /\ resolve (snd out) r = dupdate (dupdate (dupdate (resolve s r0') base') scl') rq /\
         (forall m, r0' = CVal m -> snd out = s /\ r = CVal (dupdate (dupdate (dupdate m base') scl') rq)) /\
         ref_ok (snd out) c usage r) /\
     (forall r0' base' scl' rq, Ok r0 = Ok r0' -> Ok base = Ok base' -> Ok scl = Ok scl' -> rqr = Ok rq -> exists r, fst out = Ok r) /\
     (forall m, Ok r0 = Ok (CVal m) -> snd out = s) /\
     (forall e, Ok r0 = Raise e -> out = (Raise e, s))).
  { intros out rqr H. destruct rqr as [rq|e].
    - destruct H as (r3 & F3 & R3 & Fr3 & V3 & P3). split; [exact Fr3|]. split; [|split; [|split]].
      + intros r Hr. assert (r = r3) by congruence. subst. exists r0, base, scl, rq. do 4 (split; [reflexivity|]).
        split; [congruence|]. split; [|exact R3]. intros m Hm. destruct (PP m Hm) as [-> Hr2]. destruct (P3 _ Hr2) as [A B]. auto.
      + intros. eauto.
      + intros m Hm. injection Hm as Hm. destruct (PP m Hm) as [<- Hr2]. now apply (P3 _ Hr2).
      + discriminate.
    - subst out. cbn. split; [exact Fr2|]. split; [discriminate|]. split; [intros ? ? ? ? _ _ _ X; discriminate|]. split; [|discriminate].
      intros m Hm. injection Hm as Hm. now apply (PP m). }
  destruct (authorization_request_claims ar usage) as [rqo|e]; cbn [rbind].
  2: { apply FIN. exact EG. }
  assert (SAME : exists r3, fst (ret r2 s2) = Ok r3 /\ ref_ok (snd (ret r2 s2)) c usage r3 /\ claims_frame c usage s (snd (ret r2 s2)) /\
                  resolve (snd (ret r2 s2)) r3 = dupdate (resolve s2 r2) [] /\
                  (forall m, r2 = CVal m -> snd (ret r2 s2) = s2 /\ r3 = CVal (dupdate m []))).
  { exists r2. cbn. split; [reflexivity|]. split; [exact R2|]. split; [exact Fr2|]. split; [reflexivity|]. intros m ->. auto. }
  destruct rqo as [v|]; [|apply FIN; rewrite EG; exact SAME].
  destruct (truthy v); [|apply FIN; rewrite EG; exact SAME].
  apply FIN. unfold bind, lift in EG. destruct (as_dict v) as [rq|e]; [|exact EG]. rewrite EG.
  destruct (cupdate_ok c usage r2 rq s2 R2) as (r3 & F3 & R3 & V3).
  exists r3. split; [exact F3|]. split; [exact R3|]. split.
  { eapply frame_trans; [exact Fr2|]. now apply cupdate_frame. }
  split; [exact V3|]. intros m ->. cbn in F3 |- *. split; [reflexivity|congruence].
Qed.

(** ** What a call gives *)
Lemma kwarg_of_module cx usage k : In usage usages -> kwarg_of cx usage k = module_kwarg cx usage k.
Proof. intros H. unfold kwarg_of, module_kwarg. apply smem_In in H. now rewrite H. Qed.

Lemma on_enabled cx usage k : In usage usages -> (on cx usage k = true <-> enabled cx usage k).
Proof.
  intros H. unfold on, enabled. rewrite kwarg_of_module by assumption. destruct (module_kwarg cx usage k) as [v|].
  - split; [eauto|]. intros (v' & E & T). congruence.
  - split; [discriminate|]. intros (v' & E & T). discriminate.
Qed.

Lemma requested_spec ar usage rq k : typed_request ar -> requested ar usage = Ok rq ->
  proper rq /\ dget k rq = from_request ar usage k.
Proof.
  intros Ht H. unfold requested, authorization_request_claims in H. unfold from_request.
  assert (P0 : proper (@nil (string * val))) by constructor.
  destruct (smem usage ["id_token"; "userinfo"]); [|cbn in H; injection H as <-; auto].
  destruct ar as [ar|]; [|discriminate].
  destruct (dget "claims" ar) as [[]|] eqn:Ec; try discriminate; cbn in H; [|injection H as <-; auto].
  destruct (dget usage d) as [v|] eqn:Eu; [|injection H as <-; auto].
  destruct (truthy v) eqn:Et.
  - destruct v as [| | | |l|dd]; cbn in H; try discriminate.
    + destruct l; [discriminate|]. discriminate.
    + injection H as <-. split; [|reflexivity]. eapply Ht; eauto.
  - injection H as <-. split; [exact P0|]. destruct v as [| | | | |dd]; try reflexivity. destruct dd; [reflexivity|discriminate].
Qed.

Lemma strs_of_In s l : In s (strs_of l) <-> In (VStr s) l.
Proof.
  unfold strs_of. rewrite in_flat_map. split.
  - intros (v & Hv & Hs). destruct v; cbn in Hs; try contradiction. destruct Hs as [->|[]]. exact Hv.
  - intros H. exists (VStr s). split; [exact H|now left].
Qed.

Lemma start_spec cx s c usage r0 k : In usage usages -> unshared cx s -> start_ref cx s c usage = Ok r0 ->
  exists m, r0 = CVal m /\
    ((from_client cx s c usage k /\ dget k m = Some VNone) \/ (~ from_client cx s c usage k /\ dget k m = None)).
Proof.
  intros Hu Hun H. unfold start_ref in H. destruct (on cx usage "enable_claims_per_client") eqn:Eo.
  - apply on_enabled in Eo; [|assumption]. unfold get_client_claims in H.
    destruct (dget c s) as [info|] eqn:E.
    + unfold claims_key in H. destruct (dget (usage ++ "_claims")%string info) as [v|] eqn:E2.
      * destruct v; try discriminate; injection H as <-.
        -- eexists. split; [reflexivity|]. rewrite dget_none_of. destruct (smem k (strs_of l)) eqn:Em.
           ++ left. split; [|reflexivity]. split; [exact Eo|]. exists info, l. apply smem_In, strs_of_In in Em. auto.
           ++ right. split; [|reflexivity]. intros (_ & cli & l' & A & B & C). assert (cli = info) by congruence. subst.
              assert (l' = l) by congruence. subst. apply smem_false in Em. apply Em. now apply strs_of_In.
        -- exfalso. eapply Hun; eauto.
      * injection H as <-. eexists. split; [reflexivity|]. right. split; [|reflexivity].
        intros (_ & cli & l' & A & B & C). congruence.
    + injection H as <-. eexists. split; [reflexivity|]. right. split; [|reflexivity].
      intros (_ & cli & l' & A & B & C). congruence.
  - injection H as <-. eexists. split; [reflexivity|]. right. split; [|reflexivity].
    intros (A & _). apply on_enabled in A; [|assumption]. congruence.
Qed.

Lemma scoped_spec cx s c scopes usage scl k : In usage usages -> typed_config cx s c ->
  scoped cx s c scopes usage = Ok scl ->
  proper scl /\ ((from_scope cx s c scopes usage k /\ dget k scl = Some VNone) \/
                 (~ from_scope cx s c scopes usage k /\ dget k scl = None)).
Proof.
  intros Hu (T1 & T2 & _) H. unfold scoped in H.
  destruct (on cx usage "add_claims_by_scope" && negb (is_nil scopes)) eqn:Eo.
  - apply Bool.andb_true_iff in Eo. destruct Eo as [Eo _]. apply on_enabled in Eo; [|assumption].
    destruct (filter_kept cx s c scopes T1 T2) as (sc & Hsc & Hk). rewrite Hsc in H. cbn [rbind] in H.
    assert (All : forall x, In x sc -> dmem x (cx_scope2claims cx) = true).
    { destruct (forallb (fun x => dmem x (cx_scope2claims cx)) sc) eqn:F.
      - rewrite forallb_forall in F. exact F.
      - rewrite convert_fails in H; [discriminate|]. intros A. apply Bool.not_true_iff_false in F. apply F.
        now apply forallb_forall. }
    destruct (convert_go (cx_scope2claims cx) sc [] All) as (d & Hd & Hdk & Hnd).
    assert (scl = d) by congruence. subst scl. split; [apply Hnd; constructor|].
    rewrite Hdk. destruct (brings (cx_scope2claims cx) sc k) eqn:B.
    + left. split; [|reflexivity]. apply brings_iff in B. destruct B as (x & names & Hx & Hn & Hi).
      split; [exact Eo|]. exists x, names. apply (kept_In _ _ _ Hk) in Hx. tauto.
    + right. split; [|reflexivity]. intros (_ & x & names & A1 & A2 & A3 & A4).
      apply Bool.not_true_iff_false in B. apply B. apply brings_iff. exists x, names. split; [|auto].
      apply (kept_In _ _ _ Hk). auto.
  - injection H as <-. split; [constructor|]. right. split; [|reflexivity]. intros (A & x & names & A1 & _).
    apply on_enabled in A; [|assumption]. rewrite A in Eo. cbn in Eo. destruct scopes; [destruct A1|discriminate].
Qed.

Lemma get_claims_wanted cx s c ar scopes usage r s' :
  In usage usages -> typed_config cx s c -> typed_request ar -> unshared cx s ->
  get_claims cx c ar scopes usage s = (Ok r, s') ->
  s' = s /\ exists d, r = CVal d /\ forall k, wanted cx s c ar scopes usage k (dget k d).
Proof.
  intros Hu Ht Hr Hun H. destruct (get_claims_main cx c ar scopes usage s) as (_ & Hok & _). rewrite H in Hok. cbn [fst snd] in Hok.
  destruct (Hok r eq_refl) as (r0 & base & scl & rq & E0 & E1 & E2 & E3 & _ & P & _).
  destruct (start_spec cx s c usage r0 "" Hu Hun E0) as (m & Hm & _).
  destruct (P m Hm) as [-> ->]. split; [reflexivity|]. eexists. split; [reflexivity|]. intros k.
  destruct (requested_spec ar usage rq k Hr E3) as [Prq Drq].
  destruct (scoped_spec cx s c scopes usage scl k Hu Ht E2) as [Pscl Dscl].
  destruct (start_spec cx s c usage r0 k Hu Hun E0) as (m' & Hm' & Dm). assert (m' = m) by congruence. subst m'.
  assert (Hbase : proper base /\ dget k base = from_base cx usage k).
  { unfold base_of, from_base in *. rewrite kwarg_of_module in E1 by assumption.
    destruct (module_kwarg cx usage "base_claims") as [v|] eqn:Eb.
    - destruct v; cbn in E1; try discriminate.
      + destruct l; [|discriminate]. injection E1 as <-. split; [constructor|reflexivity].
      + injection E1 as <-. split; [|reflexivity]. eapply Ht; eauto.
    - injection E1 as <-. split; [constructor|reflexivity]. }
  destruct Hbase as [Pb Db].
  rewrite (dget_update _ rq) by assumption. rewrite (dget_update _ scl) by assumption. rewrite (dget_update _ base) by assumption.
  unfold wanted. rewrite Drq. destruct (from_request ar usage k); [reflexivity|].
  destruct Dscl as [(A & ->)|(A & ->)]; [left; auto|right; split; [exact A|]].
  rewrite Db. destruct (from_base cx usage k); [reflexivity|].
  destruct Dm as [(B & ->)|(B & ->)]; auto.
Qed.

(** ** Histories *)
Lemma unshared_same cx s c ar scopes usage :
  In usage usages -> unshared cx s -> snd (get_claims cx c ar scopes usage s) = s.
Proof.
  intros Hu Hun. destruct (get_claims_main cx c ar scopes usage s) as (_ & _ & _ & P & Q).
  destruct (start_ref cx s c usage) as [r0|e] eqn:E.
  - destruct (start_spec cx s c usage r0 "" Hu Hun E) as (m & -> & _). now apply (P m).
  - now rewrite (Q e eq_refl).
Qed.

Lemma crun_same cx qs s : unshared cx s -> Forall (fun q => In (cq_usage q) usages) qs -> crun cx qs s = s.
Proof.
  intros Hun H. induction H as [|q qs Hq Hqs IH]; [reflexivity|]. unfold crun. cbn [fold_left]. unfold cstep at 2.
  rewrite unshared_same by assumption. exact IH.
Qed.

Lemma crun_others cx qs s c : Forall (fun q => cq_client q <> c) qs -> dget c (crun cx qs s) = dget c s.
Proof.
  intros H. apply (run_moves (fun s s' : cdb => dget c s' = dget c s)); [reflexivity|congruence|].
  intros q s0 Hq. rewrite Forall_forall in H. specialize (H q Hq).
  unfold cstep. destruct (get_claims_main cx (cq_client q) (cq_authreq q) (cq_scopes q) (cq_usage q) s0) as ((F & _) & _).
  apply F. congruence.
Qed.

Lemma start_local cx s s' c usage r0 : dget c s' = dget c s -> start_ref cx s c usage = Ok r0 ->
  start_ref cx s' c usage = Ok r0 /\ resolve s' r0 = resolve s r0.
Proof.
  intros E H. unfold start_ref, get_client_claims in *. rewrite E. split; [exact H|].
  destruct r0 as [m|c' u']; [reflexivity|]. destruct (on cx usage _); [|discriminate].
  destruct (dget c s) as [info|] eqn:E1; [|discriminate]. destruct (dget (claims_key usage) info) as [[]|]; try discriminate.
  injection H as <- <-. unfold resolve. now rewrite E, E1.
Qed.

Lemma get_claims_local cx (s s' : cdb) c ar scopes usage r : dget c s' = dget c s ->
  fst (get_claims cx c ar scopes usage s) = Ok r ->
  exists r', fst (get_claims cx c ar scopes usage s') = Ok r' /\
    resolve (snd (get_claims cx c ar scopes usage s')) r' = resolve (snd (get_claims cx c ar scopes usage s)) r.
Proof.
  intros E H. destruct (get_claims_main cx c ar scopes usage s) as (_ & Hok & _).
  destruct (Hok r H) as (r0 & base & scl & rq & E0 & E1 & E2 & E3 & V & _).
  destruct (start_local cx s s' c usage r0 E E0) as [E0' V0].
  assert (E2' : scoped cx s' c scopes usage = Ok scl).
  { rewrite <- E2. unfold scoped. rewrite (filter_scopes_local cx s s' c scopes); [reflexivity| |congruence].
    intros i Hi. exists i. split; [congruence|reflexivity]. }
  destruct (get_claims_main cx c ar scopes usage s') as (_ & Hok' & Hex & _).
  destruct (Hex r0 base scl rq E0' E1 E2' E3) as (r' & Hr'). exists r'. split; [exact Hr'|].
  destruct (Hok' r' Hr') as (r0' & base' & scl' & rq' & X0 & X1 & X2 & X3 & V' & _).
  assert (r0' = r0) by congruence. assert (base' = base) by congruence. assert (scl' = scl) by congruence.
  assert (rq' = rq) by congruence. subst. rewrite V, V', V0. reflexivity.
Qed.

(** RegistrationProofs.v: lemmas on Registration.v. *)
From Verif Require Import Base BaseProofs Types Monad MonadProofs Ctx ScopesProofs Uri ClientAuthn ClientAuthnSpec ClientAuthnProofs Registration RegistrationSpec.
Local Open Scope Z_scope.

(** ** The course of a call *)

Definition server_record (c : rconf) (d : draw) (new_id set_secret : bool) (i : string) : msg :=
  let cinfo := [("client_id", VStr i); ("client_salt", VStr (dr_salt d))]%string in
  let cinfo := match rc_read_path c with
               | None => cinfo
               | Some path => dset "registration_client_uri" (VStr (path ++ "?client_id=" ++ i)%string)
                                (dset "registration_access_token" (VStr (dr_rat d)) cinfo)
               end in
  let cinfo := if new_id then dset "client_id_issued_at" (VInt (dr_now d)) cinfo else cinfo in
  if set_secret then add_client_secret c d cinfo else cinfo.

Lemma server_record_get c d new_id set_secret i k :
  dget k (server_record c d new_id set_secret i) = server_value c d new_id set_secret i k.
Proof.
  unfold server_record, server_value, add_client_secret, secret_expires_at.
  destruct (rc_expires c), (rc_read_path c) as [path|], new_id, set_secret; cbn [andb negb Z.eqb];
    try (destruct (dr_now d + rc_expires_in c =? 0)); cbn [andb negb];
    repeat rewrite dget_dset; cbn [dget];
    repeat match goal with
    | |- context [String.eqb k ?x] => destruct (String.eqb_spec k x); [subst k; cbn; reflexivity|]
    end; reflexivity.
Qed.

(** the state once the entry is made *)
Definition begun (c : rconf) (d : draw) (new_id set_secret : bool) (i : string) (s : rgstate) : rgstate :=
  mkRG (mkCA (dset i (server_record c d new_id set_secret i) (ca_cdb (rg_ca s))) (ca_jti (rg_ca s)))
       (match rc_read_path c with Some _ => dset (dr_rat d) i (rg_rat s) | None => rg_rat s end)
       (rg_sym s) (rg_jwks s).
Definition loaded (i : string) (rq : msg) (s : rgstate) : rgstate :=
  mkRG (rg_ca s) (rg_rat s) (rg_sym s) (dset i (dget_or "jwks_uri" (VStr "") rq, dget_or "jwks" VNone rq) (rg_jwks s)).
Definition done (d : draw) (set_secret : bool) (i : string) (info : msg) (s : rgstate) : rgstate :=
  mkRG (mkCA (dset i info (ca_cdb (rg_ca s))) (ca_jti (rg_ca s))) (rg_rat s)
       (if set_secret && nonempty (dr_secret d)
        then dset i (dget_or i [] (rg_sym s) ++ [dr_secret d]) (rg_sym s) else rg_sym s)
       (rg_jwks s).
Definition shown (c : rconf) (info : msg) : result msg :=
  comb_uri (rc_url c) (filter (fun kv => smem (fst kv) (rc_params c)) info).

Definition chosen (d : draw) (new_id : bool) (db : cdb) (rq : msg) : result (string * msg) :=
  if new_id then match new_client_id db (dr_ids d) with Some i => Ok (i, ddel "client_id" rq) | None => Raise ERecursion end
  else match truthy_get "client_id" rq with
       | Some (VStr i) => Ok (i, rq) | Some _ => Raise EType | None => Raise EValue end.

Lemma choose_eq d new_id rq s : choose_id d new_id rq s = (chosen d new_id (rg_cdb s) rq, s).
Proof.
  unfold choose_id, chosen. destruct new_id.
  - unfold bind, gets. destruct (new_client_id (rg_cdb s) (dr_ids d)); reflexivity.
  - destruct (truthy_get "client_id" rq) as [[]|]; reflexivity.
Qed.

Lemma setup_eq c d new_id set_secret rq s :
  client_registration_setup c d new_id set_secret rq s =
  match (let* v := rc_verify c rq in
         let* _ := match_client_request c (rm_blanks v) in
         chosen d new_id (rg_cdb s) (rm_blanks v)) with
  | Raise e => (Raise e, s)
  | Ok (i, rq') =>
      let s1 := begun c d new_id set_secret i s in
      match client_info c rq' ignored (server_record c d new_id set_secret i) with
      | Raise e => (Raise e, s1)
      | Ok info =>
          match rc_load c i (dget_or "jwks_uri" (VStr "") rq') (dget_or "jwks" VNone rq') with
          | Raise e => (Raise e, s1)
          | Ok _ =>
              match shown c info with
              | Raise e => (Raise e, loaded i rq' s1)
              | Ok args => (Ok args, done d set_secret i info (loaded i rq' s1))
              end
          end
      end
  end.
Proof.
  unfold client_registration_setup. unfold bind at 1, lift at 1.
  destruct (rc_verify c rq) as [v|e]; [|reflexivity]. cbn [rbind].
  unfold bind at 1, lift at 1. destruct (match_client_request c (rm_blanks v)) as [u|e]; [|reflexivity]. cbn [rbind].
  unfold bind at 1. rewrite choose_eq. destruct (chosen d new_id (rg_cdb s) (rm_blanks v)) as [[i rq']|e]; [|reflexivity].
  unfold bind at 1.
  replace (add_registration_api c d i [("client_id", VStr i); ("client_salt", VStr (dr_salt d))]%string s)
    with (Ok (match rc_read_path c with
               | None => [("client_id", VStr i); ("client_salt", VStr (dr_salt d))]%string
               | Some path => dset "registration_client_uri" (VStr (path ++ "?client_id=" ++ i)%string)
                                (dset "registration_access_token" (VStr (dr_rat d)) [("client_id", VStr i); ("client_salt", VStr (dr_salt d))]%string)
               end), mkRG (rg_ca s) (match rc_read_path c with Some _ => dset (dr_rat d) i (rg_rat s) | None => rg_rat s end) (rg_sym s) (rg_jwks s))
    by (unfold add_registration_api; destruct (rc_read_path c), s; reflexivity).
  unfold bind at 1, modify at 1.
  fold (server_record c d new_id set_secret i).
  unfold bind at 1. unfold do_client_registration, bind, gets, lift, modify, ret.
  cbn [rg_cdb rg_ca set_cdb ca_cdb]. unfold dsub at 1. rewrite dget_dset_eq. cbn [of_option].
  change (if set_secret then _ else _) with (server_record c d new_id set_secret i).
  destruct (client_info c rq' ignored (server_record c d new_id set_secret i)) as [info|e]; [|reflexivity].
  destruct (rc_load c i _ _) as [[]|e]; [|reflexivity].
  unfold shown. destruct (comb_uri _ _) as [args|e]; [|reflexivity].
  destruct (set_secret && nonempty (dr_secret d)) eqn:E; unfold done, loaded, begun, set_cdb; rewrite E; reflexivity.
Qed.

Lemma find_first {A} (f : A -> bool) l x : find f l = Some x ->
  exists b a, l = b ++ x :: a /\ f x = true /\ Forall (fun y => f y = false) b.
Proof.
  induction l as [|y l IH]; [discriminate|]. cbn. destruct (f y) eqn:E.
  - intros [= <-]. exists [], l. auto.
  - intros H. destruct (IH H) as (b & a & -> & F & G). exists (y :: b), a. auto.
Qed.

Lemma chosen_ok d new_id db rq i rq' : chosen d new_id db rq = Ok (i, rq') ->
  given_id new_id d db rq i /\ rq' = (if new_id then ddel "client_id" else fun m => m) rq.
Proof.
  unfold chosen, given_id. destruct new_id.
  - unfold new_client_id. destruct (find _ (dr_ids d)) as [j|] eqn:F; [|discriminate]. intros [= <- <-]. split; [|reflexivity].
    destruct (find_first _ _ _ F) as (b & a & E & H & G). exists b, a. split; [auto|]. split.
    + unfold dmem in H. destruct (dget j db); [discriminate|auto].
    + revert G. apply Forall_impl. intros y. unfold dmem. destruct (dget y db); [discriminate|discriminate].
  - unfold truthy_get. destruct (dget "client_id" rq) as [v|]; [|discriminate]. destruct (truthy v) eqn:T; [|discriminate].
    destruct v as [| | |j| |]; try discriminate. intros [= <- <-]. split; [|auto]. split; [auto|]. intros ->. discriminate.
Qed.

Lemma given_unique n d db rq i i2 : given_id n d db rq i2 -> given_id n d db rq i -> i2 = i.
Proof.
  unfold given_id. destruct n; [|intros [G2 _] [G _]; congruence].
  intros (b2 & a2 & L2 & F2 & Fb2) (b & a & L & F & Fb). rewrite L in L2. clear L.
  revert b2 L2 Fb2. induction b as [|x b IH]; intros [|y b2] L2 Fb2; cbn in L2.
  - congruence.
  - injection L2 as -> _. inversion Fb2; subst. contradiction.
  - injection L2 as -> _. inversion Fb; subst. contradiction.
  - injection L2 as -> L2. inversion Fb; subst. inversion Fb2; subst. eauto.
Qed.
Lemma begun_only c d n ss i s : only_client i (dr_rat d) s (begun c d n ss i s).
Proof.
  unfold only_client, begun, rg_cdb. cbn. split; [intros; now rewrite dget_dset_neq|]. split; [auto|].
  destruct (rc_read_path c); cbn.
  - split; [intros; now rewrite dget_dset_neq|]. split; [right; apply dget_dset_eq|auto].
  - auto.
Qed.
Lemma loaded_only i t rq s s1 : only_client i t s s1 -> only_client i t s (loaded i rq s1).
Proof.
  intros (A & B & C & D & E & F). unfold only_client, loaded, rg_cdb in *. cbn. split; [auto|split; [auto|split; [auto|split; [auto|split; [auto|]]]]].
  intros k N. now rewrite dget_dset_neq, F.
Qed.
Lemma done_only d ss i t info s s1 : only_client i t s s1 -> only_client i t s (done d ss i info s1).
Proof.
  intros (A & B & C & D & E & F). unfold only_client, done, rg_cdb in *. cbn.
  split; [intros k N; rewrite dget_dset_neq; auto|]. split; [auto|split; [auto|split; [auto|split; [|auto]]]].
  intros k N. destruct (ss && _); [rewrite dget_dset_neq; auto|auto].
Qed.

(** what [setup_eq] says, as cases *)
Lemma setup_cases c d new_id ss rq s r s' : client_registration_setup c d new_id ss rq s = (r, s') ->
  (s' = s /\ exists e, r = Raise e) \/
  exists v i rq', rc_verify c rq = Ok v /\ match_client_request c (rm_blanks v) = Ok tt /\
    given_id new_id d (rg_cdb s) (rm_blanks v) i /\ rq' = (if new_id then ddel "client_id" else fun m => m) (rm_blanks v) /\
    let s1 := begun c d new_id ss i s in
    ((exists e, r = Raise e) /\ (s' = s1 \/ s' = loaded i rq' s1) \/
     exists info args, client_info c rq' ignored (server_record c d new_id ss i) = Ok info /\ shown c info = Ok args /\
       r = Ok args /\ s' = done d ss i info (loaded i rq' s1)).
Proof.
  rewrite setup_eq. intros H.
  destruct (rc_verify c rq) as [v|e] eqn:V; cbn [rbind] in H; [|injection H as <- <-; left; eauto].
  destruct (match_client_request c (rm_blanks v)) as [[]|e] eqn:M; cbn [rbind] in H; [|injection H as <- <-; left; eauto].
  destruct (chosen d new_id (rg_cdb s) (rm_blanks v)) as [[i rq']|e] eqn:Ch; [|injection H as <- <-; left; eauto].
  apply chosen_ok in Ch. destruct Ch as [G ->]. right. exists v, i, ((if new_id then ddel "client_id" else fun m => m) (rm_blanks v)).
  split; [auto|split; [auto|split; [auto|split; [auto|]]]]. cbv zeta in H |- *.
  set (rq' := (if new_id then ddel "client_id" else fun m => m) (rm_blanks v)) in *.
  destruct (client_info c rq' ignored _) as [info|e]; [|injection H as <- <-; left; eauto].
  destruct (rc_load c i _ _) as [[]|e]; [|injection H as <- <-; left; eauto].
  destruct (shown c info) as [args|e] eqn:Sh; injection H as <- <-; [right|left; eauto].
  exists info, args. auto.
Qed.

(** ** The record *)

Lemma when_in_cases {A} k rq (f : val -> result A) none r : when_in k rq f none = Ok r ->
  (dget k rq = None /\ r = none) \/ exists v, dget k rq = Some v /\ f v = Ok r.
Proof. unfold when_in. destruct (dget k rq) as [v|]; [eauto|]. intros [= <-]. auto. Qed.

Lemma legal_url_get u rq item ci r : legal_url u rq item ci = Ok r ->
  r = match dget item rq with Some v => dset item v ci | None => ci end.
Proof.
  unfold legal_url. intros H. destruct (when_in_cases _ _ _ _ _ H) as [[-> ->]|(v & -> & G)]; [auto|].
  destruct (as_str EType v); [|discriminate]; cbn [rbind] in G. destruct (ul_split u a); [|discriminate]; cbn [rbind] in G.
  destruct (dsub "redirect_uris" ci); [|discriminate]; cbn [rbind] in G. destruct (iter_val a1); [|discriminate]; cbn [rbind] in G.
  destruct (verify_url u a0 a2) as [[]|]; cbn [rbind] in G; try discriminate. congruence.
Qed.

Lemma key_for_get c rq item prov ci r : key_for c rq item prov ci = Ok r ->
  r = ci \/ (dget item rq <> None /\ r = ddel item ci).
Proof.
  unfold key_for. intros H. destruct (when_in_cases _ _ _ _ _ H) as [[_ ->]|(v & E & G)]; [auto|].
  destruct (dsub prov (rc_provider c)); [|discriminate]; cbn [rbind] in G. destruct (val_in v a) as [[]|]; cbn [rbind] in G; try discriminate.
  - destruct (rc_has_key c v) as [[]|]; cbn [rbind] in G; try discriminate; injection G as <-; auto. right. split; congruence.
  - left. congruence.
Qed.

Lemma dget_filter_key {A} (f : string -> bool) k (m : dict A) :
  dget k (filter (fun kv => f (fst kv)) m) = if f k then dget k m else None.
Proof.
  induction m as [|[k' v] m IH]; cbn; [now destruct (f k)|]. destruct (f k') eqn:E; cbn.
  - destruct (String.eqb_spec k k') as [->|N]; [now rewrite E|apply IH].
  - destruct (String.eqb_spec k k') as [->|N]; [|apply IH]. now rewrite E in *.
Qed.

Lemma NoDup_filter_keys {A} (f : string * A -> bool) (m : dict A) : NoDup (dkeys m) -> NoDup (dkeys (filter f m)).
Proof.
  unfold dkeys. induction m as [|[k v] m IH]; cbn; [auto|]. intros N. inversion N as [|? ? H1 H2]; subst.
  destruct (f (k, v)); [|auto]. cbn. constructor; [|auto]. intros H. apply H1.
  apply in_map_iff in H. destruct H as ([k' v'] & E & H). apply filter_In in H. apply in_map_iff. exists (k', v'). cbn in *. tauto.
Qed.
Lemma dget_rev {A} k (m : dict A) : NoDup (dkeys m) -> dget k (rev m) = dget k m.
Proof.
  intros N. destruct (dget k m) as [v|] eqn:E.
  - apply In_dget; [unfold dkeys; rewrite map_rev; now apply NoDup_rev|]. apply in_rev. rewrite rev_involutive. now apply dget_In.
  - apply dget_None_key. apply dget_None_key in E. unfold dkeys in *. rewrite map_rev. intros H. apply E. now apply in_rev.
Qed.

Lemma take_over_get ign rq ci k : NoDup (dkeys rq) ->
  dget k (take_over ign rq ci) = match dget k rq with Some v => if smem k ign then dget k ci else Some v | None => dget k ci end.
Proof.
  intros N. unfold take_over. rewrite dget_dupdate, dget_rev by now apply NoDup_filter_keys.
  rewrite (dget_filter_key (fun k => negb (smem k ign))). destruct (smem k ign), (dget k rq); reflexivity.
Qed.

Lemma NoDup_ddel {A} k (m : dict A) : NoDup (dkeys m) -> NoDup (dkeys (ddel k m)).
Proof.
  unfold dkeys. induction m as [|[k' v] m IH]; cbn; [auto|]. intros N. inversion N as [|? ? H1 H2]; subst.
  assert (X : forall x, In x (map fst (ddel k m)) -> In x (map fst m)).
  { clear. induction m as [|[a b] m IH]; cbn; [auto|]. intros x. destruct (String.eqb k a); cbn; [auto|]. intros [H|H]; auto. }
  destruct (String.eqb k k'); cbn; [auto|]. constructor; auto.
Qed.

Ltac step H ci E :=
  match type of H with rbind ?m _ = Ok _ => destruct m as [ci|] eqn:E; [|discriminate]; cbn [rbind] in H end.

Lemma client_info_get c rq ign ci r k : NoDup (dkeys rq) -> client_info c rq ign ci = Ok r -> ~ In k special ->
  dget k r = dget k (take_over ign rq ci).
Proof.
  intros N H NS. unfold client_info in H. cbv zeta in H. unfold special in NS. cbn [In] in NS.
  step H c1 E1. step H c2 E2. step H c3 E3. step H c4 E4. step H c5 E5. step H c6 E6. step H c7 E7. step H c8 E8.
  assert (K : forall x, In x special -> k <> x) by (intros x Hx ->; contradiction).
  assert (G8 : dget k r = dget k c8).
  { destruct (key_for_get _ _ _ _ _ _ H) as [-> | [_ ->]]; [auto|]. rewrite dget_ddel_neq; auto. apply K. cbn; tauto. }
  assert (G7 : dget k c8 = dget k c7).
  { destruct (key_for_get _ _ _ _ _ _ E8) as [-> | [_ ->]]; [auto|]. rewrite dget_ddel_neq; auto. apply K. cbn; tauto. }
  assert (L : forall item a b, In item special -> legal_url (rc_url c) rq item a = Ok b -> dget k b = dget k a).
  { intros item a b Hi Hl. rewrite (legal_url_get _ _ _ _ _ Hl). destruct (dget item rq); [|auto]. rewrite dget_dset_neq; auto. }
  rewrite G8, G7, (L "tos_uri"%string _ _ ltac:(cbn; tauto) E7), (L "logo_uri"%string _ _ ltac:(cbn; tauto) E6), (L "policy_uri"%string _ _ ltac:(cbn; tauto) E5).
  assert (G4 : dget k c4 = dget k c3).
  { destruct (when_in_cases _ _ _ _ _ E4) as [[_ ->]|(v & _ & G)]; [auto|]. destruct (verify_sector_identifier c rq); [|discriminate].
    cbn [rbind] in G. injection G as <-. rewrite !dget_dset_neq; auto; apply K; cbn; tauto. }
  assert (G3 : dget k c3 = dget k c2).
  { destruct (when_in_cases _ _ _ _ _ E3) as [[_ ->]|(v & _ & G)]; [auto|]. step G x Ex. step G y Ey.
    injection G as <-. rewrite !dget_dset_neq; auto; apply K; cbn; tauto. }
  assert (G2 : dget k c2 = dget k c1).
  { destruct (when_in_cases _ _ _ _ _ E2) as [[_ ->]|(v & _ & G)]; [auto|]. step G x Ex.
    injection G as <-. rewrite !dget_dset_neq; auto; apply K; cbn; tauto. }
  rewrite G4, G3, G2.
  destruct (when_in_cases _ _ _ _ _ E1) as [[_ ->]|(v & _ & G)]; [auto|]. step G x Ex. step G y Ey.
  injection G as <-. rewrite !dget_dset_neq; auto; apply K; cbn; tauto.
Qed.

(** the redirect URIs in the record *)
Lemma client_info_redirects c rq ign ci r v : client_info c rq ign ci = Ok r -> dget "redirect_uris" rq = Some v ->
  exists l, verify_redirect_uris (rc_url c) rq = Ok l /\ dget "redirect_uris" r = Some (VList l).
Proof.
  intros H Hv. unfold client_info in H. cbv zeta in H.
  step H c1 E1. step H c2 E2. step H c3 E3. step H c4 E4. step H c5 E5. step H c6 E6. step H c7 E7. step H c8 E8.
  assert (L : forall item a b, "redirect_uris"%string <> item -> legal_url (rc_url c) rq item a = Ok b -> dget "redirect_uris" b = dget "redirect_uris" a).
  { intros item a b Hi Hl. rewrite (legal_url_get _ _ _ _ _ Hl). destruct (dget item rq); [|auto]. rewrite dget_dset_neq; auto. }
  assert (G2 : exists l, verify_redirect_uris (rc_url c) rq = Ok l /\ dget "redirect_uris" c2 = Some (VList l)).
  { destruct (when_in_cases _ _ _ _ _ E2) as [[X _]|(v' & _ & G)]; [congruence|]. step G x Ex. injection G as <-.
    exists x. split; [auto|]. apply dget_dset_eq. }
  destruct G2 as (l & Hl & G2). exists l. split; [auto|]. rewrite <- G2.
  assert (G8 : dget "redirect_uris" r = dget "redirect_uris" c8).
  { destruct (key_for_get _ _ _ _ _ _ H) as [-> | [_ ->]]; [auto|]. now rewrite dget_ddel_neq by discriminate. }
  assert (G7 : dget "redirect_uris" c8 = dget "redirect_uris" c7).
  { destruct (key_for_get _ _ _ _ _ _ E8) as [-> | [_ ->]]; [auto|]. now rewrite dget_ddel_neq by discriminate. }
  rewrite G8, G7, (L "tos_uri"%string _ _ ltac:(discriminate) E7), (L "logo_uri"%string _ _ ltac:(discriminate) E6), (L "policy_uri"%string _ _ ltac:(discriminate) E5).
  assert (G4 : dget "redirect_uris" c4 = dget "redirect_uris" c3).
  { destruct (when_in_cases _ _ _ _ _ E4) as [[_ ->]|(w & _ & G)]; [auto|]. step G x Ex. injection G as <-. now rewrite !dget_dset_neq by discriminate. }
  assert (G3 : dget "redirect_uris" c3 = dget "redirect_uris" c2).
  { destruct (when_in_cases _ _ _ _ _ E3) as [[_ ->]|(w & _ & G)]; [auto|]. step G x Ex. step G y Ey.
    injection G as <-. now rewrite !dget_dset_neq by discriminate. }
  congruence.
Qed.

(** ** Policy *)

Lemma match_prefs_ok provider prefs rq : match_prefs provider prefs rq = Ok tt ->
  forall pref prov v, In (pref, prov) prefs -> dget pref rq = Some v -> match_pref provider pref prov v = Ok tt.
Proof.
  induction prefs as [|[a b] prefs IH]; [easy|]. cbn [match_prefs]. intros H pref prov v [E|Hin] Hv.
  - injection E as -> ->. rewrite Hv in H. destruct (match_pref provider pref prov v) as [[]|]; [auto|discriminate].
  - destruct (match dget a rq with Some v0 => match_pref provider a b v0 | None => Ok tt end) as [[]|]; [|discriminate]. cbn [rbind] in H. eapply IH; eauto.
Qed.

Lemma rmap_words l w : rmap (fun x => let* s := as_str EAttr x in Ok (split " " s)) l = Ok w ->
  w = flat_map (fun x => match x with VStr s => [split " " s] | _ => [] end) l.
Proof.
  revert w. induction l as [|x l IH]; intros w; cbn [rmap flat_map]; [congruence|].
  destruct x; cbn [as_str rbind]; try discriminate.
  destruct (rmap _ l) as [w'|]; [|discriminate]. cbn [rbind app]. intros [= <-]. f_equal. now apply IH.
Qed.

Lemma sp_sets_words v w : sp_sets v = Ok w -> w = words v.
Proof. destruct v; cbn; try discriminate; [congruence|apply rmap_words]. Qed.

Lemma match_pref_ok provider pref prov v l : match_pref provider pref prov v = Ok tt -> dget prov provider = Some (VList l) ->
  (by_words pref -> offered_words v l) /\ (~ by_words pref -> offered v l).
Proof.
  unfold match_pref, dsub. intros H Hl. rewrite Hl in H. cbn [of_option rbind] in H.
  destruct (smem pref ["response_types"; "default_acr_values"]%string) eqn:E.
  - apply smem_In in E. split; [intros _|intros N; exfalso; apply N; destruct E as [<-|[<-|[]]]; [now left|now right]].
    unfold match_sp_sep in H. destruct (sp_sets v) as [one|] eqn:E1; [|discriminate]. cbn [rbind] in H.
    destruct (sp_sets (VList l)) as [other|] eqn:E2; [|discriminate]. cbn [rbind] in H.
    destruct (forallb _ one) eqn:F; [|discriminate]. rewrite forallb_forall in F.
    apply sp_sets_words in E1, E2. subst one other. intros w Hw. specialize (F _ Hw). apply existsb_exists in F.
    destruct F as (x & Hx & S). cbn [words] in Hx. apply in_flat_map in Hx. destruct Hx as (y & Hy & Hx).
    destruct y as [| | |t| |]; try easy. destruct Hx as [<-|[]]. exists t. split; [auto|]. now apply set_eqb_spec.
  - apply smem_false in E. split; [intros B; exfalso; apply E; destruct B as [-> | ->]; cbn; tauto|intros _].
    destruct v as [| | |s|vs|]; try exact I; cbn [val_in iter_val rbind offered] in *.
    + destruct (existsb _ l) eqn:X; [|discriminate]. now apply existsb_str.
    + destruct (forallb hashable vs && forallb hashable l); [|discriminate]. cbn [rbind] in H.
      destruct (forallb (fun x => existsb (val_eqb x) l) vs) eqn:F; [|discriminate]. rewrite forallb_forall in F.
      intros s Hs. specialize (F _ Hs). now apply existsb_str.
Qed.

Lemma rmap_Forall2 {A B} (f : A -> result B) l r : rmap f l = Ok r <-> Forall2 (fun x y => f x = Ok y) l r.
Proof.
  revert r. induction l as [|x l IH]; intros r; cbn [rmap].
  - split; [intros [= <-]; constructor|intros H; inversion H; auto].
  - split.
    + destruct (f x) as [y|] eqn:E; [|discriminate]. cbn [rbind]. destruct (rmap f l) as [ys|]; [|discriminate]. cbn [rbind]. intros [= <-].
      constructor; [auto|]. now apply IH.
    + intros H. inversion H as [|? y ? ys E F]; subst. rewrite E. cbn [rbind]. apply IH in F. rewrite F. reflexivity.
Qed.

Lemma is_web_iff s : is_web s = true <-> s = "http"%string \/ s = "https"%string.
Proof. unfold is_web. rewrite smem_In. cbn. intuition congruence. Qed.
Lemma is_web_false s : is_web s = false <-> s <> "http"%string /\ s <> "https"%string.
Proof. rewrite <- not_true_iff_false, is_web_iff. tauto. Qed.

Lemma val_eqb_code v : val_eqb v (VList [VStr "code"]) = true <-> v = VList [VStr "code"].
Proof.
  split; [|intros ->; reflexivity]. destruct v as [| | | |l|]; try discriminate.
  destruct l as [|x [|y l]]; cbn; try discriminate.
  - rewrite andb_true_r. intros H. destruct x; try discriminate. cbn in H. apply String.eqb_eq in H. congruence.
  - rewrite andb_false_r. discriminate.
Qed.

Lemma str_dec v s : v = VStr s \/ v <> VStr s.
Proof.
  destruct (val_eqb v (VStr s)) eqn:E; [left; now apply val_eqb_str|]. right. intros H. apply val_eqb_str in H. congruence.
Qed.
Lemma code_dec rq : code_only rq \/ ~ code_only rq.
Proof.
  unfold code_only. destruct (dget "response_types" rq) as [v|]; [|right; discriminate].
  destruct (val_eqb v (VList [VStr "code"])) eqn:E; [left; apply val_eqb_code in E; congruence|].
  right. intros [= ->]. discriminate.
Qed.

Section Redirect.
  Variables (u : urllib) (rq : msg).
  Let app := dget_or "application_type" (VStr "web") rq.
  Let must := val_eqb app (VStr "web") && negb (val_eqb (dget_or "response_types" VNone rq) (VList [VStr "code"])).

  Lemma app_is a : app_type rq a <-> a = app.
  Proof.
    unfold app_type, app, dget_or. destruct (dget "application_type" rq); split; intros H.
    - destruct H as [H|[H _]]; congruence.
    - left. congruence.
    - destruct H as [H|[_ H]]; congruence.
    - right. auto.
  Qed.
  Lemma native_is : is_native rq <-> app = VStr "native".
  Proof. unfold is_native, app, dget_or. destruct (dget "application_type" rq); split; congruence. Qed.
  Lemma must_is : must = true <-> app = VStr "web" /\ ~ code_only rq.
  Proof.
    unfold must. rewrite andb_true_iff, negb_true_iff, val_eqb_str, <- not_true_iff_false, val_eqb_code.
    unfold code_only, dget_or. destruct (dget "response_types" rq) as [x|]; split; intros [A B]; (split; [exact A|]); intros C; apply B; congruence.
  Qed.

  Lemma redirect_iff v e : verify_redirect_uri u app must v = Ok e <->
    exists uri p, v = VStr uri /\ ul_split u uri = Ok p /\ scheme_ok rq p /\
      (is_native rq \/ up_fragment p = ""%string) /\ kept u rq uri p e.
  Proof.
    assert (Q : forall p, (if truthy (if nonempty (up_query p) then vquery (ul_qs u (up_query p)) else VStr "")
                           then (if nonempty (up_query p) then vquery (ul_qs u (up_query p)) else VStr "") else VDict []) =
               (if nonempty (up_query p) then match ul_qs u (up_query p) with [] => VDict [] | d => vquery d end else VDict [])).
    { intros p. destruct (nonempty (up_query p)); [|reflexivity]. destruct (ul_qs u (up_query p)); reflexivity. }
    unfold verify_redirect_uri.
    destruct v as [| | |uri| |]; cbn [as_str rbind];
      try (split; [discriminate|intros (? & ? & [=] & _)]).
    unfold split_uri. destruct (ul_split u uri) as [p|] eqn:Ep; cbn [rbind fst snd];
      [|split; [discriminate|intros (? & ? & [= <-] & E & _); congruence]].
    rewrite Q. set (e1 := VList [VStr (up_base p); _]).
    assert (S0 : scheme_ok rq p <-> (app = VStr "native" /\ (own_scheme p \/ local p)) \/
       (app <> VStr "native" /\ (up_scheme p = "https"%string \/ (up_scheme p = "http"%string /\ (app <> VStr "web" \/ code_only rq))))).
    { unfold scheme_ok. split; [intros (a & Ha & H); apply app_is in Ha; now subst a|].
      intros H. exists app. split; [now apply app_is|auto]. }
    assert (U : forall P, (exists uri0 p0, VStr uri = VStr uri0 /\ ul_split u uri0 = Ok p0 /\ P uri0 p0) <-> P uri p).
    { intros P. split; [|eauto]. intros (a & b & [= <-] & E & H). now assert (b = p) by congruence; subst. }
    rewrite U. unfold kept. rewrite S0, native_is. 
    destruct (val_eqb app (VStr "native")) eqn:En.
    - apply val_eqb_str in En. destruct (is_web (up_scheme p)) eqn:Ew; cbn [negb].
      + assert (NO : ~ own_scheme p). { unfold own_scheme. apply is_web_iff in Ew. tauto. }
        destruct (String.eqb (up_scheme p) "http" && _) eqn:El; cbn [rbind].
        * apply andb_true_iff in El. destruct El as [E1 E2]. apply String.eqb_eq in E1.
          assert (Lo : local p). { split; [auto|]. destruct (up_host p) as [h|]; [|discriminate]. apply smem_In in E2. destruct E2 as [<-|[<-|[]]]; auto. }
          split.
          { intros [= <-]. split; [tauto|]. split; [tauto|]. right. split; [tauto|]. eexists. split; reflexivity. }
          intros (_ & _ & [(_ & H & _)|(_ & q & -> & ->)]); [tauto|reflexivity].
        * split; [discriminate|]. intros ([(_ & [H|H])|(H & _)] & _); [tauto| |tauto]. exfalso. destruct H as [H1 H2].
          rewrite H1 in El. cbn in El. destruct H2 as [H2|H2]; rewrite H2 in El; discriminate.
      + apply is_web_false in Ew. cbn [rbind]. split.
        { intros [= <-]. split; [left; split; [auto|now left]|]. split; [tauto|]. left. split; [auto|split; [exact Ew|reflexivity]]. }
        intros (_ & _ & [(_ & _ & ->)|(H & _)]); [reflexivity|]. exfalso. apply H. split; [auto|exact Ew].
    - assert (Nn : app <> VStr "native"). { intros X. rewrite X in En. discriminate. }
      destruct (must && negb (String.eqb (up_scheme p) "https")) eqn:Em; cbn [rbind].
      + apply andb_true_iff in Em. destruct Em as [M1 M2]. apply must_is in M1. apply negb_true_iff, String.eqb_neq in M2.
        split; [discriminate|]. intros ([(H & _)|(_ & [H|(H & H')])] & _); tauto.
      + destruct (is_web (up_scheme p)) eqn:Ew; cbn [negb].
        * destruct (nonempty (up_fragment p)) eqn:Ef; cbn [rbind].
          { split; [discriminate|]. intros (_ & [H|H] & _); [tauto|]. rewrite H in Ef. discriminate. }
          assert (F0 : up_fragment p = ""%string) by (destruct (up_fragment p); [auto|discriminate]).
          split.
          { intros [= <-]. split; [|split; [auto|right; split; [tauto|eexists; split; reflexivity]]].
            right. split; [auto|]. apply is_web_iff in Ew. destruct Ew as [Ew|Ew]; [right|now left]. split; [auto|].
            destruct (str_dec app "web") as [Eweb|Eweb].
            - right. assert (Hm : must = false) by (destruct must; [rewrite Ew in Em; discriminate|reflexivity]).
              destruct (code_dec rq) as [X|X]; [exact X|].
              exfalso. assert (M : must = true); [|congruence]. now apply must_is.
            - now left. }
          intros (_ & _ & [(H & _)|(_ & q & -> & ->)]); [tauto|reflexivity].
        * cbn [rbind]. apply is_web_false in Ew. split; [discriminate|]. intros ([(H & _)|(_ & [H|(H & H')])] & _); tauto.
  Qed.

  Lemma redirects_iff l uris : dget "redirect_uris" rq = Some (VList uris) ->
    (verify_redirect_uris u rq = Ok l <-> Forall2 (fun v e => verify_redirect_uri u app must v = Ok e) uris l).
  Proof. intros H. unfold verify_redirect_uris, dsub. rewrite H. cbn [of_option rbind iter_val]. apply rmap_Forall2. Qed.
End Redirect.

(** a preference in the record is one of the request *)
Lemma client_info_pref c rq ign ci r pref prov v : NoDup (dkeys rq) -> client_info c rq ign ci = Ok r ->
  In (pref, prov) preference2provider -> dget pref ci = None -> dget pref r = Some v -> dget pref rq = Some v.
Proof.
  intros N H P C G.
  assert (K : forall x, In x ["redirect_uris"; "policy_uri"; "logo_uri"; "tos_uri"; "post_logout_redirect_uris"; "request_uris";
                             "si_redirects"; "sector_id"]%string -> pref <> x).
  { intros x Hx ->. cbn in Hx, P. repeat (destruct Hx as [<-|Hx]; [repeat (destruct P as [P|P]; [discriminate|]); exact P|]). exact Hx. }
  assert (T : dget pref r = dget pref (take_over ign rq ci)).
  { unfold client_info in H. cbv zeta in H.
    step H c1 E1. step H c2 E2. step H c3 E3. step H c4 E4. step H c5 E5. step H c6 E6. step H c7 E7. step H c8 E8.
    assert (Z : forall item prov' a b w, key_for c rq item prov' a = Ok b -> dget pref b = Some w -> dget pref b = dget pref a).
    { intros item prov' a b w Hk Hw. destruct (key_for_get _ _ _ _ _ _ Hk) as [-> | [_ ->]]; [auto|].
      rewrite dget_ddel in *. destruct (String.eqb pref item); [discriminate|auto]. }
    assert (L : forall item a b, pref <> item -> legal_url (rc_url c) rq item a = Ok b -> dget pref b = dget pref a).
    { intros item a b Hi Hl. rewrite (legal_url_get _ _ _ _ _ Hl). destruct (dget item rq); [|auto]. rewrite dget_dset_neq; auto. }
    pose proof (Z _ _ _ _ _ H G) as G8. rewrite G8 in G. pose proof (Z _ _ _ _ _ E8 G) as G7. rewrite G8, G7.
    rewrite (L "tos_uri"%string _ _ ltac:(apply K; cbn; tauto) E7), (L "logo_uri"%string _ _ ltac:(apply K; cbn; tauto) E6),
            (L "policy_uri"%string _ _ ltac:(apply K; cbn; tauto) E5).
    assert (G4 : dget pref c4 = dget pref c3).
    { destruct (when_in_cases _ _ _ _ _ E4) as [[_ ->]|(w & _ & X)]; [auto|]. step X x Ex. injection X as <-.
      rewrite !dget_dset_neq; auto; apply K; cbn; tauto. }
    assert (G3 : dget pref c3 = dget pref c2).
    { destruct (when_in_cases _ _ _ _ _ E3) as [[_ ->]|(w & _ & X)]; [auto|]. step X x Ex. step X y Ey. injection X as <-.
      rewrite !dget_dset_neq; auto; apply K; cbn; tauto. }
    assert (G2 : dget pref c2 = dget pref c1).
    { destruct (when_in_cases _ _ _ _ _ E2) as [[_ ->]|(w & _ & X)]; [auto|]. step X x Ex. injection X as <-.
      rewrite !dget_dset_neq; auto; apply K; cbn; tauto. }
    rewrite G4, G3, G2.
    destruct (when_in_cases _ _ _ _ _ E1) as [[_ ->]|(w & _ & X)]; [auto|]. step X x Ex. step X y Ey. injection X as <-.
    rewrite !dget_dset_neq; auto; apply K; cbn; tauto. }
  rewrite T, take_over_get, C in G by exact N. destruct (dget pref rq) as [w|]; [|discriminate].
  destruct (smem pref ign); [discriminate|exact G].
Qed.

(** the response shows what is kept *)
Lemma comb_pairs_get u param a b k : comb_pairs u param a = Ok b -> k <> param -> dget k b = dget k a.
Proof.
  unfold comb_pairs. intros H N. destruct (dget param a); [|injection H as <-; auto].
  step H x Ex. step H y Ey. injection H as <-. now rewrite dget_dset_neq.
Qed.
Lemma shown_get c info args k : shown c info = Ok args -> In k (rc_params c) ->
  ~ In k ["redirect_uris"; "post_logout_redirect_uris"; "request_uris"]%string -> dget k args = dget k info.
Proof.
  unfold shown, comb_uri. intros H P N.
  assert (k <> "redirect_uris"%string /\ k <> "post_logout_redirect_uris"%string /\ k <> "request_uris"%string) as (N1 & N2 & N3).
  { cbn in N. intuition congruence. }
  step H a1 E1. step H a2 E2.
  assert (G : dget k args = dget k a2).
  { destruct (truthy_get "request_uris" a2); [|injection H as <-; auto]. step H x Ex. step H y Ey. injection H as <-. now rewrite dget_dset_neq. }
  rewrite G, (comb_pairs_get _ _ _ _ _ E2 N2), (comb_pairs_get _ _ _ _ _ E1 N1).
  rewrite (dget_filter_key (fun x => smem x (rc_params c))). apply smem_In in P. now rewrite P.
Qed.

Lemma given_effective c n rq v d db i rq' : rc_verify c rq = Ok v -> given_id n d db (rm_blanks v) i ->
  rq' = (if n then ddel "client_id" else fun m => m) (rm_blanks v) -> effective c n rq rq' /\ given_id n d db rq' i.
Proof. intros V G ->. split; [exists v; auto|]. destruct n; exact G. Qed.

(** ** Reading *)

Lemma read_rat c o e aka rq auth s : rg_rat (snd (registration_read c o e aka rq auth s)) = rg_rat s.
Proof. unfold registration_read. destruct (parse_auth _ _ _ _ _ _ _ _) as [[[]|] ?]; reflexivity. Qed.

Lemma rrun_app h1 h2 s : rrun (h1 ++ h2) s = rrun h2 (rrun h1 s).
Proof. revert s. induction h1 as [|x h1 IH]; intros s; cbn; auto. Qed.

Lemma rat_issued h s t i : rg_rat s = [] -> dget t (rg_rat (rrun h s)) = Some i -> issued h s t i.
Proof.
  intros R0. revert i. induction h as [|x h IH] using rev_ind; intros i H.
  - cbn in H. rewrite R0 in H. discriminate.
  - rewrite rrun_app in H. cbn [rrun] in H.
    assert (Old : dget t (rg_rat (rrun h s)) = Some i -> issued (h ++ [x]) s t i).
    { intros G. destruct (IH i G) as (h1 & c & d & n & ss & rq & h2 & rq' & -> & E & A & B).
      exists h1, c, d, n, ss, rq, (h2 ++ [x]), rq'. rewrite <- app_assoc. auto. }
    destruct x as [c d n ss rq|c o e aka rq auth|ca]; cbn [rstep] in H.
    + destruct (client_registration_setup c d n ss rq (rrun h s)) as [r s'] eqn:E. cbn [snd] in H.
      destruct (setup_cases _ _ _ _ _ _ _ _ E) as [[-> _]|(v & j & rq' & V & M & G & Q & O)]; [auto|].
      assert (O' : only_client j (dr_rat d) (rrun h s) s').
      { destruct O as [(_ & [-> | ->])|(info & args & _ & _ & _ & ->)].
        - apply begun_only.
        - apply loaded_only, begun_only.
        - apply done_only, loaded_only, begun_only. }
      destruct O' as (_ & _ & O1 & O2 & _). destruct (String.eqb_spec t (dr_rat d)) as [->|Nt].
      * destruct O2 as [O2|O2]; [apply Old; congruence|]. rewrite O2 in H. injection H as <-.
        destruct (given_effective c n rq v d _ j rq' V G Q) as [A B].
        exists h, c, d, n, ss, rq, [], rq'. auto.
      * apply Old. now rewrite <- O1.
    + rewrite read_rat in H. auto.
    + auto.
Qed.

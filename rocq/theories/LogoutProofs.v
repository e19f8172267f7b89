From Verif Require Import Base BaseProofs Monad MonadProofs Types SessionKey Grant Database DatabaseSpec DatabaseProofs Manager ManagerProofs
  Ctx World Uri UriSpec AuthnBroker ClientAuthn ResponseSpec ResponseProofs SetupAuthProofs Logout LogoutSpec PropsUri ResponseHeadSpec ResponseHeadProofs.

(** ** Revoking *)
Lemma revoke2 u c g s : good u -> good c -> good g ->
  revoke_client_session (session_key [u; c]) s = revoke_client_session (session_key [u; c; g]) s.
Proof. intros. unfold revoke_client_session. rewrite !unpack_good by auto with gp. reflexivity. Qed.

Lemma good_g : good "g".
Proof.
  split; [discriminate|]. split.
  - intros a b H. destruct a as [|x a]; [discriminate|]. injection H as _ H. destruct a; discriminate.
  - intros a H. destruct a as [|x a]; [discriminate|]. injection H as _ H. destruct a; discriminate.
Qed.

(** One client session: what it was before decides, and it stays fine. *)
Lemma revoke2_run s u c : fine s -> good u -> good c ->
  match view s [u; c] with
  | Some _ => exists i s', view s [u; c] = Some (EInfo i) /\ revoke_client_session (session_key [u; c]) s = (Ok tt, s') /\ fine s' /\
                view s' [u; c] = Some (EInfo (stopped i)) /\ forall q, good_path q -> q <> [u; c] -> view s' q = view s q
  | None => exists x, revoke_client_session (session_key [u; c]) s = (Raise x, s)
  end.
Proof.
  intros [Hk Hl] Hu Hc. destruct (view s [u; c]) as [e|] eqn:V.
  - assert (K := view_kind s [u; c] e Hk ltac:(auto with gp) V). destruct e as [i|gr]; [|discriminate].
    destruct (revoke_client_effect s u c "g" i Hk Hl Hu Hc good_g V) as (s' & E & V' & Vo).
    exists i, s'. rewrite (revoke2 u c "g" s Hu Hc good_g). repeat (split; [solve [auto]|]). split; [|split; [exact V'|exact Vo]].
    unfold revoke_client_session in E. rewrite unpack_good in E by (auto using good_g with gp). unfold bind at 1, ret at 1, bind in E.
    destruct (read_cases [u; c] s) as [(e & R & Ev')|(x & _ & Ev')]; [|congruence]. rewrite R in E.
    assert (e = EInfo i) by congruence. subst e. cbn [revoke_entry] in E.
    assert (X : s' = snd (db_store [u; c] (EInfo (stopped i)) s)) by (unfold stopped; rewrite E; reflexivity).
    rewrite X. split; [apply kinds_store2; auto|apply linked_store2; auto].
  - unfold revoke_client_session. rewrite unpack_good by auto with gp. unfold bind at 1, ret at 1, bind.
    destruct (read_cases [u; c] s) as [(e & _ & Ev')|(x & R & Ev')]; [congruence|]. rewrite R. eauto.
Qed.

Lemma stopped_twice i : stopped (stopped i) = stopped i.
Proof. reflexivity. Qed.

(** Several of one user. *)
Lemma clean_ok u cs : good u -> Forall good cs -> forall w r w', fine (w_db w) ->
  clean_sessions (map (fun c => session_key [u; c]) cs) w = (r, w') ->
  w_cdb w' = w_cdb w /\ fine (w_db w') /\
  (r = Ok tt -> logs_out u (fun c => In c cs) (w_db w) (w_db w')) /\
  ((forall c, In c cs -> view (w_db w) [u; c] <> None) -> r = Ok tt).
Proof.
  intros Hu F. induction F as [|c cs Hc F IH]; intros w r w' Hf H; cbn [map clean_sessions] in H.
  - unfold ret in H. injection H as <- <-. split; [auto|split; [auto|split; [|auto]]]. intros _. split; [intros ? []|auto].
  - unfold bind at 1, in_db at 1 in H. assert (X := revoke2_run (w_db w) u c Hf Hu Hc).
    destruct (view (w_db w) [u; c]) as [e|] eqn:V.
    + destruct X as (i & s1 & V' & E & Hf1 & V1 & Vo). rewrite E in H. cbn [w_db w_cdb] in H.
      destruct (IH (mkW s1 (w_cdb w)) r w' Hf1 H) as (A & B & C & D). cbn [w_db w_cdb] in *.
      split; [exact A|split; [exact B|split]].
      * intros R. destruct (C R) as [C1 C2]. split.
        -- intros c' Hin. destruct (in_dec string_dec c' cs) as [I|N].
           ++ destruct (C1 c' I) as (j & J1 & J2). destruct (string_dec c' c) as [->|Nc].
              ** exists i. split; [congruence|]. rewrite V1 in J1. injection J1 as <-. rewrite J2. now rewrite stopped_twice.
              ** exists j. split; [|exact J2]. rewrite <- J1. symmetry. apply Vo; [|congruence].
                 assert (good c') by (rewrite Forall_forall in F; auto). auto with gp.
           ++ destruct Hin as [<-|I]; [|contradiction]. exists i. split; [congruence|]. rewrite <- V1. apply C2; [auto with gp|].
              intros c2 I2 X. injection X as <-. contradiction.
        -- intros q Hq N. rewrite <- Vo; [|exact Hq|apply N; now left]. apply C2; [exact Hq|]. intros c2 I2. apply N. now right.
      * intros W. apply D. intros c2 I2. destruct (string_dec c2 c) as [->|Nc]; [congruence|].
        assert (good c2) by (rewrite Forall_forall in F; auto). rewrite Vo; [|auto with gp|congruence]. apply W. now right.
    + destruct X as (x & E). rewrite E in H. cbn iota in H. rewrite world_eta in H. injection H as <- <-.
      split; [auto|split; [auto|split; [discriminate|]]]. intros W. exfalso. exact (W c (or_introl eq_refl) V).
Qed.

(** ** Telling *)
Definition told_b (clients : cdb) (c : string) : bool :=
  match dget c clients with
  | Some info => dmem "backchannel_logout_uri" info || dmem "frontchannel_logout_uri" info
  | None => false
  end.
Lemma told_b_spec clients c : told_b clients c = true <-> told clients c.
Proof.
  unfold told_b, told, told_at. split.
  - destruct (dget c clients) as [info|] eqn:E; [|discriminate]. intros H. apply orb_true_iff in H.
    destruct H as [H|H]; apply dmem_true in H; destruct H as [v H]; [left|right]; eauto.
  - intros [(info & v & -> & H)|(info & v & -> & H)]; apply orb_true_iff; [left|right]; apply dmem_true; eauto.
Qed.

(** What a client is told. *)
Definition by_back (e : lo_env) (clients : cdb) (uid c : string) (x : string * string) : Prop :=
  exists info, dget c clients = Some info /\ back_channel e info (session_key [uid; c]) = Ok (Some x).
Definition by_front (e : lo_env) (clients : cdb) (uid c : string) (x : string) : Prop :=
  exists info, dget c clients = Some info /\ dmem "backchannel_logout_uri" info = false /\
    iframe (lo_url e) info (lo_issuer e) (session_key [uid; c]) = Ok (Some x).

Lemma by_back_fun e clients u c x y : by_back e clients u c x -> by_back e clients u c y -> x = y.
Proof. intros (i & A & B) (j & C & D). congruence. Qed.
Lemma by_front_fun e clients u c x y : by_front e clients u c x -> by_front e clients u c y -> x = y.
Proof. intros (i & A & _ & B) (j & C & _ & D). congruence. Qed.

Ltac step_in H := repeat match type of H with
  | context [match ?t with Ok _ => _ | Raise _ => _ end] => destruct t; cbn [rbind] in H; try discriminate
  end.
Lemma back_some e info sid o : dmem "backchannel_logout_uri" info = true -> back_channel e info sid = Ok o -> exists x, o = Some x.
Proof.
  intros M H. apply dmem_true in M. destruct M as [v M]. unfold back_channel in H. rewrite M in H.
  destruct v as [| | |uri| |]; try discriminate. unfold rbind in H. step_in H. injection H as <-. eauto.
Qed.

Lemma front_some u info iss sid o : dmem "frontchannel_logout_uri" info = true -> iframe u info iss sid = Ok o -> exists x, o = Some x.
Proof.
  intros M H. apply dmem_true in M. destruct M as [v M]. unfold iframe in H. rewrite M in H.
  destruct v as [| | |uri| |]; try discriminate. cbn [rbind] in H.
  destruct (dget "frontchannel_logout_session_required" info) as [r|]; [destruct (truthy r)|].
  2,3: injection H as <-; eauto.
  destruct (contains "?" uri); cbn [rbind] in H; [destruct (ul_split u uri); [|discriminate]; cbn [rbind] in H|]; injection H as <-; eauto.
Qed.

Lemma note_client_ok e clients u c n b n' : note_client e clients c (session_key [u; c]) n = Ok (b, n') ->
  (exists info, dget c clients = Some info) /\
  b = told_b clients c /\
  (told_at "backchannel_logout_uri" clients c -> exists x, by_back e clients u c x) /\
  (told_at "frontchannel_logout_uri" clients c -> ~ told_at "backchannel_logout_uri" clients c -> exists x, by_front e clients u c x) /\
  (forall x, by_back e clients u c x -> n' = mkNotes (dset c x (no_back n)) (no_front n)) /\
  (forall x, by_front e clients u c x -> n' = mkNotes (no_back n) (dset c x (no_front n))) /\
  (b = false -> n' = n) /\
  (b = true -> (exists x, by_back e clients u c x) \/ (exists x, by_front e clients u c x)).
Proof.
  unfold note_client. destruct (dsub c clients) as [info|] eqn:D; [|discriminate]. apply dsub_ok in D. cbn [rbind].
  assert (TB : told_at "backchannel_logout_uri" clients c <-> dmem "backchannel_logout_uri" info = true).
  { rewrite dmem_true. unfold told_at. split; [intros (i & v & A & B); assert (i = info) by congruence; subst; eauto|intros [v B]; eauto]. }
  assert (TF : told_at "frontchannel_logout_uri" clients c <-> dmem "frontchannel_logout_uri" info = true).
  { rewrite dmem_true. unfold told_at. split; [intros (i & v & A & B); assert (i = info) by congruence; subst; eauto|intros [v B]; eauto]. }
  assert (NB : forall x, by_back e clients u c x -> dmem "backchannel_logout_uri" info = true).
  { intros x (i & A & B). assert (i = info) by congruence. subst i. unfold back_channel in B. unfold dmem.
    destruct (dget "backchannel_logout_uri" info); [reflexivity|discriminate]. }
  assert (NF : forall x, by_front e clients u c x -> dmem "backchannel_logout_uri" info = false /\ dmem "frontchannel_logout_uri" info = true).
  { intros x (i & A & M & B). assert (i = info) by congruence. subst i. split; [exact M|]. unfold iframe in B. unfold dmem.
    destruct (dget "frontchannel_logout_uri" info); [reflexivity|discriminate]. }
  unfold told_b. rewrite D.
  destruct (dmem "backchannel_logout_uri" info) eqn:MB.
  - destruct (back_channel e info _) as [o|] eqn:B; [|discriminate]. cbn [rbind]. intros H.
    destruct (back_some _ _ _ _ MB B) as [x ->]. injection H as <- <-. cbn [add_back].
    assert (BB : by_back e clients u c x) by (exists info; auto).
    split; [eauto|]. split; [reflexivity|]. split; [eauto|]. split; [intros _ N; exfalso; apply N; now apply TB|].
    split; [intros y Y; now rewrite (by_back_fun _ _ _ _ _ _ Y BB)|]. split; [intros y Y; destruct (NF y Y); discriminate|].
    split; [discriminate|eauto].
  - destruct (dmem "frontchannel_logout_uri" info) eqn:MF.
    + destruct (iframe _ info _ _) as [o|] eqn:B; [|discriminate]. cbn [rbind]. intros H.
      destruct (front_some _ _ _ _ _ MF B) as [x ->]. injection H as <- <-. cbn [add_front].
      assert (BB : by_front e clients u c x) by (exists info; auto).
      split; [eauto|]. split; [reflexivity|]. split; [intros T; apply TB in T; discriminate|]. split; [eauto|].
      split; [intros y Y; discriminate (NB y Y)|]. split; [intros y Y; now rewrite (by_front_fun _ _ _ _ _ _ Y BB)|].
      split; [discriminate|eauto].
    + intros H. injection H as <- <-. split; [eauto|]. split; [reflexivity|]. split; [intros T; apply TB in T; discriminate|].
      split; [intros T; apply TF in T; discriminate|]. split; [intros y Y; discriminate (NB y Y)|].
      split; [intros y Y; destruct (NF y Y); discriminate|]. split; [auto|discriminate].
Qed.

Lemma note_clients_ok e clients u cs : forall sids n sids' n', note_clients e clients u cs sids n = Ok (sids', n') ->
  sids' = sids ++ map (fun c => session_key [u; c]) (filter (told_b clients) cs) /\
  (forall c, In c cs -> exists info, dget c clients = Some info) /\
  (forall c, In c cs -> told_at "backchannel_logout_uri" clients c -> exists x, by_back e clients u c x) /\
  (forall c, In c cs -> told_at "frontchannel_logout_uri" clients c -> ~ told_at "backchannel_logout_uri" clients c -> exists x, by_front e clients u c x) /\
  (forall c x, by_back e clients u c x -> In c cs \/ dget c (no_back n) = Some x -> dget c (no_back n') = Some x) /\
  (forall c x, by_front e clients u c x -> In c cs \/ dget c (no_front n) = Some x -> dget c (no_front n') = Some x) /\
  (forall c x, dget c (no_back n') = Some x -> dget c (no_back n) = Some x \/ (In c cs /\ by_back e clients u c x)) /\
  (forall c x, dget c (no_front n') = Some x -> dget c (no_front n) = Some x \/ (In c cs /\ by_front e clients u c x)) /\
  (NoDup (dkeys (no_back n)) -> NoDup (dkeys (no_back n'))) /\ (NoDup (dkeys (no_front n)) -> NoDup (dkeys (no_front n'))).
Proof.
  induction cs as [|c cs IH]; intros sids n sids' n' H; cbn [note_clients] in H.
  - injection H as <- <-. cbn. rewrite app_nil_r. repeat (split; [solve [auto | intros ? []]|]).
    split; [intros c x _ [[]|?]; auto|]. split; [intros c x _ [[]|?]; auto|]. auto.
  - destruct (note_client e clients c (session_key [u; c]) n) as [[b n1]|] eqn:E1; [|discriminate]. cbn [rbind fst snd] in H.
    destruct (note_client_ok _ _ _ _ _ _ _ E1) as (K & Eb & TB & TF & AB & AF & NN & SOME).
    destruct (IH _ _ _ _ H) as (R1 & R2 & R3 & R4 & R5 & R6 & R7 & R8 & R9 & R10). clear IH H.
    split; [|split; [|split; [|split; [|split; [|split; [|split; [|split; [|split]]]]]]]].
    + rewrite R1, Eb. cbn [filter]. destruct (told_b clients c); [|reflexivity]. cbn [map]. now rewrite <- app_assoc.
    + intros c' [<-|I]; auto.
    + intros c' [<-|I]; auto.
    + intros c' [<-|I]; auto.
    + intros c' x Y I. apply R5; [exact Y|]. destruct (string_dec c' c) as [->|Nc].
      * right. rewrite (AB x Y). cbn [no_back]. apply dget_dset_eq.
      * destruct I as [[->|I]|I]; [congruence|auto|]. right. destruct b.
        -- destruct (SOME eq_refl) as [[y Z]|[y Z]]; [rewrite (AB y Z)|rewrite (AF y Z)]; cbn [no_back]; [|exact I]. now rewrite dget_dset_neq by congruence.
        -- now rewrite NN.
    + intros c' x Y I. apply R6; [exact Y|]. destruct (string_dec c' c) as [->|Nc].
      * right. rewrite (AF x Y). cbn [no_front]. apply dget_dset_eq.
      * destruct I as [[->|I]|I]; [congruence|auto|]. right. destruct b.
        -- destruct (SOME eq_refl) as [[y Z]|[y Z]]; [rewrite (AB y Z)|rewrite (AF y Z)]; cbn [no_front]; [exact I|]. now rewrite dget_dset_neq by congruence.
        -- now rewrite NN.
    + intros c' x G. destruct (R7 c' x G) as [G1|[I G1]]; [|right; split; [now right|exact G1]]. destruct b.
      * destruct (SOME eq_refl) as [[y Z]|[y Z]]; [rewrite (AB y Z) in G1|rewrite (AF y Z) in G1]; cbn [no_back] in G1; [|auto].
        rewrite dget_dset in G1. destruct (String.eqb_spec c' c) as [->|]; [|auto]. injection G1 as <-. right. split; [now left|exact Z].
      * rewrite (NN eq_refl) in G1. auto.
    + intros c' x G. destruct (R8 c' x G) as [G1|[I G1]]; [|right; split; [now right|exact G1]]. destruct b.
      * destruct (SOME eq_refl) as [[y Z]|[y Z]]; [rewrite (AB y Z) in G1|rewrite (AF y Z) in G1]; cbn [no_front] in G1; [auto|].
        rewrite dget_dset in G1. destruct (String.eqb_spec c' c) as [->|]; [|auto]. injection G1 as <-. right. split; [now left|exact Z].
      * rewrite (NN eq_refl) in G1. auto.
    + intros N. apply R9. destruct b.
      * destruct (SOME eq_refl) as [[y Z]|[y Z]]; [rewrite (AB y Z)|rewrite (AF y Z)]; cbn [no_back]; [now apply NoDup_dset|exact N].
      * now rewrite NN.
    + intros N. apply R10. destruct b.
      * destruct (SOME eq_refl) as [[y Z]|[y Z]]; [rewrite (AB y Z)|rewrite (AF y Z)]; cbn [no_front]; [exact N|now apply NoDup_dset].
      * now rewrite NN.
Qed.

(** ** All the clients of the user *)
Lemma all_run e u c g w ui : good u -> good c -> good g ->
  view (w_db w) [u] = Some (EInfo ui) -> view (w_db w) [u; c] <> None ->
  logout_all_clients e (session_key [u; c; g]) w =
  match note_clients e (w_cdb w) u (si_sub ui) [] (mkNotes [] []) with
  | Ok (sids, n) => match clean_sessions sids w with (Ok _, w') => (Ok n, w') | (Raise x, w') => (Raise x, w') end
  | Raise x => (Raise x, w)
  end.
Proof.
  intros Hu Hc Hg V1 V2. unfold logout_all_clients, get_session_info. unfold bind at 1, in_db at 1, bind, lift, ret. cbv beta iota.
  rewrite unpack3_good by assumption.
  destruct (read_cases [u] (w_db w)) as [(x & R1 & X1)|(x & _ & X1)]; [|congruence]. rewrite R1.
  destruct (read_cases [u; c] (w_db w)) as [(y & R2 & X2)|(y & _ & X2)]; [|congruence]. rewrite R2. cbv beta iota.
  assert (x = EInfo ui) by congruence. subst x. unfold gets. cbv beta iota. cbn [in_usi in_uid subordinate]. rewrite world_eta.
  destruct (note_clients e (w_cdb w) u (si_sub ui) [] (mkNotes [] [])) as [[sids n]|]; [|reflexivity].
  destruct (clean_sessions sids w) as [[]]; reflexivity.
Qed.

(** If it works the session is there. *)
Lemma all_ok_views e u c g w n w' : good u -> good c -> good g -> logout_all_clients e (session_key [u; c; g]) w = (Ok n, w') ->
  view (w_db w) [u] <> None /\ view (w_db w) [u; c] <> None.
Proof.
  intros Hu Hc Hg H. unfold logout_all_clients, get_session_info in H. unfold bind at 1, in_db at 1, bind, lift, ret in H.
  rewrite unpack3_good in H by assumption.
  destruct (read_cases [u] (w_db w)) as [(x & R1 & X1)|(x & R1 & X1)]; rewrite R1 in H; [|discriminate].
  destruct (read_cases [u; c] (w_db w)) as [(y & R2 & X2)|(y & R2 & X2)]; rewrite R2 in H; [|discriminate].
  split; congruence.
Qed.

Lemma filter_good (f : string -> bool) l : Forall good l -> Forall good (filter f l).
Proof. rewrite !Forall_forall. intros H x I. apply filter_In in I. now apply H. Qed.

Lemma all_effect e u c g w n w' ui : fine (w_db w) -> good u -> good c -> good g ->
  view (w_db w) [u] = Some (EInfo ui) -> Forall good (si_sub ui) ->
  logout_all_clients e (session_key [u; c; g]) w = (Ok n, w') ->
  w_cdb w' = w_cdb w /\ fine (w_db w') /\
  logs_out u (fun c => In c (si_sub ui) /\ told (w_cdb w) c) (w_db w) (w_db w').
Proof.
  intros Hf Hu Hc Hg V F H. destruct (all_ok_views _ _ _ _ _ _ _ Hu Hc Hg H) as [_ V2].
  rewrite (all_run e u c g w ui Hu Hc Hg V V2) in H.
  destruct (note_clients e (w_cdb w) u (si_sub ui) [] (mkNotes [] [])) as [[sids n1]|] eqn:E; [|discriminate].
  destruct (note_clients_ok _ _ _ _ _ _ _ _ E) as (R1 & _). cbn [app] in R1. subst sids.
  destruct (clean_sessions _ w) as [r w1] eqn:C. destruct r as [[]|]; [|discriminate].
  assert (w1 = w') by congruence. subst w1.
  destruct (clean_ok u _ Hu (filter_good (told_b (w_cdb w)) _ F) w _ w' Hf C) as (A & B & D & _).
  split; [exact A|split; [exact B|]]. destruct (D eq_refl) as [D1 D2]. split.
  - intros c' [I T]. apply D1. apply filter_In. split; [exact I|now apply told_b_spec].
  - intros q Hq N. apply D2; [exact Hq|]. intros c' I. apply filter_In in I. destruct I as [I T]. apply N. split; [exact I|now apply told_b_spec].
Qed.

Lemma back_message_at e clients sid c uri t :
  (exists info, dget c clients = Some info /\ back_channel e info sid = Ok (Some (uri, t))) <-> logout_message e clients sid c uri t.
Proof.
  split.
  - intros (info & D & H). unfold back_channel in H. destruct (dget "backchannel_logout_uri" info) as [v|] eqn:M; [|discriminate].
    destruct v as [| | |uri'| |]; try discriminate. cbn [rbind] in H.
    destruct (lo_encrypt e sid) as [enc|] eqn:En; [|discriminate]. cbn [rbind] in H.
    destruct (match dget "id_token_signed_response_alg" info with
              | Some a => Ok a
              | None => let* l := dsub "id_token_signing_alg_values_supported" (lo_provider e) in
                        match l with VList (a :: _) => Ok a | VList [] => Raise EIndex | _ => Raise EType end
              end) as [alg|] eqn:Al; [|discriminate]. cbn [rbind] in H.
    destruct (dsub "client_id" info) as [cid|] eqn:Ci; [|discriminate]. cbn [rbind] in H. apply dsub_ok in Ci.
    destruct (lo_sign e alg _ cid) as [t'|] eqn:Sg; [|discriminate]. cbn [rbind] in H. injection H as <- <-.
    exists info, enc, alg, cid. repeat (split; [assumption|]). split; [|split; [exact Ci|exact Sg]].
    unfold signing_alg. destruct (dget "id_token_signed_response_alg" info) as [a|]; [left; congruence|]. right. split; [reflexivity|].
    destruct (dsub "id_token_signing_alg_values_supported" (lo_provider e)) as [l|] eqn:L; [|discriminate]. apply dsub_ok in L.
    cbn [rbind] in Al. destruct l as [| | | |[|a l]|]; try discriminate. exists l. congruence.
  - intros (info & enc & alg & cid & D & M & En & Al & Ci & Sg). exists info. split; [exact D|]. unfold back_channel. rewrite M. cbn [rbind].
    rewrite En. cbn [rbind].
    assert (X : (match dget "id_token_signed_response_alg" info with
              | Some a => Ok a
              | None => let* l := dsub "id_token_signing_alg_values_supported" (lo_provider e) in
                        match l with VList (a :: _) => Ok a | VList [] => Raise EIndex | _ => Raise EType end
              end) = Ok alg).
    { destruct Al as [-> | [-> [l L]]]; [reflexivity|]. rewrite (dsub_get _ _ _ L). reflexivity. }
    rewrite X. cbn [rbind]. rewrite (dsub_get _ _ _ Ci). cbn [rbind]. unfold BACK_CHANNEL_LOGOUT_EVENT. rewrite Sg. reflexivity.
Qed.

Lemma back_message e clients u c uri t : by_back e clients u c (uri, t) <-> logout_message e clients (session_key [u; c]) c uri t.
Proof. exact (back_message_at e clients (session_key [u; c]) c uri t). Qed.

Lemma front_frame e clients u c f : by_front e clients u c f <-> logout_frame e clients (session_key [u; c]) c f.
Proof.
  unfold by_front, logout_frame, dmem. split.
  - intros (info & D & M & H). exists info. split; [exact D|]. split; [now destruct (dget "backchannel_logout_uri" info)|]. split; [|exact H].
    unfold iframe in H. now destruct (dget "frontchannel_logout_uri" info).
  - intros (info & D & M & N & H). exists info. rewrite M. auto.
Qed.

Lemma note_client_works e clients u c n : can_tell e clients u c ->
  exists b n', note_client e clients c (session_key [u; c]) n = Ok (b, n').
Proof.
  intros (info & D & H). unfold note_client, dsub, of_option. rewrite D. cbn [rbind]. destruct H as [[N (uri & t & H)]|[N H]].
  - apply back_message in H. destruct H as (i & D' & H). assert (i = info) by congruence. subst i.
    unfold dmem. destruct (dget "backchannel_logout_uri" info); [|congruence]. rewrite H. cbn [rbind]. eauto.
  - unfold dmem, iframe. rewrite N. destruct (dget "frontchannel_logout_uri" info) as [v|]; [|eauto].
    destruct (H v eq_refl) as (uri & p & -> & S). cbn [rbind].
    destruct (match dget "frontchannel_logout_session_required" info with Some v => truthy v | None => false end); [|cbn [rbind]; eauto].
    rewrite S. destruct (contains "?" uri); cbn [rbind]; eauto.
Qed.

Lemma note_clients_works e clients u cs : (forall c, In c cs -> can_tell e clients u c) ->
  forall sids n, exists sids' n', note_clients e clients u cs sids n = Ok (sids', n').
Proof.
  induction cs as [|c cs IH]; intros H sids n; cbn [note_clients]; [eauto|].
  destruct (note_client_works e clients u c n (H c (or_introl eq_refl))) as (b & n1 & ->). cbn [rbind].
  apply IH. intros c' I. apply H. now right.
Qed.

Lemma all_works e u c g w ui : fine (w_db w) -> good u -> good c -> good g ->
  view (w_db w) [u] = Some (EInfo ui) -> Forall good (si_sub ui) -> view (w_db w) [u; c] <> None ->
  (forall c', In c' (si_sub ui) -> view (w_db w) [u; c'] <> None /\ can_tell e (w_cdb w) u c') ->
  exists n w', logout_all_clients e (session_key [u; c; g]) w = (Ok n, w').
Proof.
  intros Hf Hu Hc Hg V F V2 H. rewrite (all_run e u c g w ui Hu Hc Hg V V2).
  destruct (note_clients_works e (w_cdb w) u (si_sub ui) (fun c' I => proj2 (H c' I)) [] (mkNotes [] [])) as (sids & n & E). rewrite E.
  destruct (note_clients_ok _ _ _ _ _ _ _ _ E) as (R1 & _). cbn [app] in R1. subst sids.
  destruct (clean_sessions _ w) as [r w1] eqn:C.
  destruct (clean_ok u _ Hu (filter_good (told_b (w_cdb w)) _ F) w _ w1 Hf C) as (_ & _ & _ & D).
  rewrite D; [eauto|]. intros c' I. apply filter_In in I. now apply H.
Qed.

Lemma note_clients_unknown e clients u cs c : In c cs -> dget c clients = None ->
  forall sids n, exists x, note_clients e clients u cs sids n = Raise x.
Proof.
  intros I D. induction cs as [|c' cs IH]; [destruct I|]. intros sids n. cbn [note_clients].
  destruct (note_client e clients c' (session_key [u; c']) n) as [[b n1]|] eqn:E; [|cbn [rbind]; eauto]. cbn [rbind].
  destruct I as [->|I]; [|apply IH; exact I]. unfold note_client, dsub, of_option in E. rewrite D in E. discriminate.
Qed.

(** ** One client *)
Lemma one_run e u c g w gr : good u -> good c -> good g -> view (w_db w) [u; c; g] = Some (EGrant gr) ->
  logout_from_client e (session_key [u; c; g]) w =
  match note_client e (w_cdb w) c (session_key [u; c; g]) (mkNotes [] []) with
  | Ok (_, n) => match revoke_client_session (session_key [u; c; g]) (w_db w) with
                 | (Ok _, s') => (Ok n, mkW s' (w_cdb w))
                 | (Raise x, s') => (Raise x, mkW s' (w_cdb w))
                 end
  | Raise x => (Raise x, w)
  end.
Proof.
  intros Hu Hc Hg V. unfold logout_from_client, get_session_info. unfold bind at 1, in_db at 1, bind, lift, ret. cbv beta iota.
  rewrite unpack3_good by assumption.
  destruct (read_cases [u; c; g] (w_db w)) as [(x & R1 & X1)|(x & _ & X1)]; [|congruence]. rewrite R1. cbv beta iota.
  unfold gets. cbv beta iota. cbn [in_cid]. rewrite world_eta.
  destruct (note_client e (w_cdb w) c _ (mkNotes [] [])) as [[b n]|]; [|reflexivity].
  cbn [clean_sessions]. unfold bind, in_db, ret. destruct (revoke_client_session _ (w_db w)) as [[] s']; reflexivity.
Qed.

Lemma one_ok_view e u c g w n w' : good u -> good c -> good g -> logout_from_client e (session_key [u; c; g]) w = (Ok n, w') ->
  view (w_db w) [u; c; g] <> None.
Proof.
  intros Hu Hc Hg H. unfold logout_from_client, get_session_info in H. unfold bind at 1, in_db at 1, bind, lift, ret in H.
  rewrite unpack3_good in H by assumption.
  destruct (read_cases [u; c; g] (w_db w)) as [(x & R1 & X1)|(x & R1 & X1)]; rewrite R1 in H; [congruence|discriminate].
Qed.

(** ** The requests *)
Lemma post_all_ok e l sent : post_all e l = (sent, Ok tt) ->
  sent = map (fun x => (fst (snd x), ("logout_token=" ++ snd (snd x))%string)) l.
Proof.
  revert sent. induction l as [|[c [url t]] l IH]; intros sent H; cbn [post_all] in H; [injection H as <-; reflexivity|].
  destruct (lo_post e url _); [|discriminate]. destruct (post_all e l) as [s r] eqn:E. assert (r = Ok tt) by congruence. subst r.
  injection H as <-. cbn. f_equal. now apply IH.
Qed.
Lemma post_all_works e l : (forall url data, exists z, lo_post e url data = Ok z) -> exists sent, post_all e l = (sent, Ok tt).
Proof.
  intros W. induction l as [|[c [url t]] l [s IH]]; cbn [post_all]; [eauto|]. destruct (W url ("logout_token=" ++ t)%string) as [z ->].
  rewrite IH. eauto.
Qed.

(** ** Text *)
Lemma ends_slash s : ends_with "/" s = true <-> exists i, s = (i ++ "/")%string.
Proof.
  assert (E : forall s, ends_with "/" s = (String.eqb "/" s || match s with String _ s' => ends_with "/" s' | EmptyString => false end)%bool).
  { intros []; reflexivity. }
  induction s as [|a s IH]; [split; [discriminate|intros [[|] H]; discriminate]|]. rewrite E, orb_true_iff, IH, String.eqb_eq. split.
  - intros [<-|[i ->]]; [exists ""%string; reflexivity|exists (String a i); reflexivity].
  - intros [[|b i] H]; [left; now rewrite H|]. injection H as -> ->. right. eauto.
Qed.

(** ** The request *)
Lemma info_ok sid w i w' : in_db (get_session_info sid false false true false false) w = (Ok i, w') ->
  w' = w /\ exists u c g x, unpack3 sid = Ok (u, c, g) /\ view (w_db w) [u; c; g] = Some x /\ i = mkSI sid u c g None None (Some x) None None.
Proof.
  intros H. destruct (in_db_ok _ _ _ _ H) as (s' & E & ->). unfold get_session_info, bind, lift, ret in E.
  destruct (unpack3 sid) as [[[u c] g]|] eqn:U; [|discriminate].
  destruct (read_cases [u; c; g] (w_db w)) as [(x & R & V)|(x & R & V)]; rewrite R in E; [|discriminate].
  injection E as <- <-. split; [apply world_eta|]. exists u, c, g, x. auto.
Qed.

Definition hinted (request : msg) (c : string) (x : Types.entry) : Prop :=
  exists t aud g, dget (verified "id_token_hint") request = Some (VDict t) /\ dget "aud" t = Some aud /\ val_in (VStr c) aud = Ok true /\
    x = EGrant g /\ dget "sub" t = Some (VStr (g_sub g)).

Lemma val_eqb_str v s : val_eqb v (VStr s) = true -> v = VStr s.
Proof. destruct v; cbn; try discriminate. intros H. apply String.eqb_eq in H. now subst. Qed.

Lemma end_ok e cookie decode request w r w' : end_session e cookie decode request w = (Ok r, w') ->
  w' = w /\ exists v ts ty d sid u c g x alg t url, cookie = Ok (Some (v, ts, ty)) /\ decode v = Ok (VDict d) /\ dget "sid" d = Some (VStr sid) /\
    unpack3 sid = Ok (u, c, g) /\ view (w_db w) [u; c; g] = Some x /\
    (dmem "post_logout_redirect_uri" request = true -> dmem "id_token_hint" request = true) /\
    (dmem "id_token_hint" request = true -> hinted request c x) /\
    lo_alg e = Some alg /\ lo_sign e (VStr alg) (en_payload r) (VStr (lo_issuer e)) = Ok t /\ lo_verify_url e = Some url /\
    en_location r = (url ++ "?" ++ ul_encode (lo_url e) [("sjwt", t)])%string /\
    ((dget "post_logout_redirect_uri" request = None /\ exists p uri, lo_path e = Some p /\
        uri = (if ends_with "/" (lo_issuer e) then (lo_issuer e ++ p)%string else (lo_issuer e ++ "/" ++ p)%string) /\
        en_payload r = [("sid", VStr sid); ("redirect_uri", VStr uri)]) \/
     exists raw, dget "post_logout_redirect_uri" request = Some (VStr raw) /\
       verify_uri (lo_url e) (w_cdb w) request "post_logout_redirect_uri" (Some c) = Ok tt /\
       ((dmem "state" request = false /\ en_payload r = [("sid", VStr sid); ("redirect_uri", VStr raw)]) \/
        exists st, dget "state" request = Some (VStr st) /\
          en_payload r = [("sid", VStr sid); ("state", VStr st);
                          ("redirect_uri", VStr (raw ++ "?" ++ ul_encode (lo_url e) [("state", st)])%string)])).
Proof.
  intros H. unfold end_session in H.
  destruct (dmem "post_logout_redirect_uri" request && negb (dmem "id_token_hint" request)) eqn:Need; [discriminate|].
  destruct (bind_ok _ _ _ _ _ H) as (part & w1 & E1 & H1). clear H. apply lift_ok in E1. destruct E1 as [E1 ->].
  destruct part as [[[v ts] ty]|]; [|discriminate].
  assert (Ck : cookie = Ok (Some (v, ts, ty))). { destruct cookie as [o|[]]; try discriminate; congruence. }
  destruct (bind_ok _ _ _ _ _ H1) as (info & w1 & E2 & H2). clear H1 E1. apply lift_ok in E2. destruct E2 as [Dec ->].
  destruct (bind_ok _ _ _ _ _ H2) as (i & w1 & E3 & H3). clear H2.
  assert (X : exists d sid u c g x, info = VDict d /\ dget "sid" d = Some (VStr sid) /\ unpack3 sid = Ok (u, c, g) /\
            view (w_db w) [u; c; g] = Some x /\ i = mkSI sid u c g None None (Some x) None None /\ w1 = w).
  { unfold catch in E3. match type of E3 with (match ?t with _ => _ end) = _ => destruct t as [r0 w0] eqn:E end.
    destruct r0 as [j|y]; [|destruct (is_key_error y); discriminate]. assert (j = i /\ w0 = w1) as [-> ->] by (split; congruence).
    destruct (bind_ok _ _ _ _ _ E) as (sid & w2 & E4 & E5). apply lift_ok in E4. destruct E4 as [E4 ->].
    destruct (info_ok _ _ _ _ E5) as (-> & u & c & g & x & A & B & C).
    destruct info as [| | | | |d]; try discriminate. exists d, sid, u, c, g, x. destruct (dget "sid" d) as [[]|]; try discriminate.
    assert (s = sid) by congruence. subst s. auto 8. }
  destruct X as (d & sid & u & c & g & x & -> & Sid & U & V & -> & ->). clear E3. cbn [in_cid in_grant in_sid] in H3.
  destruct (bind_ok _ _ _ _ _ H3) as (tt1 & w1 & E4 & H4). clear H3.
  assert (Hint : w1 = w /\ (dmem "id_token_hint" request = true -> hinted request c x)).
  { destruct (dmem "id_token_hint" request); [|unfold ret in E4; split; [congruence|discriminate]].
    destruct (bind_ok _ _ _ _ _ E4) as (t & w2 & F1 & G1). clear E4. apply lift_ok in F1. destruct F1 as [F1 ->].
    destruct (bind_ok _ _ _ _ _ G1) as (aud & w2 & F2 & G2). clear G1. apply lift_ok in F2. destruct F2 as [F2 ->].
    destruct (bind_ok _ _ _ _ _ G2) as (b & w2 & F3 & G3). clear G2. apply lift_ok in F3. destruct F3 as [F3 ->].
    destruct b; cbn [negb] in G3; [|discriminate].
    destruct (bind_ok _ _ _ _ _ G3) as (sub & w2 & F4 & G4). clear G3. apply lift_ok in F4. destruct F4 as [F4 ->].
    destruct (bind_ok _ _ _ _ _ G4) as (gr & w2 & F5 & G5). clear G4. destruct (as_grant_ok _ _ _ _ F5) as [-> ->].
    destruct (val_eqb sub (VStr (g_sub gr))) eqn:Es; cbn [negb] in G5; [|discriminate]. apply val_eqb_str in Es. subst sub.
    unfold ret in G5. split; [congruence|]. intros _. exists t, aud, gr. apply dsub_ok in F2, F4.
    destruct (dget (verified "id_token_hint") request) as [[]|]; try discriminate. assert (d0 = t) by congruence. subst. auto 6. }
  destruct Hint as [-> Hint]. clear E4.
  destruct (bind_ok _ _ _ _ _ H4) as (cl & w1 & E5 & H5). clear H4. unfold gets in E5. injection E5 as <- <-.
  destruct (bind_ok _ _ _ _ _ H5) as (ci & w1 & E6 & H6). clear H5. apply lift_ok in E6. destruct E6 as [Hci ->].
  destruct (bind_ok _ _ _ _ _ H6) as ([uri plur] & w1 & E7 & H7). clear H6. cbv beta iota zeta in H7.
  destruct (bind_ok _ _ _ _ _ H7) as ([uri2 payload] & w2 & E8 & H8). clear H7.
  destruct (bind_ok _ _ _ _ _ H8) as (alg & w3 & E9 & H9). clear H8. apply lift_ok in E9. destruct E9 as [E9 ->].
  destruct (bind_ok _ _ _ _ _ H9) as (t & w3 & E10 & H10). clear H9. apply lift_ok in E10. destruct E10 as [E10 ->].
  destruct (bind_ok _ _ _ _ _ H10) as (url & w3 & E11 & H11). clear H10. apply lift_ok in E11. destruct E11 as [E11 ->].
  unfold ret in H11. injection H11 as <- <-. cbn [en_payload en_location].
  assert (Al : lo_alg e = Some alg) by (destruct (lo_alg e); cbn in E9; congruence).
  assert (Ul : lo_verify_url e = Some url) by (destruct (lo_verify_url e); cbn in E11; congruence).
  assert (Y : w2 = w /\
    ((dget "post_logout_redirect_uri" request = None /\ exists p uri', lo_path e = Some p /\
        uri' = (if ends_with "/" (lo_issuer e) then (lo_issuer e ++ p)%string else (lo_issuer e ++ "/" ++ p)%string) /\
        dset "redirect_uri" (VStr uri2) payload = [("sid"%string, VStr sid); ("redirect_uri"%string, VStr uri')]) \/
     exists raw, dget "post_logout_redirect_uri" request = Some (VStr raw) /\
       verify_uri (lo_url e) (w_cdb w) request "post_logout_redirect_uri" (Some c) = Ok tt /\
       ((dmem "state" request = false /\ dset "redirect_uri" (VStr uri2) payload = [("sid"%string, VStr sid); ("redirect_uri"%string, VStr raw)]) \/
        exists st, dget "state" request = Some (VStr st) /\
          dset "redirect_uri" (VStr uri2) payload = [("sid"%string, VStr sid); ("state"%string, VStr st);
                          ("redirect_uri"%string, VStr (raw ++ "?" ++ ul_encode (lo_url e) [("state"%string, st)])%string)]))).
  { destruct (dget "post_logout_redirect_uri" request) as [pv|] eqn:P.
    - destruct (bind_ok _ _ _ _ _ E7) as (x1 & w3 & F1 & G1). clear E7. apply lift_ok in F1. destruct F1 as [F1 ->]. destruct x1.
      destruct (bind_ok _ _ _ _ _ G1) as (raw & w3 & F2 & G2). clear G1. apply lift_ok in F2. destruct F2 as [F2 ->].
      unfold ret in G2. injection G2 as <- <- <-. unfold msub_str in F2. rewrite P in F2. destruct pv; try discriminate.
      assert (s = raw) by congruence. subst s. cbn [andb] in E8.
      destruct (dmem "state" request) eqn:S.
      + destruct (bind_ok _ _ _ _ _ E8) as (st & w3 & F3 & G3). clear E8. apply lift_ok in F3. destruct F3 as [F3 ->].
        unfold ret in G3. injection G3 as <- <- <-. split; [reflexivity|]. right. exists raw. split; [auto|]. split; [exact F1|]. right. exists st.
        unfold msub_str in F3. destruct (dget "state" request) as [[]|]; try discriminate. split; [congruence|reflexivity].
      + unfold ret in E8. injection E8 as <- <- <-. split; [reflexivity|]. right. exists raw. auto 6.
    - destruct (bind_ok _ _ _ _ _ E7) as (p & w3 & F1 & G1). clear E7. apply lift_ok in F1. destruct F1 as [F1 ->].
      unfold ret in G1. injection G1 as <- <- <-. cbn [andb] in E8. unfold ret in E8. injection E8 as <- <- <-.
      split; [reflexivity|]. left. split; [reflexivity|]. exists p. eexists. split; [destruct (lo_path e); cbn in F1; congruence|]. split; reflexivity. }
  destruct Y as [-> Y]. split; [reflexivity|].
  exists v, ts, ty, d, sid, u, c, g, x, alg, t, url. repeat (split; [first [assumption|reflexivity]|]).
  split. { intros M. rewrite M in Need. cbn in Need. now destruct (dmem "id_token_hint" request). }
  repeat (split; [first [assumption|reflexivity]|]). exact Y.
Qed.

Lemma end_works e (cookie : result (option (string * string * string))) decode (request : msg) w v ts ty d sid u c g gr raw t aud info alg url :
  cookie = Ok (Some (v, ts, ty)) -> decode v = Ok (VDict d) -> dget "sid" d = Some (VStr sid) ->
  unpack3 sid = Ok (u, c, g) -> view (w_db w) [u; c; g] = Some (EGrant gr) ->
  dmem "id_token_hint" request = true -> dget (verified "id_token_hint") request = Some (VDict t) ->
  dget "aud" t = Some aud -> val_in (VStr c) aud = Ok true -> dget "sub" t = Some (VStr (g_sub gr)) ->
  dget c (w_cdb w) = Some info ->
  dget "post_logout_redirect_uri" request = Some (VStr raw) ->
  verify_uri (lo_url e) (w_cdb w) request "post_logout_redirect_uri" (Some c) = Ok tt ->
  (forall s, dget "state" request = Some s -> exists st, s = VStr st) ->
  lo_alg e = Some alg -> lo_verify_url e = Some url -> (forall p, exists x, lo_sign e (VStr alg) p (VStr (lo_issuer e)) = Ok x) ->
  exists r, end_session e cookie decode request w = (Ok r, w).
Proof.
  intros -> Dec Sid U V Mh Vh Au Ain Su Hc P Vu St Al Ul Sg. unfold end_session. rewrite Mh. cbn [negb]. rewrite andb_false_r.
  unfold lift at 1. rewrite (bind_run _ _ w (Some (v, ts, ty)) w eq_refl).
  unfold lift at 1. rewrite Dec. rewrite (bind_run _ _ w (VDict d) w eq_refl).
  assert (I : in_db (get_session_info sid false false true false false) w = (Ok (mkSI sid u c g None None (Some (EGrant gr)) None None), w)).
  { unfold in_db, get_session_info, bind, lift, ret. rewrite U. destruct (read_cases [u; c; g] (w_db w)) as [(x & R & V')|(x & R & V')]; [|congruence].
    rewrite R. cbv beta iota. rewrite world_eta. repeat f_equal. congruence. }
  rewrite (bind_run _ _ w (mkSI sid u c g None None (Some (EGrant gr)) None None) w).
  2: { unfold catch. cbv beta iota. rewrite Sid. rewrite (bind_run _ _ w sid w eq_refl), I. reflexivity. }
  cbn [in_cid in_grant in_sid].
  rewrite (bind_run _ _ w tt w).
  2: { unfold lift at 1. rewrite Vh. rewrite (bind_run _ _ w t w eq_refl). unfold lift at 1. rewrite (dsub_get _ _ _ Au).
       rewrite (bind_run _ _ w aud w eq_refl). unfold lift at 1. rewrite Ain. rewrite (bind_run _ _ w true w eq_refl). cbn [negb].
       unfold lift at 1. rewrite (dsub_get _ _ _ Su). rewrite (bind_run _ _ w (VStr (g_sub gr)) w eq_refl).
       rewrite (bind_run _ _ w gr w). 2: { unfold in_db, as_grant, ret. now rewrite world_eta. }
       cbn [val_eqb]. rewrite String.eqb_refl. reflexivity. }
  rewrite (bind_run (gets w_cdb) _ w (w_cdb w) w eq_refl).
  unfold lift at 1. rewrite (dsub_get _ _ _ Hc). rewrite (bind_run _ _ w info w eq_refl). rewrite P.
  rewrite (bind_run _ _ w (raw, true) w).
  2: { unfold lift at 1. rewrite Vu. rewrite (bind_run _ _ w tt w eq_refl). unfold lift at 1, msub_str. rewrite P.
       rewrite (bind_run _ _ w raw w eq_refl). reflexivity. }
  cbv beta iota zeta. cbn [andb].
  assert (X : exists uri payload, (if dmem "state" request then
                               s <-- lift (msub_str "state" request) ;;
                               ret ((raw ++ "?" ++ ul_encode (lo_url e) [("state", s)])%string, dset "state" (VStr s) [("sid", VStr sid)])
                             else ret (raw, [("sid"%string, VStr sid)])) w = (Ok (uri, payload), w)).
  { unfold dmem. destruct (dget "state" request) as [s|] eqn:S; [|unfold ret; eauto]. destruct (St s eq_refl) as [st ->].
    unfold lift at 1, msub_str. rewrite S. rewrite (bind_run _ _ w st w eq_refl). unfold ret. eauto. }
  destruct X as (uri & payload & X). rewrite (bind_run _ _ w _ w X). cbv beta iota zeta.
  unfold lift at 1. rewrite Al. rewrite (bind_run _ _ w alg w eq_refl).
  destruct (Sg (dset "redirect_uri" (VStr uri) payload)) as [z Z]. unfold lift at 1. rewrite Z. rewrite (bind_run _ _ w z w eq_refl).
  unfold lift at 1. rewrite Ul. rewrite (bind_run _ _ w url w eq_refl). unfold ret. eauto.
Qed.

(** ** Frames *)
Lemma frame_ok u info iss sid f uri : dget "frontchannel_logout_uri" info = Some (VStr uri) -> iframe u info iss sid = Ok (Some f) ->
  ((match dget "frontchannel_logout_session_required" info with Some v => truthy v | None => false end) = false /\
   f = ("<iframe src=""" ++ uri ++ """>")%string) \/
  ((match dget "frontchannel_logout_session_required" info with Some v => truthy v | None => false end) = true /\
   ((contains "?" uri = false /\ f = ("<iframe src=""" ++ uri ++ "?" ++ ul_encode u [("iss", iss); ("sid", sid)] ++ """>")%string) \/
    (contains "?" uri = true /\ exists p, ul_split u uri = Ok p /\
      f = ("<iframe src=""" ++ (up_base p ++ (if nonempty (up_fragment p) then "#" ++ up_fragment p else "")) ++ "?" ++
           ul_encode u (flat (dset "sid" [sid] (dset "iss" [iss] (ul_qs u (up_query p))))) ++ """>")%string))).
Proof.
  intros D H. unfold iframe in H. rewrite D in H. cbn [rbind] in H.
  destruct (match dget "frontchannel_logout_session_required" info with Some v => truthy v | None => false end); [right|left; split; congruence].
  split; [reflexivity|]. destruct (contains "?" uri); [right|left].
  - destruct (ul_split u uri) as [p|]; [|discriminate]. cbn [rbind fst snd] in H. split; [reflexivity|]. exists p. split; congruence.
  - cbn [rbind fst snd] in H. split; [reflexivity|]. injection H as <-. reflexivity.
Qed.

Lemma flat_In d k v : In (k, v) (flat d) <-> exists l, In (k, l) d /\ In v l.
Proof.
  unfold flat. rewrite in_flat_map. split.
  - intros ([k' l] & I & J). apply in_map_iff in J. destruct J as (s & E & J). injection E as <- <-. eauto.
  - intros (l & I & J). exists (k, l). split; [exact I|]. apply in_map_iff. eauto.
Qed.

Lemma logout_params_flat iss sid q k v : NoDup (dkeys q) ->
  (In (k, v) (flat (dset "sid" [sid] (dset "iss" [iss] q))) <-> logout_params iss sid q k v).
Proof.
  intros N. rewrite flat_In. unfold logout_params.
  assert (N2 : NoDup (dkeys (dset "sid" [sid] (dset "iss" [iss] q)))) by (now repeat apply NoDup_dset).
  assert (X : forall l, In (k, l) (dset "sid" [sid] (dset "iss" [iss] q)) <-> dget k (dset "sid" [sid] (dset "iss" [iss] q)) = Some l).
  { intros l. split; [now apply In_dget|apply dget_In]. }
  assert (Y : forall l, In (k, l) q <-> dget k q = Some l) by (intros l; split; [now apply In_dget|apply dget_In]).
  split.
  - intros (l & I & J). apply X in I. rewrite !dget_dset in I.
    destruct (String.eqb_spec k "sid"); [injection I as <-; destruct J as [<-|[]]; auto|].
    destruct (String.eqb_spec k "iss"); [injection I as <-; destruct J as [<-|[]]; auto|]. right. right. split; [auto|split; [auto|]].
    exists l. split; [now apply Y|exact J].
  - intros [[-> ->]|[[-> ->]|(N1 & N3 & l & I & J)]].
    + exists [iss]. split; [|now left]. apply X. rewrite dget_dset_neq by discriminate. apply dget_dset_eq.
    + exists [sid]. split; [|now left]. apply X. apply dget_dset_eq.
    + exists l. split; [|exact J]. apply X. rewrite !dget_dset_neq by assumption. now apply Y.
Qed.

(** CookieProofs.v: proofs about Cookie.v. *)
From Verif Require Import Base BaseProofs SplitProofs Types PyInt PyIntProofs LV LVProofs Cookie CookieSpec.

Lemma ends_c_spec c s : ends_c c s = false <-> (forall p, s <> (p ++ String c "")%string).
Proof.
  induction s as [|d s IH]; cbn.
  - split; [|reflexivity]. intros _ [|x p]; discriminate.
  - destruct s as [|e s].
    + split.
      * intros H [|x p] E; cbn in E; inversion E; subst; [rewrite Ascii.eqb_refl in H; discriminate|].
        destruct p; discriminate.
      * intros H. destruct (Ascii.eqb_spec c d) as [->|]; [|reflexivity]. exfalso. apply (H ""%string). reflexivity.
    + rewrite IH. split.
      * intros H [|x p] E; cbn in E; inversion E; subst. eapply H; eauto.
      * intros H p E. apply (H (String d p)). cbn. rewrite E. reflexivity.
Qed.

Lemma no_colon_all z : sforall (fun d => negb (Ascii.eqb ":" d)) (py_str z) = true.
Proof.
  destruct (Z.leb_spec 0 z) as [H|H]; [apply no_colon; exact H|].
  destruct z as [|p|p]; [lia|lia|].
  change (py_str (Z.neg p)) with (String "-" (py_str (Z.pos p))). cbn [sforall].
  rewrite no_colon by lia. reflexivity.
Qed.
Lemma free_contains s : sforall (fun d => negb (Ascii.eqb ":" d)) s = true -> contains "::" s = false.
Proof.
  induction s as [|d s IH]; [reflexivity|]. cbn [sforall]. intros H. apply andb_true_iff in H as [H1 H2].
  change (contains "::" (String d s)) with (String.prefix (dsep ":") (String d s) || contains "::" s)%bool.
  rewrite prefix_dsep, IH by exact H2. apply negb_true_iff in H1. rewrite H1. reflexivity.
Qed.
Lemma free_ends s : sforall (fun d => negb (Ascii.eqb ":" d)) s = true -> ends_c ":" s = false.
Proof.
  induction s as [|d s IH]; [reflexivity|]. cbn [sforall]. intros H. apply andb_true_iff in H as [H1 H2].
  apply negb_true_iff in H1. destruct s as [|e s]; [exact H1|]. exact (IH H2).
Qed.
(** adding text without the separator character at the end keeps a text free of "::" *)
Lemma contains_app_free a b : contains "::" a = false -> sforall (fun d => negb (Ascii.eqb ":" d)) b = true ->
  contains "::" (a ++ b) = false.
Proof.
  intros Ha Hb. induction a as [|d a IH]; [apply free_contains; exact Hb|].
  change (contains "::" (String d a)) with (String.prefix (dsep ":") (String d a) || contains "::" a)%bool in Ha.
  apply orb_false_iff in Ha as [H1 H2]. rewrite prefix_dsep in H1.
  change (contains "::" (String d a ++ b)) with (String.prefix (dsep ":") (String d (a ++ b)) || contains "::" (a ++ b))%bool.
  rewrite prefix_dsep, IH by exact H2. rewrite orb_false_r.
  destruct a as [|e a]; [|exact H1]. cbn [append].
  destruct b as [|e b]; [apply andb_false_r|]. cbn [sforall] in Hb. apply andb_true_iff in Hb as [Hb _].
  apply negb_true_iff in Hb. rewrite Hb. apply andb_false_r.
Qed.

Lemma clean3 v t ty x : plain_value v -> plain_type ty -> sforall (fun d => negb (Ascii.eqb ":" d)) x = true ->
  clean ":" [v; py_str t; (ty ++ x)%string] = true.
Proof.
  intros [V1 V2] T X. cbn [clean]. change (dsep ":") with "::"%string.
  rewrite V1. apply ends_c_spec in V2. rewrite V2.
  rewrite (free_contains _ (no_colon_all t)), (free_ends _ (no_colon_all t)).
  rewrite contains_app_free by auto. reflexivity.
Qed.

(** Bytes cannot be moved between the payload and the time stamp. *)
Lemma no_shift v t ty load ts v' ts' ty' :
  plain_value v -> plain_type ty ->
  (load ++ ts)%string = (payload_of v t ty ++ py_str t)%string ->
  split "::" load = [v'; ts'; ty'] -> ts = ts' ->
  v' = v /\ ts' = py_str t /\ ty' = ty.
Proof.
  intros V T E S <-.
  assert (L : load = join "::" [v'; ts; ty']) by (rewrite <- S; symmetry; apply (join_split ":")).
  assert (C : clean ":" [v'; ts; ty'] = true) by (rewrite <- S; apply (clean_split ":")).
  assert (S1 : split "::" (payload_of v t ty ++ py_str t) = [v; py_str t; (ty ++ py_str t)%string]).
  { replace (payload_of v t ty ++ py_str t)%string with (join (dsep ":") [v; py_str t; (ty ++ py_str t)%string]).
    - apply (split_join ":"). apply clean3; auto. apply no_colon_all.
    - unfold payload_of. cbn [join]. change (dsep ":") with "::"%string. rewrite !str_app_assoc. reflexivity. }
  cbn [clean] in C. rewrite !andb_true_iff, !negb_true_iff in C.
  destruct C as [[C1 C2] [[C3 C4] C5]].
  assert (S2 : split "::" (load ++ ts) = v' :: ts :: split "::" (ty' ++ ts)).
  { rewrite L. cbn [join]. rewrite !str_app_assoc.
    etransitivity; [apply (split_app_sep ":"); auto|]. f_equal. apply (split_app_sep ":"); auto. }
  rewrite E, S1 in S2. inversion S2. subst v' ts.
  split; [reflexivity|]. split; [reflexivity|].
  assert (J : (ty ++ py_str t)%string = (ty' ++ py_str t)%string).
  { pose proof (join_split ":" (ty' ++ py_str t)) as J. change (dsep ":") with "::"%string in J.
    match goal with H : [_] = split _ _ |- _ => rewrite <- H in J end. exact J. }
  symmetry. eapply str_app_cancel_r. exact J.
Qed.

Section Crypto.
Variables (mac_sign : string -> string -> string) (mac_verify : string -> string -> string -> bool).
Variables (gcm_enc : string -> string -> string -> string * string)
          (gcm_dec : string -> string -> string -> string -> option string).
Variables (b64 : string -> string) (unb64 : string -> option string).
Variable header_value : string -> string -> option string.
Notation ver := (ver_dec_content mac_verify gcm_dec unb64).
Notation gcv := (get_cookie_value mac_verify gcm_dec unb64 header_value).

Section Log.
Variables (made : log) (d : dealer).
Hypothesis U : unforgeable made d mac_verify gcm_dec b64 mac_sign.
Hypothesis B : b64_text b64.

Lemma py_str_rstrip z : rstrip (py_str z) = py_str z.
Proof. apply rstrip_no_space, py_str_no_space. Qed.

Lemma ver_sound parts load ts : ver parts (d_sign d) (d_enc d) = Ok (Some (load, ts)) ->
  exists v t ty, made v t ty /\ (load ++ ts)%string = (payload_of v t ty ++ py_str t)%string.
Proof.
  intros H.
  destruct parts as [|p0 [|p1 [|p2 [|p3 [|p4 ps]]]]]; try discriminate; cbn [ver_dec_content] in H.
  - destruct (b64dec unb64 p2) as [mac|]; [|discriminate]. cbn [rbind] in H.
    destruct (d_sign d) as [k|] eqn:Ek; [|discriminate]. cbn [of_option rbind] in H.
    destruct (mac_verify k (p1 ++ p0) mac) eqn:Em; [|discriminate]. inversion H; subst.
    eapply u_mac; eauto.
  - destruct (b64dec unb64 p1) as [iv|]; [|discriminate]. cbn [rbind] in H.
    destruct (b64dec unb64 p2) as [ctx|]; [|discriminate]. cbn [rbind] in H.
    destruct (b64dec unb64 p3) as [tag|]; [|discriminate]. cbn [rbind] in H.
    destruct (d_enc d) as [k|] eqn:Ek; [|discriminate]. cbn [of_option rbind] in H.
    destruct (gcm_dec k iv ctx tag) as [m|] eqn:Em; [|discriminate].
    destruct (u_gcm _ _ _ _ _ _ U _ _ _ _ _ Ek Em) as (v & t & ty & M & Hm).
    exists v, t, ty. split; [exact M|].
    destruct Hm as [->|(sk & Esk & ->)].
    + rewrite lv_round_trip_exact in H. unfold strip_last in H. cbn [rev app rbind] in H.
      rewrite py_str_rstrip in H. inversion H. reflexivity.
    + rewrite lv_round_trip_exact in H. unfold strip_last in H. cbn [rev app rbind] in H.
      rewrite B in H. destruct (b64dec unb64 _) as [mac|]; [|discriminate]. cbn [rbind] in H.
      rewrite Esk in H. cbn [of_option rbind] in H.
      destruct (mac_verify sk _ mac); [|discriminate]. inversion H. reflexivity.
Qed.

Theorem accepted_made name kaka v ts ty : plain_log made ->
  gcv d name kaka = Ok (Some (v, ts, ty)) -> exists t, ts = py_str t /\ made v t ty.
Proof.
  intros P. unfold get_cookie_value, parse_cookie.
  destruct (nonempty kaka); cbn [negb]; [|discriminate].
  destruct (header_value name kaka) as [x|]; [|discriminate].
  destruct (ver (split "|" x) (d_sign d) (d_enc d)) as [[[load ts0]|]|e] eqn:E; try discriminate;
    [|destruct e; discriminate].
  destruct (split "::" load) as [|a [|b [|c [|? ?]]]] eqn:S; try discriminate.
  destruct (String.eqb_spec ts0 b) as [Eb|]; [|discriminate]. intros H. inversion H. subst a b c.
  apply ver_sound in E as (v1 & t1 & ty1 & M & E). destruct (P _ _ _ M) as [V T].
  destruct (no_shift _ _ _ _ _ _ _ _ V T E S eq_refl) as (-> & -> & ->). eauto.
Qed.
End Log.

(** ** What the server makes it accepts *)
Hypothesis mac_ok : forall k m, mac_verify k m (mac_sign k m) = true.
Hypothesis gcm_ok : forall k iv m, gcm_dec k iv (fst (gcm_enc k iv m)) (snd (gcm_enc k iv m)) = Some m.
Hypothesis b64_ok : forall x, unb64 (b64 x) = Some x.
Hypothesis b64_bar : forall x, sforall (fun c => negb (Ascii.eqb "|" c)) (b64 x) = true.
Hypothesis b64_sp : b64_text b64.

Definition no_bar (s : string) : bool := sforall (fun c => negb (Ascii.eqb "|" c)) s.

Lemma py_str_bar z : no_bar (py_str z) = true.
Proof.
  assert (D : forall n, (0 <= n)%Z -> no_bar (py_str n) = true).
  { intros n H. eapply sforall_impl; [|apply py_str_digits; exact H].
    intros c Hc. destruct (Ascii.eqb_spec "|" c) as [<-|]; [discriminate|reflexivity]. }
  destruct (Z.leb_spec 0 z) as [H|H]; [auto|]. destruct z as [|p|p]; [lia|lia|].
  change (py_str (Z.neg p)) with (String "-" (py_str (Z.pos p))). unfold no_bar. cbn [sforall].
  change (negb (Ascii.eqb "|" "-") && no_bar (py_str (Z.pos p)) = true). rewrite D by lia. reflexivity.
Qed.

Lemma split_bar l : l <> [] -> forallb (free "|") l = true -> split "|" (join "|" l) = l.
Proof. exact (split1_join "|" l). Qed.

Theorem made_accepted now iv d v ty name ttl kill ss ho kaka c m :
  plain_value v -> plain_type ty -> d_sign d <> None ->
  (d_enc d = None -> no_bar v = true /\ no_bar ty = true) ->
  create_cookie mac_sign gcm_enc b64 now iv d v ty name ttl kill ss ho = Ok c ->
  dget name c = Some m -> kaka <> ""%string -> header_value name kaka = Some (mo_value m) ->
  gcv d name kaka = Ok (Some (v, py_str now, ty)).
Proof.
  intros V T Hs Hb Hc Hg Hk Hh. unfold create_cookie, make_cookie in Hc.
  pose proof (py_str_nonempty now) as Hn. apply nonempty_true in Hn. rewrite Hn in Hc.
  fold (payload_of v now ty) in Hc.
  unfold get_cookie_value, parse_cookie. apply nonempty_true in Hk. rewrite Hk, Hh. cbn [negb].
  assert (X : ver (split "|" (mo_value m)) (d_sign d) (d_enc d) = Ok (Some (payload_of v now ty, py_str now))).
  { unfold sign_enc_payload in Hc. destruct (d_sign d) as [sk|]; [|congruence].
    destruct (d_enc d) as [ek|].
    - destruct (existsb _ _); cbn [negb] in Hc; [|discriminate].
      set (msg := if nonempty (mac_sign sk (payload_of v now ty ++ py_str now)) then _ else _) in Hc.
      destruct (gcm_enc ek iv msg) as [ctx tag] eqn:Eg. cbn [rbind] in Hc. match type of Hc with Ok ?x = _ => assert (Ec : c = x) by congruence end. subst c. clear Hc.
      cbn [dget] in Hg. rewrite String.eqb_refl in Hg. match type of Hg with Some ?x = _ => assert (Em : m = x) by congruence end. subst m. cbn [mo_value].
      rewrite split_bar by
        (try discriminate; cbn [forallb]; unfold free; fold (no_bar (py_str now)); rewrite py_str_bar, !b64_bar; reflexivity).
      cbn [ver_dec_content]. unfold b64dec. rewrite !b64_ok. cbn [of_option rbind].
      pose proof (gcm_ok ek iv msg) as G. rewrite Eg in G. cbn [fst snd] in G. rewrite G. unfold msg.
      destruct (nonempty _); rewrite lv_round_trip_exact; unfold strip_last; cbn [rev app rbind].
      + rewrite b64_sp, b64_ok. cbn [of_option rbind]. rewrite mac_ok. reflexivity.
      + rewrite py_str_rstrip. reflexivity.
    - cbn [rbind] in Hc. match type of Hc with Ok ?x = _ => assert (Ec : c = x) by congruence end. subst c. clear Hc.
      cbn [dget] in Hg. rewrite String.eqb_refl in Hg. match type of Hg with Some ?x = _ => assert (Em : m = x) by congruence end. subst m. cbn [mo_value].
      destruct (Hb eq_refl) as [Hb1 Hb2].
      rewrite split_bar.
      + cbn [ver_dec_content]. unfold b64dec. rewrite !b64_ok. cbn [of_option rbind]. rewrite mac_ok. reflexivity.
      + discriminate.
      + cbn [forallb]. unfold free. fold (no_bar (py_str now)). rewrite py_str_bar, b64_bar. cbn [andb].
        rewrite andb_true_r. unfold payload_of. cbn [join]. rewrite !sforall_app.
        fold (no_bar v) (no_bar ty) (no_bar (py_str now)). rewrite Hb1, Hb2, py_str_bar. reflexivity. }
  rewrite X. assert (S : split "::" (payload_of v now ty) = [v; py_str now; ty]).
  { apply (split_join ":"). rewrite <- (str_app_nil_r ty). apply clean3; auto. }
  rewrite S, String.eqb_refl. reflexivity.
Qed.

(** the name of a cookie is not protected: what is accepted under one is accepted under any other *)
Theorem name_free d n1 n2 k1 k2 : k1 <> ""%string -> k2 <> ""%string ->
  header_value n2 k2 = header_value n1 k1 -> gcv d n2 k2 = gcv d n1 k1.
Proof.
  intros H1 H2 E. unfold get_cookie_value, parse_cookie. apply nonempty_true in H1, H2. rewrite H1, H2, E. reflexivity.
Qed.
End Crypto.

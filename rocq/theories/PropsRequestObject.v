(** PropsRequestObject.v: C94, the algorithms of request objects. *)
From Verif Require Import Base BaseProofs Monad Types Ctx Uri AuthzRequest RequestObject RequestObjectSpec.
Local Open Scope Z_scope.

Lemma allowed_registered db pinfo c kind reg sup a x : alg_params kind = Some (reg, sup) -> has_registered db c reg a ->
  allowed_algorithms db pinfo (Some c) (VStr x) kind = if contains x a then Ok tt else Raise EValue.
Proof.
  intros K (cinfo & C & R). unfold allowed_algorithms, client_sub, get_some. rewrite C, K. cbn [of_option rbind]. rewrite R. reflexivity.
Qed.
Lemma allowed_open db pinfo c kind reg sup l x : alg_params kind = Some (reg, sup) -> leaves_open db pinfo c reg sup l ->
  allowed_algorithms db pinfo (Some c) (VStr x) kind = if smem x l then Ok tt else Raise EValue.
Proof.
  intros K ((cinfo & C & R) & S). unfold allowed_algorithms, client_sub, get_some. rewrite C, K. cbn [of_option rbind]. rewrite R, S. cbv beta iota. unfold val_in.
  assert (E : existsb (val_eqb (VStr x)) (map VStr l) = smem x l).
  { unfold smem. clear. induction l as [|y l IH]; [reflexivity|]. cbn [map existsb]. rewrite IH. reflexivity. }
  rewrite E. reflexivity.
Qed.

Lemma fetch_plain f db c uri o alg : found f c uri o -> signed_with o alg -> ro_jwe o = None ->
  fetch_object f db (Some c) uri = rbind (allowed_algorithms db (fo_pinfo f) (Some c) (VStr alg) "sign") (fun _ => Ok (ro_items o)).
Proof.
  intros (text & G & R) (jws & J & A) E. unfold fetch_object. rewrite G. cbn [rbind]. rewrite Z.eqb_refl, R. cbn [rbind]. rewrite J, E. cbn [of_option rbind].
  assert (X : match dget "alg" jws with Some v => v | None => VStr "RS256" end = VStr alg) by (destruct A as [-> | [-> ->]]; reflexivity).
  rewrite X. reflexivity.
Qed.

(** With a registered algorithm, an object that is only signed is taken if and only if it is signed with that one. *)
Theorem C94_registered_partial : forall f db c uri o a alg,
  found f c uri o -> signed_with o alg -> ro_jwe o = None ->
  has_registered db c "request_object_signing_alg" a -> In a signing_names -> In alg signing_names ->
  fetch_object f db (Some c) uri = if String.eqb alg a then Ok (ro_items o) else Raise EValue.
Proof.
  intros f db c uri o a alg Fo Si Ne Re Ha Hx. rewrite (fetch_plain f db c uri o alg Fo Si Ne), (allowed_registered _ _ _ "sign" _ _ a alg eq_refl Re).
  assert (X : forallb (fun a => forallb (fun x => Bool.eqb (contains x a) (String.eqb x a)) signing_names) signing_names = true) by (vm_compute; reflexivity).
  rewrite forallb_forall in X. specialize (X a Ha). rewrite forallb_forall in X. specialize (X alg Hx). apply Bool.eqb_prop in X. rewrite X.
  now destruct (String.eqb alg a).
Qed.
Print Assumptions C94_registered_partial.

(** With none, if and only if it is signed with one the provider supports. *)
Theorem C94_supported : forall f db c uri o l alg,
  found f c uri o -> signed_with o alg -> ro_jwe o = None ->
  leaves_open db (fo_pinfo f) c "request_object_signing_alg" "request_object_signing_alg_values_supported" l ->
  fetch_object f db (Some c) uri = if smem alg l then Ok (ro_items o) else Raise EValue.
Proof.
  intros f db c uri o l alg Fo Si Ne Op. rewrite (fetch_plain f db c uri o alg Fo Si Ne), (allowed_open _ _ _ "sign" _ _ l alg eq_refl Op).
  now destruct (smem alg l).
Qed.
Print Assumptions C94_supported.

(** Refuted: every part of the name of the registered algorithm will do. *)
Theorem C94_part_refuted : forall f db c uri o before alg after,
  found f c uri o -> signed_with o alg -> ro_jwe o = None ->
  has_registered db c "request_object_signing_alg" (before ++ alg ++ after) ->
  fetch_object f db (Some c) uri = Ok (ro_items o).
Proof.
  intros f db c uri o b alg a Fo Si Ne Re. rewrite (fetch_plain f db c uri o alg Fo Si Ne), (allowed_registered _ _ _ "sign" _ _ _ alg eq_refl Re).
  assert (X : contains alg (b ++ alg ++ a) = true) by (apply contains_spec; eauto). now rewrite X.
Qed.
Print Assumptions C94_part_refuted.

(** Refuted: how an object is encrypted makes no difference. *)
Theorem C94_ignored_refuted : forall f f' db c uri o o' jwe jwe',
  found f c uri o -> found f' c uri o' -> fo_pinfo f' = fo_pinfo f ->
  ro_items o' = ro_items o -> ro_jws o' = ro_jws o -> ro_jwe o = Some jwe -> ro_jwe o' = Some jwe' ->
  fetch_object f' db (Some c) uri = fetch_object f db (Some c) uri.
Proof.
  intros f f' db c uri o o' jwe jwe' (text & G & R) (text' & G' & R') P I J E E'. unfold fetch_object. rewrite G, G'. cbn [rbind].
  rewrite Z.eqb_refl, R, R'. cbn [rbind]. rewrite P, I, J, E, E'. reflexivity.
Qed.
Print Assumptions C94_ignored_refuted.

(** Refuted: no encrypted object is taken at all, whatever is registered or supported and whatever it is encrypted with: the members
    that are looked up are those of the signature. *)
Theorem C94_encrypted_refuted : forall f db c uri o jwe m,
  found f c uri o -> plain_header o -> ro_jwe o = Some jwe ->
  (exists a, has_registered db c "request_object_encryption_enc" a) \/
  (exists l, leaves_open db (fo_pinfo f) c "request_object_encryption_enc" "request_object_encryption_enc_values_supported" l) \/
  (exists cinfo : msg, dget c db = Some cinfo /\ dget "request_object_encryption_enc" cinfo = None /\
     dget "request_object_encryption_enc_values_supported" (fo_pinfo f) = None) ->
  fetch_object f db (Some c) uri <> Ok m.
Proof.
  intros f db c uri o jwe m (text & G & R) (jws & J & A) E Hk. unfold fetch_object. rewrite G. cbn [rbind]. rewrite Z.eqb_refl, R. cbn [rbind].
  rewrite J, E. cbn [of_option rbind]. destruct (allowed_algorithms _ _ _ _ "sign") as [[]|]; cbn [rbind]; [|discriminate].
  destruct (allowed_algorithms _ _ _ _ "enc_alg") as [[]|]; cbn [rbind]; [|discriminate].
  assert (Y : get_some "enc" jws = VNone) by (unfold get_some; destruct A as [-> | ->]; reflexivity). rewrite Y.
  assert (X : exists y, allowed_algorithms db (fo_pinfo f) (Some c) VNone "enc_enc" = Raise y); [|destruct X as (y & ->); discriminate].
  destruct Hk as [(a & cinfo & C & Re) | [(l & (cinfo & C & Re) & Sp) | (cinfo & C & Re & Sp)]]; unfold allowed_algorithms, client_sub, get_some; rewrite C; cbn [of_option rbind alg_params];
    change (alg_params "enc_enc") with (Some ("request_object_encryption_enc", "request_object_encryption_enc_values_supported")%string); cbn [of_option rbind]; rewrite Re.
  - eexists. reflexivity.
  - rewrite Sp. cbv beta iota. unfold val_in. assert (N : existsb (val_eqb VNone) (map VStr l) = false) by (clear; induction l as [|y l IH]; [reflexivity|exact IH]).
    rewrite N. eexists. reflexivity.
  - rewrite Sp. eexists. reflexivity.
Qed.
Print Assumptions C94_encrypted_refuted.

(** An encrypted object that is taken (its signature's own header must name an encryption): the algorithms that header names are, each for its
    own use, those registered (or a part of them) or, if none is, supported. *)
Definition permitted (db : cdb) (pinfo : msg) (c reg sup alg : string) : Prop :=
  (exists before after, has_registered db c reg (before ++ alg ++ after)) \/ (exists l, leaves_open db pinfo c reg sup l /\ In alg l).
Lemma allowed_permitted (db : cdb) (pinfo : msg) c alg kind reg sup : alg_params kind = Some (reg, sup) ->
  (forall (cinfo : msg) v, dget c db = Some cinfo -> dget reg cinfo = Some v -> exists a, v = VStr a) ->
  (forall v, dget sup pinfo = Some v -> exists l, v = VList (map VStr l)) ->
  allowed_algorithms db pinfo (Some c) alg kind = Ok tt -> exists a, alg = VStr a /\ permitted db pinfo c reg sup a.
Proof.
  intros Ek Tr Ts Q. unfold allowed_algorithms, client_sub in Q. destruct (dget c db) as [cinfo|] eqn:C; cbn [of_option rbind] in Q; [|discriminate Q].
  rewrite Ek in Q. cbn [of_option rbind] in Q.
  assert (V : val_in alg (match get_some reg cinfo with VNone => get_some sup pinfo | v => v end) = Ok true).
  { destruct (val_in _ _) as [[|]|]; [reflexivity|discriminate|discriminate]. }
  unfold get_some in V. destruct (dget reg cinfo) as [v|] eqn:Rg.
  - destruct (Tr cinfo v eq_refl Rg) as (a & ->). cbn in V. destruct alg as [| | |w| |] eqn:Al; try discriminate. injection V as V.
    apply contains_spec in V. destruct V as (b1 & b2 & ->). exists w. split; [reflexivity|]. left. exists b1, b2, cinfo. auto.
  - destruct (dget sup pinfo) as [v|] eqn:Sp; [|discriminate].
    destruct (Ts v eq_refl) as (l & ->). cbn [val_in] in V. injection V as V. apply existsb_exists in V. destruct V as (y & Iy & Ey). apply in_map_iff in Iy. destruct Iy as (w & <- & Ix).
    exists w. split; [destruct alg; cbn in Ey; try discriminate; apply String.eqb_eq in Ey; now subst|]. right. exists l. split; [|exact Ix]. split; [exists cinfo; auto|exact Sp].
Qed.
Theorem C94_encrypted : forall f (db : cdb) c uri o jws jwe m,
  found f c uri o -> ro_jws o = Some jws -> ro_jwe o = Some jwe ->
  (forall reg (cinfo : msg) v, In reg ["request_object_encryption_alg"; "request_object_encryption_enc"]%string ->
     dget c db = Some cinfo -> dget reg cinfo = Some v -> exists a, v = VStr a) ->
  (forall sup v, In sup ["request_object_encryption_alg_values_supported"; "request_object_encryption_enc_values_supported"]%string ->
     dget sup (fo_pinfo f) = Some v -> exists l, v = VList (map VStr l)) ->
  fetch_object f db (Some c) uri = Ok m ->
  m = ro_items o /\ exists alg enc, dget "alg" jws = Some (VStr alg) /\ dget "enc" jws = Some (VStr enc) /\
    permitted db (fo_pinfo f) c "request_object_encryption_alg" "request_object_encryption_alg_values_supported" alg /\
    permitted db (fo_pinfo f) c "request_object_encryption_enc" "request_object_encryption_enc_values_supported" enc.
Proof.
  intros f db c uri o jws jwe m (text & G & R) J E Tr Ts. unfold fetch_object. rewrite G. cbn [rbind]. rewrite Z.eqb_refl, R. cbn [rbind].
  rewrite J, E. cbn [of_option rbind]. destruct (allowed_algorithms _ _ _ _ "sign") as [[]|]; cbn [rbind]; [|discriminate].
  destruct (allowed_algorithms _ _ _ _ "enc_alg") as [[]|] eqn:A1; cbn [rbind]; [|discriminate].
  destruct (allowed_algorithms _ _ _ _ "enc_enc") as [[]|] eqn:A2; cbn [rbind]; [|discriminate].
  intros H. split; [congruence|].
  apply (allowed_permitted _ _ _ _ "enc_alg" "request_object_encryption_alg" "request_object_encryption_alg_values_supported" eq_refl) in A1;
    [|intros cinfo v; apply Tr; now left|intros v; apply Ts; now left].
  apply (allowed_permitted _ _ _ _ "enc_enc" "request_object_encryption_enc" "request_object_encryption_enc_values_supported" eq_refl) in A2;
    [|intros cinfo v; apply Tr; right; now left|intros v; apply Ts; right; now left].
  destruct A1 as (a & Ea & Pa), A2 as (b & Eb & Pb). unfold get_some in Ea, Eb. exists a, b.
  destruct (dget "alg" jws); [|discriminate]. destruct (dget "enc" jws); [|discriminate]. subst. auto.
Qed.
Print Assumptions C94_encrypted.

(** Refuted: with neither a registered nor a supported algorithm every object is turned away, by an exception of another kind. *)
Theorem C94_unset_refuted : forall f (db : cdb) c (cinfo : msg) uri o jws,
  found f c uri o -> ro_jws o = Some jws -> dget c db = Some cinfo ->
  dget "request_object_signing_alg" cinfo = None -> dget "request_object_signing_alg_values_supported" (fo_pinfo f) = None ->
  fetch_object f db (Some c) uri = Raise EType.
Proof.
  intros f db c cinfo uri o jws (text & G & R) J C N1 N2. unfold fetch_object. rewrite G. cbn [rbind]. rewrite Z.eqb_refl, R. cbn [rbind]. rewrite J. cbn [of_option rbind].
  unfold allowed_algorithms, client_sub, get_some. rewrite C. cbn [of_option rbind]. 
  change (alg_params "sign") with (Some ("request_object_signing_alg", "request_object_signing_alg_values_supported")%string). cbn [of_option rbind].
  rewrite N1, N2. reflexivity.
Qed.
Print Assumptions C94_unset_refuted.

(** ** The authorization request *)
(** A request by reference (other than a pushed one) that is taken is one whose object was found, was read with the keys of the
    client, and is signed with an algorithm that is a part of the registered one or, if none is, one of those supported. *)
Theorem C94_request : forall f e oidc c uri rq db m db',
  dget "request_uri" rq = Some (VStr uri) -> uri <> "" -> (re_par e = false \/ starts_with "urn:uuid:" uri = false) ->
  (forall cinfo v, dget c (re_cdb e) = Some cinfo -> dget "request_object_signing_alg" cinfo = Some v -> exists a, v = VStr a) ->
  (forall v, dget "request_object_signing_alg_values_supported" (fo_pinfo f) = Some v -> exists l, v = VList (map VStr l)) ->
  (if oidc : bool then parse_authn else parse_authz) (with_objects f e) (Some c) rq db = (Ok (Parsed m), db') ->
  exists o alg, found f c uri o /\ signed_with o alg /\
    ((exists before after, has_registered (re_cdb e) c "request_object_signing_alg" (before ++ alg ++ after)) \/
     (exists l, leaves_open (re_cdb e) (fo_pinfo f) c "request_object_signing_alg" "request_object_signing_alg_values_supported" l /\ In alg l)).
Proof.
  intros f e oidc c uri rq db m db' U Ne Pu Tr Ts H.
  assert (Q : exists x, do_request_uri (with_objects f e) (Some c) rq db = (Ok x, db)).
  { assert (L : do_request_uri (with_objects f e) (Some c) rq db = (fetch_request (with_objects f e) (Some c) uri rq, db)).
    { unfold do_request_uri, truthy_get. rewrite U. assert (T : truthy (VStr uri) = true) by (destruct uri; [easy|reflexivity]). rewrite T.
      cbn [re_par with_objects]. assert (Pf : re_par e && starts_with "urn:uuid:" uri = false) by (destruct Pu as [-> | ->]; [reflexivity|apply andb_false_r]).
      rewrite Pf. reflexivity. }
    rewrite L. destruct (fetch_request (with_objects f e) (Some c) uri rq) as [x|x] eqn:F; [eauto|].
    exfalso. assert (S : stage (with_objects f e) (Some c) (Parsed rq) db = (Raise x, db)) by (unfold stage, bind; now rewrite L).
    destruct oidc; [unfold parse_authn, bind in H|unfold parse_authz in H]; rewrite S in H; discriminate. }
  destruct Q as (x & Q). unfold do_request_uri, truthy_get in Q. rewrite U in Q. assert (T : truthy (VStr uri) = true) by (destruct uri; [easy|reflexivity]). rewrite T in Q.
  cbn [re_par with_objects] in Q. assert (Pf : re_par e && starts_with "urn:uuid:" uri = false) by (destruct Pu as [-> | ->]; [reflexivity|apply andb_false_r]).
  rewrite Pf in Q. unfold lift in Q. injection Q as Q. unfold fetch_request in Q. cbn [re_cdb re_fetch with_objects client_sub] in Q.
  destruct (dget c (re_cdb e)) as [cinfo|] eqn:C; [|discriminate]. cbn [of_option rbind] in Q.
  destruct (match truthy_get "request_uris" cinfo with Some _ => _ | None => _ end) as [[]|]; [|discriminate]. cbn [rbind] in Q.
  unfold fetch_object in Q. destruct (fo_get f uri) as [[status text]|] eqn:G; [|discriminate]. cbn [rbind] in Q.
  destruct (Z.eqb_spec status 200) as [->|]; [|discriminate]. destruct (fo_read f (Some c) text) as [o|] eqn:R; [|discriminate]. cbn [rbind] in Q.
  destruct (ro_jws o) as [jws|] eqn:J; [|discriminate]. cbn [of_option rbind] in Q.
  unfold allowed_algorithms at 1 in Q. unfold client_sub at 1 in Q. rewrite C in Q. cbn [of_option rbind] in Q.
  change (alg_params "sign") with (Some ("request_object_signing_alg", "request_object_signing_alg_values_supported")%string) in Q. cbn [of_option rbind] in Q.
  set (al := match dget "alg" jws with Some v => v | None => VStr "RS256" end) in Q.
  assert (V : val_in al (match get_some "request_object_signing_alg" cinfo with
    | VNone => get_some "request_object_signing_alg_values_supported" (fo_pinfo f) | v => v end) = Ok true).
  { destruct (val_in _ _) as [[|]|]; [reflexivity|discriminate|discriminate]. }
  assert (F : found f c uri o) by (exists text; auto).
  assert (Sw : forall x, al = VStr x -> signed_with o x).
  { intros w Ex. exists jws. split; [exact J|]. unfold al in Ex. destruct (dget "alg" jws); [left; congruence|right; split; congruence]. }
  unfold get_some in V. destruct (dget "request_object_signing_alg" cinfo) as [v|] eqn:Rg.
  - destruct (Tr cinfo v eq_refl Rg) as (a & ->). cbn in V. destruct al as [| | |w| |] eqn:Al; try discriminate. injection V as V.
    apply contains_spec in V. destruct V as (b1 & b2 & ->). exists o, w. split; [exact F|]. split; [now apply Sw|]. left. exists b1, b2, cinfo. auto.
  - destruct (dget "request_object_signing_alg_values_supported" (fo_pinfo f)) as [v|] eqn:Sp; [|discriminate].
    destruct (Ts v eq_refl) as (l & ->). cbn [val_in] in V. injection V as V. apply existsb_exists in V. destruct V as (y & Iy & Ey). apply in_map_iff in Iy. destruct Iy as (w & <- & Ix).
    assert (al = VStr w). { destruct al; cbn in Ey; try discriminate. apply String.eqb_eq in Ey. now subst. }
    exists o, w. split; [exact F|]. split; [now apply Sw|]. right. exists l. split; [|exact Ix]. split; [exists cinfo; auto|exact Sp].
Qed.
Print Assumptions C94_request.

(** ... and an object that is found at an address the client has registered and signed as registered is taken: its members count. *)
From Verif Require PropsAuthzRequest.
Theorem C94_taken : forall f e c uri rq o a info l base frag,
  found f c uri o -> signed_with o a -> ro_jwe o = None -> has_registered (re_cdb e) c "request_object_signing_alg" a -> In a signing_names ->
  dget c (re_cdb e) = Some info -> dget "request_uris" info = Some (VList l) ->
  (forall v, In v l -> exists base frag, v = VList [VStr base; VStr frag]) -> In (VList [VStr base; VStr frag]) l -> hd "" (split "#" uri) = base ->
  fetch_request (with_objects f e) (Some c) uri rq = Ok (dset "__verified_request"%string (VDict (ro_items o)) (dupdate rq (ro_items o))).
Proof.
  intros f e c uri rq o a info l base frag F S J R I Ec El Pl Il Hb.
  eapply PropsAuthzRequest.C57_fetched; [exact Ec|exact El|exact Pl|exact Il|exact Hb|].
  pose proof (C94_registered_partial f (re_cdb e) c uri o a a F S J R I I) as X. rewrite String.eqb_refl in X. exact X.
Qed.
Print Assumptions C94_taken.

(** ** Cases *)
Definition fo94 (jws : msg) (jwe : option msg) : fetcher :=
  mkFO (fun u => if String.eqb u "https://rp.example.org/ro" then Ok (200, "jwt"%string) else Ok (404, ""%string))
       (fun _ _ => Ok (mkRO [("scope", VStr "openid")]%string (Some jws) jwe))
       [("request_object_signing_alg_values_supported", VList (map VStr ["RS256"; "ES256"]%string))]%string.
Definition db94 : cdb :=
  [("c1", [("request_object_signing_alg", VStr "RS256")]); ("c2", [("request_object_signing_alg", VStr "ES256K")]); ("c3", []);
   ("c4", [("request_object_encryption_alg", VStr "RSA-OAEP"); ("request_object_encryption_enc", VStr "A128GCM")])]%string.
Definition try94 (c alg : string) (jwe : option msg) : result msg :=
  fetch_object (fo94 [("alg", VStr alg)]%string jwe) db94 (Some c) "https://rp.example.org/ro".
Example C94_ex_found : forall jws jwe, found (fo94 jws jwe) "c1" "https://rp.example.org/ro" (mkRO [("scope", VStr "openid")]%string (Some jws) jwe).
Proof. intros. exists "jwt"%string. split; reflexivity. Qed.
Example C94_ex :
  try94 "c1" "RS256" None = Ok [("scope", VStr "openid")]%string /\ try94 "c1" "HS256" None = Raise EValue /\
  try94 "c2" "ES256" None = Ok [("scope", VStr "openid")]%string /\
  try94 "c3" "ES256" None = Ok [("scope", VStr "openid")]%string /\ try94 "c3" "HS256" None = Raise EValue /\
  try94 "c4" "RS256" (Some [("alg", VStr "RSA-OAEP"); ("enc", VStr "A128GCM")]%string) = Raise EValue /\
  fetch_object (fo94 [] None) db94 (Some "c1"%string) "https://rp.example.org/ro" = Ok [("scope", VStr "openid")]%string.
Proof. vm_compute. repeat split. Qed.
Example C94_ex_hyps : has_registered db94 "c1" "request_object_signing_alg" "RS256" /\ In "RS256"%string signing_names /\
  has_registered db94 "c2" "request_object_signing_alg" ("" ++ "ES256" ++ "K") /\
  leaves_open db94 (fo_pinfo (fo94 [] None)) "c3" "request_object_signing_alg" "request_object_signing_alg_values_supported" ["RS256"; "ES256"]%string /\
  has_registered db94 "c4" "request_object_encryption_enc" "A128GCM".
Proof.
  split; [eexists; split; reflexivity|]. split; [cbn; auto 10|]. split; [eexists; split; reflexivity|].
  split; [split; [eexists; split; reflexivity|reflexivity]|]. eexists; split; reflexivity.
Qed.
(** An encrypted object that is taken: the signature is said to be made with the algorithm of the encryption. *)
Definition db94e : cdb := [("c5", [("request_object_signing_alg", VStr "RSA-OAEP"); ("request_object_encryption_alg", VStr "RSA-OAEP"); ("request_object_encryption_enc", VStr "A128GCM")])]%string.
Example C94_ex_encrypted :
  fetch_object (fo94 [("alg", VStr "RSA-OAEP"); ("enc", VStr "A128GCM")]%string (Some [])) db94e (Some "c5"%string) "https://rp.example.org/ro" = Ok [("scope", VStr "openid")]%string /\
  fetch_object (fo94 [("alg", VStr "RSA-OAEP"); ("enc", VStr "A256GCM")]%string (Some [])) db94e (Some "c5"%string) "https://rp.example.org/ro" = Raise EValue.
Proof. vm_compute. repeat split. Qed.
(** A whole request by reference that is taken *)
From Verif Require Import PyUrl PropsAuthzRequest.
Definition fo94_full : fetcher :=
  mkFO (fun u => Ok (200, "jwt"%string)) (fun _ _ => Ok (mkRO ex_object (Some [("alg", VStr "ES256")]%string) None))
       [("request_object_signing_alg_values_supported", VList (map VStr ["RS256"; "ES256"]%string))]%string.
Example C94_ex_request : exists m, parse_authz (with_objects fo94_full (ex_env [])) (Some "A"%string)
  [("client_id", VStr "A"); ("request_uri", VStr "https://a.example/ro")]%string [] = (Ok (Parsed m), []).
Proof. eexists. vm_compute. reflexivity. Qed.
Definition re94 : reqenv := mkRE (re_u (ex_env [])) [("c1", [("request_object_signing_alg", VStr "ES256"); ("request_uris", VList [VList [VStr "https://a.example/ro"; VStr ""]])])]%string false (re_supported (ex_env [])) (re_fetch (ex_env [])).
Example C94_ex_taken :
  found fo94_full "c1" "https://a.example/ro#1" (mkRO ex_object (Some [("alg", VStr "ES256")]%string) None) /\
  signed_with (mkRO ex_object (Some [("alg", VStr "ES256")]%string) None) "ES256" /\ has_registered (re_cdb re94) "c1" "request_object_signing_alg" "ES256" /\
  hd ""%string (split "#" "https://a.example/ro#1") = "https://a.example/ro"%string /\
  exists m, fetch_request (with_objects fo94_full re94) (Some "c1"%string) "https://a.example/ro#1" [("client_id", VStr "c1")]%string = Ok m /\ dget "__verified_request" m = Some (VDict ex_object).
Proof.
  split; [exists "jwt"%string; split; reflexivity|]. split; [eexists; split; [reflexivity|left; reflexivity]|]. split; [eexists; split; reflexivity|].
  split; [reflexivity|]. eexists. split; vm_compute; reflexivity.
Qed.

(** PropsSigningRegistered.v: what a client registers about signing and encryption is what it gets (C48, C60). *)
From Verif Require Import Base BaseProofs Monad Types SessionKey Grant Database DatabaseSpec Ctx World Uri ClientAuthn ClientAuthnProofs Registration RegistrationSpec RegistrationProofs
  RegisteredUrisSpec Response IDToken IDTokenSpec PropsRegistration PropsRegisteredUris PropsIDToken PropsLogoutRegistered.
Local Open Scope Z_scope.

(** A client that has registered an algorithm the provider supports and has a key for gets ID Tokens signed with that algorithm. *)
Theorem C48_registered : forall co d n ss rq s rq' info args alg supported ic cx (clients : cdb) st u c gid code access t,
  registers co d n ss rq s rq' info args -> NoDup (dkeys rq') -> dget "id_token_signed_response_alg" rq' = Some (VStr alg) ->
  dget "id_token_signing_alg_values_supported" (rc_provider co) = Some (vstrs supported) -> In alg supported -> rc_has_key co (VStr alg) = Ok true ->
  dget c clients = Some info -> good u -> good c -> good gid ->
  make ic cx clients st (session_key [u; c; gid]) code access = Ok t ->
  exists m, ic_pack ic (cx_issuer cx) (match ic_lifetime ic with Some n => n | None => 300 end) (mkAlgs (Some (VStr alg)) None) m c = Ok t.
Proof.
  intros co d n ss rq s rq' info args alg supported ic cx clients st u c gid code access t H N D Pv Ia Hk Dc Hu Hc Hg Mk.
  assert (Di : dget "id_token_signed_response_alg" info = Some (VStr alg)).
  { apply (C27_key co d n ss rq s rq' info args "id_token_signed_response_alg" "id_token_signing_alg_values_supported" alg supported true H N); auto. cbn. auto. }
  destruct (C48_idtoken ic cx clients st u c gid code access t Hu Hc Hg Mk) as (cinfo & a & m & Dc' & Ng & K).
  assert (cinfo = info) by congruence. subst cinfo. exists m.
  assert (a = VStr alg); [|now subst a].
  unfold negotiated in Ng. change ("id_token" ++ "_signed_response_alg")%string with "id_token_signed_response_alg"%string in Ng. rewrite Di in Ng. exact Ng.
Qed.
Print Assumptions C48_registered.

(** And user info that is signed with the algorithm it has registered for that. *)
Theorem C48_registered_userinfo : forall co d n ss rq s rq' info args alg supported en ep (db : cdb) pack claims c kw resp,
  registers co d n ss rq s rq' info args -> NoDup (dkeys rq') -> dget "userinfo_signed_response_alg" rq' = Some (VStr alg) ->
  dget "userinfo_signing_alg_values_supported" (rc_provider co) = Some (vstrs supported) -> In alg supported -> rc_has_key co (VStr alg) = Ok true ->
  dget c db = Some info ->
  userinfo_response en ep db pack claims "" c kw = Ok resp ->
  exists enc t, pack c (Some (VStr alg)) enc claims = Ok t /\ rs_body resp = Text t.
Proof.
  intros co d n ss rq s rq' info args alg supported en ep db pack claims c kw resp H N D Pv Ia Hk Dc R.
  assert (Di : dget "userinfo_signed_response_alg" info = Some (VStr alg)).
  { apply (C27_key co d n ss rq s rq' info args "userinfo_signed_response_alg" "userinfo_signing_alg_values_supported" alg supported true H N); auto. cbn. auto. }
  pose proof (C48_userinfo en ep db pack claims c info kw resp R Dc) as X. rewrite Di in X. exact X.
Qed.
Print Assumptions C48_registered_userinfo.

(** If it has registered how to encrypt user info, both the algorithm and the encryption, it gets user info encrypted that way. *)
Theorem C60_registered_partial : forall co d n ss rq s rq' info args alg enc en ep (db : cdb) pack claims c kw resp,
  registers co d n ss rq s rq' info args -> NoDup (dkeys rq') ->
  dget "userinfo_encrypted_response_alg" rq' = Some alg -> dget "userinfo_encrypted_response_enc" rq' = Some enc ->
  dget c db = Some info ->
  userinfo_response en ep db pack claims "" c kw = Ok resp ->
  exists sign t, pack c sign (Some (enc, alg)) claims = Ok t /\ rs_body resp = Text t.
Proof.
  intros co d n ss rq s rq' info args alg enc en ep db pack claims c kw resp H N D1 D2 Dc R.
  apply (C60_userinfo_partial en ep db pack claims c info kw resp alg enc R Dc).
  - apply (registered_member _ _ _ _ _ _ _ _ _ _ _ H N); [cbn; intuition discriminate|exact D1].
  - apply (registered_member _ _ _ _ _ _ _ _ _ _ _ H N); [cbn; intuition discriminate|exact D2].
Qed.
Print Assumptions C60_registered_partial.

(** ** A case: the client c1 of C96 says how it wants things signed and encrypted. *)
From Verif Require Import PropsResponse PropsAuthzEndpoint PropsClaims PropsIntrospection PropsTokenEndpoint PropsNewClient.
Definition conf_sig : rconf :=
  mkRC (rc_url conf96) (dset "userinfo_encryption_alg_values_supported" (vstrs ["RSA-OAEP"]) (dset "userinfo_encryption_enc_values_supported" (vstrs ["A128GCM"])
      (dset "userinfo_signing_alg_values_supported" (vstrs ["RS256"; "ES256"]) (rc_provider conf96))))%string (rc_verify conf96) (rc_has_key conf96) (rc_load conf96)
    (rc_fetch conf96) (rc_read_path conf96) (rc_expires conf96) (rc_expires_in conf96) (rc_params conf96).
Definition rq_sig : msg :=
  [("redirect_uris", vstrs [cb]); ("response_types", vstrs ["code"]); ("id_token_signed_response_alg", VStr "ES256"); ("userinfo_signed_response_alg", VStr "RS256");
   ("userinfo_encrypted_response_alg", VStr "RSA-OAEP"); ("userinfo_encrypted_response_enc", VStr "A128GCM")]%string.
Definition reg_sig (rq : msg) : cdb := rg_cdb (snd (client_registration_setup conf_sig draw96 true true rq reg0)).
Definition info_sig : msg := Eval vm_compute in match dget "c1" (reg_sig rq_sig) with Some i => i | None => [] end.
Definition pack_sig (recv : string) (sign : option val) (enc : option (val * val)) (_ : msg) : result string :=
  Ok (join "|" [match sign with Some (VStr a) => a | _ => "-" end; match enc with Some (VStr a, VStr b) => a ++ "," ++ b | _ => "clear" end; recv])%string.
Example C48_ex_registered : exists args,
  registers conf_sig draw96 true true rq_sig reg0 rq_sig info_sig args /\ NoDup (dkeys rq_sig) /\ dget "c1" (reg_sig rq_sig) = Some info_sig /\
  dget "id_token_signing_alg_values_supported" (rc_provider conf_sig) = Some (vstrs ["RS256"; "ES256"]%string) /\
  dget "userinfo_signing_alg_values_supported" (rc_provider conf_sig) = Some (vstrs ["RS256"; "ES256"]%string) /\
  match make (ic8 []) (cx8 []) (reg_sig rq_sig) (st1 gr8 false) sid1 None None with Ok t => nth 1 (split "|" t) ""%string | Raise _ => "-"%string end = "ES256"%string /\
  match make (ic8 []) (cx8 []) (reg_sig (ddel "id_token_signed_response_alg" rq_sig)) (st1 gr8 false) sid1 None None with Ok t => nth 1 (split "|" t) ""%string | Raise _ => "-"%string end = "RS256"%string /\
  match userinfo_response ex_enc ex_token_ep (reg_sig rq_sig) pack_sig [("sub", VStr "x")]%string "" "c1" ex_kw with Ok r => Some (rs_body r) | _ => None end =
    Some (Text "RS256|A128GCM,RSA-OAEP|c1").
Proof.
  eexists. split.
  - eexists. exists "c1"%string. split; [vm_compute; reflexivity|]. split; [exists rq_sig; split; reflexivity|]. split; [|vm_compute; reflexivity].
    exists ["taken"%string], []. split; [reflexivity|]. split; [reflexivity|]. constructor; [discriminate|constructor].
  - split; [cbn; repeat constructor; cbn; intuition discriminate|]. repeat (split; [vm_compute; reflexivity|]). vm_compute. reflexivity.
Qed.

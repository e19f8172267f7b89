(** PropsUri.v: C20 (redirect URI verification is sound and complete). *)
From Verif Require Import Base BaseProofs Types Ctx Uri PyUrl UriSpec UriProofs.

(** ** Soundness

    Whatever the URI library does, an accepted redirect_uri (or post_logout_redirect_uri) is, once unquoted, without
    fragment and has base and parameters of a URI registered for the client the request is for. *)
Theorem C20_sound : forall u db request ty arg,
  verify_uri u db request ty arg = Ok tt ->
  exists c raw l, client_of request arg c /\ dget ty request = Some (VStr raw) /\
    registered db c (ty ++ "s") l /\ matches u l (ul_unquote u raw).
Proof.
  intros u db rq ty arg H. destruct (verify_uri_ok _ _ _ _ _ H) as (c & raw & p & l & Hc & Hr & Hp & Hf & Hl & Hm).
  exists c, raw, l. split; [auto|split; [auto|split; [auto|]]].
  destruct (match_uri_ok _ _ _ Hm) as (pre & r & post & -> & S & _). exists p, r. split; [auto|split; [auto|split]].
  - apply in_or_app. right. now left.
  - now apply same_query_ok.
Qed.
Print Assumptions C20_sound.

(** ** Completeness

    It is the first registered URI with the right base that decides. *)
Theorem C20_first : forall u db request ty arg c raw p pre b r post,
  (forall q, proper_query (ul_qs u q)) ->
  client_of request arg c -> dget ty request = Some (VStr raw) -> ul_split u (ul_unquote u raw) = Ok p ->
  up_fragment p = ""%string -> up_base p = b ->
  registered db c (ty ++ "s") (pre ++ entry b r :: post) ->
  Forall proper_entry (pre ++ entry b r :: post) -> ~ In (Some b) (map base_of pre) ->
  (verify_uri u db request ty arg = Ok tt <-> same_params (query_of u p) r).
Proof.
  intros u db rq ty arg c raw p pre b r post Q Hc Hr Hp Hf <- Hl F N.
  rewrite (verify_uri_eq u db rq ty arg c raw p _ Hc Hr Hp Hf Hl) by (destruct pre; discriminate).
  rewrite match_uri_first.
  - split; [apply same_query_ok|]. apply same_query_complete.
    + unfold query_of. destruct (nonempty (up_query p)); [right; right; eauto|now left].
    + apply Forall_app in F. destruct F as [_ F]. inversion F as [|? ? (b' & q' & E & P) _]; subst.
      unfold entry in E. injection E as <- <-. exact P.
  - apply Forall_app in F. destruct F as [F _]. rewrite Forall_forall in F |- *. intros e He.
    destruct (F e He) as (b' & q' & -> & _). exists b', q'. split; auto. intros ->. apply N.
    apply in_map_iff. exists (entry (up_base p) q'). auto.
Qed.
Print Assumptions C20_first.

(** When a client's registered URIs have different bases, a URI is accepted exactly if it is one of them. *)
Theorem C20_exact : forall u db request ty arg c raw l,
  (forall q, proper_query (ul_qs u q)) ->
  client_of request arg c -> dget ty request = Some (VStr raw) -> registered db c (ty ++ "s") l ->
  Forall proper_entry l -> NoDup (map base_of l) ->
  (verify_uri u db request ty arg = Ok tt <-> matches u l (ul_unquote u raw)).
Proof.
  intros u db rq ty arg c raw l Q Hc Hr Hl F N. split.
  - intros H. destruct (C20_sound _ _ _ _ _ H) as (c' & raw' & l' & Hc' & Hr' & (i' & G1' & G2') & M).
    rewrite Hr in Hr'. injection Hr' as <-.
    assert (c' = c) as ->.
    { destruct Hc as [_ [A|[A ->]]], Hc' as [_ [A'|[A' B']]]; congruence. }
    destruct Hl as (i & G1 & G2). rewrite G1 in G1'. injection G1' as <-. rewrite G2 in G2'. injection G2' as <-. exact M.
  - intros (p & q & Hp & Hf & Hin & S). destruct (in_split _ _ Hin) as (pre & post & ->).
    apply (C20_first u db rq ty arg c raw p pre (up_base p) q post Q); auto.
    rewrite map_app in N. cbn [map] in N. apply NoDup_remove_2 in N. intros H. apply N. apply in_or_app. now left.
Qed.
Print Assumptions C20_exact.

(** Otherwise not: of two registered URIs that differ in the query only, the second is refused. *)
Theorem C20_complete_refuted : forall u db request ty arg c raw p b r1 r2 post,
  (forall q, proper_query (ul_qs u q)) ->
  client_of request arg c -> dget ty request = Some (VStr raw) ->
  registered db c (ty ++ "s") (entry b r1 :: entry b r2 :: post) -> Forall proper_entry (entry b r1 :: entry b r2 :: post) ->
  ul_split u (ul_unquote u raw) = Ok p -> up_fragment p = ""%string -> up_base p = b ->
  same_params (query_of u p) r2 -> ~ same_params r1 r2 ->
  matches u (entry b r1 :: entry b r2 :: post) (ul_unquote u raw) /\ verify_uri u db request ty arg <> Ok tt.
Proof.
  intros u db rq ty arg c raw p b r1 r2 post Q Hc Hr Hl F Hp Hf Hb S N. split.
  - exists p, r2. rewrite Hb. split; [auto|split; [auto|split; [right; now left|auto]]].
  - intros H. apply N. apply (C20_first u db rq ty arg c raw p [] b r1 (entry b r2 :: post) Q) in H; auto.
    intros k s. rewrite <- (H k s), (S k s). reflexivity.
Qed.
Print Assumptions C20_complete_refuted.

(** ** The URI the response is sent to

    It is the one in the request, as it stands there; only its unquoted form has been compared. *)
Theorem C20_used : forall u db request ty uri,
  dmem ty request = true -> get_uri u db request ty = Ok uri ->
  dget ty request = Some (VStr uri) /\
  exists c l, client_of request None c /\ registered db c (ty ++ "s") l /\ matches u l (ul_unquote u uri) /\
    (ul_unquote u uri = uri -> matches u l uri).
Proof.
  intros u db rq ty uri M H. unfold get_uri in H. rewrite M in H.
  destruct (verify_uri u db rq ty None) as [[]|] eqn:V; [|discriminate]. cbn [rbind] in H.
  destruct (C20_sound _ _ _ _ _ V) as (c & raw & l & Hc & Hr & Hl & Hm).
  unfold msub_str in H. rewrite Hr in H. injection H as <-. split; [auto|]. exists c, l.
  split; [auto|split; [auto|split; [auto|]]]. intros E. now rewrite E in Hm.
Qed.
Print Assumptions C20_used.

(** Without one in the request it is the only one registered. *)
Theorem C20_only : forall u db request ty uri c info,
  dget ty request = None -> dget "client_id" request = Some (VStr c) -> dget c db = Some info ->
  get_uri u db request ty = Ok uri ->
  exists b q, registered db c (ty ++ "s") [entry b q] /\
    ((truthy q = false /\ uri = b) \/
     exists d ps, q = VDict d /\ pairs_of d = Ok ps /\ uri = (b ++ "?" ++ ul_encode u ps)%string).
Proof.
  intros u db rq ty uri c info Ht Hc Hi H. unfold get_uri, dmem in H. rewrite Ht in H.
  unfold dsub in H. rewrite Hc in H. cbn [of_option rbind] in H. rewrite Hi in H.
  unfold truthy_get in H. destruct (dget (ty ++ "s") info) as [v|] eqn:E; [|discriminate].
  destruct (truthy v); [|discriminate]. destruct v as [| | | |l|]; try discriminate. cbn [as_list rbind] in H.
  destruct l as [|e [|]]; try discriminate.
  - destruct e as [| | | |[|b [|q [|]]]|]; try discriminate.
    unfold join_query in H. destruct b as [| | |b| |]; try discriminate. exists b, q.
    split; [exists info; auto|]. destruct (truthy q); [right|left; split; [auto|congruence]].
    destruct q as [| | | | |d]; try discriminate. cbn [as_dict rbind] in H.
    destruct (pairs_of d) as [ps|] eqn:P; [|discriminate]. cbn [rbind] in H. exists d, ps. split; [auto|split; [auto|congruence]].
  - destruct e as [| | | |[|b [|q [|]]]|]; discriminate.
Qed.
Print Assumptions C20_only.

(** For an unknown client it is "": no error, no registered URI. *)
Theorem C20_unknown_refuted : forall u db request ty c,
  dget ty request = None -> dget "client_id" request = Some (VStr c) -> dget c db = None ->
  get_uri u db request ty = Ok ""%string.
Proof.
  intros u db rq ty c Ht Hc Hd. unfold get_uri, dmem, dsub. rewrite Ht, Hc. cbn [of_option rbind]. now rewrite Hd.
Qed.
Print Assumptions C20_unknown_refuted.

(** ** Examples, with urllib.parse *)

Lemma qs_go_proper ps : forall acc, proper_query acc -> proper_query (qs_go ps acc).
Proof.
  induction ps as [|p ps IH]; intros acc [N L]; [split; auto|]. cbn [qs_go].
  destruct (cut_at "=" p) as [k [v|]]; [|now apply IH]. destruct (nonempty v); [|now apply IH]. cbv zeta. apply IH.
  split; [now apply NoDup_dset|]. intros k' l Hin.
  apply In_dget in Hin; [|now apply NoDup_dset]. rewrite dget_dset in Hin. destruct (String.eqb _ _) eqn:E.
  - injection Hin as <-. destruct (dget _ acc) as [l0|]; [|discriminate]. intros E0. now apply app_eq_nil in E0.
  - apply dget_In in Hin. eapply L; eauto.
Qed.
Lemma py_proper : forall q, proper_query (ul_qs py_url q).
Proof. intros q. apply qs_go_proper. split; [constructor|easy]. Qed.

Definition reg1 : list val :=
  [entry "https://rp.example.org/cb" (vquery [("foo", ["bar"; "xyz"])]); entry "https://rp.example.org/cb2" (VStr "");
   entry "https://rp.example.org/cb2" (vquery [("state", ["x"])])].
Definition db1 : dict msg := [("c1", [("client_secret", VStr "s"); ("redirect_uris", VList reg1)]); ("c2", [("redirect_uris", VList [entry "https://one.example.org/cb" (vquery [("q", ["1 2"])])])])].
Definition rq1 (uri : string) : msg := [("client_id", VStr "c1"); ("redirect_uri", VStr uri)].
Definition try_uri uri := verify_uri py_url db1 (rq1 uri) "redirect_uri" None.

Example C20_ex :
  (* parameters in another order, and one of them quoted *)
  try_uri "https://rp.example.org/cb?foo=xyz&foo=b%61r" = Ok tt /\
  try_uri "HTTPS://rp.example.org/cb2" = Ok tt /\
  try_uri "https://rp.example.org/cb?foo=bar" = Raise EValue /\
  try_uri "https://rp.example.org/cb?foo=bar&foo=xyz&x=y" = Raise EValue /\
  try_uri "https://rp.example.org/cb" = Raise EValue /\
  try_uri "https://rp.example.org/cb3" = Raise ERedirectURI /\
  try_uri "https://rp.example.org/cb2#a" = Raise EURI /\
  (* quoted as well *)
  try_uri "https://rp.example.org/cb2%23a" = Raise EURI /\
  get_uri py_url db1 [("client_id", VStr "c2")] "redirect_uri" = Ok "https://one.example.org/cb?q=1+2"%string.
Proof. vm_compute. repeat split. Qed.

(** the hypotheses of C20_exact and C20_first *)
Example C20_exact_ex :
  client_of (rq1 "https://rp.example.org/cb2") None "c1" /\ registered db1 "c1" ("redirect_uri" ++ "s") reg1 /\
  Forall proper_entry reg1 /\ NoDup (map base_of (firstn 2 reg1)) /\ matches py_url reg1 "https://rp.example.org/cb2".
Proof.
  split; [split; [discriminate|now left]|]. split; [eexists; split; reflexivity|].
  split.
  { assert (P : forall k l, l <> [] -> proper_query [(k, l)]).
    { intros k l Nl. split; [repeat constructor; easy|]. intros k' l' [[= <- <-]|[]]. exact Nl. }
    constructor; [|constructor; [|constructor; [|constructor]]]; eexists _, _; (split; [reflexivity|]).
    - right; right. eexists. split; [reflexivity|]. now apply P.
    - now left.
    - right; right. eexists. split; [reflexivity|]. now apply P. }
  split; [repeat constructor; cbn; intuition discriminate|].
  exists (urlsplit "https://rp.example.org/cb2"), (VStr ""). split; [reflexivity|split; [reflexivity|split]].
  - vm_compute. right; now left.
  - now intros k s.
Qed.

(** The third registered URI is refused because the second has the same base. *)
Example C20_complete_ex :
  try_uri "https://rp.example.org/cb2?state=x" = Raise EValue /\
  matches py_url reg1 "https://rp.example.org/cb2?state=x".
Proof.
  split; [reflexivity|]. exists (urlsplit "https://rp.example.org/cb2?state=x"), (vquery [("state", ["x"])]).
  split; [reflexivity|split; [reflexivity|split]]; [vm_compute; right; right; now left|]. now intros k s.
Qed.

(** The response goes to a host that is not that of a registered URI. *)
Theorem C20_used_refuted : exists db request uri c l,
  get_uri py_url db request "redirect_uri" = Ok uri /\ client_of request None c /\ registered db c "redirect_uris" l /\
  Forall proper_entry l /\ ~ matches py_url l uri /\
  up_netloc (urlsplit uri) = "rp.example.org%2Fcb2"%string /\
  Forall (fun e => exists b q, e = entry b q /\ up_netloc (urlsplit b) = "rp.example.org"%string) l.
Proof.
  exists db1, (rq1 "https://rp.example.org%2Fcb2"), "https://rp.example.org%2Fcb2"%string, "c1"%string, reg1.
  split; [reflexivity|]. split; [split; [discriminate|now left]|]. split; [eexists; split; reflexivity|].
  split; [apply C20_exact_ex|]. split; [|split].
  - intros (p & q & [= <-] & _ & Hin & _). vm_compute in Hin.
    destruct Hin as [H|[H|[H|[]]]]; discriminate.
  - reflexivity.
  - repeat (constructor; [eexists _, _; split; reflexivity|]). constructor.
Qed.
Print Assumptions C20_used_refuted.

(** Parameters without a value are not compared and repeating one makes no difference: a URI with other parameters than
    any registered one is accepted, and used. *)
Theorem C20_blank_refuted : exists uri,
  get_uri py_url db1 (rq1 uri) "redirect_uri" = Ok uri /\
  up_query (urlsplit uri) = "foo=bar&foo=xyz&foo=bar&admin=&debug"%string.
Proof. exists "https://rp.example.org/cb?foo=bar&foo=xyz&foo=bar&admin=&debug"%string. split; reflexivity. Qed.
Print Assumptions C20_blank_refuted.

(** Whatever URI without "#" is accepted, it is also accepted, and used, with a "#" at its end. *)
Theorem C20_hash_refuted : forall db request ty uri,
  dget ty request = Some (VStr uri) -> ~ In "#"%char (list_ascii_of_string (unquote uri)) ->
  get_uri py_url db request ty = Ok uri -> ty <> "client_id"%string ->
  get_uri py_url db (dset ty (VStr (uri ++ "#")) request) ty = Ok (uri ++ "#")%string.
Proof.
  intros db rq ty uri G Hl H Nc. unfold get_uri in *. unfold dmem in *. rewrite dget_dset_eq. rewrite G in H.
  destruct (verify_uri py_url db rq ty None) as [[]|] eqn:V; [|discriminate].
  assert (V' : verify_uri py_url db (dset ty (VStr (uri ++ "#")) rq) ty None = Ok tt).
  { unfold verify_uri in *. rewrite dget_dset_neq by congruence. destruct (match dget "client_id" rq with Some v => _ | None => _ end) as [v|]; [|discriminate].
    destruct (negb (truthy v)); [discriminate|]. unfold msub_str in *. rewrite dget_dset_eq. rewrite G in V.
    cbn [rbind dsub of_option] in *. change (ul_unquote py_url) with unquote in *. rewrite unquote_hash. unfold split_uri in *.
    change (ul_split py_url) with (fun x => Ok (urlsplit x)) in *. cbv beta in *. rewrite (urlsplit_hash _ Hl). exact V. }
  rewrite V'. cbn [rbind]. unfold msub_str. rewrite dget_dset_eq. reflexivity.
Qed.
Print Assumptions C20_hash_refuted.
Example C20_hash_ex : try_uri "https://rp.example.org/cb2#" = Ok tt /\
  get_uri py_url db1 (rq1 "https://rp.example.org/cb2#") "redirect_uri" = Ok "https://rp.example.org/cb2#"%string.
Proof. split; reflexivity. Qed.

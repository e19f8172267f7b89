From Verif Require Import Base BaseProofs Types Ctx Response ResponseHeadSpec FormPostProofs.

Lemma cut_app c a b : cut c (a ++ b)%string =
  match snd (cut c a) with Some r => (fst (cut c a), Some (r ++ b)%string) | None => ((a ++ fst (cut c b))%string, snd (cut c b)) end.
Proof.
  induction a as [|d a IH]; [cbn; now destruct (cut c b)|]. cbn [append cut]. destruct (Ascii.eqb d c); [reflexivity|].
  rewrite IH. destruct (cut c a) as [x [y|]]; cbn; reflexivity.
Qed.
Lemma cut_free c s : free c s -> cut c s = (s, None).
Proof.
  unfold free. induction s as [|d s IH]; [reflexivity|]. cbn. destruct (Ascii.eqb d c); [discriminate|].
  destruct (cut c s) as [x [y|]]; cbn in *; [discriminate|]. intros _. specialize (IH eq_refl). congruence.
Qed.
Lemma free_app c a b : free c a -> free c b -> free c (a ++ b)%string.
Proof. intros Ha Hb. unfold free. rewrite cut_app, (cut_free _ _ Ha). cbn. now rewrite (cut_free _ _ Hb). Qed.
Lemma cut_contains c s : contains (String c "") s = match snd (cut c s) with Some _ => true | None => false end.
Proof.
  induction s as [|d s IH]; [reflexivity|]. cbn [contains cut].
  assert (P : String.prefix (String c "") (String d s) = Ascii.eqb d c).
  { cbn [String.prefix]. destruct (ascii_dec c d) as [<-|N]; [now rewrite Ascii.eqb_refl; destruct s|].
    symmetry. apply Ascii.eqb_neq. congruence. }
  rewrite P. destruct (Ascii.eqb d c); [reflexivity|]. cbn. rewrite IH. now destruct (cut c s).
Qed.

Lemma loc_fragment en m uri : free "#" uri ->
  fragment_of (msg_request en m uri true) = Some (to_urlencoded en m) /\ query_of (msg_request en m uri true) = query_of uri.
Proof.
  intros H. unfold msg_request, fragment_of, query_of. rewrite cut_app, (cut_free _ _ H). cbn [fst snd].
  split; [reflexivity|]. cbn. now rewrite sapp_nil.
Qed.
Lemma loc_query en m uri : free "#" uri -> free "#" (to_urlencoded en m) ->
  fragment_of (msg_request en m uri false) = None /\
  query_of (msg_request en m uri false) =
    Some (match query_of uri with Some q => q ++ "&" ++ to_urlencoded en m | None => to_urlencoded en m end)%string.
Proof.
  intros H He. unfold msg_request, fragment_of, query_of. rewrite (cut_contains "?" uri), (cut_free _ _ H). cbn [fst snd].
  destruct (snd (cut "?" uri)) as [q|] eqn:E.
  - assert (F : free "#" (uri ++ "&" ++ to_urlencoded en m)%string) by (apply free_app; [exact H|apply free_app; [reflexivity|exact He]]).
    rewrite (cut_free _ _ F). cbn [fst snd]. split; [reflexivity|]. rewrite cut_app, E. reflexivity.
  - assert (F : free "#" (uri ++ "?" ++ to_urlencoded en m)%string) by (apply free_app; [exact H|apply free_app; [reflexivity|exact He]]).
    rewrite (cut_free _ _ F). cbn [fst snd]. split; [reflexivity|]. rewrite cut_app, E. reflexivity.
Qed.

Lemma how_many_app n a b : how_many n (a ++ b) = (how_many n a + how_many n b)%nat.
Proof. unfold how_many. now rewrite filter_app, app_length. Qed.
Lemma how_many_0 n hs : (forall h, In h hs -> named n h = false) -> how_many n hs = 0%nat.
Proof.
  unfold how_many. induction hs as [|h hs IH]; intros H; [reflexivity|]. cbn. rewrite (H h (or_introl eq_refl)). apply IH. intros; apply H; now right.
Qed.
Lemma how_many_In n hs h : In h hs -> named n h = true -> (1 <= how_many n hs)%nat.
Proof.
  intros I N. unfold how_many. destruct (filter (named n) hs) eqn:E; [|cbn; lia].
  assert (X : In h (filter (named n) hs)) by (apply filter_In; auto). rewrite E in X. destruct X.
Qed.
Lemma named_ct v : named "content-type" ("Content-type", v) = true.
Proof. reflexivity. Qed.

Lemma existsb_ct hs ct : existsb (fun h => String.eqb (fst h) "Content-type" && String.eqb (snd h) ct) hs = true <-> In ("Content-type", ct) hs.
Proof.
  rewrite existsb_exists. split.
  - intros ([a b] & I & E). cbn in E. apply andb_true_iff in E. destruct E as [E1 E2]. apply String.eqb_eq in E1, E2. now subst.
  - intros I. exists ("Content-type", ct). split; [exact I|]. cbn. now rewrite String.eqb_refl.
Qed.
Lemma set_ct_one hs ct : orderly (Some hs) -> how_many "content-type" (set_content_type hs ct) = 1%nat /\ In ("Content-type", ct) (set_content_type hs ct).
Proof.
  intros [L S]. unfold set_content_type. destruct (existsb _ hs) eqn:E.
  - apply existsb_ct in E. split; [|exact E]. pose proof (how_many_In _ _ _ E (named_ct ct)). lia.
  - split; [|apply in_or_app; right; now left]. rewrite how_many_app, how_many_0; [reflexivity|].
    intros h Hh. apply filter_In in Hh. destruct Hh as [I N]. apply negb_true_iff, String.eqb_neq in N.
    destruct (named "content-type" h) eqn:X; [|reflexivity]. now apply S in X.
Qed.

(** the three ways through do_response *)
Definition finish (ct : string) (b : body) (pl : option string) (kw : kwargs) : response :=
  mkRs (match pl with Some p => if nonempty p then Some p else None | None => None end) b
    ((if nonempty ct then match kw_http_headers kw with Some hs => set_content_type hs ct | None => [("Content-type", ct)] end
      else match kw_http_headers kw with Some hs => hs | None => [] end) ++ nocache)
    (kw_cookie kw)
    (match kw_http_headers kw with
     | Some given => Some (if negb (nonempty ct) || existsb (fun h => String.eqb (fst h) "Content-type" && String.eqb (snd h) ct) given
                           then given ++ nocache else given)
     | None => None
     end).
Definition error_msg (error : string) (kw : kwargs) : msg :=
  match kw_error_description kw with
  | Some d => [("error", VStr error); ("error_description", d)]
  | None => [("error", VStr error)]
  end.
Lemma do_response_eq en ep args err kw : do_response en ep args err kw =
  if nonempty err then let* cb := place en ep kw (error_msg err kw) in Ok (finish (fst cb) (snd cb) None kw)
  else match kw_response_msg kw with
       | Some t => Ok (finish (msg_content_type ep kw) (Text t) (kw_response_placement kw) kw)
       | None => let* m := ep_construct ep args in let* cb := place en ep kw m in Ok (finish (fst cb) (snd cb) None kw)
       end.
Proof.
  unfold do_response, finish, error_msg. destruct (nonempty err).
  - destruct (place en ep kw _) as [[ct b]|]; cbn; [|reflexivity]. now destruct (kw_http_headers kw).
  - destruct (kw_response_msg kw); cbn; [now destruct (kw_http_headers kw)|].
    destruct (ep_construct ep args) as [m|]; [|reflexivity]. cbn. destruct (place en ep kw m) as [[ct b]|]; cbn; [|reflexivity].
    now destruct (kw_http_headers kw).
Qed.
Lemma do_response_finish en ep args err kw r : do_response en ep args err kw = Ok r ->
  exists ct b pl, r = finish ct b pl kw /\
    ((kw_response_msg kw <> None /\ err = "" /\ ct = msg_content_type ep kw) \/ ((err <> "" \/ kw_response_msg kw = None) /\ exists m, place en ep kw m = Ok (ct, b))).
Proof.
  rewrite do_response_eq. destruct (nonempty err) eqn:N.
  - destruct (place en ep kw _) as [[ct b]|] eqn:P; cbn; [|discriminate]. intros E. exists ct, b, None. split; [congruence|]. right. split; [left; now destruct err|eauto].
  - destruct (kw_response_msg kw) as [t|] eqn:M.
    + intros E. exists (msg_content_type ep kw), (Text t), (kw_response_placement kw). split; [congruence|]. left.
      split; [discriminate|]. split; [|reflexivity]. destruct err; [reflexivity|discriminate].
    + destruct (ep_construct ep args) as [m|]; cbn; [|discriminate]. destruct (place en ep kw m) as [[ct b]|] eqn:P; cbn; [|discriminate].
      intros E. exists ct, b, None. split; [congruence|]. right. split; [now right|eauto].
Qed.
Lemma nocache_ct : how_many "content-type" nocache = 0%nat.
Proof. reflexivity. Qed.

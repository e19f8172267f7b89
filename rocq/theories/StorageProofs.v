(** StorageProofs.v *)
From Verif Require Import Base BaseProofs Types Token Grant Ctx Claims Storage StorageSpec.
From Coq Require Import Lia.
Local Open Scope Z_scope.

(** ** Values *)
Lemma rmapM_map {A B C} (f : B -> result C) (e : A -> B) (g : A -> C) l : (forall x, In x l -> f (e x) = Ok (g x)) -> rmapM f (map e l) = Ok (map g l).
Proof.
  induction l as [|x l IH]; intros H; [reflexivity|]. cbn [map rmapM]. rewrite (H x (or_introl eq_refl)). cbn [rbind].
  rewrite IH by (intros y I; apply H; now right). reflexivity.
Qed.
Lemma as_strs_ok l : as_strs (vstrs l) = Ok l.
Proof. unfold as_strs, vstrs. cbn [as_list rbind]. rewrite (rmapM_map as_str VStr (fun s => s)) by reflexivity. now rewrite map_id. Qed.
Lemma as_rules_ok r : as_rules (VDict (rules_dict r)) = Ok r.
Proof.
  destruct r as [m s e]. unfold as_rules, rules_dict. cbn [as_dict rbind ur_max_usage ur_mints ur_expires_in].
  destruct m, s, e; unfold read; cbn [member app dget String.eqb Ascii.eqb Bool.eqb rbind opt_of as_int]; unfold opt_of; rewrite ?as_strs_ok; reflexivity.
Qed.
Lemma dget_map {A B} (f : A -> B) k (d : dict A) : dget k (map (fun x => (fst x, f (snd x))) d) = option_map f (dget k d).
Proof. induction d as [|[k' v] d IH]; [reflexivity|]. cbn. now destruct (String.eqb k k'). Qed.
Lemma filter_all {A} (f : A -> bool) l : (forall x, In x l -> f x = true) -> filter f l = l.
Proof. induction l as [|x l IH]; intros H; [reflexivity|]. cbn. rewrite (H x (or_introl eq_refl)). f_equal. apply IH. intros y I. apply H. now right. Qed.
Lemma dget_none_in {A} k (d : dict A) : dget k d = None -> forall x, In x d -> fst x <> k.
Proof.
  induction d as [|[k' v] d IH]; intros H x I; [destruct I|]. cbn in H. destruct (String.eqb_spec k k') as [->|N]; [discriminate|].
  destruct I as [<-|I]; [cbn; congruence|]. now apply IH.
Qed.
Lemma as_grules_ok r : dget "max_usage" (gr_types r) = None -> as_grules (VDict (grules_dict r)) = Ok r.
Proof.
  intros N. destruct r as [m ts]. cbn [gr_types] in N. unfold as_grules, grules_dict. cbn [as_dict rbind gr_max_usage gr_types].
  assert (G : dget "max_usage" (map (fun x : string * urules => (fst x, VDict (rules_dict (snd x)))) ts) = None).
  { rewrite (dget_map (fun r => VDict (rules_dict r))), N. reflexivity. }
  assert (F : filter (fun x => negb (is_max x)) (map (fun x : string * urules => (fst x, VDict (rules_dict (snd x)))) ts) =
              map (fun x : string * urules => (fst x, VDict (rules_dict (snd x)))) ts).
  { apply filter_all. intros x I. unfold is_max. destruct (String.eqb_spec (fst x) "max_usage") as [E|]; [|reflexivity].
    exfalso. exact (dget_none_in _ _ G x I E). }
  assert (R : rmapM (on_snd as_rules) (map (fun x : string * urules => (fst x, VDict (rules_dict (snd x)))) ts) = Ok ts).
  { rewrite (rmapM_map _ (fun x : string * urules => (fst x, VDict (rules_dict (snd x)))) (fun x => x)).
    - now rewrite map_id.
    - intros [k r] _. unfold on_snd. cbn [fst snd]. rewrite as_rules_ok. reflexivity. }
  destruct m as [z|]; cbn [member app].
  - unfold read. cbn [dget String.eqb Ascii.eqb Bool.eqb opt_of as_int rbind]. unfold opt_of. cbn [as_int rbind].
    assert (H : forall l, filter (fun x : string * val => negb (is_max x)) (("max_usage"%string, VInt z) :: l) =
                          filter (fun x : string * val => negb (is_max x)) l) by reflexivity.
    rewrite H, F, R. reflexivity.
  - unfold read. rewrite G. cbn [rbind]. rewrite F, R. reflexivity.
Qed.

(** ** Tokens *)
Lemma token_dict_read co t t0 : json_works co -> t_class t0 = t_class t -> token_from_json co t0 (token_json co t) = Ok t.
Proof.
  intros J C. unfold token_from_json, token_json. rewrite J. unfold as_dict, token_dict.
  destruct t as [c ty v b r ia ea nb rv u i s cl rs]. cbn [t_class t_type t_value t_based_on t_rules t_issued_at t_expires_at t_not_before t_revoked t_used t_id t_scope t_claims t_resources] in *.
  unfold read, rbind. cbn [dget String.eqb Ascii.eqb Bool.eqb]. cbn [as_str as_int as_bool].
  rewrite as_rules_ok. destruct b; cbn [as_opt]; rewrite !as_strs_ok; cbn [as_dict]; rewrite C; reflexivity.
Qed.

Lemma set_defaults_again c r : (c <> CAccess -> ur_mints r <> None) -> (c = CCode -> ur_max_usage r = Some 1) -> set_defaults c r = r.
Proof.
  intros H1 H2. destruct r as [m s e], c; cbn in *; [| reflexivity |].
  - rewrite (H2 eq_refl). destruct s; [reflexivity|]. exfalso. apply H1; [discriminate|reflexivity].
  - destruct s; [reflexivity|]. exfalso. apply H1; [discriminate|reflexivity].
Qed.

Lemma token_args clock newid map t : fits map t -> token_of_args clock newid (t_class t) (token_dict t) = Ok t.
Proof.
  intros (_ & I & D & R1 & R2). unfold token_of_args, token_dict. cbn [forallb fst].
  set (b := (_ && _)%bool). assert (b = true) as -> by reflexivity. cbn [negb].
  destruct t as [c ty v b r ia ea nb rv u i s cl rs]. cbn [t_class t_type t_value t_based_on t_rules t_issued_at t_expires_at t_not_before t_revoked t_used t_id t_scope t_claims t_resources] in *.
  unfold read, rbind. cbn [dget String.eqb Ascii.eqb Bool.eqb]. cbn [as_str as_int as_bool].
  rewrite as_rules_ok.
  assert (E1 : item_issued_at clock ia = ia) by (unfold item_issued_at; now rewrite (proj2 (Z.eqb_neq _ _) I)).
  assert (E2 : item_expires_at clock 0 ea = ea) by (unfold item_expires_at; now rewrite andb_false_r).
  assert (E3 : (if nonempty i then i else newid) = i).
  { unfold nonempty. destruct (String.eqb_spec i ""); [contradiction|reflexivity]. }
  destruct b; cbn [as_opt]; rewrite !as_strs_ok; cbn [as_dict]; rewrite E1, E2, E3, set_defaults_again by assumption; reflexivity.
Qed.

Lemma tokens_read co map l : json_works co -> forall n, Forall (fits map) l ->
  tokens_from co map n (List.map (fun t => VStr (token_json co t)) l) = Ok l.
Proof.
  intros J. induction l as [|t l IH]; intros n F; [reflexivity|]. inversion F as [|? ? Ft Fl]; subst. cbn [List.map tokens_from].
  cbn [as_str rbind]. unfold token_json at 1. rewrite J. cbn [rbind as_dict].
  assert (dsub "type" (token_dict t) = Ok (VStr (t_type t))) as -> by reflexivity. cbn [rbind as_str].
  unfold dsub at 1. rewrite (proj1 Ft). cbn [of_option rbind]. rewrite (token_args _ _ _ _ Ft). cbn [rbind]. rewrite IH by assumption. reflexivity.
Qed.

(** ** Classes *)
Lemma importer_ok co c : import_works co -> importer co (class_path c) = Ok c.
Proof.
  intros W. unfold importer. assert (modsplit (class_path c) = Ok ("oidcendpoint.session.token", class_name c)%string) as ->.
  { destruct c; vm_compute; reflexivity. }
  cbn [rbind fst snd]. apply W.
Qed.

(** ** Grants *)
Definition is_exchange (x : sgrant) : option (list string) := match sg_users x with None => None | Some _ => Some [] end.
Definition read_back (clients : cdb) (x : sgrant) : sgrant :=
  mkSG (uncounted (own_claims clients (sg_grant x))) (sg_map x) (is_exchange x).

Lemma claims_ok clients (g : grant) :
  as_claims (VDict (map (fun c => (fst c, VDict (resolve clients (snd c)))) (g_claims g))) =
  Ok (map (fun c => (fst c, CVal (resolve clients (snd c)))) (g_claims g)).
Proof. unfold as_claims. cbn [as_dict rbind]. apply rmapM_map. intros [k c] _. reflexivity. Qed.

Lemma map_ok co (m : dict tclass) : import_works co ->
  rmapM (on_snd (fun v => let* s := as_str v in importer co s)) (map (fun c => (fst c, VStr (class_path (snd c)))) m) = Ok m.
Proof.
  intros W. rewrite (rmapM_map _ _ (fun c => c)); [now rewrite map_id|]. intros [k c] _. unfold on_snd. cbn [fst snd as_str rbind].
  rewrite importer_ok by assumption. reflexivity.
Qed.

Lemma grant_read co clients x x0 : json_works co -> messages_work co -> import_works co ->
  proper_grant (sg_grant x) -> Forall (fits (sg_map x)) (g_issued (sg_grant x)) ->
  g_used (sg_grant x0) = 0 -> g_authreq (sg_grant x0) = None -> g_authn (sg_grant x0) = None -> sg_users x0 = is_exchange x ->
  grant_from_dict co x0 (grant_dict co clients x) = Ok (read_back clients x).
Proof.
  intros J [Rq Ae] W [M A] F U0 A0 E0 X0. destruct x as [g mp us]. cbn [sg_grant sg_map sg_users] in *.
  unfold grant_from_dict. rewrite U0, A0, E0, X0. unfold read_back, uncounted, own_claims, g_set_used, g_set_claims.
  cbn [sg_grant sg_map sg_users g_id g_sub g_scope g_claims g_resources g_authreq g_authn g_issued g_rules g_issued_at g_expires_at g_not_before g_revoked g_used].
  set (d := grant_dict co clients (mkSG g mp us)).
  assert (D : forall k v, dget k (firstn 14 d) = Some v -> dget k d = Some v).
  { intros k v H. unfold d, grant_dict in *. cbn [app firstn sg_grant sg_users sg_map] in *. 
    revert H. cbn [dget]. repeat (match goal with |- (if ?b then _ else _) = _ -> _ => destruct b end; [auto|]). discriminate. }
  assert (D1 : dget "authorization_request" d = match g_authreq g with Some (y :: l) => Some (VDict (co_rq_dict co (y :: l))) | _ => None end).
  { unfold d, grant_dict. cbn [sg_grant]. destruct (g_authreq g) as [[|y l]|], (g_authn g); reflexivity. }
  assert (D2 : dget "authentication_event" d = match g_authn g with Some a => Some (VDict (co_ae_dict co a)) | _ => None end).
  { unfold d, grant_dict. cbn [sg_grant]. destruct (g_authreq g) as [[|y l]|], (g_authn g); reflexivity. }
  unfold read.
  rewrite (D "scope"%string _ eq_refl). rewrite as_strs_ok. cbn [rbind].
  rewrite (D "claims"%string _ eq_refl). cbn [sg_grant]. rewrite claims_ok. cbn [rbind].
  rewrite (D "resources"%string _ eq_refl). rewrite as_strs_ok. cbn [rbind].
  rewrite (D "sub"%string _ eq_refl). cbn [as_str rbind].
  rewrite (D "issued_at"%string _ eq_refl). cbn [as_int rbind].
  rewrite (D "not_before"%string _ eq_refl). cbn [as_int rbind].
  rewrite (D "expires_at"%string _ eq_refl). cbn [as_int rbind].
  rewrite (D "revoked"%string _ eq_refl). cbn [as_bool rbind].
  rewrite (D "id"%string _ eq_refl). cbn [as_str rbind].
  rewrite (D "usage_rules"%string _ eq_refl). cbn [sg_grant]. rewrite as_grules_ok by assumption. cbn [rbind].
  rewrite D1, D2.
  rewrite (D "token_map"%string _ eq_refl). cbn [sg_map].
  rewrite (D "issued_token"%string _ eq_refl). cbn [sg_grant].
  assert (X : (let* m := as_dict (VDict (map (fun c => (fst c, VStr (class_path (snd c)))) mp)) in
               rmapM (on_snd (fun v => let* s := as_str v in importer co s)) m) = Ok mp) by (cbn [as_dict rbind]; now apply map_ok).
  assert (Y : (let* l := as_list (VList (map (fun t => VStr (token_json co t)) (g_issued g))) in tokens_from co mp 1 l) = Ok (g_issued g))
    by (cbn [as_list rbind]; now apply tokens_read).
  revert A. destruct (g_authn g) as [a|]; [cbn [as_dict rbind]; rewrite Ae; cbn [rbind]|cbn [rbind]];
  (destruct (g_authreq g) as [[|y l]|]; intros A; [now elim A| |]; [cbn [as_dict rbind]; rewrite Rq; cbn [rbind]|cbn [rbind]]);
  cbn [as_dict as_list rbind] in X, Y |- *; rewrite X; cbn [rbind]; rewrite Y; reflexivity.
Qed.

Lemma grant_type co clients x : dsub "type" (grant_dict co clients x) = Ok (VStr (match sg_users x with None => "grant" | Some _ => "exchange_grant" end)).
Proof. reflexivity. Qed.

Lemma grant_roundtrip co clients x : json_works co -> messages_work co -> import_works co ->
  proper_grant (sg_grant x) -> Forall (fits (sg_map x)) (g_issued (sg_grant x)) ->
  deserialize co (serialize co clients (IGrant x)) = Ok (Some (IGrant (read_back clients x))).
Proof.
  intros J Mw W P F. cbn [serialize]. unfold deserialize, grant_json. rewrite J. cbn [rbind as_dict]. rewrite grant_type. cbn [rbind].
  destruct (sg_users x) as [us|] eqn:U; cbn [val_eqb String.eqb Ascii.eqb Bool.eqb].
  - rewrite (grant_read co clients x (ExchangeGrant0 co)); auto. unfold is_exchange. now rewrite U.
  - rewrite (grant_read co clients x (Grant0 co)); auto. unfold is_exchange. now rewrite U.
Qed.

(** ** Session information *)
Lemma dset_app {A} k (v : A) d e : dget k d = None -> dset k v (d ++ e) = d ++ dset k v e.
Proof. induction d as [|[k' w] d IH]; intros H; [reflexivity|]. cbn in *. destruct (String.eqb k k'); [discriminate|]. now rewrite IH. Qed.
Lemma dget_app_none {A} k (d e : dict A) : dget k d = None -> dget k (d ++ e) = dget k e.
Proof. induction d as [|[k' w] d IH]; intros H; [reflexivity|]. cbn in *. destruct (String.eqb k k'); [discriminate|]. now apply IH. Qed.
Lemma dget_not_in {A} k (d : dict A) : ~ In k (dkeys d) -> dget k d = None.
Proof. intros H. destruct (dget k d) as [v|] eqn:E; [|reflexivity]. exfalso. apply H. apply dget_In in E. exact (in_map fst _ _ E). Qed.
Lemma dupdate_new {A} (e : dict A) : forall d : dict A, NoDup (dkeys e) -> (forall k, In k (dkeys e) -> dget k d = None) -> dupdate d e = d ++ e.
Proof.
  induction e as [|[k v] e IH]; intros d N H; [now rewrite app_nil_r|]. unfold dupdate. cbn [fold_left fst snd].
  change (dupdate (dset k v d) e = d ++ (k, v) :: e). inversion N as [|? ? N1 N2]; subst.
  assert (dset k v d = d ++ [(k, v)]) as ->.
  { rewrite <- (app_nil_r d) at 1. rewrite dset_app by (apply H; now left). reflexivity. }
  rewrite IH; [now rewrite <- app_assoc| exact N2|]. intros k' I. rewrite dget_app_none by (apply H; now right). cbn.
  destruct (String.eqb_spec k' k) as [->|]; [contradiction|reflexivity].
Qed.

Lemma info_merge i : proper_info i -> dupdate (info0 (si_kind i)) (info_members i) = info_members i.
Proof.
  intros [N D]. destruct i as [k id sub rv ex]. cbn [si_kind si_extra] in *. unfold info_members, info0. cbn [si_kind si_sub si_revoked si_id si_extra].
  set (a := vstrs sub). set (b := VBool rv). set (c := VStr (kind_name k)).
  assert (E : forall m, dupdate [("subordinate"%string, VList []); ("revoked"%string, VBool false); ("type"%string, c)]
                [("subordinate"%string, a); ("revoked"%string, b); ("type"%string, c)] = m -> m = [("subordinate"%string, a); ("revoked"%string, b); ("type"%string, c)]).
  { intros m <-. reflexivity. }
  unfold dupdate. rewrite fold_left_app. fold (@dupdate val). change (fold_left (fun (d0 : dict val) (kv : string * val) => dset (fst kv) (snd kv) d0)) with (fun e d => @dupdate val d e).
  cbv beta. 
  match goal with |- dupdate ?x ?y = _ => assert (x = [("subordinate"%string, a); ("revoked"%string, b); ("type"%string, c)]) as -> by reflexivity end.
  rewrite dupdate_new.
  - reflexivity.
  - destruct id as [s|]; cbn [member app]; [|exact N]. cbn. constructor; [|exact N]. apply D. cbn. auto.
  - intros x I. assert (~ In x ["subordinate"; "revoked"; "type"]%string).
    { intros Bad. assert (Ix : In x (dkeys ex)).
      { destruct id as [s|]; cbn [member app dkeys map] in I; [|exact I]. destruct I as [<-|I]; [|exact I]. exfalso. cbn in Bad.
        destruct k; cbn in Bad; repeat (destruct Bad as [Bad|Bad]; [discriminate|]); exact Bad. }
      apply (D x); [|exact Ix]. cbn in Bad |- *. intuition. }
    cbn [dget]. cbn in H. destruct (String.eqb_spec x "subordinate"); [subst; intuition|]. destruct (String.eqb_spec x "revoked"); [subst; intuition|].
    destruct (String.eqb_spec x "type"); [subst; intuition|]. reflexivity.
Qed.

Lemma info_read i : proper_info i -> as_info (si_kind i) (info_members i) = Ok i.
Proof.
  intros [N D]. destruct i as [k id sub rv ex]. cbn [si_kind si_extra] in *. unfold as_info, info_members. cbn [si_kind si_sub si_revoked si_id si_extra].
  unfold read at 1. cbn [app dget String.eqb Ascii.eqb Bool.eqb]. rewrite as_strs_ok. cbn [rbind].
  unfold read at 1. cbn [app dget String.eqb Ascii.eqb Bool.eqb as_bool rbind].
  assert (X : filter (fun x : string * val => negb (smem (fst x) (info_own k))) ex = ex).
  { apply filter_all. intros x I. apply in_map with (f := fst) in I. apply negb_true_iff.
    destruct (smem (fst x) (info_own k)) eqn:S; [|reflexivity]. exfalso. apply smem_In in S. exact (D _ S I). }
  assert (Nx : dget (id_name k) ex = None). { apply dget_not_in. apply D. cbn. auto. }
  destruct id as [s|]; cbn [member app].
  - assert (G : forall a b c, read (id_name k) (opt_of as_str) None (("subordinate"%string, a) :: ("revoked"%string, b) :: ("type"%string, c) :: (id_name k, VStr s) :: ex) = Ok (Some s)).
    { intros a b c. unfold read. destruct k; cbn; reflexivity. }
    rewrite G. cbn [rbind]. do 3 f_equal. destruct k; cbn; rewrite <- X at 2; reflexivity.
  - assert (G : forall a b c, read (id_name k) (opt_of as_str) None (("subordinate"%string, a) :: ("revoked"%string, b) :: ("type"%string, c) :: ex) = Ok None).
    { intros a b c. unfold read. destruct k; cbn in Nx |- *; now rewrite Nx. }
    rewrite G. cbn [rbind]. do 3 f_equal. destruct k; cbn; rewrite <- X at 2; reflexivity.
Qed.

Lemma info_roundtrip co clients i : json_works co -> info_works co -> proper_info i ->
  deserialize co (serialize co clients (IInfo i)) = Ok (Some (IInfo i)).
Proof.
  intros J W P. cbn [serialize]. unfold deserialize, info_json. rewrite J. cbn [rbind as_dict]. unfold dsub.
  rewrite (proj2 (W (info0 SUser) (info_members i))).
  assert (dget "type" (info_members i) = Some (VStr (kind_name (si_kind i)))) as -> by reflexivity. cbn [of_option rbind].
  assert (M := info_merge i P). assert (R := info_read i P).
  destruct (si_kind i); cbn [kind_name val_eqb String.eqb Ascii.eqb Bool.eqb].
  - rewrite (proj1 (W (info0 SUser) (info_members i))). cbn [rbind]. rewrite M. now rewrite R.
  - rewrite (proj1 (W (info0 SClient) (info_members i))). cbn [rbind]. rewrite M. now rewrite R.
Qed.

(** ** What happens later *)
Lemma own_twice cs cs' g : own_claims cs (own_claims cs' g) = own_claims cs' g.
Proof.
  unfold own_claims, g_set_claims. cbn. f_equal. rewrite map_map. apply map_ext. intros [k c]. reflexivity.
Qed.

(** The original and the copy: the count aside, the same but for claims that belong to a client. *)
Record twin (clients : cdb) (g h : grant) : Prop := mkTwin {
  tw_same : h = uncounted (own_claims clients g) \/ exists n, h = g_set_used n (own_claims clients g);
  tw_free : gr_max_usage (g_rules g) = None }.

Lemma twin_eq clients g n : gr_max_usage (g_rules g) = None -> twin clients g (g_set_used n (own_claims clients g)).
Proof. intros H. constructor; [right; eauto|exact H]. Qed.
Lemma twin_form clients g h : twin clients g h -> exists n, h = g_set_used n (own_claims clients g).
Proof. intros [[-> |[n ->]] _]; unfold uncounted; eauto. Qed.

Lemma active_free clock g n clients : gr_max_usage (g_rules g) = None -> g_active clock (g_set_used n (own_claims clients g)) = g_active clock g.
Proof. intros H. unfold g_active, item_is_active, max_usage_reached. cbn [g_rules g_set_used own_claims g_set_claims]. rewrite H. reflexivity. Qed.

Lemma step_twin clients op g h : (forall cs, op = GRead cs -> cs = clients) -> twin clients g h ->
  fst (gstep op g) = fst (gstep op h) /\ twin clients (snd (gstep op g)) (snd (gstep op h)).
Proof.
  intros Hr T. destruct (twin_form _ _ _ T) as [n ->]. assert (Fr := tw_free _ _ _ T). clear T.
  destruct op as [clock newid ttype b rules scope kw value|clock|value|value| |depth value b rec|clock t|cs]; cbn [gstep].
  - unfold mint_token. rewrite active_free by exact Fr. destruct (g_active clock g); cbn [negb].
    2:{ cbn [fst snd]. split; [reflexivity|]. now apply twin_eq. }
    destruct b as [b|]; [destruct (supports_minting b ttype && t_active clock b)%bool|]; cbn [rbind].
    2:{ cbn [fst snd]. split; [reflexivity|]. now apply twin_eq. }
    all: cbn [g_rules g_set_used own_claims g_set_claims];
      (destruct (TOKEN_MAP ttype); [|cbn [fst snd]; split; [reflexivity|]; now apply twin_eq]);
      (destruct value as [v|]; cbn [rbind fst snd]; [|split; [reflexivity|]; now apply twin_eq]);
      (split; [reflexivity|]);
      refine (twin_eq clients (g_set_used _ (g_set_issued _ _)) _ _); exact Fr.
  - rewrite active_free by exact Fr. split; [reflexivity|]. now apply twin_eq.
  - split; [reflexivity|]. now apply twin_eq.
  - split; [reflexivity|]. refine (twin_eq clients (upd_token _ _ _) _ _). exact Fr.
  - split; [reflexivity|]. refine (twin_eq clients (g_set_revoked _ _) _ _). exact Fr.
  - unfold revoke_token. cbn [g_issued g_set_used own_claims g_set_claims]. destruct (revoke_go depth value b rec (g_issued g)) as [l r]. cbn [fst snd].
    split; [reflexivity|]. refine (twin_eq clients (g_set_issued _ _) _ _). exact Fr.
  - unfold get_spec. rewrite active_free by exact Fr. split; [reflexivity|]. now apply twin_eq.
  - assert (cs = clients) by (now apply Hr). subst cs. cbn [fst snd]. split; [|now apply twin_eq].
    change (own_claims clients (g_set_used n (own_claims clients g))) with (g_set_used n (own_claims clients (own_claims clients g))).
    rewrite own_twice. reflexivity.
Qed.

Lemma run_twin clients ops : (forall cs, In (GRead cs) ops -> cs = clients) -> forall g h, twin clients g h -> fst (grun ops g) = fst (grun ops h).
Proof.
  induction ops as [|op ops IH]; intros Hr g h T; [reflexivity|]. cbn [grun].
  destruct (step_twin clients op g h) as [A B]; [intros cs ->; apply Hr; now left|exact T|].
  destruct (gstep op g) as [a g1], (gstep op h) as [b h1]. cbn [fst snd] in *. subst b.
  specialize (IH ltac:(intros cs I; apply Hr; now right) g1 h1 B).
  destruct (grun ops g1), (grun ops h1). cbn [fst] in *. congruence.
Qed.

(** ** Which tokens a grant has *)
Lemma defaults_fit c r : (c <> CAccess -> ur_mints (set_defaults c r) <> None) /\ (c = CCode -> ur_max_usage (set_defaults c r) = Some 1).
Proof. destruct c, r as [m [s|] e]; cbn; split; intros; congruence. Qed.

Lemma fits_upd map f t : (t_type (f t), t_class (f t), t_issued_at (f t), t_id (f t), t_rules (f t)) = (t_type t, t_class t, t_issued_at t, t_id t, t_rules t) ->
  fits map t -> fits map (f t).
Proof. intros E. injection E as E1 E2 E3 E4 E5. unfold fits. rewrite E1, E2, E3, E4, E5. auto. Qed.

Lemma revoke_nth_fits map i : forall l, Forall (fits map) l -> Forall (fits map) (revoke_nth i l).
Proof.
  induction i as [|i IH]; intros [|t l] F; cbn; try constructor; inversion F; subst; auto.
Qed.
Lemma rloop_fits map rec value b r : (forall w l, Forall (fits map) l -> Forall (fits map) (fst (rec w l))) ->
  forall rest i l, Forall (fits map) l -> Forall (fits map) (fst (rloop rec value b r i rest l)).
Proof.
  intros R. induction rest as [|t rest IH]; intros i l F; cbn [rloop]; [exact F|].
  destruct (_ && _)%bool; [apply IH; now apply revoke_nth_fits|].
  destruct (_ && _)%bool.
  { destruct (_ && _)%bool; apply IH; [now apply revoke_nth_fits|exact F]. }
  destruct (_ || _)%bool; [|now apply IH].
  destruct r; [|apply IH; now apply revoke_nth_fits].
  assert (X := R (t_value t) (revoke_nth i l) (revoke_nth_fits map i l F)). destruct (rec (t_value t) (revoke_nth i l)) as [l2 [?|?]]; cbn [fst] in X |- *; [now apply IH|exact X].
Qed.
Lemma revoke_go_fits map d : forall value b r l, Forall (fits map) l -> Forall (fits map) (fst (revoke_go d value b r l)).
Proof. induction d as [|d IH]; intros value b r l F; cbn [revoke_go]; [exact F|]. apply rloop_fits; auto. Qed.
Lemma upd_first_fits map value f : (forall t, fits map t -> fits map (f t)) -> forall l, Forall (fits map) l -> Forall (fits map) (upd_first value f l).
Proof. intros Hf. induction l as [|t l IH]; intros F; cbn; [constructor|]. inversion F; subst. destruct (String.eqb _ _); constructor; auto. Qed.

Lemma step_fits op g : real_op op -> Forall (fits TOKEN_MAP_DICT) (g_issued g) -> Forall (fits TOKEN_MAP_DICT) (g_issued (snd (gstep op g))).
Proof.
  intros R F. destruct op as [clock newid ttype b rules scope kw value|clock|value|value| |depth value b rec|clock t|cs]; cbn [gstep]; try exact F.
  - destruct (mint_token clock newid g ttype b rules scope kw value) as [[o g']|] eqn:M; [|exact F]. cbn [snd]. unfold mint_token in M.
    destruct (negb (g_active clock g)); [injection M as <- <-; exact F|].
    match type of M with (let* _ := ?x in _) = _ => destruct x as [base|]; [|discriminate] end. cbn [rbind] in M.
    destruct (TOKEN_MAP ttype) as [c|] eqn:C; [|discriminate]. destruct value as [v|]; [|discriminate]. cbn [rbind] in M. injection M as <- <-.
    cbn [g_issued g_set_used g_set_issued]. apply Forall_app. split; [exact F|]. constructor; [|constructor].
    destruct R as [R1 R2]. unfold fits, new_token, t_set_value.
    cbn [t_type t_class t_issued_at t_id t_rules]. split.
    + unfold TOKEN_MAP in C. cbn [TOKEN_MAP_DICT dget]. destruct (String.eqb ttype "authorization_code"); [congruence|].
      destruct (String.eqb ttype "access_token"); [congruence|]. destruct (String.eqb ttype "refresh_token"); congruence.
    + split; [unfold item_issued_at; exact R1|]. split; [exact R2|]. apply defaults_fit.
  - cbn [snd upd_token g_issued g_set_issued]. apply upd_first_fits; [|exact F]. intros t. now apply (fits_upd TOKEN_MAP_DICT register_usage).
  - unfold revoke_token. assert (X := revoke_go_fits TOKEN_MAP_DICT depth value b rec (g_issued g) F).
    destruct (revoke_go depth value b rec (g_issued g)). exact X.
Qed.
Lemma run_fits ops : Forall real_op ops -> forall g, Forall (fits TOKEN_MAP_DICT) (g_issued g) -> Forall (fits TOKEN_MAP_DICT) (g_issued (snd (grun ops g))).
Proof.
  induction 1 as [|op ops R F IH]; intros g H; [exact H|]. cbn [grun]. assert (X := step_fits op g R H). destruct (gstep op g) as [a g1].
  specialize (IH g1 X). destruct (grun ops g1). exact IH.
Qed.

(** ** A text form in which every value can be read back *)
Fixpoint pos_text (p : positive) : string := match p with xH => "H" | xO p => "O" ++ pos_text p | xI p => "I" ++ pos_text p end%string.
Fixpoint pos_read (s : string) : option (positive * string) :=
  match s with
  | String "H" s => Some (xH, s)
  | String "O" s => match pos_read s with Some (p, r) => Some (xO p, r) | None => None end
  | String "I" s => match pos_read s with Some (p, r) => Some (xI p, r) | None => None end
  | _ => None
  end.
Fixpoint str_text (s : string) : string := match s with "" => "." | String c s => String "c" (String c (str_text s)) end%string.
Fixpoint str_read (s : string) : option (string * string) :=
  match s with
  | String "." r => Some (""%string, r)
  | String "c" (String c s) => match str_read s with Some (x, r) => Some (String c x, r) | None => None end
  | _ => None
  end.
Fixpoint val_text (v : val) : string :=
  match v with
  | VNone => "n"
  | VBool true => "t" | VBool false => "f"
  | VInt Z0 => "0" | VInt (Zpos p) => "+" ++ pos_text p | VInt (Zneg p) => "-" ++ pos_text p
  | VStr s => "s" ++ str_text s
  | VList l => "l" ++ (fix go l := match l with [] => "." | x :: l' => "," ++ val_text x ++ go l' end) l
  | VDict d => "d" ++ (fix go d := match d with [] => "." | (k, x) :: d' => "," ++ str_text k ++ val_text x ++ go d' end) d
  end%string.
Fixpoint val_read (n : nat) (s : string) {struct n} : option (val * string) :=
  match n with
  | O => None
  | S n =>
    let fix items (m : nat) (s : string) : option (list val * string) :=
      match m with
      | O => None
      | S m => match s with
               | String "." r => Some ([], r)
               | String "," r => match val_read n r with
                                 | Some (x, r) => match items m r with Some (l, r) => Some (x :: l, r) | None => None end
                                 | None => None
                                 end
               | _ => None
               end
      end in
    let fix members (m : nat) (s : string) : option (msg * string) :=
      match m with
      | O => None
      | S m => match s with
               | String "." r => Some ([], r)
               | String "," r => match str_read r with
                                 | Some (k, r) =>
                                     match val_read n r with
                                     | Some (x, r) => match members m r with Some (l, r) => Some ((k, x) :: l, r) | None => None end
                                     | None => None
                                     end
                                 | None => None
                                 end
               | _ => None
               end
      end in
    match s with
    | String "n" r => Some (VNone, r)
    | String "t" r => Some (VBool true, r)
    | String "f" r => Some (VBool false, r)
    | String "0" r => Some (VInt 0, r)
    | String "+" r => match pos_read r with Some (p, r) => Some (VInt (Zpos p), r) | None => None end
    | String "-" r => match pos_read r with Some (p, r) => Some (VInt (Zneg p), r) | None => None end
    | String "s" r => match str_read r with Some (x, r) => Some (VStr x, r) | None => None end
    | String "l" r => match items (slen r) r with Some (l, r) => Some (VList l, r) | None => None end
    | String "d" r => match members (slen r) r with Some (l, r) => Some (VDict l, r) | None => None end
    | _ => None
    end
  end.
Definition text_read (s : string) : result val := match val_read (slen s) s with Some (v, ""%string) => Ok v | _ => Raise EValue end.

Lemma pos_rt p r : pos_read (pos_text p ++ r) = Some (p, r).
Proof. induction p as [p IH|p IH|]; cbn; now rewrite ?IH. Qed.
Lemma str_rt s r : str_read (str_text s ++ r) = Some (s, r).
Proof. induction s as [|c s IH]; cbn; [reflexivity|]. now rewrite IH. Qed.
Lemma slen_app a b : slen (a ++ b) = (slen a + slen b)%nat.
Proof. unfold slen. induction a; cbn; [reflexivity|]. now rewrite IHa. Qed.
Lemma sapp_assoc (a b c : string) : ((a ++ b) ++ c)%string = (a ++ b ++ c)%string.
Proof. induction a; cbn; [reflexivity|]. now rewrite IHa. Qed.

Definition list_text := fix go (l : list val) : string := match l with [] => "." | x :: l' => "," ++ val_text x ++ go l' end%string.
Definition dict_text := fix go (d : msg) : string := match d with [] => "." | (k, x) :: d' => "," ++ str_text k ++ val_text x ++ go d' end%string.

Lemma val_rt n : forall v r, (slen (val_text v) <= n)%nat -> val_read n (val_text v ++ r) = Some (v, r).
Proof.
  induction n as [|n IH]; intros v r L.
  { exfalso. destruct v as [|[]|[]| | |]; cbn in L; lia. }
  destruct v as [|[]|[|p|p]|s|l|d]; cbn [val_text append val_read]; try reflexivity.
  - now rewrite pos_rt.
  - now rewrite pos_rt.
  - now rewrite str_rt.
  - fold list_text. change (slen (String "l" (list_text l)) <= S n)%nat in L. 
    match goal with |- match ?f (slen ?s) ?s with _ => _ end = _ => set (items := f) end.
    assert (G : forall l m r, (slen (list_text l) <= n)%nat -> (slen (list_text l ++ r)%string <= m)%nat -> items m (list_text l ++ r)%string = Some (l, r)).
    { clear L l r. induction l as [|x l IHl]; intros m r Ln Lm.
      - destruct m; [cbn in Lm; lia|]. reflexivity.
      - cbn [list_text] in *. fold list_text in *. rewrite slen_app in Lm. change (slen ("," ++ val_text x ++ list_text l)%string) with (S (slen (val_text x ++ list_text l)%string)) in *.
        rewrite slen_app in Ln, Lm. destruct m as [|m]; [lia|].
        cbn [append]. cbn [items]. rewrite sapp_assoc, IH by lia. rewrite IHl; [reflexivity|lia|]. rewrite slen_app. lia. }
    transitivity (match items (slen (list_text l ++ r)%string) (list_text l ++ r)%string with Some (l, r) => Some (VList l, r) | None => None end); [reflexivity|].
    rewrite G; [reflexivity| |lia]. apply le_S_n. exact L.
  - fold dict_text. change (slen (String "d" (dict_text d)) <= S n)%nat in L. 
    match goal with |- match ?f (slen ?s) ?s with _ => _ end = _ => set (members := f) end.
    assert (G : forall l m r, (slen (dict_text l) <= n)%nat -> (slen (dict_text l ++ r)%string <= m)%nat -> members m (dict_text l ++ r)%string = Some (l, r)).
    { clear L d r. induction l as [|[k x] l IHl]; intros m r Ln Lm.
      - destruct m; [cbn in Lm; lia|]. reflexivity.
      - cbn [dict_text] in *. fold dict_text in *. rewrite slen_app in Lm. change (slen ("," ++ str_text k ++ val_text x ++ dict_text l)%string) with (S (slen (str_text k ++ val_text x ++ dict_text l)%string)) in *.
        rewrite !slen_app in Ln, Lm. destruct m as [|m]; [lia|].
        cbn [append]. cbn [members]. rewrite sapp_assoc, str_rt, sapp_assoc, IH by lia. rewrite IHl; [reflexivity|lia|]. rewrite slen_app. lia. }
    transitivity (match members (slen (dict_text d ++ r)%string) (dict_text d ++ r)%string with Some (l, r) => Some (VDict l, r) | None => None end); [reflexivity|].
    rewrite G; [reflexivity| |lia]. apply le_S_n. exact L.
Qed.
Lemma text_rt v : text_read (val_text v) = Ok v.
Proof.
  unfold text_read. assert (E : (val_text v ++ "")%string = val_text v). { induction (val_text v) as [|a s IH]; cbn; congruence. }
  rewrite <- E at 2. rewrite val_rt by lia. reflexivity.
Qed.

(** One set of libraries that work. *)
Definition ae_text (a : authn_event) : msg :=
  [("uid", VStr (ae_uid a)); ("authn_info", match ae_authn_info a with Some s => VStr s | None => VNone end);
   ("authn_time", VInt (ae_authn_time a)); ("valid_until", VInt (ae_valid_until a));
   ("sub", match ae_sub a with Some s => VStr s | None => VNone end)]%string.
Definition ae_read (m : msg) : result authn_event :=
  match m with
  | [(_, VStr u); (_, i); (_, VInt t); (_, VInt v); (_, s)] => let* i := as_opt i in let* s := as_opt s in Ok (mkAE u i t v s)
  | _ => Raise EType
  end.
Definition text_codec (clock : Z) : codec :=
  mkCodec val_text text_read (fun m => m) Ok ae_text ae_read (fun m => m) (fun cur m => Ok (dupdate cur m))
    (fun m n => if String.eqb m "oidcendpoint.session.token" then
                  if String.eqb n "AuthorizationCode" then Ok CCode else if String.eqb n "AccessToken" then Ok CAccess
                  else if String.eqb n "RefreshToken" then Ok CRefresh else Raise EAttr
                else Raise EOther)
    clock (fun n => "id"%string).
Lemma text_codec_works clock : json_works (text_codec clock) /\ messages_work (text_codec clock) /\ info_works (text_codec clock) /\ import_works (text_codec clock).
Proof.
  split; [exact text_rt|]. split; [split; [reflexivity|]|].
  - intros [u [i|] t v [s|]]; reflexivity.
  - split; [split; reflexivity|]. intros []; reflexivity.
Qed.

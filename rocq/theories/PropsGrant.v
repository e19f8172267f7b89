(** PropsGrant.v: C07, C10, C11. *)
From Verif Require Import Base Types Token Grant GrantSpec GrantProofs GrantDeep.
Open Scope Z_scope.

(** C11: tokens. *)
Theorem C11_token_activity :
  forall clock t, t_active clock t = true <-> token_usable clock t.
Proof. exact t_active_iff. Qed.
Print Assumptions C11_token_activity.

(** C11: grants. *)
Theorem C11_grant_activity :
  forall clock g, g_active clock g = true <-> grant_usable clock g.
Proof. exact g_active_iff. Qed.
Print Assumptions C11_grant_activity.

(** C11: with an explicit time argument; 0 stands for "the current time". *)
Theorem C11_item_activity :
  forall clock now max_usage used revoked not_before expires_at,
  item_is_active clock now max_usage used revoked not_before expires_at = true <->
  usable_at (if now =? 0 then clock else now) max_usage used revoked not_before expires_at.
Proof. exact item_is_active_iff. Qed.
Print Assumptions C11_item_activity.

Example C11_ex_boundary :
  t_active 1600 (chain_tok 3) = true /\
  t_active 1600 (t_set_expires_at 1600 (chain_tok 3)) = true /\
  t_active 1601 (t_set_expires_at 1600 (chain_tok 3)) = false /\
  t_active 1600 (t_set_revoked true (chain_tok 3)) = false.
Proof. repeat split. Qed.

Lemma token_map_types ty c : TOKEN_MAP ty = Some c <-> of_type ty c.
Proof.
  unfold TOKEN_MAP, of_type. split.
  - destruct (String.eqb_spec ty "authorization_code"); [intros X; injection X; auto|].
    destruct (String.eqb_spec ty "access_token"); [intros X; injection X; auto|].
    destruct (String.eqb_spec ty "refresh_token"); [intros X; injection X; auto|discriminate].
  - intros [(-> & ->)|[(-> & ->)|(-> & ->)]]; reflexivity.
Qed.

(** C10: every token at position [i] of a grant was appended there by a mint that succeeded while
    the grant was usable; a base token was then already in the grant, usable and allowed to mint. *)
Theorem C10_lineage_authorised :
  forall g0 ops, g_issued g0 = [] -> forall i t,
  nth_error (g_issued (grun g0 ops)) i = Some t ->
  exists ops1 ops2 clock newid ttype base rules scope kw,
    ops = ops1 ++ GMint clock newid ttype base rules scope kw (Ok (t_value t)) :: ops2 /\
    i = length (g_issued (grun g0 ops1)) /\
    t_type t = ttype /\ of_type ttype (t_class t) /\
    grant_usable clock (grun g0 ops1) /\
    match base with
    | None => t_based_on t = None
    | Some j => exists b, nth_error (g_issued (grun g0 ops1)) j = Some b /\
                  t_based_on t = Some (t_value b) /\ may_mint b ttype /\ token_usable clock b
    end.
Proof.
  intros g0 ops H0 i t N. destruct (lineage_history g0 ops H0 i t N) as (o1 & o2 & clock & newid & ty & base & rules & sc & kw & E & L & Ty & M & X).
  apply token_map_types in M. exists o1, o2, clock, newid, ty, base, rules, sc, kw. tauto.
Qed.
Print Assumptions C10_lineage_authorised.

(** C10: what one call of mint_token does. A refusal ([Ok (None, _)] or an exception) leaves the
    grant as it was; a success appends exactly one new, unused token. *)
Theorem C10_mint_token :
  forall clock newid g ty base rules scope kw value,
  match mint_token clock newid g ty base rules scope kw value with
  | Raise _ => grant_usable clock g
  | Ok (None, g') => g' = g /\ ~ grant_usable clock g
  | Ok (Some t, g') =>
      grant_usable clock g /\
      (forall b, base = Some b -> may_mint b ty /\ token_usable clock b) /\
      value = Ok (t_value t) /\
      t_type t = ty /\ of_type ty (t_class t) /\
      t_based_on t = option_map t_value base /\
      t_revoked t = false /\ t_used t = 0 /\ t_id t = newid /\
      t_issued_at t = clock /\ t_not_before t = kw_not_before kw /\
      t_expires_at t = (if kw_expires_at kw =? 0
                        then if kw_expires_in kw =? 0 then 0 else clock + kw_expires_in kw
                        else kw_expires_at kw) /\
      ur_max_usage (t_rules t) =
        (if String.eqb ty "authorization_code" then Some 1
         else ur_max_usage (rules_for rules ty g)) /\
      ur_mints (t_rules t) =
        (match ur_mints (rules_for rules ty g) with
         | Some l => Some l
         | None => if String.eqb ty "access_token" then None
                   else Some ["access_token"; "refresh_token"]%string
         end) /\
      g' = g_set_used (g_used g + 1) (g_set_issued (g_issued g ++ [t]) g)
  end.
Proof.
  intros. pose proof (mint_token_cases clock newid g ty base rules scope kw value) as X.
  destruct (mint_token clock newid g ty base rules scope kw value) as [[[t|] g']|]; try exact X.
  rewrite token_map_types in X. exact X.
Qed.
Print Assumptions C10_mint_token.

(** C10: when a token is minted, and what comes instead otherwise. The token has the scope and the resources that are given; the
    lifetime in its rules is that of the rules it gets. *)
Theorem C10_mint_outcome :
  forall clock newid g ty base rules scope kw value,
  (~ grant_usable clock g -> mint_token clock newid g ty base rules scope kw value = Ok (None, g)) /\
  (grant_usable clock g ->
     (forall b, base = Some b -> ~ (may_mint b ty /\ token_usable clock b) ->
        mint_token clock newid g ty base rules scope kw value = Raise EMintingNotAllowed) /\
     ((forall b, base = Some b -> may_mint b ty /\ token_usable clock b) ->
        ((forall c, ~ of_type ty c) -> mint_token clock newid g ty base rules scope kw value = Raise EValue) /\
        (forall c e, of_type ty c -> value = Raise e -> mint_token clock newid g ty base rules scope kw value = Raise e) /\
        (forall c v, of_type ty c -> value = Ok v ->
           exists t g', mint_token clock newid g ty base rules scope kw value = Ok (Some t, g') /\ t_value t = v /\
             t_scope t = match scope with Some l => l | None => [] end /\ t_resources t = kw_resources kw /\ t_claims t = [] /\
             ur_expires_in (t_rules t) = ur_expires_in (rules_for rules ty g)))).
Proof.
  intros clock newid g ty base rules scope kw value. unfold mint_token.
  destruct (g_active clock g) eqn:Ha.
  2:{ split; [reflexivity|]. intros G. apply g_active_iff in G. congruence. }
  pose proof Ha as G. apply g_active_iff in G. cbn [negb]. split; [contradiction|]. intros _.
  split.
  - intros b -> N. destruct (supports_minting b ty && t_active clock b) eqn:B; [|reflexivity].
    apply andb_prop in B. destruct B as (B1 & B2). apply supports_minting_iff in B1. apply t_active_iff in B2. tauto.
  - intros B.
    assert (E : exists r, match base with
      | Some b => if supports_minting b ty && t_active clock b then Ok (Some (t_value b)) else Raise EMintingNotAllowed
      | None => Ok None end = Ok r).
    { destruct base as [b|]; [|eauto]. destruct (B b eq_refl) as (B1 & B2).
      apply supports_minting_iff in B1. apply t_active_iff in B2. rewrite B1, B2. cbn. eauto. }
    destruct E as (r & ->). cbn [rbind].
    split; [|split].
    + intros N. destruct (TOKEN_MAP ty) as [c|] eqn:M; [|reflexivity]. apply token_map_types in M. now apply N in M.
    + intros c e T ->. apply token_map_types in T. rewrite T. reflexivity.
    + intros c v T ->. pose proof T as M. apply token_map_types in M. rewrite M. cbn [rbind]. do 2 eexists. split; [reflexivity|].
      cbn. do 4 (split; [reflexivity|]). unfold rules_for, dget_or.
      destruct rules as [r0|]; [|destruct (dget ty (gr_types (g_rules g)))];
        destruct T as [(_ & ->)|[(_ & ->)|(_ & ->)]]; cbn; reflexivity.
Qed.
Print Assumptions C10_mint_outcome.

(** C10/C08: the tokens of a grant are never dropped, reordered or altered by later operations,
    except that use counts grow and revocation flags get set. *)
Theorem C10_tokens_persist :
  forall g ops i t, nth_error (g_issued g) i = Some t ->
  exists t', nth_error (g_issued (grun g ops)) i = Some t' /\ same_core t t'.
Proof. exact grun_monotone. Qed.
Print Assumptions C10_tokens_persist.

(** A code, an access and a refresh token from it, an attempt to mint from the used-up code, and a
    refresh: five operations, four tokens. *)
Definition hist_ex : list gop :=
  [ GMint 1000 "i1" "authorization_code" None None None no_kw (Ok "code1");
    GMint 1001 "i2" "access_token" (Some 0%nat) None None no_kw (Ok "at1");
    GMint 1001 "i3" "refresh_token" (Some 0%nat) None None no_kw (Ok "rt1");
    GUse "code1";
    GMint 1002 "i4" "access_token" (Some 0%nat) None None no_kw (Ok "at2");
    GMint 1003 "i5" "access_token" (Some 2%nat) None None no_kw (Ok "at3") ].
Example C10_ex_values :
  map t_value (g_issued (grun chain_grant hist_ex)) = ["code1"; "at1"; "rt1"; "at3"]%string.
Proof. reflexivity. Qed.
Example C10_ex_based_on :
  map t_based_on (g_issued (grun chain_grant hist_ex))
  = [None; Some "code1"; Some "code1"; Some "rt1"]%string.
Proof. reflexivity. Qed.

(** C07: on every grant built by minting (fresh, non-empty token values), recursive revocation by
    value ends without error when the recursion limit exceeds the number of tokens, and revokes
    exactly the named token and those derived from it. *)
Theorem C07_revoke_recursive_exact :
  forall g0 ops v depth, g_issued g0 = [] -> fresh_values g0 ops -> v <> ""%string ->
  let g := grun g0 ops in
  (length (g_issued g) + 1 < depth)%nat ->
  exists l',
    revoke_token depth v "" true g = (g_set_issued l' g, Ok tt) /\
    revokes_exactly (fun t => In v (map t_value (g_issued g)) /\
                              (t_value t = v \/ derived (g_issued g) v (t_value t)))
      (g_issued g) l'.
Proof.
  intros g0 ops v depth H0 Hf Hv g Hd.
  destruct (revoke_value_exact depth v (g_issued g) (lineage_ok_history g0 ops H0 Hf) Hv Hd) as (l' & E & H).
  exists l'. split; [|exact H]. unfold revoke_token. rewrite E. reflexivity.
Qed.
Print Assumptions C07_revoke_recursive_exact.

(** C07: the same for the recursion by base token. *)
Theorem C07_revoke_based_on_exact :
  forall g0 ops b depth, g_issued g0 = [] -> fresh_values g0 ops -> b <> ""%string ->
  let g := grun g0 ops in
  (length (g_issued g) < depth)%nat ->
  exists l',
    revoke_token depth "" b true g = (g_set_issued l' g, Ok tt) /\
    revokes_exactly (fun t => derived (g_issued g) b (t_value t)) (g_issued g) l'.
Proof.
  intros g0 ops b depth H0 Hf Hb g Hd.
  destruct (revoke_based_exact depth b 0 (g_issued g) (g_issued g) eq_refl
              (lineage_ok_history g0 ops H0 Hf) Hb) as (l' & E & H); [intros; lia|lia|].
  exists l'. split; [|exact H]. unfold revoke_token. rewrite E. reflexivity.
Qed.
Print Assumptions C07_revoke_based_on_exact.

(** C07: non-recursive revocation touches only the named token, on every grant. *)
Theorem C07_revoke_single_exact :
  forall depth g v, v <> ""%string -> exists l',
    revoke_token (S depth) v "" false g = (g_set_issued l' g, Ok tt) /\
    revokes_exactly (fun t => t_value t = v) (g_issued g) l'.
Proof.
  intros depth g v Hv. destruct (revoke_single_exact depth v (g_issued g) Hv) as (l' & E & H).
  exists l'. split; [|exact H]. unfold revoke_token. rewrite E. reflexivity.
Qed.
Print Assumptions C07_revoke_single_exact.

(** C07: value and base both given: only tokens matching both. *)
Theorem C07_revoke_pair_exact :
  forall depth g v b r, v <> ""%string -> b <> ""%string -> exists l',
    revoke_token (S depth) v b r g = (g_set_issued l' g, Ok tt) /\
    revokes_exactly (fun t => t_value t = v /\ t_based_on t = Some b) (g_issued g) l'.
Proof.
  intros depth g v b r Hv Hb. destruct (revoke_pair_exact depth v b r (g_issued g) Hv Hb) as (l' & E & H).
  exists l'. split; [|exact H]. unfold revoke_token. rewrite E. reflexivity.
Qed.
Print Assumptions C07_revoke_pair_exact.

(** C07: no argument: every token. *)
Theorem C07_revoke_all_exact :
  forall depth g r, exists l',
    revoke_token (S depth) "" "" r g = (g_set_issued l' g, Ok tt) /\
    revokes_exactly (fun _ => True) (g_issued g) l'.
Proof.
  intros depth g r. destruct (revoke_all_exact depth r (g_issued g)) as (l' & E & H).
  exists l'. split; [|exact H]. unfold revoke_token. rewrite E. reflexivity.
Qed.
Print Assumptions C07_revoke_all_exact.

(** C07, "terminates on every grant built by minting", is false for every fixed recursion limit
    (CPython's default is 1000): a long enough chain of refresh tokens makes revocation fail. *)
Theorem C07_revoke_depth_refuted :
  forall depth, exists ops v,
  fresh_values chain_grant ops /\
  In v (map t_value (g_issued (grun chain_grant ops))) /\
  snd (revoke_token depth v "" true (grun chain_grant ops)) = Raise ERecursion.
Proof. exact revoke_too_deep. Qed.
Print Assumptions C07_revoke_depth_refuted.

(** Revoking the refresh token of [hist_ex] takes the access token minted from it along and
    leaves the code and the first access token alone. *)
Example C07_ex :
  map t_revoked (g_issued (fst (revoke_token 10 "rt1" "" true (grun chain_grant hist_ex))))
  = [false; false; true; true].
Proof. reflexivity. Qed.
Example C07_ex_fresh : fresh_values chain_grant hist_ex.
Proof. apply freshb_sound. reflexivity. Qed.

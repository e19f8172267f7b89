(** UriProofs.v: lemmas on Uri.v. *)
From Verif Require Import Base BaseProofs Types Ctx ScopesProofs Uri UriSpec.

Lemma covered_ok a b : covered a b = Ok tt ->
  forall k l s, In (k, VList l) a -> In (VStr s) l -> exists l', dget k b = Some (VList l') /\ In (VStr s) l'.
Proof.
  induction a as [|[k0 v0] a IH]; [easy|]. cbn [covered]. intros H k l s [E|Hin] Hs.
  - injection E as -> ->. cbn [as_list rbind] in H. destruct (dget k b) as [o|] eqn:Eo; [|discriminate].
    cbn [of_option rbind] in H. destruct o as [| | | |lo|]; try discriminate. cbn [as_list rbind] in H.
    destruct (forallb _ l) eqn:F; [|discriminate]. rewrite forallb_forall in F. specialize (F _ Hs).
    apply existsb_str in F. eauto.
  - destruct (as_list v0) as [l0|]; [|discriminate]. cbn [rbind] in H.
    destruct (dget k0 b) as [o|]; [|discriminate]. cbn [of_option rbind] in H.
    destruct (as_list o) as [lo|]; [|discriminate]. cbn [rbind] in H.
    destruct (forallb _ l0); [|discriminate]. eapply IH; eauto.
Qed.

Lemma covered_params a b : covered a b = Ok tt -> forall k s, has_param (VDict a) k s -> has_param (VDict b) k s.
Proof.
  intros H k s (d & l & [= <-] & G & Hin). destruct (covered_ok a b H k l s) as (l' & G' & H'); auto.
  - now apply dget_In.
  - exists b, l'; auto.
Qed.

Lemma no_param_falsy v k s : truthy v = false -> ~ has_param v k s.
Proof. intros H (d & l & -> & G & _). destruct d; [discriminate|discriminate]. Qed.

Lemma same_query_ok q r : same_query q r = Ok tt -> same_params q r.
Proof.
  unfold same_query. destruct (truthy r) eqn:Er, (truthy q) eqn:Eq; cbn [negb]; cbn [rbind]; try discriminate.
  - destruct r as [| | | | |r]; try discriminate. destruct q as [| | | | |q]; try discriminate. cbn [as_dict rbind].
    destruct (covered r q) as [[]|] eqn:C1; [|discriminate]. cbn [rbind]. intros C2 k s. split; now apply covered_params.
  - intros _ k s. split; intros H; exfalso; [apply (no_param_falsy q k s)|apply (no_param_falsy r k s)]; auto.
Qed.

Lemma dget_vquery d k : dget k (map (fun kv => (fst kv, vstrs (snd kv))) d) = option_map vstrs (dget k d).
Proof. induction d as [|[k' l] d IH]; [easy|]. cbn. destruct (String.eqb k k'); auto. Qed.

Lemma In_vstrs s l : In (VStr s) (map VStr l) <-> In s l.
Proof. rewrite in_map_iff. split; [intros (x & [= ->] & H); auto|eauto]. Qed.

Lemma has_param_vquery d k s : has_param (vquery d) k s <-> exists l, dget k d = Some l /\ In s l.
Proof.
  unfold has_param, vquery. split.
  - intros (d' & l & [= <-] & G & H). rewrite dget_vquery in G. destruct (dget k d) as [l0|]; [|discriminate].
    injection G as <-. exists l0. split; auto. now apply In_vstrs.
  - intros (l & G & H). eexists _, (map VStr l). split; [reflexivity|]. rewrite dget_vquery, G. split; auto. now apply In_vstrs.
Qed.

Lemma covered_complete a b :
  (forall k l, In (k, l) a -> exists l', dget k b = Some l' /\ incl l l') ->
  covered (map (fun kv => (fst kv, vstrs (snd kv))) a) (map (fun kv => (fst kv, vstrs (snd kv))) b) = Ok tt.
Proof.
  induction a as [|[k l] a IH]; [easy|]. intros H. cbn [map covered fst snd vstrs as_list rbind].
  destruct (H k l) as (l' & G & I); [now left|]. rewrite dget_vquery, G. cbn [option_map of_option rbind vstrs as_list].
  replace (forallb _ (map VStr l)) with true.
  - apply IH. intros; apply H; now right.
  - symmetry. apply forallb_forall. intros x Hx. apply in_map_iff in Hx. destruct Hx as (s & <- & Hs).
    apply existsb_str, In_vstrs. auto.
Qed.

Definition proper (q : val) : Prop := q = VStr "" \/ q = VNone \/ exists d, q = vquery d /\ proper_query d.

Lemma proper_truthy q : proper q -> truthy q = true -> exists d, q = vquery d /\ proper_query d.
Proof. intros [->| [->|H]] T; [discriminate|discriminate|auto]. Qed.

Lemma truthy_param q : proper q -> truthy q = true -> exists k s, has_param q k s.
Proof.
  intros P T. destruct (proper_truthy q P T) as (d & -> & N & L). destruct d as [|[k l] d]; [discriminate|].
  destruct l as [|s l]; [exfalso; eapply L; [now left|reflexivity]|]. exists k, s. apply has_param_vquery.
  exists (s :: l). split; [|now left]. cbn. now rewrite String.eqb_refl.
Qed.

Lemma vquery_covered d e : proper_query d -> proper_query e -> same_params (vquery d) (vquery e) ->
  covered (map (fun kv => (fst kv, vstrs (snd kv))) d) (map (fun kv => (fst kv, vstrs (snd kv))) e) = Ok tt.
Proof.
  intros [N L] [N' L'] S. apply covered_complete. intros k l Hin.
  assert (G : dget k d = Some l) by now apply In_dget.
  assert (I : forall x, In x l -> exists l', dget k e = Some l' /\ In x l').
  { intros x Hx. apply has_param_vquery. apply S. apply has_param_vquery. exists l. auto. }
  destruct l as [|s l]; [exfalso; eapply L; eauto|].
  destruct (I s) as (l' & G' & Hs); [now left|]. exists l'. split; auto. intros x Hx.
  destruct (I x Hx) as (l2 & G2 & H2). rewrite G' in G2. now injection G2 as <-.
Qed.

Lemma same_query_complete q r : proper q -> proper r -> same_params q r -> same_query q r = Ok tt.
Proof.
  intros Pq Pr S. unfold same_query. destruct (truthy r) eqn:Er.
  - destruct (truthy_param r Pr Er) as (k & s & H). apply S in H.
    destruct (truthy q) eqn:Eq; [|exfalso; eapply no_param_falsy; eauto]. cbn [negb rbind].
    destruct (proper_truthy q Pq Eq) as (d & -> & Hd). destruct (proper_truthy r Pr Er) as (e & -> & He).
    unfold vquery at 1 2. cbn [as_dict rbind]. rewrite vquery_covered by (auto; intros x y; symmetry; apply S).
    cbn [rbind]. now apply vquery_covered.
  - cbn [rbind]. destruct (truthy q) eqn:Eq; [|reflexivity]. destruct (truthy_param q Pq Eq) as (k & s & H).
    apply S in H. exfalso; eapply no_param_falsy; eauto.
Qed.

Lemma match_uri_ok b q l : match_uri b q l = Ok tt ->
  exists pre r post, l = pre ++ entry b r :: post /\ same_query q r = Ok tt /\
    Forall (fun e => exists b' q', e = VList [b'; q'] /\ b' <> VStr b) pre.
Proof.
  induction l as [|e l IH]; [easy|]. cbn [match_uri].
  destruct e as [| | | |[|rb [|rq [|]]]|]; try discriminate. destruct (val_eqb (VStr b) rb) eqn:E.
  - apply val_eqb_str in E. subst rb. intros H. exists [], rq, l. auto.
  - intros H. destruct (IH H) as (pre & r & post & -> & S & F). exists (VList [rb; rq] :: pre), r, post.
    split; [reflexivity|]. split; auto. constructor; auto. exists rb, rq. split; auto. intros ->.
    rewrite (proj2 (val_eqb_str b (VStr b)) eq_refl) in E. discriminate.
Qed.

Lemma match_uri_first b q pre r post :
  Forall (fun e => exists b' q', e = entry b' q' /\ b' <> b) pre ->
  match_uri b q (pre ++ entry b r :: post) = same_query q r.
Proof.
  induction pre as [|e pre IH]; intros F.
  - cbn [app match_uri entry]. now rewrite (proj2 (val_eqb_str b (VStr b)) eq_refl).
  - inversion F as [|? ? (b' & q' & -> & N) F']; subst. cbn [app match_uri entry].
    destruct (val_eqb (VStr b) (VStr b')) eqn:E; [|now apply IH]. apply val_eqb_str in E. congruence.
Qed.

Lemma verify_uri_ok u db rq ty arg : verify_uri u db rq ty arg = Ok tt ->
  exists c raw p l, client_of rq arg c /\ dget ty rq = Some (VStr raw) /\ ul_split u (ul_unquote u raw) = Ok p /\
    up_fragment p = ""%string /\ registered db c (ty ++ "s") l /\ match_uri (up_base p) (query_of u p) l = Ok tt.
Proof.
  unfold verify_uri. intros H.
  destruct (match dget "client_id" rq with Some v => Some v | None => option_map VStr arg end) as [v|] eqn:Ev; [|discriminate].
  destruct (truthy v) eqn:Tv; [|discriminate]. cbn [negb] in H.
  unfold msub_str in H. destruct (dget ty rq) as [[| | |raw| |]|] eqn:Er; try discriminate. cbn [rbind] in H.
  unfold split_uri in H. destruct (ul_split u (ul_unquote u raw)) as [p|] eqn:Ep; [|discriminate]. cbn [rbind] in H.
  destruct (nonempty (up_fragment p)) eqn:Ef; [discriminate|]. cbn [fst snd] in H.
  destruct v as [| | |c| |]; try discriminate.
  destruct (dget c db) as [[|kv info]|] eqn:Ec; try discriminate.
  unfold truthy_get in H. destruct (dget (ty ++ "s") (kv :: info)) as [regs|] eqn:Eg; [|discriminate].
  destruct (truthy regs) eqn:Tr; [|discriminate]. destruct regs as [| | | |l|]; try discriminate. cbn [as_list rbind] in H.
  exists c, raw, p, l. split; [|split; [auto|split; [auto|split; [|split; [|exact H]]]]].
  - split.
    + intros ->. discriminate.
    + destruct (dget "client_id" rq) as [w|]; [left; congruence|right]. destruct arg; [|discriminate]. cbn in Ev. split; congruence.
  - destruct (up_fragment p); [auto|discriminate].
  - exists (kv :: info). auto.
Qed.

Lemma truthy_str c : c <> ""%string -> truthy (VStr c) = true.
Proof. destruct c; [congruence|auto]. Qed.

Lemma verify_uri_eq u db rq ty arg c raw p l :
  client_of rq arg c -> dget ty rq = Some (VStr raw) -> ul_split u (ul_unquote u raw) = Ok p ->
  up_fragment p = ""%string -> registered db c (ty ++ "s") l -> l <> [] ->
  verify_uri u db rq ty arg = match_uri (up_base p) (query_of u p) l.
Proof.
  intros [N Hc] Hr Hp Hf (info & Gi & Gl) Nl. unfold verify_uri.
  replace (match dget "client_id" rq with Some v => Some v | None => option_map VStr arg end) with (Some (VStr c))
    by (destruct Hc as [->|[-> ->]]; reflexivity).
  rewrite (truthy_str c N). cbn [negb]. unfold msub_str. rewrite Hr. cbn [rbind].
  unfold split_uri. rewrite Hp. cbn [rbind]. rewrite Hf. cbn [nonempty fst snd]. rewrite Gi.
  destruct info as [|kv info]; [discriminate|]. unfold truthy_get. rewrite Gl.
  destruct l as [|e l]; [congruence|]. reflexivity.
Qed.

Lemma pairs_vquery_ok d : exists ps, pairs_of (map (fun kv => (fst kv, vstrs (snd kv))) d) = Ok ps.
Proof.
  induction d as [|[k l] d [ps IH]]; [now exists []|]. cbn [map fst snd pairs_of vstrs as_list rbind].
  rewrite IH. cbn [rbind]. eauto.
Qed.

(** ** A number sign at the end *)
From Verif Require Import PyUrl.
Definition hashless (s : string) : Prop := ~ In "#"%char (list_ascii_of_string s).
Lemma hashless_cons c s : hashless (String c s) <-> c <> "#"%char /\ hashless s.
Proof. unfold hashless. cbn [list_ascii_of_string In]. intuition. Qed.
Lemma unquote_hash_n n : forall s, (String.length s < n)%nat -> unquote (s ++ "#") = (unquote s ++ "#")%string.
Proof.
  induction n as [|n IH]; intros s L; [lia|]. destruct s as [|c s]; [reflexivity|]. cbn [String.length] in L.
  assert (Step : forall a b t, unquote (String c (String a (String b t))) =
    if Ascii.eqb c "%" then match hexval a, hexval b with Some x, Some y => String (ascii_of_nat (16 * x + y)%nat) (unquote t)
                            | _, _ => String c (unquote (String a (String b t))) end
    else String c (unquote (String a (String b t)))) by reflexivity.
  destruct s as [|a s].
  - reflexivity.
  - destruct s as [|b s].
    + cbn [append]. rewrite Step. change (hexval "#") with (@None nat).
      assert (U : unquote (String c (String a "")) = String c (String a "")) by reflexivity.
      assert (U2 : unquote (String a "#") = String a "#") by reflexivity. rewrite U, U2.
      destruct (Ascii.eqb c "%"); [destruct (hexval a)|]; reflexivity.
    + assert (E1 : unquote (String a (String b s) ++ "#") = (unquote (String a (String b s)) ++ "#")%string) by (apply IH; cbn in *; lia).
      assert (E2 : unquote (s ++ "#") = (unquote s ++ "#")%string) by (apply IH; cbn in *; lia).
      cbn [append] in *. rewrite !Step, E1, E2. destruct (Ascii.eqb c "%"); [|reflexivity]. destruct (hexval a), (hexval b); reflexivity.
Qed.
Lemma unquote_hash s : unquote (s ++ "#") = (unquote s ++ "#")%string.
Proof. apply (unquote_hash_n (S (String.length s))). lia. Qed.

Lemma cut_at_app c s t : cut_at c (s ++ t) = match cut_at c s with (a, Some b) => (a, Some (b ++ t)%string) | (a, None) => let '(x, y) := cut_at c t in ((a ++ x)%string, y) end.
Proof.
  induction s as [|d s IH]; cbn [append cut_at]; [destruct (cut_at c t); reflexivity|]. destruct (Ascii.eqb c d); [reflexivity|].
  rewrite IH. destruct (cut_at c s) as [a [b|]]; [reflexivity|]. destruct (cut_at c t); reflexivity.
Qed.
Lemma cut_at_hashless s : hashless s -> cut_at "#" s = (s, None).
Proof.
  induction s as [|d s IH]; intros H; [reflexivity|]. apply hashless_cons in H. destruct H as [N H]. cbn [cut_at].
  destruct (Ascii.eqb_spec "#" d); [congruence|]. now rewrite (IH H).
Qed.
Lemma cut_at_rest c s a b : cut_at c s = (a, Some b) -> hashless s -> hashless b.
Proof.
  revert a b. induction s as [|d s IH]; intros a b E H; [discriminate|]. apply hashless_cons in H. destruct H as [N H]. cbn [cut_at] in E.
  destruct (Ascii.eqb c d); [injection E as <- <-; exact H|]. destruct (cut_at c s) as [x y] eqn:C. injection E as <- ->. eauto.
Qed.
Lemma span_hash stops s : existsb (Ascii.eqb "#") stops = true ->
  span_to stops (s ++ "#") = (fst (span_to stops s), (snd (span_to stops s) ++ "#")%string).
Proof.
  intros Hs. induction s as [|d s IH]; cbn [append span_to]; [now rewrite Hs|]. destruct (existsb (Ascii.eqb d) stops); [reflexivity|].
  rewrite IH. destruct (span_to stops s); reflexivity.
Qed.
Lemma span_rest stops s : hashless s -> hashless (snd (span_to stops s)).
Proof.
  induction s as [|d s IH]; intros H; [exact H|]. cbn [span_to]. destruct (existsb _ stops); [exact H|].
  apply hashless_cons in H. destruct H as [_ H]. specialize (IH H). now destruct (span_to stops s).
Qed.
Lemma slashes_hash s : starts_with "//" (s ++ "#") = starts_with "//" s.
Proof.
  assert (P : forall a t, starts_with "//" (String a t) = if ascii_dec "/" a then starts_with "/" t else false) by reflexivity.
  assert (Q : forall b t, starts_with "/" (String b t) = if ascii_dec "/" b then true else false)
    by (intros b t; destruct t; reflexivity).
  destruct s as [|a [|b s]]; [reflexivity| |]; cbn [append]; rewrite !P; [reflexivity|]. now rewrite !Q.
Qed.

Lemma urlsplit_hash s : hashless s -> urlsplit (s ++ "#") = urlsplit s.
Proof.
  intros H. unfold urlsplit at 1 2.
  set (R := fun t => match cut_at ":" t with (sch, Some r) => match sch with
      | String c _ => if letter c && sall scheme_char sch then (smap lower sch, r) else (EmptyString, t)
      | EmptyString => (EmptyString, t) end | (_, None) => (EmptyString, t) end).
  fold (R (s ++ "#")%string). fold (R s).
  assert (R1 : exists sc r, R s = (sc, r) /\ R (s ++ "#")%string = (sc, (r ++ "#")%string) /\ hashless r).
  { unfold R. rewrite cut_at_app. destruct (cut_at ":" s) as [a [b|]] eqn:C.
    - destruct a as [|c a]; [eauto|]. destruct (letter c && _); [|eauto]. do 2 eexists. split; [reflexivity|]. split; [reflexivity|]. eapply cut_at_rest; eauto.
    - cbn. eauto. }
  destruct R1 as (sc & r & -> & -> & Hr). clear R. rewrite slashes_hash.
  set (N := fun t => if starts_with "//" r then match t with String _ (String _ r) => span_to ["/"; "?"; "#"]%char r | _ => (EmptyString, t) end else (EmptyString, t)).
  fold (N (r ++ "#")%string). fold (N r).
  assert (N1 : exists n p, N r = (n, p) /\ N (r ++ "#")%string = (n, (p ++ "#")%string) /\ hashless p).
  { unfold N. destruct (starts_with "//" r) eqn:St; [|eauto]. destruct r as [|a [|b r]]; [eauto| |].
    - exfalso. clear - St. unfold starts_with in St. cbn [String.prefix] in St. destruct (ascii_dec "/" a); discriminate.
    - cbn [append]. rewrite span_hash by reflexivity. apply hashless_cons in Hr. destruct Hr as [_ Hr]. apply hashless_cons in Hr. destruct Hr as [_ Hr].
      pose proof (span_rest ["/"; "?"; "#"]%char r Hr) as Hp. destruct (span_to _ r) as [n p]. eauto. }
  destruct N1 as (n & p & -> & -> & Hp). clear N. rewrite cut_at_app, (cut_at_hashless p Hp). change (cut_at "#" "#") with ("", Some "")%string.
  cbv iota beta. assert (E : forall x, (x ++ "")%string = x) by (induction x; cbn; congruence). rewrite E. reflexivity.
Qed.

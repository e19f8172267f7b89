From Coq Require Import List String Ascii Bool.
From Verif Require Import Base Types FormPost FormPostSpec.
Import ListNotations.
Local Open Scope string_scope.

Lemma sapp_assoc a b c : (a ++ b) ++ c = a ++ (b ++ c).
Proof. induction a; cbn; congruence. Qed.
Lemma sapp_nil a : a ++ "" = a.
Proof. induction a; cbn; congruence. Qed.
Lemma read_app s1 : forall r s2, read r (s1 ++ s2) = read (read r s1) s2.
Proof. induction s1 as [|c s IH]; intros r s2; [reflexivity|]. cbn [append read]. apply IH. Qed.
Lemma snoc_app v c s : snoc v c ++ s = v ++ String c s.
Proof. unfold snoc. rewrite sapp_assoc. reflexivity. Qed.

Definition noquote (s : string) : bool := sforall (fun c => negb (Ascii.eqb c DQ)) s.
Lemma read_quoted s : noquote s = true -> forall t nm at_ n v,
  read (mkR t nm at_ (Quoted DQ n v)) s = mkR t nm at_ (Quoted DQ n (v ++ s)).
Proof.
  induction s as [|c s IH]; intros H t nm at_ n v; [now rewrite sapp_nil|].
  unfold noquote in H. cbn [sforall] in H. apply andb_true_iff in H. destruct H as [Hc Hs].
  cbn [read step p_mode go p_tags p_name p_atts]. apply negb_true_iff in Hc. rewrite Hc. unfold go. cbn [p_tags p_name p_atts].
  rewrite (IH Hs), snoc_app. reflexivity.
Qed.

Definition plain (s : string) : bool := sforall (fun c => negb (Ascii.eqb c "013" || Ascii.eqb c "000")) s.
Lemma newlines_plain s : plain s = true -> newlines s = s.
Proof.
  induction s as [|c s IH]; intros H; [reflexivity|]. unfold plain in H. cbn [sforall] in H. apply andb_true_iff in H.
  destruct H as [Hc Hs]. cbn [newlines]. apply negb_true_iff, orb_false_iff in Hc. destruct Hc as [-> ->]. now rewrite (IH Hs).
Qed.
Lemma sforall_app f a b : sforall f (a ++ b) = sforall f a && sforall f b.
Proof. induction a as [|c a IH]; [reflexivity|]. cbn. now rewrite IH, andb_assoc. Qed.
Lemma plain_app a b : plain (a ++ b) = plain a && plain b.
Proof. apply sforall_app. Qed.

Lemma harmless_all s : harmless s = true -> noquote s = true /\ plain s = true /\ sforall (fun c => negb (Ascii.eqb c "&")) s = true.
Proof.
  induction s as [|c s IH]; intros H; [repeat split|]. cbn [harmless] in H. apply andb_true_iff in H. destruct H as [Hc Hs].
  destruct (IH Hs) as (A & B & C). unfold noquote, plain in *. cbn [sforall]. rewrite A, B, C.
  destruct (Ascii.eqb c DQ), (Ascii.eqb c "&"), (Ascii.eqb c "013"), (Ascii.eqb c "000"); cbn in Hc |- *; repeat split; try discriminate; reflexivity.
Qed.

Lemma deref_plain s : sforall (fun c => negb (Ascii.eqb c "&")) s = true -> deref 0 s = s.
Proof.
  induction s as [|c s IH]; intros H; [reflexivity|]. cbn [sforall] in H. apply andb_true_iff in H. destruct H as [Hc Hs].
  apply negb_true_iff in Hc.
  assert (F : find (fun r => String.prefix (fst r) (String c s)) refs = None).
  { assert (P : forall x, String.prefix (String "&" x) (String c s) = false).
    { intros x. cbn [String.prefix]. destruct (ascii_dec "&" c) as [<-|]; [discriminate|reflexivity]. }
    unfold refs. cbn [find fst]. now rewrite !P. }
  cbn [deref]. rewrite F. now rewrite (IH Hs).
Qed.

(** one field *)
Definition field_tag (n v : string) : tag := ("input", [("type", "hidden"); ("name", n); ("value", v)]).
Lemma read_field t nm at_ n v : noquote n = true -> noquote v = true ->
  read (mkR t nm at_ Data) (html_field n v) = mkR (t ++ [field_tag n v]) "" [] Data.
Proof.
  intros Hn Hv. unfold html_field.
  rewrite read_app. change (read (mkR t nm at_ Data) "<input type=") with (mkR t "input" [] (BeforeValue "type")).
  rewrite read_app. change (read (mkR t "input" [] (BeforeValue "type")) dq) with (mkR t "input" [] (Quoted DQ "type" "")).
  rewrite read_app. change (read (mkR t "input" [] (Quoted DQ "type" "")) "hidden") with (mkR t "input" [] (Quoted DQ "type" "hidden")).
  rewrite read_app. change (read (mkR t "input" [] (Quoted DQ "type" "hidden")) dq) with (mkR t "input" [("type", "hidden")] BeforeName).
  rewrite read_app. change (read (mkR t "input" [("type", "hidden")] BeforeName) " name=") with (mkR t "input" [("type", "hidden")] (BeforeValue "name")).
  rewrite read_app. change (read (mkR t "input" [("type", "hidden")] (BeforeValue "name")) dq) with (mkR t "input" [("type", "hidden")] (Quoted DQ "name" "")).
  rewrite read_app. rewrite (read_quoted _ Hn).
  rewrite read_app. change (read (mkR t "input" [("type", "hidden")] (Quoted DQ "name" ("" ++ n))) dq) with (mkR t "input" [("type", "hidden"); ("name", n)] BeforeName).
  rewrite read_app. change (read (mkR t "input" [("type", "hidden"); ("name", n)] BeforeName) " value=") with (mkR t "input" [("type", "hidden"); ("name", n)] (BeforeValue "value")).
  rewrite read_app. change (read (mkR t "input" [("type", "hidden"); ("name", n)] (BeforeValue "value")) dq) with (mkR t "input" [("type", "hidden"); ("name", n)] (Quoted DQ "value" "")).
  rewrite read_app. rewrite (read_quoted _ Hv). reflexivity.
Qed.

Lemma read_inputs l : Forall (fun nv => noquote (fst nv) = true /\ noquote (snd nv) = true) l -> forall t nm at_,
  exists nm' at', read (mkR t nm at_ Data) (inputs l) = mkR (t ++ map (fun nv => field_tag (fst nv) (snd nv)) l) nm' at' Data.
Proof.
  unfold inputs. induction l as [|[n v] l IH]; intros H t nm at_.
  - exists nm, at_. cbn. now rewrite app_nil_r.
  - inversion H as [|? ? [Hn Hv] Hl]; subst. cbn [fst snd] in *. destruct l as [|nv' l].
    + cbn [map join]. exists "", []. rewrite (read_field _ _ _ _ _ Hn Hv). reflexivity.
    + specialize (IH Hl (t ++ [field_tag n v])%list "" []). destruct IH as (nm' & at' & E). exists nm', at'.
      change (join nl (map (fun nv => html_field (fst nv) (snd nv)) ((n, v) :: nv' :: l)))
        with (html_field n v ++ nl ++ join nl (map (fun nv => html_field (fst nv) (snd nv)) (nv' :: l))).
      rewrite read_app, (read_field _ _ _ _ _ Hn Hv), read_app.
      change (read (mkR (t ++ [field_tag n v]) "" [] Data) nl) with (mkR (t ++ [field_tag n v]) "" [] Data).
      rewrite E. rewrite <- app_assoc. reflexivity.
Qed.

Definition head_tags : list tag :=
  [("html", []); ("head", []); ("title", []); ("body", [("onload", "javascript:document.forms[0].submit()")])].
Definition form_tag (action : string) : tag := ("form", [("method", "post"); ("action", action)]).
Lemma read_head : read (mkR [] "" [] Data) page_head = mkR head_tags "form" [("method", "post")] (Quoted DQ "action" "").
Proof. vm_compute. reflexivity. Qed.

Lemma read_start action : noquote action = true ->
  read (mkR [] "" [] Data) (page_head ++ action ++ dq ++ ">" ++ nl ++ "        ") = mkR (head_tags ++ [form_tag action]) "" [] Data.
Proof.
  intros H. rewrite read_app, read_head, read_app, (read_quoted _ H).
  change ("" ++ action) with action. rewrite read_app.
  change (read (mkR head_tags "form" [("method", "post")] (Quoted DQ "action" action)) dq)
    with (mkR head_tags "form" [("method", "post"); ("action", action)] BeforeName). reflexivity.
Qed.
Lemma page_split action l :
  form_post action l = (page_head ++ action ++ dq ++ ">" ++ nl ++ "        ") ++ inputs l ++ page_tail.
Proof. unfold form_post. now rewrite !sapp_assoc. Qed.

Lemma read_tail t nm at_ : exists nm' at' m', read (mkR t nm at_ Data) page_tail = mkR t nm' at' m'.
Proof. exists nm, at_, Data. reflexivity. Qed.

Lemma plain_page action l : plain action = true -> Forall (fun nv => plain (fst nv) = true /\ plain (snd nv) = true) l ->
  plain (form_post action l) = true.
Proof.
  intros Ha Hl. unfold form_post. rewrite !plain_app, Ha.
  assert (Hi : plain (inputs l) = true).
  { unfold inputs. induction l as [|[n v] l IH]; [reflexivity|]. inversion Hl as [|? ? [Hn Hv] Hl']; subst.
    assert (F : plain (html_field n v) = true) by (unfold html_field; rewrite !plain_app; cbn [fst snd] in *; rewrite Hn, Hv; reflexivity).
    destruct l as [|nv l]; [cbn [map join fst snd]; exact F|].
    change (join nl (map (fun nv => html_field (fst nv) (snd nv)) ((n, v) :: nv :: l)))
      with (html_field n v ++ nl ++ join nl (map (fun nv => html_field (fst nv) (snd nv)) (nv :: l))).
    rewrite !plain_app, F, (IH Hl'). reflexivity. }
  rewrite Hi. reflexivity.
Qed.

Lemma tags_page action l : harmless action = true -> Forall well l ->
  tags (form_post action l) = (head_tags ++ [form_tag action] ++ map (fun nv => field_tag (fst nv) (snd nv)) l)%list.
Proof.
  intros Ha Hl. destruct (harmless_all _ Ha) as (Aq & Ap & _).
  unfold tags. rewrite newlines_plain.
  2:{ apply plain_page; [exact Ap|]. eapply Forall_impl; [|exact Hl]. intros nv (_ & H1 & H2).
      split; [now apply harmless_all in H1|now apply harmless_all in H2]. }
  rewrite page_split, read_app, (read_start _ Aq), read_app.
  destruct (read_inputs l) with (t := (head_tags ++ [form_tag action])%list) (nm := "") (at_ := @nil (string * string)) as (nm' & at' & E).
  { eapply Forall_impl; [|exact Hl]. intros nv (_ & H1 & H2). split; [now apply harmless_all in H1|now apply harmless_all in H2]. }
  rewrite E. destruct (read_tail (head_tags ++ [form_tag action] ++ map (fun nv => field_tag (fst nv) (snd nv)) l) nm' at') as (a & b & c & Et).
  rewrite <- app_assoc. rewrite Et. reflexivity.
Qed.

Lemma entry_field n v : n <> "" -> harmless n = true -> entry (field_tag n v) = [(n, deref 0 v)].
Proof.
  intros Hn H. unfold entry, field_tag. cbn [fst snd]. change (String.eqb "input" "input") with true. cbn iota.
  change (att "name" [("type", "hidden"); ("name", n); ("value", v)]) with (Some (deref 0 n)).
  change (att "value" [("type", "hidden"); ("name", n); ("value", v)]) with (Some (deref 0 v)).
  rewrite (deref_plain n) by now apply harmless_all in H. destruct n; [easy|reflexivity].
Qed.
Lemma entries_fields l : Forall well l -> flat_map entry (map (fun nv => field_tag (fst nv) (snd nv)) l) = l.
Proof.
  induction l as [|[n v] l IH]; intros H; [reflexivity|]. inversion H as [|? ? (H0 & H1 & H2) Hl]; subst. cbn [fst snd] in *.
  cbn [map flat_map fst snd]. rewrite (entry_field _ _ H0 H1), (IH Hl), (deref_plain v); [reflexivity|]. now apply harmless_all in H2.
Qed.

(** ** A quote in a value *)
(** The reader is inside an input whose attributes begin with [pre], or has read it *)
Definition inside (m : mode) : bool := match m with Data | TagOpen | Skip | TagName => false | _ => true end.
Definition caught (acc : list tag) (pre : list (string * string)) (r : reader) : Prop :=
  (inside (p_mode r) = true /\ p_tags r = acc /\ p_name r = "input" /\ exists rest, p_atts r = (pre ++ rest)%list) \/
  (exists rest more, p_tags r = (acc ++ ("input", (pre ++ rest)%list) :: more)%list).

Lemma caught_go acc pre r m : caught acc pre r -> inside (p_mode r) = true -> inside m = true -> caught acc pre (go r m).
Proof. intros [(_ & T & N & R)|E] _ Hm; [left|right; exact E]. split; [exact Hm|]. split; [exact T|]. split; [exact N|exact R]. Qed.
Lemma caught_att acc pre r n v m : caught acc pre r -> inside (p_mode r) = true -> inside m = true -> caught acc pre (add_att r n v m).
Proof.
  intros [(_ & T & N & rest & R)|E] _ Hm; [left|right; exact E].
  split; [exact Hm|]. split; [exact T|]. split; [exact N|]. exists (rest ++ [(n, v)])%list. cbn. now rewrite R, app_assoc.
Qed.
Lemma caught_emit acc pre r : caught acc pre r -> caught acc pre (emit r).
Proof.
  intros [(_ & T & N & rest & R)|(rest & more & E)]; right; cbn [emit p_tags].
  - exists rest, []. now rewrite T, N, R.
  - exists rest, (more ++ [(p_name r, p_atts r)])%list. rewrite E, <- app_assoc. reflexivity.
Qed.
Lemma emit_add r n v m m' : inside m' = true -> emit (add_att r n v m) = emit (add_att r n v m').
Proof. reflexivity. Qed.
Lemma caught_step acc pre r c : caught acc pre r -> caught acc pre (step r c).
Proof.
  intros H. destruct (inside (p_mode r)) eqn:I.
  2:{ destruct H as [(J & _)|(rest & more & E)]; [congruence|]. right. unfold step.
      destruct (p_mode r); try discriminate.
      - destruct (Ascii.eqb c "<"); exists rest, more; exact E.
      - destruct (letter c); [exists rest, more; exact E|]. destruct (_ || _); [exists rest, more; exact E|].
        destruct (Ascii.eqb c "<"); exists rest, more; exact E.
      - destruct (Ascii.eqb c ">"); exists rest, more; exact E.
      - destruct (blank c || Ascii.eqb c "/"); [exists rest, more; exact E|]. destruct (Ascii.eqb c ">"); [|exists rest, more; exact E].
        exists rest, (more ++ [(p_name r, p_atts r)])%list. cbn. rewrite E, <- app_assoc. reflexivity. }
  assert (Em : forall n v, caught acc pre (emit (add_att r n v Data))).
  { intros n v. rewrite (emit_add r n v Data BeforeName) by reflexivity. apply caught_emit. now apply caught_att. }
  unfold step. destruct (p_mode r) eqn:M; try discriminate.
  - unfold before_name. destruct (_ || _); [apply caught_go; [exact H|now rewrite M|reflexivity]|].
    destruct (Ascii.eqb c ">"); [now apply caught_emit|apply caught_go; [exact H|now rewrite M|reflexivity]].
  - destruct (blank c); [apply caught_go; [exact H|now rewrite M|reflexivity]|].
    destruct (Ascii.eqb c "/"); [apply caught_att; [exact H|now rewrite M|reflexivity]|].
    destruct (Ascii.eqb c ">"); [apply Em|]. destruct (Ascii.eqb c "="); apply caught_go; try exact H; try (now rewrite M); reflexivity.
  - destruct (blank c); [exact H|]. destruct (Ascii.eqb c "/"); [apply caught_att; [exact H|now rewrite M|reflexivity]|].
    destruct (Ascii.eqb c ">"); [apply Em|].
    destruct (Ascii.eqb c "="); [apply caught_go|apply caught_att]; try exact H; try (now rewrite M); reflexivity.
  - destruct (blank c); [exact H|]. destruct (Ascii.eqb c DQ); [apply caught_go; [exact H|now rewrite M|reflexivity]|].
    destruct (Ascii.eqb c SQ); [apply caught_go; [exact H|now rewrite M|reflexivity]|].
    destruct (Ascii.eqb c ">"); [apply Em|apply caught_go; [exact H|now rewrite M|reflexivity]].
  - destruct (Ascii.eqb c q); [apply caught_att|apply caught_go]; try exact H; try (now rewrite M); reflexivity.
  - destruct (blank c); [apply caught_att; [exact H|now rewrite M|reflexivity]|].
    destruct (Ascii.eqb c ">"); [apply Em|apply caught_go; [exact H|now rewrite M|reflexivity]].
Qed.
Lemma caught_read acc pre s : forall r, caught acc pre r -> caught acc pre (read r s).
Proof. induction s as [|c s IH]; intros r H; [exact H|]. cbn [read]. apply IH. now apply caught_step. Qed.

(** reading up to a quote in a value *)
Lemma read_cut before n a b after :
  Forall (fun nv => noquote (fst nv) = true /\ noquote (snd nv) = true) before -> noquote n = true -> noquote a = true ->
  forall t nm at_, exists s,
  read (mkR t nm at_ Data) (inputs (before ++ (n, a ++ dq ++ b) :: after)) =
  read (mkR (t ++ map (fun nv => field_tag (fst nv) (snd nv)) before)%list "input" [("type", "hidden"); ("name", n); ("value", a)] BeforeName) s.
Proof.
  intros Hb Hn Ha. induction before as [|[n0 v0] before IH]; intros t nm at_.
  - cbn [app map]. rewrite app_nil_r.
    assert (E : exists s, inputs ((n, a ++ dq ++ b) :: after) =
      ("<input type=" ++ dq ++ "hidden" ++ dq ++ " name=" ++ dq) ++ n ++ (dq ++ " value=" ++ dq) ++ a ++ dq ++ s).
    { unfold inputs. destruct after as [|nv after].
      - cbn [map join fst snd]. unfold html_field. exists (b ++ dq ++ "/>"). rewrite !sapp_assoc. reflexivity.
      - change (join nl (map (fun nv => html_field (fst nv) (snd nv)) ((n, a ++ dq ++ b) :: nv :: after)))
          with (html_field n (a ++ dq ++ b) ++ nl ++ join nl (map (fun nv => html_field (fst nv) (snd nv)) (nv :: after))).
        unfold html_field at 1. eexists. rewrite !sapp_assoc. reflexivity. }
    destruct E as (s & ->). exists s.
    rewrite read_app. change (read (mkR t nm at_ Data) ("<input type=" ++ dq ++ "hidden" ++ dq ++ " name=" ++ dq))
      with (mkR t "input" [("type", "hidden")] (Quoted DQ "name" "")).
    rewrite read_app, (read_quoted _ Hn). change ("" ++ n) with n. rewrite read_app.
    change (read (mkR t "input" [("type", "hidden")] (Quoted DQ "name" n)) (dq ++ " value=" ++ dq))
      with (mkR t "input" [("type", "hidden"); ("name", n)] (Quoted DQ "value" "")).
    rewrite read_app, (read_quoted _ Ha). change ("" ++ a) with a. rewrite read_app. reflexivity.
  - inversion Hb as [|? ? [Hn0 Hv0] Hb']; subst. cbn [fst snd] in *.
    destruct (IH Hb' (t ++ [field_tag n0 v0])%list "" []) as (s & E). exists s.
    assert (Ei : inputs (((n0, v0) :: before) ++ (n, a ++ dq ++ b) :: after) = html_field n0 v0 ++ nl ++ inputs (before ++ (n, a ++ dq ++ b) :: after)).
    { destruct before; reflexivity. }
    rewrite Ei, read_app, (read_field _ _ _ _ _ Hn0 Hv0), read_app.
    change (read (mkR (t ++ [field_tag n0 v0]) "" [] Data) nl) with (mkR (t ++ [field_tag n0 v0]) "" [] Data).
    rewrite E. cbn [map fst snd]. rewrite <- app_assoc. reflexivity.
Qed.

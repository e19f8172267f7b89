(** PropsFormPost.v: C44 (response_mode=form_post). *)
From Coq Require Import List String Ascii Bool.
From Verif Require Import Base Types FormPost FormPostSpec FormPostProofs.
Import ListNotations.
Local Open Scope string_scope.

(** For parameters (with a name) and an address free of double quotes, ampersands, carriage returns and NUL, the
    browser submits exactly the parameters, in order, to that address. *)
Theorem C44_exact_partial : forall action args,
  harmless action = true -> Forall well args ->
  submitted (form_post action args) = args /\ target (form_post action args) = Some action.
Proof.
  intros action args Ha Hl. unfold submitted, target. rewrite (tags_page _ _ Ha Hl). split.
  - rewrite !flat_map_app, (entries_fields _ Hl). reflexivity.
  - cbn [head_tags app filter fst String.eqb form_tag]. cbn.
    f_equal. apply deref_plain. now apply harmless_all in Ha.
Qed.
Print Assumptions C44_exact_partial.

(** Refuted for every value with a quote, wherever it stands among the parameters and whatever follows: what is
    submitted is not what was to be sent. *)
Theorem C44_quote_refuted : forall action before n a b after,
  harmless action = true -> Forall well before -> n <> "" -> harmless n = true -> harmless a = true ->
  plain b = true -> Forall (fun nv => plain (fst nv) = true /\ plain (snd nv) = true) after ->
  submitted (form_post action (before ++ (n, (a ++ dq ++ b)%string) :: after)%list) <> (before ++ (n, (a ++ dq ++ b)%string) :: after)%list.
Proof.
  intros action before n a b after Ha Hb Hn0 Hn Hv Pb Haf.
  destruct (harmless_all _ Ha) as (Aq & Ap & _). destruct (harmless_all _ Hn) as (Nq & Np & _).
  destruct (harmless_all _ Hv) as (Vq & Vp & Va).
  assert (Hbq : Forall (fun nv => noquote (fst nv) = true /\ noquote (snd nv) = true) before).
  { eapply Forall_impl; [|exact Hb]. intros nv (_ & H1 & H2). split; [now apply harmless_all in H1|now apply harmless_all in H2]. }
  set (acc := (head_tags ++ [form_tag action] ++ map (fun nv => field_tag (fst nv) (snd nv)) before)%list).
  set (pre := [("type", "hidden"); ("name", n); ("value", a)]).
  set (args := (before ++ (n, (a ++ dq ++ b)%string) :: after)%list).
  assert (C : caught acc pre (read (mkR [] "" [] Data) (form_post action args))).
  { rewrite page_split, read_app, (read_start _ Aq), read_app.
    destruct (read_cut before n a b after Hbq Nq Vq (head_tags ++ [form_tag action])%list "" []) as (s & E).
    unfold args. rewrite E. apply caught_read, caught_read. left. cbn [p_mode p_tags p_name p_atts inside].
    split; [reflexivity|]. split; [unfold acc; now rewrite app_assoc|]. split; [reflexivity|]. exists []. reflexivity. }
  unfold submitted, tags. rewrite newlines_plain.
  2:{ apply plain_page; [exact Ap|]. unfold args. apply Forall_app. split.
      - eapply Forall_impl; [|exact Hb]. intros nv (_ & H1 & H2). split; [now apply harmless_all in H1|now apply harmless_all in H2].
      - constructor; [|exact Haf]. cbn [fst snd]. split; [exact Np|]. now rewrite !plain_app, Vp, Pb. }
  assert (Eacc : flat_map entry acc = before) by (unfold acc; rewrite !flat_map_app, (entries_fields _ Hb); reflexivity).
  destruct C as [(_ & T & _)|(rest & more & T)]; rewrite T.
  - rewrite Eacc. unfold args. intros E. apply (f_equal (@List.length _)) in E. rewrite app_length in E. cbn in E. lia.
  - rewrite flat_map_app, Eacc. unfold args. intros E. apply app_inv_head in E. cbn [flat_map] in E.
    assert (Ef : entry ("input", (pre ++ rest)%list) = [(n, a)]).
    { unfold entry, pre. cbn [fst snd app]. change (String.eqb "input" "input") with true. cbn iota.
      change (att "name" (("type", "hidden") :: ("name", n) :: ("value", a) :: rest)) with (Some (deref 0 n)).
      change (att "value" (("type", "hidden") :: ("name", n) :: ("value", a) :: rest)) with (Some (deref 0 a)).
      rewrite (deref_plain n) by now apply harmless_all in Hn. rewrite (deref_plain a Va). destruct n; [easy|reflexivity]. }
    rewrite Ef in E. cbn [app] in E. injection E as E _. apply (f_equal String.length) in E.
    revert E. clear. induction a as [|c a IH]; cbn; [discriminate|]. intros E. injection E as E. exact (IH E).
Qed.
Print Assumptions C44_quote_refuted.

(** What the quote lets in: a parameter of the attacker's choosing, in front of the real one. *)
Theorem C44_injection_refuted : forall action n v more,
  harmless action = true -> n <> "" -> harmless n = true -> harmless v = true -> Forall well more ->
  let evil := dq ++ "/>" ++ html_field n v ++ "<input title=" ++ dq in
  submitted (form_post action (("state", evil) :: more)) = ("state", "") :: (n, v) :: more.
Proof.
  intros action n v more Ha Hn0 Hn Hv Hl evil.
  destruct (harmless_all _ Ha) as (Aq & Ap & _). destruct (harmless_all _ Hn) as (Nq & Np & _).
  destruct (harmless_all _ Hv) as (Vq & Vp & Va).
  assert (Hlp : Forall (fun nv => plain (fst nv) = true /\ plain (snd nv) = true) more).
  { eapply Forall_impl; [|exact Hl]. intros nv (_ & H1 & H2). split; [now apply harmless_all in H1|now apply harmless_all in H2]. }
  assert (Hlq : Forall (fun nv => noquote (fst nv) = true /\ noquote (snd nv) = true) more).
  { eapply Forall_impl; [|exact Hl]. intros nv (_ & H1 & H2). split; [now apply harmless_all in H1|now apply harmless_all in H2]. }
  unfold submitted, tags. rewrite newlines_plain.
  2:{ apply plain_page; [exact Ap|]. constructor; [|exact Hlp]. cbn [fst snd]. split; [reflexivity|].
      unfold evil, html_field. rewrite !plain_app, Np, Vp. reflexivity. }
  set (start := (head_tags ++ [form_tag action])%list).
  assert (F : read (mkR start "" [] Data) (html_field "state" evil) =
              mkR (start ++ [field_tag "state" ""; field_tag n v; ("input", [("title", "")])])%list "" [] Data).
  { unfold evil.
    assert (Ef : html_field "state" (dq ++ "/>" ++ html_field n v ++ "<input title=" ++ dq) =
                 html_field "state" "" ++ html_field n v ++ "<input title=" ++ dq ++ dq ++ "/>").
    { unfold html_field. rewrite !sapp_assoc. reflexivity. }
    rewrite Ef, read_app, (read_field _ _ _ "state" "" eq_refl eq_refl), read_app, (read_field _ _ _ _ _ Nq Vq).
    match goal with |- read (mkR ?t "" [] Data) _ = _ =>
      change (read (mkR t "" [] Data) ("<input title=" ++ dq ++ dq ++ "/>")) with (mkR (t ++ [("input", [("title", "")])])%list "" [] Data) end.
    rewrite <- !app_assoc. reflexivity. }
  rewrite page_split, read_app, (read_start _ Aq), read_app. fold start.
  assert (R : exists nm at_, read (mkR start "" [] Data) (inputs (("state", evil) :: more)) =
     mkR ((start ++ [field_tag "state" ""; field_tag n v; ("input", [("title", "")])]) ++ map (fun nv => field_tag (fst nv) (snd nv)) more)%list nm at_ Data).
  { destruct more as [|nv more].
    - exists "", []. cbn [map]. rewrite app_nil_r. exact F.
    - destruct (read_inputs (nv :: more) Hlq (start ++ [field_tag "state" ""; field_tag n v; ("input", [("title", "")])])%list "" []) as (nm & at_ & E).
      exists nm, at_. change (inputs (("state", evil) :: nv :: more)) with (html_field "state" evil ++ nl ++ inputs (nv :: more)).
      rewrite read_app, F, read_app.
      match goal with |- read (read (mkR ?t "" [] Data) nl) _ = _ => change (read (mkR t "" [] Data) nl) with (mkR t "" [] Data) end.
      exact E. }
  destruct R as (nm & at_ & R). rewrite R.
  match goal with |- flat_map entry (p_tags (read (mkR ?t _ _ _) _)) = _ => destruct (read_tail t nm at_) as (x & y & z & Et) end.
  rewrite Et. cbn [p_tags]. rewrite !flat_map_app, (entries_fields _ Hl). cbn [flat_map].
  rewrite (entry_field n v Hn0 Hn), (deref_plain v Va). reflexivity.
Qed.
Print Assumptions C44_injection_refuted.

(** Refuted without any quote: a value that looks like a character reference arrives decoded. *)
Theorem C44_reference_refuted : exists action args,
  harmless action = true /\ Forall (fun nv => noquote (snd nv) = true) args /\
  submitted (form_post action args) = [("state", "a&b")] /\ args = [("state", "a&amp;b")].
Proof.
  exists "https://rp.example.com/cb", [("state", "a&amp;b")]. split; [reflexivity|]. split; [repeat constructor|]. split; [|reflexivity].
  vm_compute. reflexivity.
Qed.
Print Assumptions C44_reference_refuted.

Example C44_ex1 :
  let args := [("code", "Z0FBQUFBQmY="); ("state", "a <b> 'c'"); ("scope", "openid email")] in
  Forall well args /\ submitted (form_post "https://rp.example.com/cb" args) = args.
Proof. split; [repeat constructor; cbn; discriminate|vm_compute; reflexivity]. Qed.
Example C44_ex2 :
  submitted (form_post "https://rp.example.com/cb" [("state", "x" ++ dq ++ " y"); ("code", "1")]) = [("state", "x"); ("code", "1")].
Proof. vm_compute. reflexivity. Qed.
Example C44_ex3 :
  submitted (form_post "https://rp.example.com/cb"
    [("state", dq ++ "/>" ++ html_field "code" "evil" ++ "<input title=" ++ dq); ("code", "good")]) =
  [("state", ""); ("code", "evil"); ("code", "good")].
Proof. vm_compute. reflexivity. Qed.

(** PropsDatabase.v: C02, C04. *)
From Verif Require Import Base Monad Types Grant SessionKey Database DatabaseSpec DatabaseProofs.

(** Decide [good] for concrete ids. *)
Fixpoint good_b (x : string) : bool :=
  match x with
  | "" => true
  | String a x' => (if Ascii.eqb a ";" then match x' with "" => false | String b _ => negb (Ascii.eqb b ";") end else true) && good_b x'
  end.
Lemma good_b_sound x : nonempty x = true -> good_b x = true -> good x.
Proof.
  intros Hn Hb. split; [intros ->; discriminate|]. clear Hn. split.
  - intros a b ->. induction a as [|k a IH]; cbn in *; [discriminate|].
    apply andb_true_iff in Hb as [_ Hb]. auto.
  - intros a ->. induction a as [|k a IH]; cbn in *; [discriminate|].
    apply andb_true_iff in Hb as [_ Hb]. auto.
Qed.
Ltac goodtac := first [apply good_b_sound; reflexivity
  | split; [repeat (constructor; [apply good_b_sound; reflexivity|]); constructor | cbn; lia]].

(** C02: the grants of a store are exactly those last set, over every history of [set]. *)
Theorem C02_grant_map_refinement :
  forall h, Forall put_ok h -> forall u c g, good u -> good c -> good g ->
  view (puts h) [u; c; g] = option_map EGrant (last_put h [u; c; g] None).
Proof. exact puts_refine. Qed.
Print Assumptions C02_grant_map_refinement.

(** C02: the full effect of setting a grant. *)
Theorem C02_set_grant :
  forall s u c g v, kinds_ok s -> linked s -> good u -> good c -> good g ->
  exists s', db_store [u; c; g] (EGrant v) s = (Ok tt, s') /\ kinds_ok s' /\ linked s' /\
  view s' [u; c; g] = Some (EGrant v) /\
  view s' [u; c] = Some (EInfo (listing g (info_or (ClientSessionInfo None) (view s [u; c])))) /\
  view s' [u] = Some (EInfo (listing c (info_or (UserSessionInfo None) (view s [u])))) /\
  (forall q, good_path q -> q <> [u; c; g] -> q <> [u; c] -> q <> [u] -> view s' q = view s q).
Proof.
  intros s u c g v Hk Hl Hu Hc Hg. exists (snd (db_store [u; c; g] (EGrant v) s)).
  split; [rewrite db_store3 by auto; reflexivity|].
  split; [apply kinds_store3; auto|]. split; [apply linked_store3; auto|]. apply store3_view; auto.
Qed.
Print Assumptions C02_set_grant.

(** C02: the full effect of setting a client session. The grants below it are those it lists. *)
Theorem C02_set_client :
  forall s u c v, kinds_ok s -> linked s -> good u -> good c ->
  exists s', db_store [u; c] (EInfo v) s = (Ok tt, s') /\ kinds_ok s' /\ linked s' /\
  view s' [u; c] = Some (EInfo v) /\
  view s' [u] = Some (EInfo (listing c (info_or (UserSessionInfo None) (view s [u])))) /\
  (forall g, good g -> view s' [u; c; g] = if smem g (si_sub v) then stored s [u; c; g] else None) /\
  (forall q, good_path q -> ~ is_prefix [u; c] q -> q <> [u] -> view s' q = view s q).
Proof.
  intros s u c v Hk Hl Hu Hc. exists (snd (db_store [u; c] (EInfo v) s)).
  split; [rewrite db_store2 by auto; reflexivity|].
  split; [apply kinds_store2; auto|]. split; [apply linked_store2; auto|]. apply store2_view; auto.
Qed.
Print Assumptions C02_set_client.

(** C02: the full effect of setting a user session. *)
Theorem C02_set_user :
  forall s u v, kinds_ok s -> good u ->
  exists s', db_store [u] (EInfo v) s = (Ok tt, s') /\ kinds_ok s' /\
  view s' [u] = Some (EInfo v) /\
  (forall c, good c -> view s' [u; c] = if smem c (si_sub v) then stored s [u; c] else None) /\
  (forall q, good_path q -> ~ is_prefix [u] q -> view s' q = view s q).
Proof.
  intros s u v Hk Hu. exists (snd (db_store [u] (EInfo v) s)).
  split; [reflexivity|]. split; [apply kinds_store1; auto|]. apply store1_view; auto.
Qed.
Print Assumptions C02_set_user.

(** Reading never changes the store. *)
Theorem C02_read_only : forall q s, snd (db_read q s) = s.
Proof. exact db_read_state. Qed.
Print Assumptions C02_read_only.

Definition gr (sub : string) : grant := new_grant 1000%Z sub sub None None None None.

(** The same without [linked] fails: once a user session has been deleted, setting a grant can
    make an older grant of that user readable again. *)
Theorem C02_set_grant_refuted :
  exists s0 s u c g v g',
    s0 = puts [("diana", "c1", "g1", gr "s")] /\
    db_delete true ["diana"] s0 = (Ok tt, s) /\
    g' <> g /\ good u /\ good c /\ good g /\ good g' /\
    view s [u; c; g'] = None /\
    view (snd (db_store [u; c; g] (EGrant v) s)) [u; c; g'] <> None.
Proof.
  pose (s0 := puts [("diana", "c1", "g1", gr "s")]).
  exists s0, (snd (db_delete true ["diana"] s0)), "diana", "c1", "g2", (gr "s2"), "g1".
  split; [reflexivity|]. split; [vm_compute; reflexivity|]. split; [discriminate|].
  split; [goodtac|]. split; [goodtac|]. split; [goodtac|]. split; [goodtac|].
  split; [vm_compute; reflexivity|vm_compute; discriminate].
Qed.
Print Assumptions C02_set_grant_refuted.

(** C04, user path: everything below becomes unreadable, everything else is unchanged. *)
Theorem C04_delete_user :
  forall sh s u, good u ->
  exists s', db_delete sh [u] s = (Ok tt, s') /\
  (forall q, good_path q -> is_prefix [u] q -> view s' q = None) /\
  (forall q, good_path q -> ~ is_prefix [u] q -> view s' q = view s q).
Proof.
  intros sh s u Hu. destruct (delete1_view sh s u Hu) as (r & s' & E & -> & _ & H1 & H2).
  exists s'. auto.
Qed.
Print Assumptions C04_delete_user.

(** C04, client path, when every grant the client session lists is stored. *)
Theorem C04_delete_client :
  forall sh s u c, kinds_ok s -> linked s -> good u -> good c -> complete s u c ->
  exists s', db_delete sh [u; c] s = (Ok tt, s') /\ kinds_ok s' /\ linked s' /\
  (forall q, good_path q -> is_prefix [u; c] q -> view s' q = None) /\
  view s' [u] = match view s [u; c], view s [u] with
                | Some _, Some (EInfo ui) =>
                    let ul := sremove c (si_sub ui) in
                    if is_nil ul then None else Some (EInfo (with_sub ul ui))
                | _, o => o
                end /\
  (forall q, good_path q -> ~ is_prefix [u; c] q -> q <> [u] -> view s' q = view s q).
Proof. exact delete2_view. Qed.
Print Assumptions C04_delete_client.

(** C04, grant path. Missing from the full claim: the paths of a user whose user id is the
    client id [c] (see [C04_delete_grant_refuted]). *)
Theorem C04_delete_grant_partial :
  forall sh s u c g, kinds_ok s -> linked s -> good u -> good c -> good g ->
  exists s', db_delete sh [u; c; g] s = (Ok tt, s') /\ kinds_ok s' /\
  view s' [u; c; g] = None /\
  view s' [u; c] = match view s [u; c] with
                   | Some (EInfo ci) =>
                       let l := sremove g (si_sub ci) in
                       if is_nil l then None else Some (EInfo (if sh then with_sub l ci else ci))
                   | o => o
                   end /\
  view s' [u] = match view s [u; c], view s [u] with
                | Some (EInfo ci), Some (EInfo ui) =>
                    if is_nil (sremove g (si_sub ci)) then
                      let ul := sremove c (si_sub ui) in
                      if is_nil ul then None else Some (EInfo (with_sub ul ui))
                    else Some (EInfo ui)
                | _, o => o
                end /\
  (forall q, good_path q -> q <> [u; c; g] -> q <> [u; c] -> q <> [u] -> hd "" q <> c ->
     view s' q = view s q) /\
  ((forall x, good x -> stored s [c; x] = None) -> linked s').
Proof.
  intros sh s u c g Hk Hl Hu Hc Hg.
  destruct (delete3_view sh s u c g Hk Hl Hu Hc Hg) as (s' & E & K & V3 & V2 & V1 & Vo & L).
  exists s'. do 5 (split; [assumption|]). auto.
Qed.
Print Assumptions C04_delete_grant_partial.

(** C04 fails for a grant path: database.py:132 writes under the client id alone, so a record
    appears at (or overwrites) the user path with that name. *)
Theorem C04_delete_grant_refuted :
  exists h u c g s', Forall put_ok h /\ good u /\ good c /\ good g /\
    db_delete true [u; c; g] (puts h) = (Ok tt, s') /\
    view (puts h) [c] = None /\ view s' [c] <> None.
Proof.
  pose (h := [("diana", "c1", "g1", gr "s"); ("diana", "c1", "g2", gr "s")]).
  exists h, "diana", "c1", "g1", (snd (db_delete true ["diana"; "c1"; "g1"] (puts h))).
  split; [repeat constructor; goodtac|].
  split; [goodtac|]. split; [goodtac|]. split; [goodtac|]. split; [vm_compute; reflexivity|]. split; [vm_compute; reflexivity|vm_compute; discriminate].
Qed.
Print Assumptions C04_delete_grant_refuted.

(** ... and a user with that name loses every session. *)
Theorem C04_delete_grant_overwrites_refuted :
  exists h u c g s' q, Forall put_ok h /\ good u /\ good c /\ good g /\
    db_delete true [u; c; g] (puts h) = (Ok tt, s') /\ hd "" q <> u /\
    good_path q /\ view (puts h) q <> None /\ view s' q = None.
Proof.
  pose (h := [("c1", "app", "g9", gr "s"); ("diana", "c1", "g1", gr "s"); ("diana", "c1", "g2", gr "s")]).
  exists h, "diana", "c1", "g1", (snd (db_delete true ["diana"; "c1"; "g1"] (puts h))), ["c1"; "app"; "g9"].
  split; [repeat constructor; goodtac|].
  split; [goodtac|]. split; [goodtac|]. split; [goodtac|]. split; [vm_compute; reflexivity|]. split; [discriminate|].
  split; [goodtac|]. split; [vm_compute; discriminate|vm_compute; reflexivity].
Qed.
Print Assumptions C04_delete_grant_overwrites_refuted.

(** With a serialising storage the deleted grant stays listed, and deleting the client session
    afterwards fails. *)
Theorem C04_delete_client_serialising_refuted :
  exists h u c g s1 s2, Forall put_ok h /\ good u /\ good c /\ good g /\
    db_delete false [u; c; g] (puts h) = (Ok tt, s1) /\
    db_delete false [u; c] s1 = (Raise EKey, s2) /\ view s2 [u; c] <> None.
Proof.
  pose (h := [("diana", "c1", "g1", gr "s"); ("diana", "c1", "g2", gr "s")]).
  pose (s1 := snd (db_delete false ["diana"; "c1"; "g1"] (puts h))).
  exists h, "diana", "c1", "g1", s1, (snd (db_delete false ["diana"; "c1"] s1)).
  split; [repeat constructor; goodtac|].
  split; [goodtac|]. split; [goodtac|]. split; [goodtac|]. split; [vm_compute; reflexivity|]. split; [vm_compute; reflexivity|vm_compute; discriminate].
Qed.
Print Assumptions C04_delete_client_serialising_refuted.

(** ** The hypotheses are met *)
Definition hex : list (string * string * string * grant) :=
  [("diana", "c1", "g1", gr "s1"); ("diana", "c1", "g2", gr "s2"); ("diana", "c2", "g3", gr "s3");
   ("bob", "c1", "g4", gr "s4")].
Example C02_hex_ok : Forall put_ok hex.
Proof. repeat constructor; goodtac. Qed.
Lemma puts_inv h : Forall put_ok h -> kinds_ok (puts h) /\ linked (puts h).
Proof.
  intros HF. unfold puts.
  assert (G : forall s, kinds_ok s -> linked s -> kinds_ok (fold_left put h s) /\ linked (fold_left put h s)).
  { induction HF as [|[[[u c] g] v] h (Hu & Hc & Hg) HF IH]; intros s Hk Hl; [auto|].
    cbn [fold_left put]. apply IH; [apply kinds_store3|apply linked_store3]; auto. }
  apply G; [exact kinds_empty|exact linked_empty].
Qed.
Example C02_hyps_ex : kinds_ok (puts hex) /\ linked (puts hex).
Proof. exact (puts_inv hex C02_hex_ok). Qed.
Example C02_ex : view (puts hex) ["diana"; "c1"; "g2"] = Some (EGrant (gr "s2")) /\
  view (puts hex) ["bob"; "c2"; "g3"] = None.
Proof. split; reflexivity. Qed.
Example C04_complete_ex : complete (puts hex) "diana" "c1".
Proof.
  intros ci H. vm_compute in H. injection H as <-. cbn. split; [|split].
  - repeat constructor; cbn; intuition discriminate.
  - repeat constructor; try goodtac.
  - intros g [<-|[<-|[]]]; discriminate.
Qed.
Example C04_ex :
  let s := snd (db_delete true ["diana"; "c1"] (puts hex)) in
  view s ["diana"; "c1"; "g1"] = None /\ view s ["diana"; "c2"; "g3"] = Some (EGrant (gr "s3")) /\
  view s ["bob"; "c1"; "g4"] = Some (EGrant (gr "s4")).
Proof. repeat split. Qed.

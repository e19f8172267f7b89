(** AuthnBrokerProofs.v: the registry keeps its two tables in step as long as no id is registered twice. *)
From Verif Require Import Base BaseProofs Types Ctx Registration AuthnBroker AuthnBrokerSpec.

Lemma rmap_all {A B} (f : A -> result B) (g : A -> B) l :
  (forall x, In x l -> f x = Ok (g x)) -> rmap f l = Ok (map g l).
Proof.
  induction l as [|x l IH]; intros H; [reflexivity|]. cbn. rewrite (H x) by now left. cbn.
  rewrite IH; [reflexivity|]. intros y I. apply H. now right.
Qed.

(** The tables stand for the registry *)
Definition stands (b : broker) (r : registry) : Prop :=
  NoDup (reg_ids r) /\
  br_db b = map (fun x => (rm_id x, as_info x)) r /\
  (forall a, dget a (br_acr b) = match with_acr a r with [] => None | l => Some (reg_ids l) end) /\
  NoDup (dkeys (br_acr b)).

Lemma db_get r x : NoDup (reg_ids r) -> In x r ->
  dget (rm_id x) (map (fun x => (rm_id x, as_info x)) r) = Some (as_info x).
Proof.
  induction r as [|y r IH]; intros N I; [easy|]. cbn [reg_ids map] in N. inversion N as [|? ? Hn N']; subst.
  cbn [map dget]. destruct (String.eqb_spec (rm_id x) (rm_id y)) as [E|E].
  - destruct I as [->|I]; [reflexivity|]. destruct Hn. rewrite <- E. now apply in_map.
  - destruct I as [->|I]; [easy|]. now apply IH.
Qed.
Lemma db_none r k : ~ In k (reg_ids r) -> dget k (map (fun x => (rm_id x, as_info x)) r) = None.
Proof.
  induction r as [|y r IH]; intros N; [reflexivity|]. cbn [map dget]. cbn [reg_ids map] in N.
  destruct (String.eqb_spec k (rm_id y)) as [->|E]; [destruct N; now left|]. apply IH. intros I. apply N. now right.
Qed.
Lemma dset_new {A} k (v : A) d : dget k d = None -> dset k v d = d ++ [(k, v)].
Proof.
  induction d as [|[k0 v0] d IH]; intros H; [reflexivity|]. cbn in *.
  destruct (String.eqb k k0); [easy|]. now rewrite IH.
Qed.
Lemma with_acr_app a r s : with_acr a (r ++ s) = with_acr a r ++ with_acr a s.
Proof. unfold with_acr. apply filter_app. Qed.

Definition drop_id (k : string) (r : registry) : registry := filter (fun x => negb (String.eqb (rm_id x) k)) r.
Lemma drop_absent k r : ~ In k (reg_ids r) -> drop_id k r = r.
Proof.
  induction r as [|y r IH]; intros N; [reflexivity|]. cbn [reg_ids map] in N. unfold drop_id in *. cbn [filter].
  destruct (String.eqb_spec (rm_id y) k) as [E|E]; [destruct N; now left|]. cbn [negb]. f_equal. apply IH.
  intros I. apply N. now right.
Qed.
Lemma ids_filter f r : NoDup (reg_ids r) -> NoDup (reg_ids (filter f r)).
Proof.
  induction r as [|y r IH]; intros N; [constructor|]. inversion N as [|? ? Hn N']; subst. cbn [filter].
  destruct (f y); [|now apply IH]. cbn [reg_ids map]. constructor; [|now apply IH].
  intros I. apply Hn. apply in_map_iff in I. destruct I as (z & E & I). apply filter_In in I.
  rewrite <- E. now apply in_map.
Qed.
Lemma ddel_map k r : NoDup (reg_ids r) ->
  ddel k (map (fun x => (rm_id x, as_info x)) r) = map (fun x => (rm_id x, as_info x)) (drop_id k r).
Proof.
  induction r as [|y r IH]; intros N; [reflexivity|]. inversion N as [|? ? Hn N']; subst.
  cbn [map ddel]. unfold drop_id. cbn [filter]. rewrite (String.eqb_sym (rm_id y) k).
  destruct (String.eqb_spec k (rm_id y)) as [->|E]; cbn [negb map].
  - now apply IH.
  - f_equal. now apply IH.
Qed.
Lemma sremove_ids k r : NoDup (reg_ids r) -> sremove k (reg_ids r) = reg_ids (drop_id k r).
Proof.
  induction r as [|y r IH]; intros N; [reflexivity|]. inversion N as [|? ? Hn N']; subst.
  cbn [reg_ids map sremove]. unfold drop_id. cbn [filter]. rewrite (String.eqb_sym (rm_id y) k).
  destruct (String.eqb_spec k (rm_id y)) as [->|E]; cbn [negb map].
  - fold (drop_id (rm_id y) r). rewrite drop_absent; [reflexivity|exact Hn].
  - unfold reg_ids. cbn [map]. f_equal. now apply IH.
Qed.
Lemma filter_comm {A} (f g : A -> bool) l : filter f (filter g l) = filter g (filter f l).
Proof.
  induction l as [|x l IH]; [reflexivity|]. cbn. destruct (f x) eqn:F, (g x) eqn:G; cbn; rewrite ?F, ?G, IH; reflexivity.
Qed.
Lemma dget_none_ddel {A} a k (d : dict A) : NoDup (dkeys d) ->
  dget a (ddel k d) = if String.eqb a k then None else dget a d.
Proof.
  intros N. destruct (String.eqb_spec a k) as [->|E]; [now apply dget_ddel_eq|now apply dget_ddel_neq].
Qed.

Lemma stands_empty : stands empty_broker [].
Proof. split; [constructor|]. split; [reflexivity|]. split; [reflexivity|constructor]. Qed.

Lemma stands_reg b r id i : stands b r -> ~ In id (reg_ids r) ->
  stands (br_step (Reg id i) b) (reg_step (Reg id i) r).
Proof.
  intros (N & D & A & K) F. destruct i as [[a|] [m|]]; cbn; try (now repeat split).
  assert (Dn : dget id (br_db b) = None) by (rewrite D; now apply db_none).
  split; [|split; [|split]].
  - unfold reg_ids. rewrite map_app. cbn [map rm_id].
    apply (NoDup_Add (a := id) (l := reg_ids r)); [|now split].
    pose proof (Add_app id (reg_ids r) []) as P. now rewrite app_nil_r in P.
  - cbn [br_db]. rewrite (dset_new _ _ _ Dn), D, map_app. reflexivity.
  - intros a'. cbn [br_acr]. rewrite with_acr_app. cbn [with_acr filter rm_acr].
    assert (G : dget a' (match dget a (br_acr b) with Some l => dset a (l ++ [id]) (br_acr b)
                         | None => dset a [id] (br_acr b) end)
                = if String.eqb a' a then Some (match dget a (br_acr b) with Some l => l ++ [id] | None => [id] end)
                  else dget a' (br_acr b)).
    { destruct (String.eqb_spec a' a) as [->|E].
      - destruct (dget a (br_acr b)); now rewrite dget_dset_eq.
      - destruct (dget a (br_acr b)); now rewrite dget_dset_neq. }
    rewrite G. clear G. rewrite (String.eqb_sym a a'). destruct (String.eqb_spec a' a) as [E|E].
    + subst a'. rewrite A. fold (with_acr a r). destruct (with_acr a r) as [|y l]; [reflexivity|]. cbn [app].
      unfold reg_ids. cbn [map]. rewrite map_app. reflexivity.
    + fold (with_acr a' r). rewrite app_nil_r. apply A.
  - cbn [br_acr]. destruct (dget a (br_acr b)); now apply NoDup_dset.
Qed.

Lemma stands_unreg b r id : stands b r -> stands (br_step (Unreg id) b) (reg_step (Unreg id) r).
Proof.
  intros (N & D & A & K). cbn [br_step reg_step]. fold (drop_id id r). unfold br_del.
  destruct (in_dec string_dec id (reg_ids r)) as [I|I].
  2:{ rewrite D, (db_none _ _ I), drop_absent by easy. cbn. now repeat split. }
  apply in_map_iff in I. destruct I as (x & <- & I). rewrite D at 1. rewrite (db_get _ _ N I). cbn [as_info mi_acr].
  assert (W : In x (with_acr (rm_acr x) r)) by (apply filter_In; split; [easy|apply String.eqb_refl]).
  rewrite A. destruct (with_acr (rm_acr x) r) as [|y l] eqn:E; [easy|]. rewrite <- E in *. 
  assert (M : smem (rm_id x) (reg_ids (with_acr (rm_acr x) r)) = true) by (apply smem_In; now apply in_map).
  replace (reg_ids (y :: l)) with (reg_ids (with_acr (rm_acr x) r)) by now rewrite E. rewrite M. cbn [snd].
  assert (Nf : NoDup (reg_ids (with_acr (rm_acr x) r))) by now apply ids_filter.
  rewrite (sremove_ids _ _ Nf).
  assert (C : forall a, with_acr a (drop_id (rm_id x) r) = drop_id (rm_id x) (with_acr a r)) by (intros; apply filter_comm).
  split; [now apply ids_filter|]. split; [cbn [br_db]; rewrite D; now apply ddel_map|]. split; cbn [br_acr].
  - intros a. rewrite C. destruct (String.eqb_spec a (rm_acr x)) as [->|Ea].
    + destruct (drop_id (rm_id x) (with_acr (rm_acr x) r)) as [|z q] eqn:Ez; cbn [reg_ids map is_nil].
      * now apply dget_ddel_eq.
      * now rewrite dget_dset_eq.
    + assert (S : drop_id (rm_id x) (with_acr a r) = with_acr a r).
      { apply drop_absent. intros J. apply in_map_iff in J. destruct J as (z & Ez & J). apply filter_In in J.
        destruct J as [J Q]. apply String.eqb_eq in Q.
        assert (dget (rm_id x) (map (fun x => (rm_id x, as_info x)) r) = Some (as_info z)) as G by (rewrite <- Ez; now apply db_get).
        rewrite (db_get _ _ N I) in G. injection G as G _. congruence. }
      rewrite S, <- A. destruct (is_nil _); [now apply dget_ddel_neq|now rewrite dget_dset_neq].
  - destruct (is_nil _); [|now apply NoDup_dset].
    clear -K. induction (br_acr b) as [|[k v] d IH]; cbn; [constructor|]. inversion K; subst.
    destruct (String.eqb_spec (rm_acr x) k); [now apply IH|]. cbn. constructor; [|now apply IH].
    intros J. apply H1. clear -J. induction d as [|[k0 v0] d IH]; cbn in *; [easy|].
    destruct (String.eqb (rm_acr x) k0); [right; now apply IH|]. destruct J as [J|J]; [now left|right; now apply IH].
Qed.

Lemma stands_run l : forall b r, stands b r -> new_ids r l ->
  stands (fold_left (fun b o => br_step o b) l b) (fold_left (fun r o => reg_step o r) l r).
Proof.
  induction l as [|o l IH]; intros b r S H; [exact S|]. destruct H as [F H]. cbn [fold_left]. apply IH; [|exact H].
  destruct o; [now apply stands_reg|now apply stands_unreg].
Qed.
Lemma run_stands l : new_ids [] l -> stands (br_run l) (reg_run l).
Proof. apply stands_run, stands_empty. Qed.

Lemma stands_pick b r a : stands b r -> pick_by_class_ref a b = Ok (map as_info (with_acr a r)).
Proof.
  intros (N & D & A & _). unfold pick_by_class_ref. rewrite A.
  destruct (with_acr a r) as [|y l] eqn:E; [reflexivity|]. rewrite <- E. clear E.
  assert (Q : forall q, (forall x, In x q -> In x r) -> rmap (fun i => dsub i (br_db b)) (reg_ids q) = Ok (map as_info q)).
  { induction q as [|x q IH]; intros H; [reflexivity|]. cbn [reg_ids map rmap]. unfold dsub at 1. rewrite D at 1.
    rewrite (db_get _ _ N) by (apply H; now left). cbn [of_option rbind].
    change (map rm_id q) with (reg_ids q). rewrite IH; [reflexivity|]. intros z I. apply H. now right. }
  apply Q. intros x I. now apply filter_In in I.
Qed.
Lemma stands_get b r x : stands b r -> In x r -> br_get (rm_id x) b = Ok (as_info x).
Proof. intros (N & D & _) I. unfold br_get, dsub. rewrite D, (db_get _ _ N I). reflexivity. Qed.
Lemma stands_get_none b r k : stands b r -> ~ In k (reg_ids r) -> br_get k b = Raise EKey.
Proof. intros (N & D & _) I. unfold br_get, dsub. now rewrite D, (db_none _ _ I). Qed.
Lemma stands_default b r : stands b r -> br_default b = option_map as_info (hd_error r).
Proof. intros (_ & D & _). unfold br_default. rewrite D. now destruct r. Qed.
Lemma stands_length b r : stands b r -> length (br_db b) = length r.
Proof. intros (_ & D & _). rewrite D. apply map_length. Qed.

(** the first class of [l] for which something is registered, and the first method of it *)
Fixpoint first_of (r : registry) (l : list string) : option rmethod :=
  match l with
  | [] => None
  | a :: l' => match with_acr a r with x :: _ => Some x | [] => first_of r l' end
  end.
Lemma stands_first b r l : stands b r -> first_pick b (map VStr l) = Ok (option_map as_info (first_of r l)).
Proof.
  intros S. induction l as [|a l IH]; [reflexivity|]. cbn [map first_pick first_of].
  rewrite (stands_pick _ _ _ S). cbn [rbind]. destruct (with_acr a r); [exact IH|reflexivity].
Qed.
Lemma oldest_head a r x q : with_acr a r = x :: q -> rm_acr x = a /\ oldest_of r x.
Proof.
  induction r as [|y r IH]; [discriminate|]. cbn. destruct (String.eqb (rm_acr y) a) eqn:E.
  - intros H. assert (y = x) by congruence. subst y. apply String.eqb_eq in E. split; [exact E|]. exists [], r. split; [reflexivity|]. intros z [].
  - intros H. destruct (IH H) as [Ex (r1 & r2 & -> & F)]. split; [exact Ex|]. exists (y :: r1), r2. split; [reflexivity|].
    intros z [<-|I1]; [|exact (F z I1)]. rewrite Ex. now apply String.eqb_neq.
Qed.
Lemma first_of_spec r l x : first_of r l = Some x ->
  exists l1 l2, l = l1 ++ rm_acr x :: l2 /\ oldest_of r x /\ (forall y, In y r -> ~ In (rm_acr y) l1).
Proof.
  induction l as [|a l IH]; [easy|]. cbn. destruct (with_acr a r) as [|y q] eqn:E.
  - intros H. destruct (IH H) as (l1 & l2 & -> & I & F). exists (a :: l1), l2. split; [reflexivity|]. split; [exact I|].
    intros y J [K|K]; [|exact (F y J K)].
    assert (In y (with_acr a r)) as W by (apply filter_In; split; [easy|apply String.eqb_eq; easy]). now rewrite E in W.
  - intros H. assert (y = x) by congruence. subst y.
    destruct (oldest_head a r x q E) as [Q I]. subst a. exists [], l. split; [reflexivity|]. split; [exact I|]. easy.
Qed.
Lemma first_of_none r l : first_of r l = None <-> forall y, In y r -> ~ In (rm_acr y) l.
Proof.
  induction l as [|a l IH]; cbn; [split; [intros _ y _ []|reflexivity]|].
  destruct (with_acr a r) as [|y q] eqn:E.
  - rewrite IH. split.
    + intros F y J [K|K]; [|exact (F y J K)].
      assert (In y (with_acr a r)) as W by (apply filter_In; split; [easy|apply String.eqb_eq; easy]). now rewrite E in W.
    + intros F y J K. exact (F y J (or_intror K)).
  - split; [easy|]. intros F. assert (In y (with_acr a r)) as W by (rewrite E; now left). apply filter_In in W.
    destruct W as [I Q]. apply String.eqb_eq in Q. destruct (F y I). now left.
Qed.

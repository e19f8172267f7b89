(** StorageSpec.v: what it means that a stored object is as good as the original. *)
From Verif Require Import Base Types Token Grant Ctx Claims Storage.
Local Open Scope Z_scope.

(** ** The libraries *)
(** json.loads reads what json.dumps has written. (Lists with a key twice are no Python dicts.) *)
Definition json_works (co : codec) : Prop := forall v, co_loads co (co_dumps co v) = Ok v.
(** A request or authentication event made from what to_dict gives is the one it was. *)
Definition messages_work (co : codec) : Prop :=
  (forall m, co_rq co (co_rq_dict co m) = Ok m) /\ forall a, co_ae co (co_ae_dict co a) = Ok a.
(** from_dict sets each member of the message to_dict was called on, and leaves the others; the type is written as it is. *)
Definition info_works (co : codec) : Prop :=
  forall cur m, co_info co cur (co_info_dict co m) = Ok (dupdate cur m) /\ dget "type" (co_info_dict co m) = dget "type" m.
(** The module of the tokens has its three classes. *)
Definition import_works (co : codec) : Prop := forall c, co_import co "oidcendpoint.session.token" (class_name c) = Ok c.

(** ** Objects *)
(** A token such as the constructor of its class leaves it. *)
Definition fits (map : dict tclass) (t : token) : Prop :=
  dget (t_type t) map = Some (t_class t) /\ t_issued_at t <> 0 /\ t_id t <> ""%string /\
  (t_class t <> CAccess -> ur_mints (t_rules t) <> None) /\ (t_class t = CCode -> ur_max_usage (t_rules t) = Some 1).
(** Claims taken out of the client database. *)
Definition own_claims (clients : cdb) (g : grant) : grant :=
  g_set_claims (map (fun c => (fst c, CVal (resolve clients (snd c)))) (g_claims g)) g.
(** The grant with an empty count of uses. *)
Definition uncounted (g : grant) : grant := g_set_used 0 g.
(** Members that are set apart in the model have keys of their own. *)
Definition proper_grant (g : grant) : Prop := dget "max_usage" (gr_types (g_rules g)) = None /\ g_authreq g <> Some [].
Definition proper_info (i : sinfo) : Prop :=
  NoDup (dkeys (si_extra i)) /\ forall k, In k ["subordinate"; "revoked"; "type"; id_name (si_kind i)]%string -> ~ In k (dkeys (si_extra i)).

(** ** Operations on a grant *)
Inductive gop :=
| GMint (clock : Z) (newid ttype : string) (based_on : option token) (rules : option urules) (scope : option (list string))
        (kw : mint_kw) (value : result string)
| GActive (clock : Z)
| GFind (value : string)
| GUse (value : string)
| GRevoke
| GRevokeToken (depth : nat) (value based_on : string) (recursive : bool)
| GSpec (clock : Z) (t : token)
| GRead (clients : cdb).
(** What the caller sees. [ARead]: all attributes but the count. *)
Inductive gans :=
| AMint (r : result (option token)) | AActive (b : bool) | AFound (o : option token) | ADone (r : result unit) | ASpec (o : option spec)
| ARead (g : grant).
Definition gstep (op : gop) (g : grant) : gans * grant :=
  match op with
  | GMint clock newid ttype based_on rules scope kw value =>
      match mint_token clock newid g ttype based_on rules scope kw value with
      | Ok (o, g') => (AMint (Ok o), g')
      | Raise x => (AMint (Raise x), g)
      end
  | GActive clock => (AActive (g_active clock g), g)
  | GFind value => (AFound (get_token value g), g)
  | GUse value => (ADone (Ok tt), upd_token value register_usage g)
  | GRevoke => (ADone (Ok tt), g_set_revoked true g)
  | GRevokeToken depth value based_on recursive => let (g', r) := revoke_token depth value based_on recursive g in (ADone r, g')
  | GSpec clock t => (ASpec (get_spec clock g t), g)
  | GRead clients => (ARead (uncounted (own_claims clients g)), g)
  end.
Fixpoint grun (ops : list gop) (g : grant) : list gans * grant :=
  match ops with
  | [] => ([], g)
  | op :: ops' => let (a, g1) := gstep op g in let (l, g2) := grun ops' g1 in (a :: l, g2)
  end.
(** Real times and ids. *)
Definition real_op (op : gop) : Prop :=
  match op with GMint clock newid _ _ _ _ _ _ => clock <> 0 /\ newid <> ""%string | _ => True end.

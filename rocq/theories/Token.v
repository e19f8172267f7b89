(** Token.v: [Item] and [Token] (session/token.py). *)
From Verif Require Import Base Types.
Open Scope Z_scope.

(** session/token.py:12-34, the part that computes the two times.
    [clock] is what [time_sans_frac()] returns. *)
Definition item_issued_at (clock issued_at : Z) : Z :=
  if issued_at =? 0 then clock else issued_at.
Definition item_expires_at (clock expires_in expires_at : Z) : Z :=
  if (expires_at =? 0) && negb (expires_in =? 0) then clock + expires_in else expires_at.

(** session/token.py:36-40 *)
Definition max_usage_reached (max_usage : option Z) (used : Z) : bool :=
  match max_usage with
  | Some m => m <=? used
  | None => false
  end.

(** session/token.py:42-60; [now] is the optional argument, 0 meaning "use the clock". *)
Definition item_is_active (clock now : Z) (max_usage : option Z) (used : Z) (revoked : bool)
    (not_before expires_at : Z) : bool :=
  if max_usage_reached max_usage used then false
  else if revoked then false
  else
    let now := if now =? 0 then clock else now in
    if negb (not_before =? 0) && (now <? not_before) then false
    else if negb (expires_at =? 0) && (expires_at <? now) then false
    else true.

(** [token.is_active()] *)
Definition t_active (clock : Z) (t : token) : bool :=
  item_is_active clock 0 (ur_max_usage (t_rules t)) (t_used t) (t_revoked t)
    (t_not_before t) (t_expires_at t).

(** [grant.is_active()] *)
Definition g_active (clock : Z) (g : grant) : bool :=
  item_is_active clock 0 (gr_max_usage (g_rules g)) (g_used g) (g_revoked g)
    (g_not_before g) (g_expires_at g).

(** session/token.py:145-156 ([set_defaults] of the subclasses; 99-100 for the others).
    Simplification: Python mutates the rule dict it was given, which is shared with the grant
    and possibly the configuration; here the token gets its own copy. All sharers of one rule
    dict are tokens of one class, to which the same defaults would be applied. *)
Definition set_defaults (c : tclass) (r : urules) : urules :=
  let dflt := match ur_mints r with
              | Some m => Some m
              | None => Some ["access_token"; "refresh_token"]%string
              end in
  match c with
  | CCode => mkURules (Some 1) dflt (ur_expires_in r)
  | CRefresh => mkURules (ur_max_usage r) dflt (ur_expires_in r)
  | CAccess => r
  end.

(** session/token.py:71-97 [Token.__init__], as called by [Grant.mint_token]
    (issued_at = 0, not revoked, not used unless given). [newid] is [uuid1().hex]. *)
Definition new_token (clock : Z) (newid : string) (c : tclass) (ttype : string)
    (based_on : option string) (rules : option urules) (scope : option (list string))
    (expires_in expires_at not_before : Z) (resources : list string) : token :=
  {| t_class := c;
     t_type := ttype;
     t_value := "";
     t_based_on := based_on;
     t_rules := set_defaults c (match rules with Some r => r | None => no_rules end);
     t_issued_at := item_issued_at clock 0;
     t_expires_at := item_expires_at clock expires_in expires_at;
     t_not_before := not_before;
     t_revoked := false;
     t_used := 0;
     t_id := newid;
     t_scope := match scope with Some s => s | None => [] end;
     t_claims := [];
     t_resources := resources |}.

(** session/token.py:102-103 *)
Definition register_usage (t : token) : token := t_set_used (t_used t + 1) t.

(** session/token.py:133-138 *)
Definition supports_minting (t : token) (token_type : string) : bool :=
  match ur_mints (t_rules t) with
  | None => false
  | Some l => smem token_type l
  end.

(** Uri.v: redirect URIs. Models util.py:161-173 and oauth2/authorization.py:88-210. *)
From Verif Require Import Base Types Ctx.

(** The parts of a URI that are read ([urlsplit], [urlparse]); [up_base] is [urlunsplit] of the URI
    without its query and fragment. *)
Record urlparts := mkUP {
  up_scheme : string;
  up_netloc : string;
  up_host : option string;       (* .hostname *)
  up_base : string;
  up_query : string;
  up_fragment : string }.

(** urllib.parse: unquote, urlsplit (it may raise ValueError), parse_qs, urlencode of pairs. PyUrl.v has a
    concrete version. *)
Record urllib := mkUL {
  ul_unquote : string -> string;
  ul_split : string -> result urlparts;
  ul_qs : string -> dict (list string);
  ul_encode : list (string * string) -> string }.

(** a query as it is kept: dict from name to list of values *)
Definition vquery (q : dict (list string)) : val := VDict (map (fun kv => (fst kv, vstrs (snd kv))) q).

(** util.py:161-173 *)
Definition split_uri (u : urllib) (uri : string) : result (string * val) :=
  let* p := ul_split u uri in
  Ok (up_base p, if nonempty (up_query p) then vquery (ul_qs u (up_query p)) else VStr "").

(** [for v in l] over a list of values; other values cannot be gone through. (A str would be gone through
    character by character; registered URIs and queries never are one.) *)
Definition as_list (v : val) : result (list val) :=
  match v with VList l => Ok l | _ => Raise EType end.
Definition as_dict (v : val) : result (dict val) :=
  match v with VDict d => Ok d | _ => Raise EAttr end.

(** [for key, vals in a.items(): key in b, for val in vals: val in b[key]] with the exception for each *)
Fixpoint covered (a b : dict val) : result unit :=
  match a with
  | [] => Ok tt
  | (key, vals) :: a' =>
      let* l := as_list vals in
      let* other := of_option EValue (dget key b) in
      let* other := as_list other in
      if forallb (fun v => existsb (val_eqb v) other) l then covered a' b else Raise EValue
  end.

(** oauth2/authorization.py:133-162: the comparison of the query parts, once the bases are equal *)
Definition same_query (query rquery : val) : result unit :=
  let* _ := if truthy rquery then
              if negb (truthy query) then Raise EValue
              else let* r := as_dict rquery in let* q := as_dict query in covered r q
            else Ok tt in
  if truthy query then
    if negb (truthy rquery) then Raise EValue
    else let* r := as_dict rquery in let* q := as_dict query in covered q r
  else Ok tt.

(** oauth2/authorization.py:130-166: the first registered URI with this base decides. A registered URI is a
    pair (a list of two): base and query. *)
Fixpoint match_uri (base : string) (query : val) (regs : list val) : result unit :=
  match regs with
  | [] => Raise ERedirectURI
  | VList [regbase; rquery] :: regs' =>
      if val_eqb (VStr base) regbase then same_query query rquery else match_uri base query regs'
  | VList _ :: _ => Raise EValue
  | _ :: _ => Raise EType
  end.

(** oauth2/authorization.py:88-166. [client_id] is the argument of that name. *)
Definition verify_uri (u : urllib) (db : cdb) (request : msg) (uri_type : string) (client_id : option string) : result unit :=
  let cid := match dget "client_id" request with
             | Some v => Some v
             | None => option_map VStr client_id
             end in
  match cid with
  | None => Raise EUnknownClient
  | Some v =>
      if negb (truthy v) then Raise EUnknownClient
      else
        let* raw := msub_str uri_type request in
        let redirect_uri := ul_unquote u raw in
        let* part := ul_split u redirect_uri in
        if nonempty (up_fragment part) then Raise EURI
        else
          let* bq := split_uri u redirect_uri in
          match v with
          | VStr c =>
              match dget c db with
              | None | Some [] => Raise EKey
              | Some info =>
                  match truthy_get (uri_type ++ "s") info with
                  | None => Raise EValue
                  | Some regs => let* l := as_list regs in match_uri (fst bq) (snd bq) l
                  end
              end
          | _ => Raise EKey
          end
  end.

(** the (name, value) pairs of a query, in order; [urlencode(query, doseq=True)] and registration.py:102-105 *)
Fixpoint pairs_of (q : dict val) : result (list (string * string)) :=
  match q with
  | [] => Ok []
  | (k, v) :: q' =>
      let* l := as_list v in
      let* r := pairs_of q' in
      Ok (map (fun s => (k, s)) (strs_of l) ++ r)
  end.

(** oauth2/authorization.py:169-179 *)
Definition join_query (u : urllib) (base query : val) : result string :=
  match base with
  | VStr b =>
      if truthy query then
        let* q := as_dict query in let* ps := pairs_of q in Ok (b ++ "?" ++ ul_encode u ps)%string
      else Ok b
  | _ => Raise EType
  end.

(** oauth2/authorization.py:182-210. The str of a client_id that is none: not a client. *)
Definition get_uri (u : urllib) (db : cdb) (request : msg) (uri_type : string) : result string :=
  if dmem uri_type request then
    let* _ := verify_uri u db request uri_type None in
    msub_str uri_type request
  else
    let* v := dsub "client_id" request in
    match v with
    | VStr c =>
        match dget c db with
        | None => Ok ""
        | Some info =>
            match truthy_get (uri_type ++ "s") info with
            | None => Raise EParameter
            | Some specs =>
                let* l := as_list specs in
                match l with
                | [VList [b; q]] => join_query u b q
                | [_] => Raise EType
                | _ => Raise EParameter
                end
            end
        end
    | _ => Ok ""
    end.

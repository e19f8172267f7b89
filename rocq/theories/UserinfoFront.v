(** UserinfoFront.v: the userinfo endpoint from the HTTP request's data to the answer: oidc/userinfo.py:156-184 with the client
    authentication (ClientAuthn.v), then process_request (UserInfo.v) and the choice of the packing. *)
From Verif Require Import Base Monad Types Token Grant Database Manager Ctx ClientAuthn.
From Verif Require UserInfo.
Local Open Scope Z_scope.

(** The client database and the JWT ids seen; the sessions *)
Record front := mkFr { fr_ca : castate; fr_db : store }.

(** What parse_request returns: an error message (its description is left out) or the request *)
Inductive uparsed := UErr (error : string) | UReq (request : msg).

Section Front.
  Variable sid_of : string -> result string.

  (** oidc/userinfo.py:50-52 as the callback of verify_client. The sessions are not changed by reading. A token that is no str is
      looked up by nothing (only a body can hold one). *)
  Definition client_of (db : store) (t : val) : result val :=
    match t with
    | VStr v => match fst (UserInfo.get_client_id_from_token sid_of v db) with Ok c => Ok (VStr c) | Raise e => Raise e end
    | _ => Raise EType
    end.

  (** oidc/userinfo.py:171-176: [except (ValueError, UnknownToken)]. What is raised there has an argument: client_authn.py:417, 425,
      token/handler.py:43 and the ValueErrors of session/database.py. *)
  Definition is_value_or_unknown (e : exn) : bool := match e with EValue | EUnknownToken => true | _ => false end.

  (** oidc/userinfo.py:156-184. [request] is a dict, {} if nothing was sent. Line 178: auth_info is a dict, never a ResponseMessage.
      Lines 181-182: the members are read in this order, so a missing client id is a KeyError with nothing written; the request
      is not used after an exception. *)
  Definition userinfo_parse (o : outside) (e : ep) (cls : string) (aka : dict string) (request : msg) (auth : authz_data) (db : store) : ST castate uparsed :=
    catch (r <-- client_authentication o e cls (client_of db) aka request auth ;;
           match r with
           | Some (mkAI (Some c) (Some t) _) => ret (UReq (dset "access_token" t (dset "client_id" c request)))
           | _ => raise EKey
           end)
          is_value_or_unknown (ret (UErr "invalid_token")).

  (** The endpoint as the web layer calls it: parse_request, then, unless it returned an error message, process_request and
      do_response, of which only the look at the client's registration is here (oidc/userinfo.py:54-107). *)
  Inductive uanswer := URefused (error : string) | UClaims (claims : msg) (client_id : string) (how : UserInfo.packing).
  Definition userinfo_answer (clients : cdb) (a : UserInfo.answer) : result uanswer :=
    match a with
    | UserInfo.AError err _ => Ok (URefused err)
    | UserInfo.AOk args cid =>
        let c := match cid with Some c => c | None => ""%string end in
        let* how := UserInfo.userinfo_packing clients c in Ok (UClaims args c how)
    end.
  Definition userinfo_request (o : outside) (e : ep) (cls : string) (aka : dict string) (cx : ctx) (clock : Z) (request : msg) (auth : authz_data)
    (s : front) : result uanswer * front :=
    match userinfo_parse o e cls aka request auth (fr_db s) (fr_ca s) with
    | (Raise x, ca) => (Raise x, mkFr ca (fr_db s))
    | (Ok (UErr err), ca) => (Ok (URefused err), mkFr ca (fr_db s))
    | (Ok (UReq rq), ca) =>
        let (r, db) := UserInfo.userinfo_process sid_of cx (ca_cdb ca) clock rq (fr_db s) in
        (match r with Ok a => userinfo_answer (ca_cdb ca) a | Raise x => Raise x end, mkFr ca db)
    end.
End Front.

(** RefusalSpec.v: vocabulary for what the token endpoint says to requests it does not serve. *)
From Verif Require Import Base Monad Types Database World UserInfo TokenEndpoint Minting Ctx.
Local Open Scope Z_scope.

(** A request is parsed and, if it is let through, processed. *)
Definition request_made sid_of b64hash cx idt sharing helpers pkce clock m1 m2 issue_refresh (request : msg) (w : world) : result answer * world :=
  match token_parse sid_of b64hash helpers pkce clock request (w_db w) with
  | (Raise e, s) => (Raise e, mkW s (w_cdb w))
  | (Ok p, s) => token_process sid_of cx idt sharing helpers m1 m2 issue_refresh p (mkW s (w_cdb w))
  end.

(** The client gets this error message, and nothing has changed. *)
Definition refused (w : world) (error : string) (a : result answer * world) : Prop := exists d, a = (Ok (AError error d), w).
(** There is no answer but this exception, and nothing has changed. *)
Definition raised (w : world) (e : exn) (a : result answer * world) : Prop := a = (Raise e, w).

(** Only these characters can be encoded in ASCII. *)
Definition ascii_only (s : string) : Prop := forall a, In a (list_ascii_of_string s) -> (Ascii.N_of_ascii a < 128)%N.

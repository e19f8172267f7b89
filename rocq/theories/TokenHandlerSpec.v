(** TokenHandlerSpec.v: what is assumed of the ciphers, and what a right answer is. *)
From Verif Require Import Base Types TokenHandler.

(** Ideal cipher and signature: what was made with a key opens with that key and with no other, and
    neither kind of text passes for the other. *)
Record ideal (fenc : string -> string -> string -> string) (fdec : string -> string -> option string)
             (jsign : string -> msg -> string) (jverify : string -> string -> result msg) : Prop := {
  i_fdec : forall k n p, fdec k (fenc k n p) = Some p;
  i_fdec_other : forall k k' n p, k <> k' -> fdec k' (fenc k n p) = None;
  i_jver : forall k p, jverify k (jsign k p) = Ok p;
  i_jver_other : forall k k' p, k <> k' -> exists e, jverify k' (jsign k p) = Raise e /\ caught e = true;
  i_fdec_jwt : forall k k' p, fdec k' (jsign k p) = None;
  i_jver_fernet : forall k k' n p, exists e, jverify k' (fenc k n p) = Raise e /\ caught e = true
}.

Definition typ_of (h : handler) : string := match h with HDefault _ t _ | HJwt _ t _ => t end.
(** A JWT handler refuses its own tokens after their time; a default handler never looks. *)
Definition in_time (made now : Z) (h : handler) : Prop :=
  match h with
  | HDefault _ _ _ => True
  | HJwt _ _ lt => lt <> 0%Z /\ ((made + lt < 0)%Z \/ (now <= made + lt)%Z)
  end.
Definition is_default (h : handler) : Prop := match h with HDefault _ _ _ => True | _ => False end.

(** The three handlers that [factory] builds *)
Definition factory (c a r : handler) : handlers * list string := token_handler (Some c) (Some a) (Some r).
Definition factory_types (c a r : handler) : Prop := typ_of c = "A" /\ typ_of a = "T" /\ typ_of r = "R".

(** A log of the values that were made: only they open (unforgeability), each to its own text, and
    each was made by some default handler with that password. *)
Record only_made (fenc : string -> string -> string -> string) (fdec : string -> string -> option string)
                 (jsign : string -> msg -> string) (made : string -> string -> Prop) : Prop := {
  o_sound : forall pw t p, fdec pw t = Some p -> made pw t;
  o_open : forall pw n p, made pw (fenc pw n p) -> fdec pw (fenc pw n p) = Some p;
  o_made : forall pw t, made pw t -> exists clock nonce rnd typ lt sid ttype payload,
      t = make_token fenc jsign clock nonce rnd (HDefault pw typ lt) sid ttype payload
}.

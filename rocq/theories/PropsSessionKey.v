(** PropsSessionKey.v: C01. *)
From Verif Require Import Base SessionKey SessionKeyProofs.

(** C01 (full strength: exactly which ids round-trip). *)
Theorem C01_session_key_roundtrip_iff :
  forall ids, unpack_session_key (session_key ids) = ids <-> ids_ok ids.
Proof. exact session_key_roundtrip_iff. Qed.
Print Assumptions C01_session_key_roundtrip_iff.

(** C01, injectivity on unambiguous ids. *)
Theorem C01_session_key_injective :
  forall ids1 ids2, ids_ok ids1 -> ids_ok ids2 ->
  session_key ids1 = session_key ids2 -> ids1 = ids2.
Proof. exact session_key_injective. Qed.
Print Assumptions C01_session_key_injective.

(** Every string is the key of exactly one unambiguous id list. *)
Theorem C01_unpack_total :
  forall k, ids_ok (unpack_session_key k) /\ session_key (unpack_session_key k) = k.
Proof. exact unpack_session_key_total. Qed.
Print Assumptions C01_unpack_total.

(** C01 as stated for free-text ids is false: two users, two clients, same session id. *)
Theorem C01_session_key_injective_refuted :
  exists u1 c1 u2 c2 g, (u1, c1) <> (u2, c2) /\ u1 <> "" /\ c1 <> "" /\ u2 <> "" /\ c2 <> "" /\
  session_key [u1; c1; g] = session_key [u2; c2; g].
Proof. exists "diana;", "client", "diana", ";client", "g1". repeat split; try discriminate. Qed.
Print Assumptions C01_session_key_injective_refuted.

(** A user id with the separator in it gives a session id that cannot be unpacked. *)
Theorem C01_session_key_unpack_refuted :
  exists u c g, u <> "" /\ unpack3 (session_key [u; c; g]) = Raise EValue.
Proof. exists "di;;ana", "client_1", "g1". split; [discriminate|reflexivity]. Qed.
Print Assumptions C01_session_key_unpack_refuted.

Example C01_ids_ok_ex : ids_ok ["diana"; "client;1"; "e996c61227e711eba173acde48001122"].
Proof. apply ids_ok_clean. reflexivity. Qed.
Example C01_roundtrip_ex :
  unpack_session_key (session_key ["diana"; "client;1"; "g"]) = ["diana"; "client;1"; "g"].
Proof. reflexivity. Qed.

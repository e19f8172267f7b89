(** Toy.v: toy ciphers and signatures, used only in examples, to show that what the theorems assume of
    cryptography can be met. Models no code. *)
From Verif Require Import Base BaseProofs Types PyInt PyIntProofs LV LVProofs.

(** ** A text for every value, and back *)
Definition lvs (s : string) : string := (py_str (Z.of_nat (slen s)) ++ ":" ++ s)%string.
Definition unlvs (t : string) : option (string * string) :=
  match cut ":" t with
  | Some (l, r) => match py_int l with
                   | Some n => Some (stake (Z.to_nat n) r, sdrop (Z.to_nat n) r)
                   | None => None
                   end
  | None => None
  end.
Lemma unlvs_lvs s r : unlvs (lvs s ++ r) = Some (s, r).
Proof.
  unfold unlvs, lvs. rewrite !str_app_assoc.
  change (":" ++ s ++ r)%string with (String ":" (s ++ r)). rewrite cut_app by (apply no_colon; lia).
  rewrite py_int_str, Nat2Z.id, stake_app, sdrop_app. reflexivity.
Qed.

Fixpoint enc (v : val) : string :=
  match v with
  | VNone => "n"
  | VBool true => "t"
  | VBool false => "f"
  | VInt z => "i" ++ lvs (py_str z)
  | VStr s => "s" ++ lvs s
  | VList l => "l" ++ (fix go (l : list val) := match l with [] => "e" | v :: l => enc v ++ go l end) l
  | VDict d => "d" ++ (fix go (d : list (string * val)) :=
                         match d with [] => "e" | (k, v) :: d => "k" ++ lvs k ++ enc v ++ go d end) d
  end%string.

Fixpoint dec (n : nat) (t : string) {struct n} : option (val * string) :=
  match n with
  | O => None
  | S n =>
      match t with
      | String "n" r => Some (VNone, r)
      | String "t" r => Some (VBool true, r)
      | String "f" r => Some (VBool false, r)
      | String "i" r => match unlvs r with
                        | Some (z, r) => match py_int z with Some z => Some (VInt z, r) | None => None end
                        | None => None end
      | String "s" r => match unlvs r with Some (s, r) => Some (VStr s, r) | None => None end
      | String "l" r => match dec_list n r with Some (l, r) => Some (VList l, r) | None => None end
      | String "d" r => match dec_dict n r with Some (d, r) => Some (VDict d, r) | None => None end
      | _ => None
      end
  end
with dec_list (n : nat) (t : string) {struct n} : option (list val * string) :=
  match n with
  | O => None
  | S n =>
      match t with
      | String "e" r => Some ([], r)
      | _ => match dec n t with
             | Some (v, r) => match dec_list n r with Some (l, r) => Some (v :: l, r) | None => None end
             | None => None
             end
      end
  end
with dec_dict (n : nat) (t : string) {struct n} : option (list (string * val) * string) :=
  match n with
  | O => None
  | S n =>
      match t with
      | String "e" r => Some ([], r)
      | String "k" r =>
          match unlvs r with
          | Some (k, r) =>
              match dec n r with
              | Some (v, r) => match dec_dict n r with Some (d, r) => Some ((k, v) :: d, r) | None => None end
              | None => None
              end
          | None => None
          end
      | _ => None
      end
  end.

Definition enc_list := fix go (l : list val) := match l with [] => "e"%string | v :: l => (enc v ++ go l)%string end.
Definition enc_dict := fix go (d : list (string * val)) :=
  match d with [] => "e"%string | (k, v) :: d => ("k" ++ lvs k ++ enc v ++ go d)%string end.

Lemma enc_head v r : exists c x, (enc v ++ r)%string = String c x /\ c <> "e"%char.
Proof. destruct v as [|[]| | | |]; cbn; eexists; eexists; (split; [reflexivity|discriminate]). Qed.

Lemma enc_pos v : 1 <= slen (enc v).
Proof. destruct v as [|[]| | | |]; cbn; unfold slen; cbn; lia. Qed.
Lemma enc_list_pos l : 1 <= slen (enc_list l).
Proof. destruct l as [|v l]; cbn; [auto|]. fold enc_list. rewrite slen_app. pose proof (enc_pos v). lia. Qed.
Lemma enc_dict_pos d : 1 <= slen (enc_dict d).
Proof. destruct d as [|[k v] d]; unfold slen; cbn; lia. Qed.

(** as many steps as the text is long are enough *)
Fixpoint dec_enc (v : val) : forall n r, slen (enc v) <= n -> dec n (enc v ++ r) = Some (v, r).
Proof.
  destruct v as [|b|z|s|l|d]; intros [|n] r H.
  1,3,5,7,9,11: exfalso; revert H; apply Nat.nle_gt; apply enc_pos.
  - reflexivity.
  - destruct b; reflexivity.
  - cbn [enc dec append]. rewrite unlvs_lvs, py_int_str. reflexivity.
  - cbn [enc dec append]. rewrite unlvs_lvs. reflexivity.
  - assert (L : forall n r, slen (enc_list l) <= n -> dec_list n (enc_list l ++ r) = Some (l, r)).
    { clear n r H. induction l as [|v l IH]; intros [|n] r H.
      1,3: exfalso; revert H; apply Nat.nle_gt; apply enc_list_pos.
      - reflexivity.
      - change (enc_list (v :: l)) with (enc v ++ enc_list l)%string in *. rewrite slen_app in H. rewrite str_app_assoc.
        pose proof (enc_pos v). pose proof (enc_list_pos l).
        destruct (enc_head v (enc_list l ++ r)) as (c & x & E & Hc).
        assert (G : dec_list (S n) (enc v ++ enc_list l ++ r) =
          match dec n (enc v ++ enc_list l ++ r) with
          | Some (v, r) => match dec_list n r with Some (l, r) => Some (v :: l, r) | None => None end
          | None => None end).
        { rewrite E. destruct c as [[] [] [] [] [] [] [] []]; try reflexivity. congruence. }
        rewrite G, dec_enc by lia. rewrite IH by lia. reflexivity. }
    change (enc (VList l)) with (String "l" (enc_list l)) in *. change (S (slen (enc_list l)) <= S n) in H.
    cbn [append dec]. rewrite L by lia. reflexivity.
  - assert (L : forall n r, slen (enc_dict d) <= n -> dec_dict n (enc_dict d ++ r) = Some (d, r)).
    { clear n r H. induction d as [|[k v] d IH]; intros [|n] r H.
      1,3: exfalso; revert H; apply Nat.nle_gt; apply enc_dict_pos.
      - reflexivity.
      - change (enc_dict ((k, v) :: d)) with (String "k" (lvs k ++ enc v ++ enc_dict d))%string in *.
        change (S (slen (lvs k ++ enc v ++ enc_dict d)) <= S n) in H. rewrite !slen_app in H.
        pose proof (enc_pos v). pose proof (enc_dict_pos d).
        cbn [append dec_dict]. rewrite !str_app_assoc, unlvs_lvs, dec_enc by lia. rewrite IH by lia. reflexivity. }
    change (enc (VDict d)) with (String "d" (enc_dict d)) in *. change (S (slen (enc_dict d)) <= S n) in H.
    cbn [append dec]. rewrite L by lia. reflexivity.
Qed.

Definition val_text (v : val) : string := enc v.
Definition text_val (t : string) : option val := match dec (slen t) t with Some (v, "") => Some v | _ => None end.
Lemma text_val_text v : text_val (val_text v) = Some v.
Proof.
  unfold text_val, val_text. rewrite <- (str_app_nil_r (enc v)) at 2. rewrite dec_enc by lia. reflexivity.
Qed.

(** ** Sealing and signing with a key: a tag, the key, and the content in the clear *)
Definition toy_enc (k n p : string) : string := lv_pack ["F"; k; n; p; "."].
Definition toy_dec (k t : string) : option string :=
  match lv_unpack t with
  | Ok [f; k'; _; p; _] => if (String.eqb f "F" && String.eqb k k')%bool then Some p else None
  | _ => None
  end.
Definition toy_sign (k : string) (p : msg) : string := lv_pack ["J"; k; ""; val_text (VDict p); "."].
Definition toy_verify (k t : string) : result msg :=
  match lv_unpack t with
  | Ok [j; k'; _; p; _] =>
      if (String.eqb j "J" && String.eqb k k')%bool
      then match text_val p with Some (VDict d) => Ok d | _ => Raise EInvalid end
      else Raise EInvalid
  | _ => Raise EInvalid
  end.

Lemma toy_unpack a b c d : lv_unpack (lv_pack [a; b; c; d; "."]) = Ok [a; b; c; d; "."].
Proof. rewrite lv_round_trip_exact. reflexivity. Qed.
Lemma toy_dec_enc k n p : toy_dec k (toy_enc k n p) = Some p.
Proof. unfold toy_dec, toy_enc. rewrite toy_unpack, !String.eqb_refl. reflexivity. Qed.
Lemma toy_dec_other k k' n p : k <> k' -> toy_dec k' (toy_enc k n p) = None.
Proof.
  intros H. unfold toy_dec, toy_enc. rewrite toy_unpack. cbn [String.eqb Ascii.eqb Bool.eqb andb].
  destruct (String.eqb_spec k' k); [congruence|reflexivity].
Qed.
Lemma toy_verify_sign k p : toy_verify k (toy_sign k p) = Ok p.
Proof. unfold toy_verify, toy_sign. rewrite toy_unpack, !String.eqb_refl. cbn [andb]. rewrite text_val_text. reflexivity. Qed.
Lemma toy_verify_other k k' p : k <> k' -> toy_verify k' (toy_sign k p) = Raise EInvalid.
Proof.
  intros H. unfold toy_verify, toy_sign. rewrite toy_unpack. cbn [String.eqb Ascii.eqb Bool.eqb andb].
  destruct (String.eqb_spec k' k); [congruence|reflexivity].
Qed.
Lemma toy_dec_sign k k' p : toy_dec k' (toy_sign k p) = None.
Proof. unfold toy_dec, toy_sign. rewrite toy_unpack. reflexivity. Qed.
Lemma toy_verify_enc k k' n p : toy_verify k' (toy_enc k n p) = Raise EInvalid.
Proof. unfold toy_verify, toy_enc. rewrite toy_unpack. reflexivity. Qed.

(** ** A text encoding without white space and separators, for base64 *)
Definition nib (b0 b1 b2 b3 : bool) : ascii := Ascii b0 b1 b2 b3 false false true false.   (* '@'..'O' *)
Fixpoint hex (s : string) : string :=
  match s with
  | "" => ""
  | String (Ascii a b c d e f g h) s => String (nib a b c d) (String (nib e f g h) (hex s))
  end.
Fixpoint unhex (s : string) : option string :=
  match s with
  | "" => Some ""
  | String (Ascii a b c d false false true false) (String (Ascii e f g h false false true false) s) =>
      option_map (String (Ascii a b c d e f g h)) (unhex s)
  | _ => None
  end.
Lemma unhex_hex s : unhex (hex s) = Some s.
Proof. induction s as [|[a b c d e f g h] s IH]; [reflexivity|]. cbn. rewrite IH. reflexivity. Qed.
Lemma hex_chars (P : ascii -> bool) s : (forall a b c d, P (nib a b c d) = true) -> sforall P (hex s) = true.
Proof.
  intros H. induction s as [|[a b c d e f g h] s IH]; [reflexivity|]. cbn [hex sforall]. rewrite !H. exact IH.
Qed.
Lemma hex_no_space s : rstrip (hex s) = hex s.
Proof.
  apply rstrip_no_space. apply hex_chars. intros [] [] [] []; reflexivity.
Qed.

(** a MAC, and sealing with a tag that repeats the text *)
Definition toy_mac (k m : string) : string := lv_pack ["M"; k; m; "."].
Definition toy_mac_ok (k m s : string) : bool := String.eqb s (toy_mac k m).
Definition toy_gcm (k iv m : string) : string * string := (m, lv_pack ["G"; k; iv; m; "."]).
Definition toy_ungcm (k iv c tag : string) : option string :=
  if String.eqb tag (lv_pack ["G"; k; iv; c; "."]) then Some c else None.

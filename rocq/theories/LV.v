(** LV.v: the length:value format (util.py:111-137). *)
From Verif Require Import Base PyInt.

(** util.py:111-121 *)
Definition lv_pack (args : list string) : string :=
  String.concat "" (map (fun a => (py_str (Z.of_nat (slen a)) ++ ":" ++ a)%string) args).

(** Python's [v[:n]] and [v[n:]] for any int [n] *)
Definition slice_to (n : Z) (v : string) : string :=
  if (0 <=? n)%Z then stake (Z.to_nat n) v
  else stake (Z.to_nat (Z.of_nat (slen v) + n)) v.
Definition slice_from (n : Z) (v : string) : string :=
  if (0 <=? n)%Z then sdrop (Z.to_nat n) v
  else sdrop (Z.to_nat (Z.of_nat (slen v) + n)) v.

(** util.py:124-137. The loop gets fuel; LVProofs shows that the length of the text is enough. *)
Fixpoint lv_loop (fuel : nat) (txt : string) : option (result (list string)) :=
  match txt with
  | "" => Some (Ok [])
  | _ =>
      match fuel with
      | O => None
      | S f =>
          match cut ":" txt with
          | None => Some (Raise EValue)             (* not enough values to unpack *)
          | Some (l, v) =>
              match py_int l with
              | None => Some (Raise EValue)
              | Some n =>
                  match lv_loop f (slice_from n v) with
                  | Some (Ok r) => Some (Ok (slice_to n v :: r))
                  | o => o
                  end
              end
          end
      end
  end.
Definition lv_unpack (txt : string) : result (list string) :=
  let t := strip txt in
  match lv_loop (slen t) t with Some r => r | None => Raise EOther end.

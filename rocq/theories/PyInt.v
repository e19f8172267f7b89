(** PyInt.v: Python's [int(str)] and [str(int)]. *)
From Verif Require Import Base.
From Coq Require Import DecimalString DecimalPos.
Local Open Scope Z_scope.

Definition digit (c : ascii) : option Z :=
  let n := Z.of_N (N_of_ascii c) in
  if (48 <=? n) && (n <=? 57) then Some (n - 48) else None.

(** Digits, with single underscores between digits; [prev] tells whether a digit precedes. *)
Fixpoint digits (acc : Z) (prev : bool) (s : string) : option Z :=
  match s with
  | ""%string => if prev then Some acc else None
  | String c s' =>
      match digit c with
      | Some d => digits (acc * 10 + d) true s'
      | None => if Ascii.eqb c "_" && prev then
                  match s' with
                  | String c' _ => match digit c' with Some _ => digits acc false s' | None => None end
                  | ""%string => None
                  end
                else None
      end
  end.

(** [int(s)] (base 10): surrounding white space, an optional sign, digits.
    [None] is the ValueError. *)
Definition py_int (s : string) : option Z :=
  match strip s with
  | String c s' =>
      if Ascii.eqb c "-" then option_map Z.opp (digits 0 false s')
      else if Ascii.eqb c "+" then digits 0 false s'
      else digits 0 false (String c s')
  | ""%string => None
  end.

(** [str(z)] *)
Definition py_str (z : Z) : string :=
  match z with
  | Z0 => "0"
  | Zpos p => NilEmpty.string_of_uint (Pos.to_uint p)
  | Zneg p => String "-" (NilEmpty.string_of_uint (Pos.to_uint p))
  end.

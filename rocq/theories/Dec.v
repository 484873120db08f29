(** * Dec: decimal rendering and parsing of integers

    [str(py_obj)] for integers beyond 63 bits (load_builtins.py:72),
    [int(memoryview)] when loading them (:331), ["{!r}".format(key)] and [int(name)]
    for int keys of dicts (:301, :505), ["data{:d}".format(index)] (:192, :304),
    [str(len(table))] (lookup.py:650). *)
From Verif Require Import Base.

(** Decimal digits of [n], most significant first.  The fuel [S (N.size_nat n)]
    always suffices since a decimal digit consumes more than three bits. *)
Fixpoint digits_fuel (fuel : nat) (n : N) : pystr :=
  match fuel with
  | O => []
  | S f => if n <? 10 then [48 + n] else digits_fuel f (n / 10) ++ [48 + n mod 10]
  end.
Definition N_dec (n : N) : pystr := digits_fuel (S (N.size_nat n)) n.

(** [str(z)], [repr(z)]. *)
Definition Z_dec (z : Z) : pystr :=
  match z with
  | Z0 => [48]
  | Zpos p => N_dec (Npos p)
  | Zneg p => 45 :: N_dec (Npos p)
  end.

Definition is_digit (c : N) : bool := (48 <=? c) && (c <=? 57).

Fixpoint parse_digits (acc : N) (s : pystr) : option N :=
  match s with
  | [] => Some acc
  | c :: r => if is_digit c then parse_digits (acc * 10 + (c - 48)) r else None
  end.
Definition N_parse (s : pystr) : option N :=
  match s with [] => None | _ => parse_digits 0 s end.

(** [int(s)] on a string of an optional sign and digits.
    Simplification: the surrounding whitespace, underscores and non ASCII digits
    Python also accepts are rejected; hickle never writes them. *)
Definition Z_parse (s : pystr) : res Z :=
  match s with
  | [] => Err ValueError
  | c :: r =>
      if c =? 45 then match N_parse r with Some n => Ok (- Z.of_N n)%Z | None => Err ValueError end
      else if c =? 43 then match N_parse r with Some n => Ok (Z.of_N n) | None => Err ValueError end
      else match N_parse s with Some n => Ok (Z.of_N n) | None => Err ValueError end
  end.

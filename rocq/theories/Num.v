(** * Num: Python and numpy numbers, numpy dtypes, type promotion and casts

    Models what [check_iterable_item_type] (load_builtins.py:102-142) asks numpy for:
    [np.dtype(cls)], [np.result_type], and the casts [item_dtype.type(item)]
    (load_builtins.py:182-184) that put the items of an all-number container into one
    array.  Nothing here is hickle code; it is the assumed behaviour of numpy. *)
From Verif Require Import Base.

(** ** Binary64 values

    A finite non-zero value is [+-m * 2^e] with [m] odd, hence every value has exactly
    one representation and Leibniz equality is equality of values (with the sign of
    zero kept).  The payload of NaN is not modelled.  The same carrier is used for
    exact dyadic numbers of any size; a Python float additionally has [m < 2^53] and
    a bounded exponent ([is_f64]). *)
Inductive dy :=
| FNaN
| FInf (neg : bool)
| FZero (neg : bool)
| FFin (neg : bool) (m : positive) (e : Z).

Global Instance dy_eq_dec : EqDecision dy.
Proof. solve_decision. Defined.

(** [p = m * 2^k] with [m] odd. *)
Fixpoint strip (p : positive) : positive * N :=
  match p with
  | xO q => let '(m, k) := strip q in (m, k + 1)
  | _ => (p, 0)
  end.

(** The exact value of an integer. *)
Definition dy_of_pos (neg : bool) (p : positive) : dy :=
  let '(m, k) := strip p in FFin neg m (Z.of_N k).
Definition dy_of_Z (z : Z) : dy :=
  match z with
  | Z0 => FZero false
  | Zpos p => dy_of_pos false p
  | Zneg p => dy_of_pos true p
  end.

(** [float(z)]: rounding of an integer to 53 bits, to nearest, ties to even.
    [None]: OverflowError, "int too large to convert to float". *)
Definition round_pos (neg : bool) (p : positive) : option dy :=
  let n := Npos (Pos.size p) in
  if n <=? 53 then Some (dy_of_pos neg p)
  else
    let s := n - 53 in
    let v := Npos p in
    let q := N.shiftr v s in
    let r := v mod 2 ^ s in
    let half := 2 ^ (s - 1) in
    let q' := if (half <? r) || ((half =? r) && N.odd q) then q + 1 else q in
    let bits := if q' =? 2 ^ 53 then n + 1 else n in
    if 1024 <? bits then None
    else match q' with
         | N0 => None     (* unreachable, [q >= 2^52] *)
         | Npos q'' => let '(m, k) := strip q'' in Some (FFin neg m (Z.of_N (k + s)))
         end.
Definition f64_of_Z (z : Z) : option dy :=
  match z with
  | Z0 => Some (FZero false)
  | Zpos p => round_pos false p
  | Zneg p => round_pos true p
  end.

(** ** Numbers *)
Inductive num :=
| NB (b : bool)        (** bool, np.bool_ *)
| NZ (z : Z)           (** int, numpy integers *)
| NF (f : dy)          (** float, numpy floats *)
| NC (re im : dy).     (** complex, numpy complex *)

Global Instance num_eq_dec : EqDecision num.
Proof. solve_decision. Defined.

(** The mathematical value, real and imaginary part.  Two numbers are the same number
    exactly when their [num_val] agree: Python's [True == 1 == 1.0 == 1+0j].  Signed
    zeros and NaN are told apart here; Python's [==] (see PyObj.v) is coarser for
    zeros and finer for NaN. *)
Definition num_val (n : num) : dy * dy :=
  match n with
  | NB b => (dy_of_Z (if b then 1 else 0), FZero false)
  | NZ z => (dy_of_Z z, FZero false)
  | NF f => (f, FZero false)
  | NC re im => (re, im)
  end.

(** ** dtypes

    Simplification: the numeric dtypes of a 64 bit platform without longdouble,
    datetime and structured dtypes; byte order is not modelled. *)
Inductive iw := W1 | W2 | W4 | W8.
Inductive fw := F2 | F4 | F8.
Inductive cw := C8 | C16.
Inductive dtype :=
| DBool | DInt (w : iw) | DUInt (w : iw) | DFloat (w : fw) | DComplex (w : cw).

Global Instance iw_eq_dec : EqDecision iw.
Proof. solve_decision. Defined.
Global Instance fw_eq_dec : EqDecision fw.
Proof. solve_decision. Defined.
Global Instance cw_eq_dec : EqDecision cw.
Proof. solve_decision. Defined.
Global Instance dtype_eq_dec : EqDecision dtype.
Proof. solve_decision. Defined.

Definition iw_rank (w : iw) : N := match w with W1 => 0 | W2 => 1 | W4 => 2 | W8 => 3 end.
Definition fw_rank (w : fw) : N := match w with F2 => 0 | F4 => 1 | F8 => 2 end.
Definition iw_max (a b : iw) : iw := if iw_rank a <? iw_rank b then b else a.
Definition fw_max (a b : fw) : fw := if fw_rank a <? fw_rank b then b else a.
Definition cw_max (a b : cw) : cw := match a, b with C8, C8 => C8 | _, _ => C16 end.

(** Smallest float dtype numpy promotes an integer of this width to. *)
Definition iw_float (w : iw) : fw := match w with W1 => F2 | W2 => F4 | _ => F8 end.
Definition fw_complex (w : fw) : cw := match w with F8 => C16 | _ => C8 end.
Definition promote_su (s u : iw) : dtype :=
  if iw_rank u <? iw_rank s then DInt s
  else match u with W1 => DInt W2 | W2 => DInt W4 | W4 => DInt W8 | W8 => DFloat F8 end.

(** [np.result_type] / [np.promote_types] of two numeric dtypes. *)
Definition promote (a b : dtype) : dtype :=
  match a, b with
  | DBool, x | x, DBool => x
  | DInt v, DInt w => DInt (iw_max v w)
  | DUInt v, DUInt w => DUInt (iw_max v w)
  | DInt s, DUInt u | DUInt u, DInt s => promote_su s u
  | (DInt w | DUInt w), DFloat f | DFloat f, (DInt w | DUInt w) => DFloat (fw_max (iw_float w) f)
  | DFloat v, DFloat w => DFloat (fw_max v w)
  | (DInt w | DUInt w), DComplex c | DComplex c, (DInt w | DUInt w) =>
      DComplex (cw_max (fw_complex (iw_float w)) c)
  | DFloat f, DComplex c | DComplex c, DFloat f => DComplex (cw_max (fw_complex f) c)
  | DComplex v, DComplex w => DComplex (cw_max v w)
  end.

Definition iw_bits (w : iw) : Z := match w with W1 => 8 | W2 => 16 | W4 => 32 | W8 => 64 end.
Definition int_range (w : iw) (z : Z) : bool :=
  ((- 2 ^ (iw_bits w - 1) <=? z) && (z <? 2 ^ (iw_bits w - 1)))%Z.
Definition uint_range (w : iw) (z : Z) : bool := ((0 <=? z) && (z <? 2 ^ iw_bits w))%Z.

(** Whether a float value is representable in a float format: significand bits and
    exponent of the lowest bit. *)
Definition fw_prec (w : fw) : N := match w with F2 => 11 | F4 => 24 | F8 => 53 end.
Definition fw_emin (w : fw) : Z := match w with F2 => -24 | F4 => -149 | F8 => -1074 end.
Definition fw_emax (w : fw) : Z := match w with F2 => 16 | F4 => 128 | F8 => 1024 end.
Definition fits (w : fw) (f : dy) : bool :=
  match f with
  | FFin _ m e =>
      let n := Npos (Pos.size m) in
      (n <=? fw_prec w) && (fw_emin w <=? e)%Z && (e + Z.of_N n <=? fw_emax w)%Z
      && match m with xO _ => false | _ => true end
  | _ => true
  end.

Definition cw_float (w : cw) : fw := match w with C8 => F4 | C16 => F8 end.

(** A number that is a value of a dtype. *)
Definition num_of_dtype (d : dtype) (n : num) : bool :=
  match d, n with
  | DBool, NB _ => true
  | DInt w, NZ z => int_range w z
  | DUInt w, NZ z => uint_range w z
  | DFloat w, NF f => fits w f
  | DComplex w, NC re im => fits (cw_float w) re && fits (cw_float w) im
  | _, _ => false
  end.

Definition truthy (n : num) : bool :=
  match n with
  | NB b => b
  | NZ z => negb (z =? 0)%Z
  | NF f => match f with FZero _ => false | _ => true end
  | NC a b => match a, b with FZero _, FZero _ => false | _, _ => true end
  end.

Definition Z_of_num (n : num) : option Z :=
  match n with NB b => Some (if b then 1 else 0)%Z | NZ z => Some z | _ => None end.

Definition float_of_num (n : num) : res dy :=
  match n with
  | NF f => Ok f
  | NC _ _ => Err TypeError
  | NB b => Ok (dy_of_Z (if b then 1 else 0))
  | NZ z => match f64_of_Z z with Some f => Ok f | None => Err OverflowError end
  end.

(** [item_dtype.type(item)].
    Simplification: a value arriving at a narrower float dtype is taken over
    unchanged, because [np.result_type] only yields dtypes all items fit into
    (lemma [cast_fits] in NumProofs.v). *)
Definition cast (d : dtype) (n : num) : res num :=
  match d with
  | DBool => Ok (NB (truthy n))
  | DInt w =>
      match Z_of_num n with
      | Some z => if int_range w z then Ok (NZ z) else Err OverflowError
      | None => Err TypeError
      end
  | DUInt w =>
      match Z_of_num n with
      | Some z => if uint_range w z then Ok (NZ z) else Err OverflowError
      | None => Err TypeError
      end
  | DFloat _ => res_map NF (float_of_num n)
  | DComplex _ =>
      match n with
      | NC re im => Ok (NC re im)
      | _ => res_map (fun f => NC f (FZero false)) (float_of_num n)
      end
  end.

(** Initial content of a freshly created dataset. *)
Definition dtype_zero (d : dtype) : num :=
  match d with
  | DBool => NB false
  | DInt _ | DUInt _ => NZ 0
  | DFloat _ => NF (FZero false)
  | DComplex _ => NC (FZero false) (FZero false)
  end.

(** [dtype.str.encode("ascii")], the content of the [np_dtype] attribute. *)
Definition dtype_str (d : dtype) : bytes :=
  str match d with
      | DBool => "|b1"
      | DInt W1 => "|i1" | DInt W2 => "<i2" | DInt W4 => "<i4" | DInt W8 => "<i8"
      | DUInt W1 => "|u1" | DUInt W2 => "<u2" | DUInt W4 => "<u4" | DUInt W8 => "<u8"
      | DFloat F2 => "<f2" | DFloat F4 => "<f4" | DFloat F8 => "<f8"
      | DComplex C8 => "<c8" | DComplex C16 => "<c16"
      end.
Definition all_dtypes : list dtype :=
  [DBool; DInt W1; DInt W2; DInt W4; DInt W8; DUInt W1; DUInt W2; DUInt W4; DUInt W8;
   DFloat F2; DFloat F4; DFloat F8; DComplex C8; DComplex C16].
(** [np.dtype(b"<i8")]. *)
Definition dtype_of_str (s : bytes) : option dtype :=
  List.find (fun d => bool_decide (dtype_str d = s)) all_dtypes.

(** binary64 values and the <cmath> functions used by [src/types.hpp].
    The arithmetic is the axiom free specification of IEEE-754 of the standard
    library (Coq.Floats.SpecFloat), rounding to nearest even. *)
From Coq Require Import Floats.SpecFloat.
From Verif Require Import Base.
Local Open Scope Z_scope.

Notation double := spec_float.

(** src/types.hpp:111-122 get_double copies the 64 bit pattern into a double:
    the value of the pattern (all NaN patterns are one value, S754_nan). *)
Definition sf_of_bits (x : N) : double :=
  let s := N.testbit x 63 in
  let ex := Z.of_N (N.land (N.shiftr x 52) 2047) in
  let ma := Z.of_N (N.land x (2 ^ 52 - 1)) in
  if ex =? 0 then
    match ma with
    | Zpos p => S754_finite s p (-1074)
    | _ => S754_zero s
    end
  else if ex =? 2047 then
    match ma with
    | Zpos _ => S754_nan
    | _ => S754_infinity s
    end
  else
    match ma + 2 ^ 52 with
    | Zpos p => S754_finite s p (ex - 1075)
    | _ => S754_nan
    end.

Definition sign_bit (s : bool) : N := if s then (2 ^ 63)%N else 0%N.

(** std::numeric_limits<double>::quiet_NaN() (src/formatters.hpp). *)
Definition quiet_nan : N := (2047 * 2 ^ 52 + 2 ^ 51)%N.

(** The bit pattern of a double, and the operations of src/types.hpp:151-154. *)
Definition bits_of_sf (x : double) : N :=
  match x with
  | S754_zero s => sign_bit s
  | S754_infinity s => (sign_bit s + 2047 * 2 ^ 52)%N
  | S754_nan => quiet_nan
  | S754_finite s m e =>
      if (Npos m <? 2 ^ 52)%N then (sign_bit s + Npos m)%N
      else (sign_bit s + Z.to_N (e + 1075) * 2 ^ 52 + (Npos m - 2 ^ 52))%N
  end.

Definition sf_div : double -> double -> double := SFdiv 53 1024.
Definition sf_mul : double -> double -> double := SFmul 53 1024.
Definition sf_sub : double -> double -> double := SFsub 53 1024.

(** Conversion of an integer to double (exact below 2^53). *)
Definition sf_of_Z (z : Z) : double := binary_normalize 53 1024 z 0 false.

(** std::isnan, src/types.hpp:146, 170. *)
Definition sf_isnan (x : double) : bool :=
  match x with S754_nan => true | _ => false end.

(** Magnitude of m * 2^e rounded to an integer, ties away from zero. *)
Definition mag_round (m : positive) (e : Z) : Z :=
  if 0 <=? e then Z.shiftl (Zpos m) e
  else Z.shiftr (Zpos m + Z.shiftl 1 (- e - 1)) (- e).

(** std::round (src/types.hpp:151-154): nearest integer, ties away from zero, as a double. *)
Definition sf_round (x : double) : double :=
  match x with
  | S754_finite s m e =>
      if 0 <=? e then x
      else match mag_round m e with
           | Z0 => S754_zero s
           | z => sf_of_Z (cond_Zopp s z)
           end
  | _ => x
  end.

Definition int64_ok (z : Z) : bool := (- 2 ^ 63 <=? z) && (z <? 2 ^ 63).

(** std::lround (src/types.hpp:155-156, 173): nearest integer, ties away from zero, as a long; the
    value is
    unspecified when it does not fit. *)
Definition lround (x : double) : res Z :=
  match x with
  | S754_zero _ => Ok 0
  | S754_finite s m e =>
      let z := cond_Zopp s (mag_round m e) in
      if int64_ok z then Ok z else Undef UB_lround
  | _ => Undef UB_lround
  end.

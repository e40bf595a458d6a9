(** What the texts of integers and numbers should be.  Only the types of the model
    are used. *)
From Coq Require Import QArith Qabs.
From Verif Require Import Base Types Column SpecSinks SpecTime.
Local Open Scope Z_scope.

(** A decimal text without superfluous zeros: it starts with a zero only when it is
    "0". *)
Definition short_decimal (t : bytes) (z : Z) : Prop :=
  decimal t z
  /\ forall r, t = x30 :: r \/ t = x2d :: x30 :: r -> t = [x30].

(** [n] is the nearest integer, the even one of two. *)
Definition nearest_even (q : Q) (n : Z) : Prop :=
  (Qabs (inject_Z n - q) <= 1 # 2
   /\ (Qabs (inject_Z n - q) == 1 # 2 -> Z.even n = true))%Q.

(** The sign of a double. *)
Definition minus (bits : N) : bytes := if (2 ^ 63 <=? bits)%N then [x2d] else [].

(** The text of the number [q]: [n] millionths, the integer part and six decimals. *)
Definition six_decimals (n : Z) (t : bytes) : Prop :=
  exists ip, short_decimal ip (n / 1000000) /\ t = ip ++ [x2e] ++ digits 6 (n mod 1000000).

(** The 64 bits of an infinity. *)
Definition double_infinity (bits : N) : Prop :=
  exists s, (s < 2)%N /\ bits = (s * 2 ^ 63 + 2047 * 2 ^ 52)%N.

(** What dates, times and their texts should be: the value of a double, the Gregorian
    calendar, the ISO texts.  Only the types of the model are used. *)
From Coq Require Import QArith Qabs.
From Verif Require Import Base Types DateTime Column SpecValues.
Local Open Scope Z_scope.

(** ** Doubles *)

(** The 64 bits of a finite double: sign, exponent, fraction; and its value. *)
Definition double_value (bits : N) (q : Q) : Prop :=
  exists s ex ma,
    (s < 2)%N /\ (ex < 2047)%N /\ (ma < 2 ^ 52)%N
    /\ bits = (s * 2 ^ 63 + ex * 2 ^ 52 + ma)%N
    /\ (q == (if (s =? 0)%N then 1 else -1)
             * (if (ex =? 0)%N then inject_Z (Z.of_N ma) * (2 # 1) ^ (-1074)
                else inject_Z (Z.of_N (2 ^ 52 + ma)) * (2 # 1) ^ (Z.of_N ex - 1075)))%Q.

(** The 64 bits of a NaN (SAS missing values are such). *)
Definition double_nan (bits : N) : Prop :=
  exists s ma, (s < 2)%N /\ (0 < ma < 2 ^ 52)%N /\ bits = (s * 2 ^ 63 + 2047 * 2 ^ 52 + ma)%N.

(** The row holds these 64 bits in the column. *)
Definition holds_bits (c : column) (p : pview) (bits : N) : Prop :=
  exists l, lenN l = 8%N /\ row_has p (fm_offset (c_fm c)) l
            /\ value_of (fm_endian (c_fm c)) l = bits.

(** [n] is the nearest integer, ties away from zero. *)
Definition nearest (q : Q) (n : Z) : Prop :=
  (Qabs (inject_Z n - q) <= 1 # 2
   /\ (Qabs (inject_Z n - q) == 1 # 2 -> Qabs q < Qabs (inject_Z n)))%Q.

(** ** The Gregorian calendar *)

Definition leap (y : Z) : bool :=
  (y mod 4 =? 0) && (negb (y mod 100 =? 0) || (y mod 400 =? 0)).

Definition days_in (y m : Z) : Z :=
  if m =? 2 then (if leap y then 29 else 28)
  else if (m =? 4) || (m =? 6) || (m =? 9) || (m =? 11) then 30
  else 31.

Definition day : Type := Z * Z * Z.

Definition valid_day (t : day) : Prop :=
  let '(y, m, d) := t in 1 <= m <= 12 /\ 1 <= d <= days_in y m.

Definition next_day (t : day) : day :=
  let '(y, m, d) := t in
  if d <? days_in y m then (y, m, d + 1)
  else if m <? 12 then (y, m + 1, 1)
  else (y + 1, 1, 1).

Fixpoint days_later (n : nat) (t : day) : day :=
  match n with
  | O => t
  | S n' => next_day (days_later n' t)
  end.

(** [t] is [n] days after 1960-01-01 (before it, when n is negative). *)
Definition days_from_1960 (n : Z) (t : day) : Prop :=
  valid_day t
  /\ (0 <= n -> days_later (Z.to_nat n) (1960, 1, 1) = t)
  /\ (n < 0 -> days_later (Z.to_nat (- n)) t = (1960, 1, 1)).

(** The years of the date library. *)
Definition supported (t : day) : Prop := let '(y, _, _) := t in 1400 <= y <= 9999.

(** The Julian day number of 1960-01-01, and the microseconds of a day: what a
    DATETIME counts from. *)
Definition jdn_1960 : Z := 2436935.
Definition day_us : Z := 86400000000.

(** ** Texts *)

(** The decimal digits of weight 10^(w-1), ..., 1. *)
Fixpoint digits (w : nat) (n : Z) : bytes :=
  match w with
  | O => []
  | S w' => byte_of (Z.to_N (48 + (n / 10 ^ Z.of_nat w') mod 10)) :: digits w' n
  end.

Definition iso_date (t : day) : bytes :=
  let '(y, m, d) := t in digits 4 y ++ bs "-" ++ digits 2 m ++ bs "-" ++ digits 2 d.

(** [us] microseconds after midnight; no decimals on whole seconds. *)
Definition iso_time (us : Z) : bytes :=
  let s := us / 1000000 in
  digits 2 (s / 3600) ++ bs ":" ++ digits 2 (s / 60 mod 60) ++ bs ":" ++ digits 2 (s mod 60)
  ++ (if us mod 1000000 =? 0 then [] else bs "." ++ digits 6 (us mod 1000000)).
